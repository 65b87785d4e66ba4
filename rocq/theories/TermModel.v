(* Model of src/termios/tcgetattr.c, tcsetattr.c, cfmakeraw.c, isatty.c, tcgetpgrp.c,
   tcsetpgrp.c and src/termios/pty.c:21-44.

   A struct termios (include/termio.h:13-22) is its bytes, a function on offsets:
   c_iflag at 0, c_oflag at 4, c_cflag at 8, c_lflag at 12 (little endian, 4 bytes each),
   c_line at 16, c_cc at 17..48. *)
From Verif Require Import Base ConvModel PrintModel.

Definition bytes := Z -> Z. (* for include/termio.h:26-33 *)
(* for include/termio.h:26-33 *)
Definition set1 (s : bytes) (o v : Z) : bytes := fun x => if x =? o then v else s x.
(* 2 and 4 byte fields; for src/termios/cfmakeraw.c:3-11 *)
Definition get16 (s : bytes) (o : Z) : Z := s o + 256 * s (o + 1).
(* for src/termios/cfmakeraw.c:3-11 *)
Definition put16 (s : bytes) (o v : Z) : bytes := set1 (set1 s o (v mod 256)) (o + 1) (v / 256 mod 256).
(* for src/termios/cfmakeraw.c:3-11 *)
Definition get32 (s : bytes) (o : Z) : Z := get16 s o + 65536 * get16 s (o + 2).
(* for src/termios/cfmakeraw.c:3-11 *)
Definition put32 (s : bytes) (o v : Z) : bytes := put16 (put16 s o v) (o + 2) (v / 65536).

(* the settings of a terminal in the kernel: flags of 32 bit, line discipline, 19 control
   characters.  Speeds and pending characters are not modelled.  for src/termios/tcgetattr.c:12-16 *)
Record tty := { k_iflag : Z; k_oflag : Z; k_cflag : Z; k_lflag : Z; k_line : Z; k_cc : Z -> Z; k_pgrp : Z }.
(* the open terminals, by file descriptor; None: not a terminal; for src/termios/tcgetattr.c:12-16 *)
Definition ttys := Z -> option tty.

(* the kernel: ioctl TCGETA copies a struct termio (include/termio.h:26-33: four flags of
   2 bytes, c_line at 8, c_cc[8] at 9) *)
Fixpoint set_cc (s : bytes) (o : Z) (cc : Z -> Z) (n : nat) : bytes :=
  match n with
  | O => s
  | S n => set1 (set_cc s o cc n) (o + Z.of_nat n) (cc (Z.of_nat n))
  end.
(* include/termio.h:26-33 *)
Definition kernel_geta (t : tty) (s : bytes) : bytes :=
  set_cc (set1 (put16 (put16 (put16 (put16 s 0 (k_iflag t)) 2 (k_oflag t)) 4 (k_cflag t)) 6 (k_lflag t)) 8 (k_line t)) 9 (k_cc t) 8.
(* the kernel: ioctl TCSETA, TCSETAW, TCSETAF replace the lower half of the flags, the line
   discipline and the first 8 control characters; for src/termios/tcsetattr.c:12-15 *)
Definition low16 (old new : Z) : Z := old / 65536 * 65536 + new.
(* for src/termios/tcsetattr.c:12-15 *)
Definition kernel_seta (t : tty) (s : bytes) : tty :=
  {| k_iflag := low16 (k_iflag t) (get16 s 0); k_oflag := low16 (k_oflag t) (get16 s 2);
     k_cflag := low16 (k_cflag t) (get16 s 4); k_lflag := low16 (k_lflag t) (get16 s 6);
     k_line := s 8; k_cc := fun i => if (0 <=? i) && (i <? 8) then s (9 + i) else k_cc t i; k_pgrp := k_pgrp t |}.

(* headers/common/bits/ioctl.h:18-19,28-29 *)
Definition TCGETA : Z := 21509.
Definition TCSETA : Z := 21510. (* headers/common/bits/ioctl.h:19 *)
(* src/termios/tcgetattr.c:12-16; e < 0 is the error of the kernel *)
Definition tcgetattr (T : ttys) (e fd : Z) (s : bytes) : Z * bytes :=
  match T fd with Some t => (0, kernel_geta t s) | None => (e, s) end.
(* src/termios/tcsetattr.c:12-15.  TCSETA + opt: the requests behind TCSETAF are others;
   they are not modelled (Fault) *)
Definition tcsetattr (T : ttys) (e fd opt : Z) (s : bytes) : res (Z * ttys) :=
  match T fd with
  | None => Ok (e, T)
  | Some t => let req := TCSETA + opt in
      if (TCSETA <=? req) && (req <=? TCSETA + 2) then Ok (0, fun x => if x =? fd then Some (kernel_seta t s) else T x)
      else Fault
  end.

(* headers/common/termios.h:12-13,24-34,40,107-114,119-127 *)
Definition IGNBRK := 1. Definition BRKINT := 2. Definition PARMRK := 8. Definition ISTRIP := 32.
(* headers/common/termios.h:30 *)
Definition INLCR := 64. Definition IGNCR := 128. Definition ICRNL := 256. Definition IXON := 1024.
(* headers/common/termios.h:40 *)
Definition OPOST := 1. Definition ISIG := 1. Definition ICANON := 2. Definition ECHO := 8.
(* headers/common/termios.h:124 *)
Definition ECHONL := 64. Definition IEXTEN := 32768. Definition CSIZE := 48. Definition CS8 := 48. Definition PARENB := 256.
Definition VTIME := 5. Definition VMIN := 6. (* headers/common/termios.h:11 *)
(* x &= ~mask; for src/termios/cfmakeraw.c:3-11 *)
Definition clear (x mask : Z) : Z := Z.land x (Z.lnot mask).
(* for src/termios/cfmakeraw.c:3-11 *)
Fixpoint ors (l : list Z) : Z := match l with [] => 0 | x :: l => Z.lor x (ors l) end.
(* src/termios/cfmakeraw.c:3-11 *)
Definition cfmakeraw (s : bytes) : bytes :=
  let s := put32 s 0 (clear (get32 s 0) (ors [IGNBRK; BRKINT; PARMRK; ISTRIP; INLCR; IGNCR; ICRNL; IXON])) in
  let s := put32 s 4 (clear (get32 s 4) OPOST) in
  let s := put32 s 12 (clear (get32 s 12) (ors [ECHO; ECHONL; ICANON; ISIG; IEXTEN])) in
  let s := put32 s 8 (clear (get32 s 8) (ors [CSIZE; PARENB])) in
  let s := put32 s 8 (Z.lor (get32 s 8) CS8) in
  let s := set1 s (17 + VMIN) 1 in
  set1 s (17 + VTIME) 0.

(* src/termios/isatty.c:5-8; term is the uninitialised struct *)
Definition isatty (T : ttys) (e fd : Z) (term : bytes) : Z := if fst (tcgetattr T e fd term) =? 0 then 1 else 0.
(* src/termios/tcgetpgrp.c:2-7; the kernel stores the process group
   in the uninitialised variable pgrp *)
Definition tcgetpgrp (T : ttys) (e fd pgrp : Z) : Z :=
  let (r, pgrp) := match T fd with Some t => (0, k_pgrp t) | None => (e, pgrp) end in
  if r <? 0 then -1 else pgrp.
(* src/termios/tcsetpgrp.c:2-5; ok tells whether the kernel accepts the group *)
Definition tcsetpgrp (ok : Z -> bool) (T : ttys) (e fd pgrp : Z) : Z * ttys :=
  match T fd with
  | Some t => if ok pgrp then
      (0, fun x => if x =? fd then Some {| k_iflag := k_iflag t; k_oflag := k_oflag t; k_cflag := k_cflag t; k_lflag := k_lflag t;
         k_line := k_line t; k_cc := k_cc t; k_pgrp := pgrp |} else T x)
      else (e, T)
  | None => (e, T)
  end.

(* src/termios/pty.c:21-30 ptsname_r; r and pty are the result of the ioctl TIOCGPTN and the
   number stored by it; fmt is the address of the literal, mini_buf the size that the macro
   sprintf (src/output/sprintf.c:9) gives to snprintf.  vsnprintf is modelled in PrintModel;
   the process ends there (Segv) if it does not fit into mini_buf. *)
Inductive pts := PtsRet (m : mem) (v : Z) | PtsSegv (m : mem).
Definition ERANGE : Z := 34. (* src/termios/pty.c:21-30, src/output/sprintf.c:9 *)
(* src/termios/pty.c:21-30, src/output/sprintf.c:9 *)
Definition ptsname_r (fuel : nat) (mini_buf : Z) (tmp0 : Z -> Z) (m : mem) (fmt buf len r pty : Z) : res pts :=
  let len := if buf =? 0 then 0 else len in
  if negb (r =? 0) then Ok (PtsRet m (s32 (- r)))
  else
    let* o := vsnprintf true fuel tmp0 m buf mini_buf fmt [pty] in
    match o with
    | Segv m' _ => Ok (PtsSegv m')
    | Done m' n => Ok (PtsRet m' (if len <=? n then ERANGE else 0))
    end.
(* src/termios/pty.c:34-44 ptsname; buf is the static buffer of 9 + 4*3 + 1 bytes; the result
   is the pointer *)
Definition ptsname (fuel : nat) (mini_buf : Z) (tmp0 : Z -> Z) (m : mem) (fmt buf r pty : Z) : res pts :=
  let* o := ptsname_r fuel mini_buf tmp0 m fmt buf 22 r pty in
  match o with
  | PtsSegv m' => Ok (PtsSegv m')
  | PtsRet m' err => Ok (PtsRet m' (if err =? 0 then buf else 0))
  end.
