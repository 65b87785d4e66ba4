(* Model of small process and system interfaces: src/process/{atexit,sigaction,sleep,
   errno_str,killpg}.c, the exit part of src/intern/startup.c, include/ctype.h,
   include/math.h, macros/alignment.h, the fd_set and wait macros of
   include/globaldefs.h, the system call wrapper of include/syscall.h and
   src/file/{open,creat}.c. *)
From Verif Require Import Base.

(* ---- atexit ---- *)
(* mlgl->atexitp, include/minilib_global.h:89: [max] function pointers (ATEXIT_MAX,
   include/globaldefs.h:182-188).  A slot is a word, 0 the null pointer; reading an
   uninitialised slot or an index outside the array is a Fault. *)
Definition table := Z -> option Z.
(* include/minilib_global.h:89, include/globaldefs.h:182-188 *)
Definition tget (max : Z) (t : table) (p : Z) : res Z :=
  if (0 <=? p) && (p <? max) then match t p with Some v => Ok v | None => Fault end else Fault.
(* include/minilib_global.h:89, include/globaldefs.h:182-188 *)
Definition tset (max : Z) (t : table) (p v : Z) : res table :=
  if (0 <=? p) && (p <? max) then Ok (fun x => if x =? p then Some v else t x) else Fault.
(* src/intern/startup.c:70-72, the other slots stay uninitialised *)
Definition atexit_init (max : Z) : res table := tset max (fun _ => None) 0 0.

(* src/process/atexit.c:9-13, the loop; [inr] is the early return of ENOMEM (12) *)
Fixpoint atexit_scan (fuel : nat) (max : Z) (t : table) (p : Z) : res (Z + Z) :=
  match fuel with
  | O => NoFuel
  | S k =>
      let* f := tget max t p in
      if f =? 0 then Ok (inl p)
      else if max <=? p + 1 then Ok (inr 12)
      else atexit_scan k max t (p + 1)
  end.
(* src/process/atexit.c:7-19 *)
Definition atexit (fuel : nat) (max : Z) (t : table) (func : Z) : res (table * Z) :=
  let* r := atexit_scan fuel max t 0 in
  match r with
  | inr e => Ok (t, e)
  | inl p =>
      let* t := tset max t p func in
      let* t := (if p <? max - 1 then tset max t (p + 1) 0 else Ok t) in
      Ok (t, 0)
  end.
(* src/intern/startup.c:100, the loop *)
Fixpoint exit_scan (fuel : nat) (max : Z) (t : table) (p : Z) : res Z :=
  match fuel with
  | O => NoFuel
  | S k =>
      let* f := tget max t p in
      if (negb (f =? 0)) && (p <=? max) then exit_scan k max t (p + 1) else Ok p
  end.
(* src/intern/startup.c:101-104, the loop; the calls are recorded in order.  Handlers
   are taken to return and not to call atexit or exit themselves. *)
Fixpoint exit_calls (n : nat) (max : Z) (t : table) : res (list Z) :=
  match n with
  | O => Ok []
  | S k =>
      let* f := tget max t (Z.of_nat k) in
      let* r := exit_calls k max t in
      Ok (f :: r)
  end.
(* src/intern/startup.c:98-105 *)
Definition run_atexit (fuel : nat) (max : Z) (t : table) : res (list Z) :=
  let* f := tget max t 0 in
  if f =? 0 then Ok []
  else
    let* p := exit_scan fuel max t 0 in
    exit_calls (Z.to_nat p) max t.
(* a program calling atexit for each function in turn: table and results; src/process/atexit.c:7-20 *)
Fixpoint atexits (fuel : nat) (max : Z) (t : table) (fs : list Z) : res (table * list Z) :=
  match fs with
  | [] => Ok (t, [])
  | f :: r =>
      let* (t, c) := atexit fuel max t f in
      let* (t, cs) := atexits fuel max t r in
      Ok (t, c :: cs)
  end.

(* ---- signal sets ---- *)
(* headers/linux_x64/sys/signal.h:56 sigset_t is one unsigned long; _NSIG is 32,
   headers/common/bits/signal.h:16.  1<<s is an int shift: undefined for s > 30.
   Results are (word, return value). *)
Definition shift1 (s : Z) : res Z := if s <=? 30 then Ok (Z.shiftl 1 s) else Fault.
(* src/process/sigaction.c:7-16 *)
Definition sigemptyset (w : Z) : res (Z * Z) := Ok (0, 0).
(* src/process/sigaction.c:20-30 *)
Definition sigfillset (w : Z) : res (Z * Z) := Ok (0x7FFFFFFF, 0).
(* src/process/sigaction.c:36 *)
Definition sig_bad (sig : Z) : bool := (32 - 1 <=? sig) || (sig <? 0).
(* src/process/sigaction.c:34-48; sig = INT_MIN would overflow in sig-1 (not modelled,
   the value is not used) *)
Definition sigaddset (w sig : Z) : res (Z * Z) :=
  if sig_bad sig then Ok (w, -1)
  else let* b := shift1 (u32 (sig - 1)) in Ok (Z.lor w (u64 b), 0).
(* src/process/sigaction.c:68-82 *)
Definition sigdelset (w sig : Z) : res (Z * Z) :=
  if sig_bad sig then Ok (w, -1)
  else let* b := shift1 (u32 (sig - 1)) in Ok (Z.land w (u64 (Z.lnot b)), 0).
(* src/process/sigaction.c:85-99; the unsigned long is converted to int *)
Definition sigismember (w sig : Z) : res Z :=
  if sig_bad sig then Ok (-1)
  else let* b := shift1 (u32 (sig - 1)) in Ok (s32 (Z.land w (u64 b))).

(* ---- fd_set, include/globaldefs.h:220-232: 16 unsigned longs.  The descriptor is an
   int converted to unsigned long by the division; an index outside the array is a
   Fault.  The set is the function from index to word. ---- *)
Definition fdset := Z -> Z.
Definition fd_word (d : Z) : Z := u64 d / 64. (* include/globaldefs.h:220-232 *)
Definition fd_bit (d : Z) : Z := Z.shiftl 1 (u64 d mod 64). (* include/globaldefs.h:220-232 *)
Definition fd_in (d : Z) : bool := fd_word d <? 16. (* include/globaldefs.h:220-232 *)
(* include/globaldefs.h:229, the loop *)
Fixpoint fd_zero_loop (i : nat) (b : Z) (s : fdset) : fdset :=
  match i with
  | O => s
  | S k => fd_zero_loop k (b + 1) (fun x => if x =? b then 0 else s x)
  end.
Definition FD_ZERO (s : fdset) : res fdset := Ok (fd_zero_loop 16 0 s). (* include/globaldefs.h:229 *)
(* include/globaldefs.h:230 *)
Definition FD_SET (d : Z) (s : fdset) : res fdset :=
  if fd_in d then Ok (fun x => if x =? fd_word d then Z.lor (s x) (fd_bit d) else s x) else Fault.
(* include/globaldefs.h:231 *)
Definition FD_CLR (d : Z) (s : fdset) : res fdset :=
  if fd_in d then Ok (fun x => if x =? fd_word d then Z.land (s x) (u64 (Z.lnot (fd_bit d))) else s x)
  else Fault.
(* include/globaldefs.h:232 *)
Definition FD_ISSET (d : Z) (s : fdset) : res bool :=
  if fd_in d then Ok (negb (Z.land (s (fd_word d)) (fd_bit d) =? 0)) else Fault.

(* ---- include/ctype.h, argument an int; true is any nonzero result ---- *)
(* :4 *)  Definition isalpha (a : Z) : bool := u32 (Z.lor (u32 a) 32 - 97) <? 26.
(* :5 *)  Definition isdigit (a : Z) : bool := u32 (u32 a - 48) <? 10.
(* :6 *)  Definition islower (a : Z) : bool := u32 (u32 a - 97) <? 26.
(* :7 *)  Definition isupper (a : Z) : bool := u32 (u32 a - 65) <? 26.
(* :8 *)  Definition isprint (a : Z) : bool := u32 (u32 a - 32) <? 95.
(* :9 *)  Definition isgraph (a : Z) : bool := u32 (u32 a - 33) <? 94.
(* :10 *) Definition isspace (a : Z) : bool :=
  (a =? 32) || (a =? 9) || (a =? 10) || (a =? 12) || (a =? 13) || (a =? 11).
(* :11 *) Definition isalnum (a : Z) : bool := isalpha a || isdigit a.
(* :12 *) Definition tolower (a : Z) : Z := Z.lor a 32.
(* :13 *) Definition toupper (a : Z) : Z := Z.land a 95.
(* :14 *) Definition isascii (a : Z) : bool := u32 a <? 128.
(* :15 *) Definition isblank (a : Z) : bool := (a =? 32) || (a =? 9).
(* :16 *) Definition iscntrl (a : Z) : bool := (a <? 32) || (a =? 127).
(* :17 *) Definition ispunct (a : Z) : bool := isgraph a || isalnum a.
(* :18 *) Definition isxdigit (a : Z) : bool := isdigit a || (u32 (Z.lor (u32 a) 32 - 97) <? 6).

(* ---- include/math.h ---- *)
(* division traps for a zero divisor and, through the range check, MIN / -1 *)
(* include/math.h:8-13 *)
Definition div (n d : Z) : res (Z * Z) :=
  if d =? 0 then Fault
  else let* q := iop (Z.quot n d) in let* p := iop (q * d) in let* r := iop (n - p) in Ok (q, r).
(* include/math.h:16-21 *)
Definition ldiv (n d : Z) : res (Z * Z) :=
  if d =? 0 then Fault
  else let* q := lop (Z.quot n d) in let* p := lop (q * d) in let* r := lop (n - p) in Ok (q, r).
(* include/math.h:25-27; strict = false is wrapping negation *)
Definition abs (strict : bool) (i : Z) : res Z :=
  if 0 <=? i then Ok i else if strict then iop (- i) else Ok (s32 (- i)).
(* include/math.h:30-32 *)
Definition labs (strict : bool) (i : Z) : res Z :=
  if 0 <=? i then Ok i else if strict then lop (- i) else Ok (s64 (- i)).

(* ---- macros/alignment.h ---- *)
(* macros/alignment.h:18, p a pointer or an unsigned long (the final cast is the identity); the result
   is the new value of p *)
Definition ALIGN_raw (shift base p : Z) : Z :=
  u64 (u64 (Z.shiftl (Z.shiftr (u64 (p - 1)) shift) shift) + base).
(* macros/alignment.h:10-17,21,23-30: ALIGN_2 .. ALIGN_256 are ALIGN_pow2 1 .. ALIGN_pow2 8 *)
Definition ALIGN_pow2 (k p : Z) : Z := ALIGN_raw k (2 ^ k) p.
(* macros/alignment.h:19,31 with __SIZEOF_POINTER__ = 8 used as shift and as base *)
Definition ALIGN_P (p : Z) : Z := ALIGN_raw 8 8 p.

(* ---- src/process/sleep.c ---- *)
(* nanosleep is the argument [ns]: it gets (tv_sec, tv_nsec) and returns its result and
   the contents of ts afterwards *)
(* src/process/sleep.c:31-46; the long arithmetic cannot overflow for an unsigned int but is checked *)
Definition usleep (ns : Z * Z -> Z * (Z * Z)) (us : Z) : res ((Z * Z) * Z) :=
  let* t := lop (us * 1000) in
  let nsec := Z.rem t 1000000000 in
  let sec := if 1000000 <=? us then Z.quot us 1000000 else 0 in
  Ok ((sec, nsec), u32 (fst (ns (sec, nsec)))).
(* src/process/sleep.c:10-16 *)
Definition sleep (ns : Z * Z -> Z * (Z * Z)) (seconds : Z) : res ((Z * Z) * Z) :=
  let (r, left_) := ns (seconds, 0) in
  let res := u32 r in
  Ok ((seconds, 0),
      if res =? 0 then 0
      else u32 (u32 (fst left_) + (if 500000000 <=? snd left_ then 1 else 0))).

(* ---- src/process/errno_str.c:7-26: the string returned (the static buffer e from p
   on; e[3] and e[4] are 0).  -err overflows for INT_MIN. ---- *)
Definition errno_str (err : Z) : res (list Z) :=
  let* err := (if err <? 0 then iop (- err) else Ok err) in
  let big := 99 <? err in
  let err := if big then err - 100 else err in
  let d1 := ubyte (Z.quot err 10 + 48) in
  let d2 := ubyte (Z.rem err 10 + 48) in
  Ok (if big then [49; d1; d2] else [d1; d2]).

(* ---- include/globaldefs.h:252-259; s an int ---- *)
Definition s16 (z : Z) : Z := (z + 32768) mod 65536 - 32768.
Definition WEXITSTATUS (s : Z) : Z := Z.shiftr (Z.land s 0xff00) 8. (* include/globaldefs.h:252 *)
Definition WTERMSIG (s : Z) : Z := Z.land s 0x7f. (* include/globaldefs.h:253 *)
Definition WSTOPSIG (s : Z) : Z := WEXITSTATUS s. (* include/globaldefs.h:254 *)
Definition WCOREDUMP (s : Z) : bool := negb (Z.land s 0x80 =? 0). (* include/globaldefs.h:255 *)
Definition WIFEXITED (s : Z) : bool := WTERMSIG s =? 0. (* include/globaldefs.h:256 *)
(* the product is of type int: strict = true is ISO C (overflow undefined); include/globaldefs.h:257 *)
Definition WIFSTOPPED (strict : bool) (s : Z) : res bool :=
  let* p := (if strict then iop (Z.land s 0xffff * 0x10001) else Ok (s32 (Z.land s 0xffff * 0x10001))) in
  Ok (0x7f00 <? s16 (Z.shiftr p 8)).
Definition WIFSIGNALED (s : Z) : bool := u32 (Z.land s 0xffff - 1) <? 0xff. (* include/globaldefs.h:258 *)
Definition WIFCONTINUED (s : Z) : bool := s =? 0xffff. (* include/globaldefs.h:259 *)

(* ---- include/syscall.h:198-206 (mini_errno defined): the kernel's 64 bit result [k]
   is stored into an int; result (return value, errno) ---- *)
Definition syscall_wrapper (k errno : Z) : Z * Z :=
  let sysret := s32 k in
  if sysret <? 0 then (-1, s32 (- sysret)) else (sysret, errno).
(* src/file/open.c:18-30, the treatment of the result *)
Definition open_result (k errno : Z) : Z * Z :=
  let ret := s32 k in
  if ret <? 0 then (ret, s32 (- ret)) else (ret, errno).
