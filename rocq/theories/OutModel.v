(* Model of src/output/{dprints,fprintfs,snprintfs,perror}.c, src/string/strerror.c,
   include/{fputs,fputc,prints}.h and of fwrite, ftell, fseek, fsetpos, rewind in
   include/mini_fstream.h. *)
From Verif Require Import Base StrModel StreamModel.

(* ---- write(2) ------------------------------------------------------------------- *)
(* The kernel: descriptor, bytes and the state of all files give the result of the wrapper
   (the number of bytes taken, -1 for an error) and the new state.  for include/syscall_stubs.h:720 *)
Definition kernel (W : Type) := Z -> list Z -> W -> Z * W.
(* the bytes the kernel reads at p; reading outside is a Fault instead of EFAULT
   (include/syscall_stubs.h:720) *)
Fixpoint fetch (n : nat) (m : mem) (p : Z) : res (list Z) :=
  match n with
  | O => Ok []
  | S k => let* b := load m p in let* l := fetch k m (p + 1) in Ok (b :: l)
  end.
(* include/syscall_stubs.h:720: the count is an int; a negative one is a Fault here *)
Definition write {W} (k : kernel W) (m : mem) (fd p n : Z) (w : W) : res (Z * W) :=
  let n := s32 n in
  if n <? 0 then Fault else let* l := fetch (Z.to_nat n) m p in Ok (k fd l w).

(* ---- strings ---------------------------------------------------------------------- *)
(* src/output/dprints.c:21-24 *)
Fixpoint len_loop (fuel : nat) (m : mem) (p a : Z) : res Z :=
  match fuel with
  | O => NoFuel
  | S k =>
      let* c := load m (p + a) in
      if c =? 0 then Ok a else let* a := iop (a + 1) in len_loop k m p a
  end.
(* src/output/dprints.c:20-29; args: what va_arg still delivers, a Fault at its end *)
Fixpoint dprints_loop {W} (k : kernel W) (fuel : nat) (m : mem) (fd msg : Z) (args : list Z) (ret : Z) (w : W) : res (Z * W) :=
  let* a := len_loop fuel m msg 0 in
  let* r := write k m fd msg a w in
  let* ret := iop (ret + fst r) in
  match args with
  | [] => Fault
  | msg :: args => if msg =? 0 then Ok (ret, snd r) else dprints_loop k fuel m fd msg args ret (snd r)
  end.
(* src/output/dprints.c:14-30 *)
Definition dprints {W} (k : kernel W) (fuel : nat) (m : mem) (fd msg : Z) (args : list Z) (w : W) : res (Z * W) :=
  dprints_loop k fuel m fd msg args 0 w.
(* include/prints.h:10,18; the terminating 0 is an int, here taken as a null pointer *)
Definition prints {W} (k : kernel W) (fuel : nat) (m : mem) (msg : Z) (args : list Z) (w : W) := dprints k fuel m 1 msg (args ++ [0]) w.
(* include/prints.h:26 *)
Definition eprints {W} (k : kernel W) (fuel : nat) (m : mem) (msg : Z) (args : list Z) (w : W) := dprints k fuel m 2 msg (args ++ [0]) w.
(* include/prints.h:42; nl is the address of the string "\n" *)
Definition printsl {W} (k : kernel W) (fuel : nat) (m : mem) (nl msg : Z) (args : list Z) (w : W) := dprints k fuel m 1 msg (args ++ [nl; 0]) w.
(* include/prints.h:53,57 *)
Definition print {W} (k : kernel W) (fuel : nat) (m : mem) (fd str : Z) (w : W) : res (Z * W) :=
  let* n := strlen fuel m str in write k m fd str n w.
(* include/prints.h:62,66 *)
Definition printl {W} (k : kernel W) (m : mem) (nl fd : Z) (w : W) : res (Z * W) := write k m fd nl 1 w.
(* include/prints.h:72,76; the order of the two calls is unspecified in C: first tells
   whether the left one is first *)
Definition puts {W} (first : bool) (k : kernel W) (fuel : nat) (m : mem) (nl fd str : Z) (w : W) : res (Z * W) :=
  if first then
    let* r := print k fuel m fd str w in let* r2 := printl k m nl fd (snd r) in
    let* n := iop (fst r + fst r2) in Ok (n, snd r2)
  else
    let* r := printl k m nl fd w in let* r2 := print k fuel m fd str (snd r) in
    let* n := iop (fst r2 + fst r) in Ok (n, snd r2).
(* include/prints.h:83,87,107: str is a string constant with len characters *)
Definition writes {W} (k : kernel W) (m : mem) (fd str len : Z) (w : W) : res (Z * W) := write k m fd str (len + 1) w.
(* include/fputs.h:18-20; f: the FILE word *)
Definition fputs {W} (k : kernel W) (fuel : nat) (m : mem) (c f : Z) (w : W) : res (Z * W) :=
  let* n := strlen fuel m c in write k m (fileno f) c n w.
(* include/fputc.h:9-12; the first byte of the int c *)
Definition fputc {W} (k : kernel W) (c f : Z) (w : W) : Z * W := (c, snd (k (fileno f) [ubyte c] w)).

(* ---- formats ------------------------------------------------------------------------ *)
(* src/output/fprintfs.c:18-37; args as in dprints: pointers for %s, ints for %c *)
Fixpoint fprintfs_loop {W} (k : kernel W) (fuel : nat) (m : mem) (f fmt a p : Z) (args : list Z) (ret : Z) (w : W) : res (Z * W) :=
  match fuel with
  | O => NoFuel
  | S fu =>
      let* c := load m (fmt + a) in
      if c =? 0 then
        let* r := write k m (fileno f) (fmt + p) (a - p) w in
        let* ret := iop (ret + fst r) in Ok (ret, snd r)
      else if c =? 37 then
        let* a := iop (a + 1) in
        let* d := load m (fmt + a) in
        let* a1 := iop (a + 1) in
        if d =? 115 then
          let* r := write k m (fileno f) (fmt + p) (a - 1 - p) w in
          let* ret := iop (ret + fst r) in
          match args with
          | [] => Fault
          | msg :: args =>
              let* r := fputs k fuel m msg f (snd r) in
              let* ret := iop (ret + fst r) in
              fprintfs_loop k fu m f fmt a1 a1 args ret (snd r)
          end
        else if d =? 99 then
          let* r := write k m (fileno f) (fmt + p) (a - 1 - p) w in
          let* ret := iop (ret + fst r) in
          match args with
          | [] => Fault
          | c :: args =>
              let r := k (fileno f) [ubyte c] (snd r) in
              let* ret := iop (ret + fst r) in
              fprintfs_loop k fu m f fmt a1 a1 args ret (snd r)
          end
        else fprintfs_loop k fu m f fmt a1 p args ret w
      else let* a := iop (a + 1) in fprintfs_loop k fu m f fmt a p args ret w
  end.
(* src/output/fprintfs.c:8-42 *)
Definition fprintfs {W} (k : kernel W) (fuel : nat) (m : mem) (f fmt : Z) (args : list Z) (w : W) : res (Z * W) :=
  fprintfs_loop k fuel m f fmt 0 0 args 0 w.

(* src/output/snprintfs.c:18-37: p and e are the C variables; result: memory and p *)
Fixpoint snprintfs_loop (fuel : nat) (m : mem) (e fmt p a : Z) (args : list Z) : res (mem * Z) :=
  match fuel with
  | O => NoFuel
  | S fu =>
      let* c := load m (fmt + a) in
      if negb (c =? 0) && (p <? e) then
        if c =? 37 then
          let* a := iop (a + 1) in
          let* d := load m (fmt + a) in
          let* a1 := iop (a + 1) in
          if d =? 115 then
            match args with
            | [] => Fault
            | msg :: args =>
                let* r := stpncpy fuel m p msg (e - p) in
                snprintfs_loop fu (fst r) e fmt (snd r) a1 args
            end
          else if d =? 99 then
            match args with
            | [] => Fault
            | x :: args => let* m := store m p (ubyte x) in snprintfs_loop fu m e fmt (p + 1) a1 args
            end
          else snprintfs_loop fu m e fmt p a1 args
        else
          let* m := store m p c in
          let* a := iop (a + 1) in snprintfs_loop fu m e fmt (p + 1) a args
      else let* m := store m p 0 in Ok (m, p)
  end.
(* src/output/snprintfs.c:8-41 *)
Definition snprintfs (fuel : nat) (m : mem) (buf size fmt : Z) (args : list Z) : res (mem * Z) :=
  let* r := snprintfs_loop fuel m (buf + size) fmt buf 0 args in Ok (fst r, s32 (snd r - buf)).

(* ---- fwrite, include/mini_fstream.h:95-106 ------------------------------------------- *)
(* result: number of items, the FILE word, files; include/mini_fstream.h:95-106 *)
Fixpoint fwrite_loop {W} (k : kernel W) (fuel : nat) (m : mem) (p size nmemb f a : Z) (w : W) : res (Z * Z * W) :=
  match fuel with
  | O => NoFuel
  | S fu =>
      if a <? nmemb then
        let* r := write k m (fileno f) p size w in
        if negb (fst r =? size) then Ok (a, Z.lor f 0x400000, snd r)
        else let* a := iop (a + 1) in fwrite_loop k fu m (p + size) size nmemb f a (snd r)
      else Ok (a, f, w)
  end.
(* include/mini_fstream.h:95-106 *)
Definition fwrite {W} (k : kernel W) (fuel : nat) (m : mem) (p size nmemb f : Z) (w : W) : res (Z * Z * W) :=
  fwrite_loop k fuel m p size nmemb f 0 w.

(* ---- positions, include/mini_fstream.h:108-145 ---------------------------------------- *)
(* an open regular file: its offset and its size; lseek(2) in the kernel with 64 bit
   offsets; -22 is -EINVAL; for include/syscall_stubs.h:665, include/syscall.h:198-206 *)
Record ofile := mkof { opos : Z; osize : Z }.
(* for include/syscall_stubs.h:665, include/syscall.h:198-206 *)
Definition klseek (off whence : Z) (o : ofile) : Z * ofile :=
  let base := if whence =? 0 then Some 0 else if whence =? 1 then Some (opos o) else if whence =? 2 then Some (osize o) else None in
  match base with
  | None => (-22, o)
  | Some b => if b + off <? 0 then (-22, o) else (b + off, mkof (b + off) (osize o))
  end.
(* include/syscall_stubs.h:665 with include/syscall.h:198-206: the offset is an int, and
   so is the result *)
Definition lseek (off whence : Z) (o : ofile) : Z * ofile :=
  let r := klseek (s32 off) whence o in
  let v := s32 (fst r) in (if v <? 0 then -1 else v, snd r).
(* include/mini_fstream.h:111-113 *)
Definition ftell (o : ofile) : Z * ofile := lseek 0 1 o.
(* include/mini_fstream.h:123-130; f: the FILE word *)
Definition fsetpos (f pos : Z) (o : ofile) : Z * Z * ofile :=
  let r := lseek pos 0 o in
  if fst r =? pos then (fst r, Z.land f 0x3fffff, snd r) else (fst r, f, snd r).
(* include/mini_fstream.h:134-139 *)
Definition fseek (f offset whence : Z) (o : ofile) : Z * Z * ofile :=
  let r := lseek offset whence o in
  if 0 <? fst r then (fst r, Z.land f 0x3fffff, snd r) else (fst r, f, snd r).
(* include/mini_fstream.h:143-145 *)
Definition rewind (f : Z) (o : ofile) : Z * ofile := let '(_, f, o) := fseek f 0 0 o in (f, o).

(* ---- error messages -------------------------------------------------------------------- *)
(* "Error, errno: 000", src/string/strerror.c:10 *)
Definition err_text : list Z := [69; 114; 114; 111; 114; 44; 32; 101; 114; 114; 110; 111; 58; 32; 48; 48; 48].
(* src/string/strerror.c:11; l: the characters of msg still to be copied *)
Fixpoint err_copy (m : mem) (c : Z) (l : list Z) : res mem :=
  match l with
  | [] => store m c 0
  | b :: r => let* m := store m c b in err_copy m (c + 1) r
  end.
(* x += q for a char at p; for src/string/strerror.c:7-30 *)
Definition char_add (m : mem) (p q : Z) : res mem :=
  let* b := load m p in store m p (ubyte (schar b + q)).
(* src/string/strerror.c:7-30 without mini_verbose_errstr; e: the static buffer *)
Definition strerror (m : mem) (e errnum : Z) : res (mem * Z) :=
  let* m := err_copy m e err_text in
  let* m := char_add m (e + 14) (Z.quot errnum 100) in
  let errnum := Z.rem errnum 100 in
  let* m := char_add m (e + 15) (Z.quot errnum 10) in
  let* m := char_add m (e + 16) (Z.rem errnum 10) in
  Ok (m, e).
(* src/output/perror.c:4-9; stderr has descriptor 2 *)
Definition perror {W} (k : kernel W) (fuel : nat) (m : mem) (e errno msg : Z) (w : W) : res (mem * W) :=
  let* w := (if msg =? 0 then Ok w
             else let* c := load m msg in
                  if c =? 0 then Ok w else let* r := fputs k fuel m msg 2 w in Ok (snd r)) in
  let* s := strerror m e errno in
  let* r := fputs k fuel (fst s) (snd s) 2 w in
  Ok (fst s, snd r).
