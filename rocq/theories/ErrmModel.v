(* Model of the macros of src/process/error.h. *)
From Verif Require Import Base PrintModel StreamModel OutModel FmtModel.

(* The macros are written with fprintf and fprints (include/prints.h:34: dprints with a
   terminating 0) on stderr (descriptor 2, as in perror of OutModel).  colon is the address of the
   literal ":", e the address of the static buffer of strerror, errno_of the number that a program
   would find in errno in the given state.  status, errnum: ints.  exit(status) is FExit. *)
Section Macros.
Context {W : Type} (strict : bool) (k : kernel W) (errno_of : W -> Z) (fuel : nat) (tmp0 : Z -> Z) (mbuf mbufsize colon e : Z).

(* fprints(stderr,":",strerror(n)): the argument is evaluated before the call;
   for src/process/error.h:13 *)
Definition report (m : mem) (n : Z) (w : W) : res (mem * W) :=
  let* (m, s) := strerror m e n in
  let* r := dprints k fuel m 2 colon [s; 0] w in
  Ok (m, snd r).
(* src/process/error.h:13 *)
Definition error (m : mem) (status errnum fmt : Z) (args : list Z) (w : W) : res (fend W) :=
  let* o := fprintf strict k fuel tmp0 m mbuf mbufsize 2 fmt args w in
  match o with
  | FRet m r w =>
      let* (m, w) := (if errnum =? 0 then Ok (m, w) else report m errnum w) in
      if status =? 0 then Ok (FRet m r w) else Ok (FExit m status w)
  | o => Ok o
  end.
(* src/process/error.h:20 *)
Definition err (m : mem) (status fmt : Z) (args : list Z) (w : W) : res (fend W) :=
  let* o := fprintf strict k fuel tmp0 m mbuf mbufsize 2 fmt args w in
  match o with
  | FRet m r w => let* (m, w) := report m (errno_of w) w in Ok (FExit m status w)
  | o => Ok o
  end.
(* src/process/error.h:27 *)
Definition errx (m : mem) (status fmt : Z) (args : list Z) (w : W) : res (fend W) :=
  let* o := fprintf strict k fuel tmp0 m mbuf mbufsize 2 fmt args w in
  match o with
  | FRet m r w => Ok (FExit m status w)
  | o => Ok o
  end.
(* src/process/error.h:33 *)
Definition warn (m : mem) (fmt : Z) (args : list Z) (w : W) : res (fend W) :=
  fprintf strict k fuel tmp0 m mbuf mbufsize 2 fmt args w.
End Macros.
