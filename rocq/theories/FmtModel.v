(* Model of the functions on top of vsnprintf: src/output/{snprintf,sprintf,vsprintf,dprintf,
   fprintf}.c and the macros printf, vfprintf of include/mini_fstream.h. *)
From Verif Require Import Base PrintModel StreamModel OutModel.

(* the arguments behind fmt are given as the list args, as for vsnprintf; strict, tmp0: see
   PrintModel *)
(* src/output/snprintf.c:6-12 *)
Definition snprintf (strict : bool) (fuel : nat) (tmp0 : Z -> Z) (m : mem) (buf size fmt : Z) (args : list Z) : res outcome :=
  vsnprintf strict fuel tmp0 m buf size fmt args.
(* src/output/sprintf.c:8; mini_buf is the constant the user configures *)
Definition sprintf (strict : bool) (fuel : nat) (tmp0 : Z -> Z) (mini_buf : Z) (m : mem) (str fmt : Z) (args : list Z) : res outcome :=
  snprintf strict fuel tmp0 m str mini_buf fmt args.
(* src/output/vsprintf.c:10-16: a variadic function; args is what follows fmt in the call *)
Definition vsprintf (strict : bool) (fuel : nat) (tmp0 : Z -> Z) (m : mem) (buf fmt : Z) (args : list Z) : res outcome :=
  vsnprintf strict fuel tmp0 m buf 4096 fmt args.

(* the end of a call that writes: it returns r, the process gets SIGSEGV, or it exits;
   for src/output/fprintf.c:32 *)
Inductive fend (W : Type) := FRet (m : mem) (r : Z) (w : W) | FSegv (m : mem) (w : W) | FExit (m : mem) (code : Z) (w : W).
Arguments FRet {W}. Arguments FSegv {W}. Arguments FExit {W}.
(* src/output/fprintf.c:32, the macro; f is the FILE word, mbuf and mbufsize are the fields of
   the globals *)
Definition fprintf {W} (strict : bool) (k : kernel W) (fuel : nat) (tmp0 : Z -> Z) (m : mem) (mbuf mbufsize f fmt : Z) (args : list Z) (w : W)
  : res (fend W) :=
  let* o := snprintf strict fuel tmp0 m mbuf mbufsize fmt args in
  match o with
  | Done m r => let* e := write k m (fileno f) mbuf r w in Ok (FRet m (fst e) (snd e))
  | Segv m _ => Ok (FSegv m w)
  end.
(* include/mini_fstream.h:80; stdout is slot 1 of the streams, whose word is [out] *)
Definition printf {W} (strict : bool) (k : kernel W) (fuel : nat) (tmp0 : Z -> Z) (m : mem) (mbuf mbufsize out fmt : Z) (args : list Z) (w : W) :=
  fprintf strict k fuel tmp0 m mbuf mbufsize out fmt args w.
(* include/mini_fstream.h:90: vfprintf(f,fmt,ap) is fprintf(f,fmt,ap) *)
Definition vfprintf {W} (strict : bool) (k : kernel W) (fuel : nat) (tmp0 : Z -> Z) (m : mem) (mbuf mbufsize f fmt ap : Z) (w : W) :=
  fprintf strict k fuel tmp0 m mbuf mbufsize f fmt [ap] w.
(* src/output/dprintf.c:5-16; over is the address of the literal of line 10 *)
Definition dprintf {W} (strict : bool) (k : kernel W) (fuel : nat) (tmp0 : Z -> Z) (m : mem) (mbuf mbufsize over fd fmt : Z) (args : list Z) (w : W)
  : res (fend W) :=
  let* o := vsnprintf strict fuel tmp0 m mbuf mbufsize fmt args in
  match o with
  | Done m r =>
      if r <? 0 then let* e := write k m 2 over 16 w in Ok (FExit m 1 (snd e))
      else let* e := write k m fd mbuf r w in Ok (FRet m r (snd e))
  | Segv m _ => Ok (FSegv m w)
  end.
