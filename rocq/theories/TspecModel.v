(* Model of the macros of include/bsd_timespec.h. *)
From Verif Require Import Base ConvModel.

(* struct timespec: tv_sec, tv_nsec (long); the macros get addresses, which may be equal.
   Different structs do not overlap.  for include/bsd_timespec.h:8-10 *)
Record timespec := { sec : Z; nsec : Z }.
Definition timespecs := Z -> timespec. (* for include/bsd_timespec.h:8-10 *)
(* for include/bsd_timespec.h:8-10 *)
Definition set_sec (s : timespecs) (p v : Z) : timespecs := fun x => if x =? p then {| sec := v; nsec := nsec (s x) |} else s x.
(* for include/bsd_timespec.h:8-10 *)
Definition set_nsec (s : timespecs) (p v : Z) : timespecs := fun x => if x =? p then {| sec := sec (s x); nsec := v |} else s x.
(* include/bsd_timespec.h:8-10 *)
Definition timespecclear (s : timespecs) (p : Z) : timespecs := set_sec (set_nsec s p 0) p 0.
(* include/bsd_timespec.h:12-14 *)
Definition timespecisset (s : timespecs) (p : Z) : bool := negb (sec (s p) =? 0) || negb (nsec (s p) =? 0).
(* include/bsd_timespec.h:16-21; cmp is the operator given as argument *)
Definition timespeccmp (s : timespecs) (t u : Z) (cmp : Z -> Z -> bool) : bool :=
  if sec (s t) =? sec (s u) then cmp (nsec (s t)) (nsec (s u)) else cmp (sec (s t)) (sec (s u)).
(* include/bsd_timespec.h:23-33; strict = true: signed overflow is undefined, false: it wraps *)
Definition timespecadd (strict : bool) (s : timespecs) (t u v : Z) : res timespecs :=
  let* a := lar strict (sec (s t) + sec (s u)) in
  let s := set_sec s v a in
  let* b := lar strict (nsec (s t) + nsec (s u)) in
  let s := set_nsec s v b in
  if 1000000000 <=? nsec (s v) then
    let* a := lar strict (sec (s v) + 1) in
    let s := set_sec s v a in
    let* b := lar strict (nsec (s v) - 1000000000) in
    Ok (set_nsec s v b)
  else Ok s.
(* include/bsd_timespec.h:35-45 *)
Definition timespecsub (strict : bool) (s : timespecs) (t u v : Z) : res timespecs :=
  let* a := lar strict (sec (s t) - sec (s u)) in
  let s := set_sec s v a in
  let* b := lar strict (nsec (s t) - nsec (s u)) in
  let s := set_nsec s v b in
  if nsec (s v) <? 0 then
    let* a := lar strict (sec (s v) - 1) in
    let s := set_sec s v a in
    let* b := lar strict (nsec (s v) + 1000000000) in
    Ok (set_nsec s v b)
  else Ok s.
