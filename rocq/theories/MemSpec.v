(* Specification vocabulary for block operations, independent of the model. *)
From Verif Require Import Base.

(* n bytes from s (in m) are copied to d, everything else is as in m *)
Definition copied (m m' : mem) (d s n : Z) : Prop :=
  (forall i, 0 <= i < n -> m' (d + i) = m (s + i)) /\ same_outside m m' d n.
