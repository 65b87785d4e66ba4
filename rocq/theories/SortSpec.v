(* Arrays and order. *)
From Coq Require Export Permutation.
From Verif Require Import Base.

(* the elements [arr], each of w bytes, are stored one after the other at base *)
Definition array_at (m : mem) (base w : Z) (arr : list (list Z)) : Prop :=
  bytes_at m base (concat arr) /\ Forall (fun e => zlen e = w) arr.

(* cmp orders the given elements totally *)
Definition total_preorder (cmp : list Z -> list Z -> Z) (arr : list (list Z)) : Prop :=
  (forall x y, In x arr -> In y arr -> cmp x y <= 0 \/ cmp y x <= 0) /\
  (forall x y z, In x arr -> In y arr -> In z arr -> cmp x y <= 0 -> cmp y z <= 0 -> cmp x z <= 0).

Definition sorted (cmp : list Z -> list Z -> Z) (arr : list (list Z)) : Prop :=
  forall i j x y, (i < j)%nat -> nth_error arr i = Some x -> nth_error arr j = Some y -> cmp x y <= 0.

(* searching: elements below the key, then equal ones, then above
   (cmpk e is the result of comparing the key with e) *)
Definition partitioned (cmpk : list Z -> Z) (arr : list (list Z)) : Prop :=
  forall i j x y, (i < j)%nat -> nth_error arr i = Some x -> nth_error arr j = Some y ->
    Z.sgn (cmpk y) <= Z.sgn (cmpk x).
