(* Arrays as functions on indices, order, permutation and stability. *)
From Coq Require Export Permutation.
From Verif Require Import Base.

(* the elements of a at the indices l, ..., l + k - 1 *)
Fixpoint elems {A : Type} (a : Z -> A) (l : Z) (k : nat) : list A :=
  match k with
  | O => []
  | S k => a l :: elems a (l + 1) k
  end.

(* lt is a strict weak order: never both x < y and y < x, and "not less"
   is transitive *)
Definition strict_weak {A : Type} (lt : A -> A -> bool) : Prop :=
  (forall x y, lt x y = true -> lt y x = false) /\
  (forall x y z, lt y x = false -> lt z y = false -> lt z x = false).

(* no element is less than one before it *)
Definition in_order {A : Type} (lt : A -> A -> bool) (a : Z -> A) (n : Z) : Prop :=
  forall i j, 0 <= i < j -> j < n -> lt (a j) (a i) = false.

(* a' holds the elements of a, rearranged, and the same outside of 0..n-1 *)
Definition rearranged {A : Type} (a a' : Z -> A) (n : Z) : Prop :=
  Permutation (elems a 0 (Z.to_nat n)) (elems a' 0 (Z.to_nat n)) /\
  forall i, ~ (0 <= i < n) -> a' i = a i.

(* elements that are not less than each other stay in their sequence *)
Definition stable {A : Type} (lt : A -> A -> bool) (l l' : list A) : Prop :=
  forall x, filter (fun y => negb (lt x y) && negb (lt y x)) l' =
            filter (fun y => negb (lt x y) && negb (lt y x)) l.

(* no element is less than a child: the children of i are 2i+1 and 2i+2 *)
Definition is_heap {A : Type} (lt : A -> A -> bool) (a : Z -> A) (n : Z) : Prop :=
  forall i c, 0 <= i -> c = 2 * i + 1 \/ c = 2 * i + 2 -> c < n -> lt (a i) (a c) = false.

(* the numbers drawn by a shuffle of i elements: the first below i, the next
   below i - 1, ..., the last below 2 *)
Fixpoint draws (i : Z) (js : list Z) : Prop :=
  match js with
  | [] => i <= 1
  | j :: r => 1 < i /\ 0 <= j < i /\ draws (i - 1) r
  end.

(* sh g is g / 1.2473309501039786540366528676643 (= 0.8017... * g), rounded
   down; the bounds leave room for the rounding of doubles *)
Definition shrinks (sh : Z -> Z) : Prop :=
  forall g, 2 < g -> 3 * g < 4 * (sh g + 1) /\ 100 * sh g <= 81 * g.
