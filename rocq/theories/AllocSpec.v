(* Specification vocabulary for the allocator. *)
From Verif Require Import Base AllocModel.

(* The program's view L of its live blocks is right for the buffer contents w:
   each block is word aligned, lies between the 64 byte reserve and the last word
   of the N byte buffer, holds what the program expects, and no two overlap. *)
Definition view_ok (N : Z) (w : Z -> Z) (L : view) : Prop :=
  (forall p l, In (p, l) L -> p mod 4 = 0 /\ 68 <= p /\ p + zlen l <= N - 4 /\
     forall k, (k < length l)%nat -> getb w (p + Z.of_nat k) = nth k l 0) /\
  NoDup (map fst L) /\
  (forall p l p' l', In (p, l) L -> In (p', l') L -> p <> p' -> apart p (zlen l) p' (zlen l')).

(* a program that asks for between 1 and INT_MAX-8 bytes each time *)
Definition good_ops (ops : list aop) : Prop :=
  forall n, In (OMalloc n) ops -> 1 <= n <= INT_MAX - 8.

(* every free is for the block allocated last among those still live *)
Fixpoint lifo (strict : bool) (N : Z) (st : res (ast * view)) (ops : list aop) : Prop :=
  match ops with
  | [] => True
  | o :: r =>
      (forall p s L, o = OFree p -> st = Ok (s, L) -> exists l L', L = (p, l) :: L') /\
      lifo strict N (astep strict N st o) r
  end.

(* bytes taken from the buffer by a request of n bytes: a header word and n rounded up *)
Definition rounded (n : Z) : Z := 4 + (n + 3) / 4 * 4.

(* the memory just before block p was freed: it is not the end of a live block,
   although some live block lies below *)
Definition gap_before (L : view) (p : Z) : Prop :=
  (exists q m, In (q, m) L /\ q < p) /\ forall q m, In (q, m) L -> q + rounded (zlen m) <> p.
(* the memory just behind block (p,l) was freed: no live block begins there, nor the end mark *)
Definition gap_behind (N : Z) (L : view) (p : Z) (l : list Z) : Prop :=
  p + rounded (zlen l) <> N /\ forall q m, In (q, m) L -> q <> p + rounded (zlen l).
