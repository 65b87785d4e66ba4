(* C87 - C93: the sorting macros contrib/qsort.h and contrib/ksort.h.
   Arrays, orders and rearrangements are defined in KsortSpec.v. *)
From Verif Require Import Base BaseLemmas KsortModel KsortSpec KsortProofs KsortProofs2 KsortProofs3 KsortProofs4 KsortProofs5.

(* C87: QSORT sorts, whatever the array; its stack of 48 (32 for a count of
   32 bits) frames is enough for up to 2^52 - 1 (2^36 - 1) elements.  An
   access outside of the array, or of the stack, would be a Fault. *)
Theorem C87_qsort : forall (A : Type) (lt : A -> A -> bool) (wide : bool) n a f,
  strict_weak lt -> n < (if wide then 2 ^ 52 else 2 ^ 36) -> (Z.to_nat n < f)%nat ->
  exists b, qsort_h lt f (if wide then 48 else 32) n a = Ok b /\ in_order lt b n /\ rearranged a b n.
Proof.
  intros A lt wide n a f SW Hn Hf.
  destruct (qsort_h_ok lt SW f (if wide then 48 else 32) n a) as (b & R & M & O).
  - destruct wide; [change (2 ^ 52) with 4503599627370496 in Hn|change (2 ^ 36) with 68719476736 in Hn]; lia.
  - destruct wide; [change (2 ^ 52) with 4503599627370496 in Hn; change (16 * 2 ^ Z.of_nat 48) with 4503599627370496
      |change (2 ^ 36) with 68719476736 in Hn; change (16 * 2 ^ Z.of_nat 32) with 68719476736]; lia.
  - exact Hf.
  - exists b. split; [exact R|]. split; [|now apply moved_rearranged]. intros i j Hi Hj. apply O; lia.
Qed.
Print Assumptions C87_qsort.

(* test data: 20 pairs, ordered by the first component *)
Definition key_lt (x y : Z * Z) : bool := fst x <? fst y.
Definition pairs20 (i : Z) : Z * Z := ((i * 7 + 3) mod 11, i).
Lemma key_lt_ok : strict_weak key_lt.
Proof. unfold key_lt. split; intros; lia. Qed.
Definition show {A : Type} (n : nat) (r : res (arr A)) : list A := match r with Ok b => elems b 0 n | _ => [] end.
Example C87_case : strict_weak key_lt /\ 20 < 2 ^ 52 /\
  map fst (show 20 (qsort_h key_lt 21 48 20 pairs20)) = [0;1;1;2;2;3;3;4;4;5;5;6;6;7;8;8;9;9;10;10] /\
  map snd (show 20 (qsort_h key_lt 21 48 20 pairs20)) <> map Z.of_nat (seq 0 20).
Proof. split; [exact key_lt_ok|]. split; [reflexivity|]. split; [vm_compute; reflexivity|vm_compute; discriminate]. Qed.

(* C88: ks_mergesort sorts and is stable. *)
Theorem C88_mergesort : forall (A : Type) (lt : A -> A -> bool) n a temp f,
  strict_weak lt -> 0 <= n <= 2 ^ 61 -> (Z.to_nat (n + 1) < f)%nat ->
  exists b, mergesort lt f n a temp = Ok b /\ in_order lt b n /\ rearranged a b n /\
    stable lt (elems a 0 (Z.to_nat n)) (elems b 0 (Z.to_nat n)).
Proof.
  intros A lt n a temp f SW Hn Hf. destruct (mergesort_ok lt SW f n a temp Hn Hf) as (b & R & (P & T & S) & O).
  exists b. split; [exact R|]. split; [now apply sorted_order|]. split; [split; [exact P|exact O]|exact T].
Qed.
Print Assumptions C88_mergesort.
Example C88_case : strict_weak key_lt /\
  show 11 (mergesort key_lt 20 11 pairs20 (fun _ => (0, 0))) =
  [(0, 9); (1, 6); (2, 3); (3, 0); (4, 8); (5, 5); (6, 2); (7, 10); (8, 7); (9, 4); (10, 1)] /\
  show 4 (mergesort (fun x y => fst x / 4 <? fst y / 4) 20 4 pairs20 (fun _ => (0, 0))) = [(3, 0); (2, 3); (6, 2); (10, 1)].
Proof. split; [exact key_lt_ok|]. split; vm_compute; reflexivity. Qed.

(* C89: ks_heapmake builds a heap, ks_heapsort sorts a heap. *)
Lemma heap_iff A (lt : A -> A -> bool) n a : heap lt 0 n a <-> is_heap lt a n.
Proof.
  unfold heap, is_heap, par, le. split.
  - intros H i c Hi Hc Hn. assert (E : (c - 1) / 2 = i).
    { destruct Hc as [-> | ->].
      - replace (2 * i + 1 - 1) with (i * 2) by lia. apply Z.div_mul. lia.
      - replace (2 * i + 2 - 1) with (1 + i * 2) by lia. rewrite Z.div_add by lia. reflexivity. }
    specialize (H c). rewrite E in H. apply H; lia.
  - intros H c Hc _. pose proof (Z.div_mod (c - 1) 2). pose proof (Z.mod_pos_bound (c - 1) 2).
    apply H; lia.
Qed.
Theorem C89_heapmake : forall (A : Type) (lt : A -> A -> bool) n a f,
  strict_weak lt -> 0 <= n <= 2 ^ 62 -> (Z.to_nat n < f)%nat ->
  exists b, heapmake lt f n a = Ok b /\ is_heap lt b n /\ rearranged a b n.
Proof.
  intros A lt n a f SW Hn Hf. destruct (heapmake_ok lt SW f n a Hn Hf) as (b & R & M & H).
  exists b. split; [exact R|]. split; [now apply heap_iff|now apply moved_rearranged].
Qed.
Print Assumptions C89_heapmake.
Theorem C89_heapsort : forall (A : Type) (lt : A -> A -> bool) n a f,
  strict_weak lt -> 0 <= n <= 2 ^ 62 -> (Z.to_nat n < f)%nat -> is_heap lt a n ->
  exists b, heapsort lt f n a = Ok b /\ in_order lt b n /\ rearranged a b n.
Proof.
  intros A lt n a f SW Hn Hf H. destruct (heapsort_ok lt SW f n a Hn Hf) as (b & R & M & O); [now apply heap_iff|].
  exists b. split; [exact R|]. split; [intros i j Hi Hj; apply O; lia|now apply moved_rearranged].
Qed.
Print Assumptions C89_heapsort.
Example C89_case : strict_weak key_lt /\
  show 9 (heapmake key_lt 10 9 pairs20) = [(10, 1); (9, 4); (6, 2); (8, 7); (3, 0); (5, 5); (1, 6); (2, 3); (4, 8)] /\
  map fst (show 9 (let* b := heapmake key_lt 10 9 pairs20 in heapsort key_lt 10 9 b)) = [1;2;3;4;5;6;8;9;10] /\
  (* without ks_heapmake the result is not sorted *)
  map fst (show 9 (heapsort key_lt 10 9 pairs20)) <> [1;2;3;4;5;6;8;9;10].
Proof. split; [exact key_lt_ok|]. split; [vm_compute; reflexivity|]. split; [vm_compute; reflexivity|vm_compute; discriminate]. Qed.

(* C90: ks_ksmall returns an element that is neither less nor greater than
   the k-th element of the sorted array, and only rearranges the array. *)
Theorem C90_ksmall : forall (A : Type) (lt : A -> A -> bool) n a k f,
  strict_weak lt -> 0 <= k < n -> (Z.to_nat n < f)%nat ->
  exists b v, ksmall lt f n a k = Ok (b, v) /\ rearranged a b n /\
    forall s, in_order lt s n -> rearranged a s n -> lt v (s k) = false /\ lt (s k) v = false.
Proof.
  intros A lt n a k f SW Hk Hf. destruct (ksmall_ok lt SW f n a k Hk Hf) as (b & R & M & B1 & B2).
  exists b, (b k). split; [exact R|]. apply moved_rearranged in M. split; [exact M|]. intros s S [P _].
  apply (kth lt SW n); auto. etransitivity; [symmetry; apply M|exact P].
Qed.
Print Assumptions C90_ksmall.
Example C90_case : strict_weak key_lt /\
  map (fun k => match ksmall key_lt 21 20 pairs20 k with Ok (_, v) => fst v | _ => -1 end) [0; 7; 10; 19] = [0; 4; 5; 10].
Proof. split; [exact key_lt_ok|]. vm_compute; reflexivity. Qed.

(* C91: ks_combsort (with the insertion sort at its end) ends and sorts the c
   elements from base on, wherever they are in the array. *)
Theorem C91_combsort : forall (A : Type) (lt : A -> A -> bool) shrink n a base c f,
  strict_weak lt -> shrinks shrink -> n < 2 ^ 63 -> 0 <= base -> 0 <= c -> base + c <= n ->
  (Z.to_nat (n + 3 + n * (n * n)) <= f)%nat ->
  exists b, combsort lt shrink f n a base c = Ok b /\ in_order lt (fun i => b (base + i)) c /\
    rearranged a b n /\ forall i, ~ (base <= i < base + c) -> b i = a i.
Proof.
  intros A lt shrink n a base c f SW SH Hn Hb Hc Hbc Hf.
  change (2 ^ 63) with 9223372036854775808 in Hn.
  destruct (combsort_ok lt SW shrink f n a base c SH ltac:(lia) Hb Hc Hbc Hf) as (b & R & M & O).
  exists b. split; [exact R|]. split; [intros i j Hi Hj; apply O; lia|]. split.
  - apply moved_rearranged. apply (moved_sub _ _ _ _ _ _ M); lia.
  - intros i Hi. apply (moved_out _ _ _ _ i M). lia.
Qed.
Print Assumptions C91_combsort.
(* the exact quotient meets the hypothesis *)
Definition exact_shrink (g : Z) : Z := g * 10 ^ 31 / 12473309501039786540366528676643.
Lemma exact_shrinks : shrinks exact_shrink.
Proof.
  intros g Hg. unfold exact_shrink. change (10 ^ 31) with 10000000000000000000000000000000.
  pose proof (Z.div_mod (g * 10000000000000000000000000000000) 12473309501039786540366528676643).
  pose proof (Z.mod_pos_bound (g * 10000000000000000000000000000000) 12473309501039786540366528676643). lia.
Qed.
Example C91_case : strict_weak key_lt /\ shrinks exact_shrink /\
  map fst (show 20 (combsort key_lt exact_shrink (Z.to_nat 8100) 20 pairs20 2 16)) = [3;10;0;1;1;2;2;3;4;5;5;6;6;7;8;9;9;10;8;4].
Proof. split; [exact key_lt_ok|]. split; [exact exact_shrinks|]. vm_compute. reflexivity. Qed.

(* C92: ks_introsort sorts; its stack is large enough. *)
Theorem C92_introsort : forall (A : Type) (lt : A -> A -> bool) shrink n a f,
  strict_weak lt -> shrinks shrink -> 0 <= n < 2 ^ 63 -> (Z.to_nat (n + 3 + n * (n * n)) + 64 <= f)%nat ->
  exists b, introsort lt shrink f n a = Ok b /\ in_order lt b n /\ rearranged a b n.
Proof.
  intros A lt shrink n a f SW SH Hn Hf. change (2 ^ 63) with 9223372036854775808 in Hn.
  destruct (introsort_ok lt SW shrink f n a SH ltac:(lia) Hf) as (b & R & M & O).
  exists b. split; [exact R|]. split; [intros i j Hi Hj; apply O; lia|now apply moved_rearranged].
Qed.
Print Assumptions C92_introsort.
Example C92_case : strict_weak key_lt /\ shrinks exact_shrink /\
  map fst (show 20 (introsort key_lt exact_shrink (Z.to_nat 8200) 20 pairs20)) = [0;1;1;2;2;3;3;4;4;5;5;6;6;7;8;8;9;9;10;10].
Proof. split; [exact key_lt_ok|]. split; [exact exact_shrinks|]. vm_compute. reflexivity. Qed.

(* C93: ks_shuffle rearranges the array; every order of the elements is the
   result of some sequence of draws, of exactly one if the elements differ. *)
Theorem C93_shuffle : forall (A : Type) n (a : Z -> A) js, draws n js ->
  exists b, shuffle n a n js = Ok b /\ rearranged a b n.
Proof.
  intros A n a js D. destruct (shuffle_ok n js a n) as (b & R & M); [lia|exact D|].
  exists b. split; [exact R|now apply moved_rearranged].
Qed.
Print Assumptions C93_shuffle.
Theorem C93_every_order : forall (A : Type) n (a : Z -> A) l, Permutation (elems a 0 (Z.to_nat n)) l ->
  exists js b, draws n js /\ shuffle n a n js = Ok b /\ elems b 0 (Z.to_nat n) = l.
Proof. intros A n a l P. apply (shuffle_reach n (Z.to_nat n)); auto. lia. Qed.
Print Assumptions C93_every_order.
Theorem C93_one_draw : forall (A : Type) n (a : Z -> A) js js' b b', NoDup (elems a 0 (Z.to_nat n)) ->
  draws n js -> draws n js' -> shuffle n a n js = Ok b -> shuffle n a n js' = Ok b' ->
  elems b 0 (Z.to_nat n) = elems b' 0 (Z.to_nat n) -> js = js'.
Proof. intros A n a js js' b b' N D D' R R' E. apply (shuffle_inj n js js' a n b b'); auto. lia. Qed.
Print Assumptions C93_one_draw.
Example C93_case : draws 4 [1; 0; 1] /\ show 4 (shuffle 4 (fun i => i) 4 [1; 0; 1]) = [2; 3; 0; 1] /\ NoDup (elems (fun i => i) 0 4).
Proof. split; [cbn; lia|]. split; [reflexivity|]. repeat (constructor; [cbn; lia|]). constructor. Qed.
