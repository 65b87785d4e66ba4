(* C185: an array of pointers to strings, sorted with qsort and searched with bsearch, both with strcmp. *)
From Coq Require Import ZifyBool.
From Verif Require Import Base BaseLemmas StrModel StrSpec StrProofs2 StrProps SortModel SortSpec SortProps ShrinkModel DirProofs.

(* ---- the comparisons of the user (not minilib code) ---- *)
(* int cmp(const void *a, const void *b){ return strcmp( ((char *const* ) a)[0], ((char *const* ) b)[0] ); }
   a and b are given as the eight bytes they point to.  The strings are read in m, the memory before the call: qsort
   changes only the array, and the strings are elsewhere *)
Definition cmp_ptr (fuel : nat) (m : mem) (a b : list Z) : Z :=
  match strcmp fuel m (le_get 8 a) (le_get 8 b) with Ok r => r | _ => 0 end.
(* int cmpkey(const void *key, const void *b){ return strcmp( key, ((char *const* ) b)[0] ); } *)
Definition cmp_key (fuel : nat) (m : mem) (key : Z) (b : list Z) : Z :=
  match strcmp fuel m key (le_get 8 b) with Ok r => r | _ => 0 end.

(* ---- specification ---- *)
(* the pointers ps are stored one after the other at base, each points to its string in l *)
Definition strings_at (m : mem) (base : Z) (ps : list Z) (l : list (list Z)) : Prop :=
  bytes_at m base (concat (map (le_bytes 8) ps)) /\
  Forall2 (fun p s => 0 < p < 256 ^ 8 /\ str_at m p s /\ zlen s <= INT_MAX /\ apart p (zlen s + 1) base (8 * zlen ps)) ps l.
(* no string before a smaller one, in the order of their (unsigned) bytes *)
Definition in_order (l : list (list Z)) : Prop :=
  forall i j a b, (i < j)%nat -> nth_error l i = Some a -> nth_error l j = Some b -> lexcmp a b <= 0.

Lemma le_get8 p : 0 < p < 256 ^ 8 -> le_get 8 (le_bytes 8 p) = p.
Proof. intros H. apply le_inv. change (Z.of_nat 8) with 8. lia. Qed.
Lemma array_of m base ps : bytes_at m base (concat (map (le_bytes 8) ps)) -> array_at m base 8 (map (le_bytes 8) ps).
Proof. intros H. split; [exact H|]. apply Forall_map. apply Forall_forall. intros x _. apply le_zlen. Qed.
Lemma str_kept m m' q n l : forall p, same_outside m m' q n -> str_at m p l -> apart p (zlen l + 1) q n -> str_at m' p l.
Proof.
  induction l as [|c l IH]; intros p O H A; cbn [str_at] in *.
  - unfold apart in A. change (zlen (@nil Z)) with 0 in A. rewrite O; [exact H|lia].
  - rewrite zlen_cons in A. nneg l. destruct H as (H & R & T). unfold apart in A. split; [rewrite O; [exact H|lia]|]. split; [exact R|].
    apply IH; auto. unfold apart. lia.
Qed.
Lemma Forall2_nth {A B} (R : A -> B -> Prop) a b : Forall2 R a b -> forall i x, nth_error a i = Some x -> exists y, nth_error b i = Some y /\ R x y.
Proof. induction 1 as [|x y a b H F IH]; intros [|i] z E; cbn in *; try discriminate; eauto. inversion E. subst. eauto. Qed.
Lemma Forall2_nth_r {A B} (R : A -> B -> Prop) a b : Forall2 R a b -> forall i y, nth_error b i = Some y -> exists x, nth_error a i = Some x /\ R x y.
Proof. induction 1 as [|x y a b H F IH]; intros [|i] z E; cbn in *; try discriminate; eauto. inversion E. subst. eauto. Qed.
Lemma F2_impl {A B} (R Q : A -> B -> Prop) a b : (forall x y, R x y -> Q x y) -> Forall2 R a b -> Forall2 Q a b.
Proof. intros H. induction 1; constructor; auto. Qed.
Lemma Forall2_len {A B} (R : A -> B -> Prop) a b : Forall2 R a b -> length a = length b.
Proof. induction 1; cbn; auto. Qed.
Lemma perm_forall2 {A B} (R : A -> B -> Prop) a a' : Permutation a a' -> forall b, Forall2 R a b -> exists b', Permutation (combine a b) (combine a' b') /\ Permutation b b' /\ Forall2 R a' b'.
Proof.
  induction 1 as [|x a a' P IH|x y a|a1 a2 a3 P1 IH1 P2 IH2]; intros b F.
  - inversion F. subst. exists []. repeat split; constructor.
  - inversion F as [|? z ? b1 Hz F1]. subst. destruct (IH b1 F1) as (b' & C & Pb & F'). exists (z :: b'). cbn. repeat split; auto.
  - inversion F as [|? z1 ? b1 Hz F1]. subst. inversion F1 as [|? z2 ? b2 Hz2 F2]. subst. exists (z2 :: z1 :: b2). cbn. repeat split; auto; constructor.
  - destruct (IH1 b F) as (b1 & C1 & Q1 & F1). destruct (IH2 b1 F1) as (b2 & C2 & Q2 & F2). exists b2. repeat split; [etransitivity; eauto|etransitivity; eauto|exact F2].
Qed.

Lemma cmp_ptr_ok fuel m base ps l : strings_at m base ps l -> Forall (fun s => (length s < fuel)%nat) l ->
  forall x y, In x (map (le_bytes 8) ps) -> In y (map (le_bytes 8) ps) -> exists a b, In a l /\ In b l /\
    str_at m (le_get 8 x) a /\ str_at m (le_get 8 y) b /\ Z.sgn (cmp_ptr fuel m x y) = lexcmp a b.
Proof.
  intros [_ F] Hf x y Hx Hy. apply in_map_iff in Hx as (p & <- & Hp). apply in_map_iff in Hy as (q & <- & Hq).
  apply In_nth_error in Hp as (i & Hi). apply In_nth_error in Hq as (j & Hj).
  destruct (Forall2_nth _ _ _ F i p Hi) as (a & Ha & Rp & Sa & La & _). destruct (Forall2_nth _ _ _ F j q Hj) as (b & Hb & Rq & Sb & Lb & _).
  apply nth_error_In in Ha. apply nth_error_In in Hb. exists a, b. rewrite !le_get8 by lia. repeat (split; [assumption|]).
  unfold cmp_ptr. rewrite !le_get8 by lia. rewrite Forall_forall in Hf.
  destruct (C06_strcmp a b fuel m p q Sa Sb La (Hf a Ha)) as (r & -> & E). exact E.
Qed.
Lemma str_inj m l : forall l' p, str_at m p l -> str_at m p l' -> l = l'.
Proof.
  induction l as [|c l IH]; intros [|d l'] p H H'; cbn [str_at] in *; auto.
  - destruct H' as (H' & R & _). rewrite H in H'. inversion H'. lia.
  - destruct H as (H & R & _). rewrite H in H'. inversion H'. lia.
  - destruct H as (H & R & T), H' as (H' & R' & T'). rewrite H in H'. inversion H'. subst. f_equal. eauto.
Qed.
Lemma lex_iff a b r : Z.sgn r = lexcmp a b -> (r <= 0 <-> lexcmp a b <= 0).
Proof. intros E. rewrite <- E. destruct r; cbn; lia. Qed.

(* ---- sorting ---- *)
Theorem C185_sort : forall m base ps l fuel, strings_at m base ps l -> 16 * zlen ps + 8 <= LONG_MAX -> (length ps + 1 < fuel)%nat ->
  Forall (fun s => (length s < fuel)%nat) l ->
  exists m' ps' l', qsort (cmp_ptr fuel m) fuel m base (zlen ps) 8 = Ok m' /\
    strings_at m' base ps' l' /\ Permutation (combine ps l) (combine ps' l') /\ Permutation l l' /\ in_order l' /\ same_outside m m' base (8 * zlen ps).
Proof.
  intros m base ps l fuel S HL Hf Hl. pose proof S as [B F]. pose proof (array_of _ _ _ B) as A. pose proof (cmp_ptr_ok fuel m base ps l S Hl) as C.
  assert (Z1 : zlen (map (le_bytes 8) ps) = zlen ps) by (unfold zlen; now rewrite map_length).
  assert (T : total_preorder (cmp_ptr fuel m) (map (le_bytes 8) ps)).
  { split.
    - intros x y Hx Hy. destruct (C x y Hx Hy) as (a & b & _ & _ & Sa & Sb & E). destruct (C y x Hy Hx) as (b' & a' & _ & _ & Sb' & Sa' & E').
      rewrite (str_inj _ _ _ _ Sb' Sb), (str_inj _ _ _ _ Sa' Sa) in E'. rewrite (lex_iff _ _ _ E), (lex_iff _ _ _ E'). pose proof (proj1 (C06_total_order a b a)). lia.
    - intros x y z Hx Hy Hz. destruct (C x y Hx Hy) as (a & b & _ & _ & Sa & Sb & E). destruct (C y z Hy Hz) as (b' & c & _ & _ & Sb' & Sc & E').
      destruct (C x z Hx Hz) as (a' & c' & _ & _ & Sa' & Sc' & E''). rewrite (str_inj _ _ _ _ Sb' Sb) in E'. rewrite (str_inj _ _ _ _ Sa' Sa), (str_inj _ _ _ _ Sc' Sc) in E''.
      rewrite (lex_iff _ _ _ E), (lex_iff _ _ _ E'), (lex_iff _ _ _ E''). apply (proj2 (proj2 (C06_total_order a b c))). }
  destruct (C41_sorts (cmp_ptr fuel m) m base 8 _ fuel ltac:(unfold INT_MAX; lia) A) as (m' & arr' & E & A' & P & So & O); auto.
  { rewrite Z1. lia. } { rewrite Z1. nneg ps. lia. } { rewrite map_length. exact Hf. }
  rewrite Z1 in *. apply Permutation_sym in P. apply Permutation_map_inv in P as (ps' & -> & P). apply Permutation_sym in P.
  destruct (perm_forall2 _ _ _ (Permutation_sym P) l F) as (l' & Pc & Pl & F').
  assert (Lp : zlen ps' = zlen ps) by (unfold zlen; now rewrite (Permutation_length P)).
  exists m', ps', l'. split; [exact E|]. split; [|split; [exact Pc|split; [exact Pl|split; [|exact O]]]].
  - split; [exact (proj1 A')|]. eapply F2_impl; [|exact F']. cbn beta. intros p s (R & Ss & Ls & Ap). rewrite Lp. repeat (split; [assumption || lia|]).
    split; [eapply str_kept; eauto|]. auto.
  - intros i j a b Hij Ha Hb. destruct (Forall2_nth_r _ _ _ F' i a Ha) as (p & Hp & Rp & Sa & _). destruct (Forall2_nth_r _ _ _ F' j b Hb) as (q & Hq & Rq & Sb & _).
    assert (Ip : In (le_bytes 8 p) (map (le_bytes 8) ps)) by (apply in_map; eapply Permutation_in; [exact P|]; eapply nth_error_In; eauto).
    assert (Iq : In (le_bytes 8 q) (map (le_bytes 8) ps)) by (apply in_map; eapply Permutation_in; [exact P|]; eapply nth_error_In; eauto).
    destruct (C _ _ Ip Iq) as (a' & b' & _ & _ & Sa' & Sb' & E'). rewrite !le_get8 in * by lia.
    rewrite (str_inj _ _ _ _ Sa' Sa), (str_inj _ _ _ _ Sb' Sb) in E'. apply (proj1 (lex_iff _ _ _ E')).
    apply (So i j); [exact Hij| |]; apply map_nth_error; assumption.
Qed.
Print Assumptions C185_sort.

(* ---- searching ---- *)
Theorem C185_search : forall m base ps l key k fuel, strings_at m base ps l -> in_order l -> 0 < base -> str_at m key k -> zlen k <= INT_MAX ->
  8 * zlen ps <= LONG_MAX -> (length ps < fuel)%nat -> (length k < fuel)%nat ->
  exists r, bsearch (cmp_key fuel m key) fuel m base (zlen ps) 8 = Ok r /\
    ((r = 0 /\ ~ In k l) \/ exists i p, nth_error ps i = Some p /\ nth_error l i = Some k /\ r = base + 8 * Z.of_nat i).
Proof.
  intros m base ps l key k fuel [B F] So Hb Sk Lk HL Hf Hk. pose proof (array_of _ _ _ B) as A.
  assert (Z1 : zlen (map (le_bytes 8) ps) = zlen ps) by (unfold zlen; now rewrite map_length).
  assert (C : forall i x, nth_error (map (le_bytes 8) ps) i = Some x -> exists p s, nth_error ps i = Some p /\ nth_error l i = Some s /\ Z.sgn (cmp_key fuel m key x) = lexcmp k s).
  { intros i x Hx. assert (exists p, nth_error ps i = Some p /\ x = le_bytes 8 p) as (p & Ep & ->).
    { revert i Hx. generalize ps. intros qs. induction qs as [|q qs IH]; intros [|i] Hx; cbn [map nth_error] in Hx; try discriminate; [exists q; split; [reflexivity|congruence]|exact (IH i Hx)]. }
    destruct (Forall2_nth _ _ _ F i p Ep) as (s & Es & R & Ss & Ls & _). exists p, s. split; [exact Ep|]. split; [exact Es|].
    unfold cmp_key. rewrite le_get8 by lia. destruct (C06_strcmp k s fuel m key p Sk Ss Lk Hk) as (r & -> & E). exact E. }
  destruct (C42_bsearch (cmp_key fuel m key) m base 8 _ fuel ltac:(lia) Hb A) as (r & E & R); auto.
  { rewrite Z1. lia. } { rewrite Z1. nneg ps. lia. }
  { intros i j x y Hij Hx Hy. destruct (C i x Hx) as (p & a & _ & Ha & Ea). destruct (C j y Hy) as (q & b & _ & Hb' & Eb). rewrite Ea, Eb.
    pose proof (So i j a b Hij Ha Hb') as L. pose proof (C06_total_order k a b) as (A1 & A2 & A3). pose proof (C06_total_order b k a) as (B1 & B2 & B3).
    pose proof (C06_total_order a b k) as (D1 & D2 & D3). pose proof (C06_total_order b k a) as (G1 & G2 & G3).
    pose proof (proj1 (C06_total_order a k k)) as H1. pose proof (proj1 (C06_total_order k b k)) as H2. pose proof (proj1 (C06_total_order a b b)) as H3.
    rewrite <- Ea, <- Eb in *. destruct (Z.sgn_spec (cmp_key fuel m key x)) as [[? Q]|[[? Q]|[? Q]]], (Z.sgn_spec (cmp_key fuel m key y)) as [[? Q']|[[? Q']|[? Q']]]; rewrite Q, Q' in *; try lia. }
  { rewrite map_length. exact Hf. }
  rewrite Z1 in E. exists r. split; [exact E|]. destruct R as [(i & e & He & Ze & ->)|[-> Hall]].
  - right. destruct (C i e He) as (p & s & Ep & Es & Eq). rewrite Ze in Eq. change (Z.sgn 0) with 0 in Eq. symmetry in Eq. apply (proj1 (proj2 (C06_total_order k s s))) in Eq. subst s.
    exists i, p. auto.
  - left. split; [reflexivity|]. intros I. apply In_nth_error in I as (i & Hi). destruct (Forall2_nth_r _ _ _ F i k Hi) as (p & Hp & _).
    destruct (C i (le_bytes 8 p) (map_nth_error _ _ _ Hp)) as (p' & s & _ & Es & Eq). rewrite Hi in Es. inversion Es. subst s.
    rewrite (proj2 (proj1 (proj2 (C06_total_order k k k))) eq_refl) in Eq. rewrite Forall_forall in Hall.
    apply (Hall (le_bytes 8 p)); [apply in_map; eapply nth_error_In; eauto|]. destruct (cmp_key fuel m key (le_bytes 8 p)); cbn in Eq; lia.
Qed.
Print Assumptions C185_search.
(* both: after sorting, every string that was in the array is found, and nothing else *)
Theorem C185_dictionary : forall m base ps l key k fuel, strings_at m base ps l -> 0 < base -> str_at m key k -> zlen k <= INT_MAX ->
  apart key (zlen k + 1) base (8 * zlen ps) -> 16 * zlen ps + 8 <= LONG_MAX -> (length ps + 1 < fuel)%nat -> Forall (fun s => (length s < fuel)%nat) (k :: l) ->
  exists m' r, qsort (cmp_ptr fuel m) fuel m base (zlen ps) 8 = Ok m' /\ bsearch (cmp_key fuel m' key) fuel m' base (zlen ps) 8 = Ok r /\
    (r <> 0 <-> In k l) /\ (r <> 0 -> exists p, bytes_at m' r (le_bytes 8 p) /\ str_at m' p k).
Proof.
  intros m base ps l key k fuel S Hb Sk Lk Ap HL Hf Hl. apply Forall_cons_iff in Hl as [Hk Hl].
  destruct (C185_sort m base ps l fuel S HL Hf Hl) as (m' & ps' & l' & E & S' & _ & P & So & O).
  assert (Lp : zlen ps' = zlen ps).
  { unfold zlen. destruct S as [_ F], S' as [_ F']. apply Forall2_len in F, F'. apply Permutation_length in P. lia. }
  destruct (C185_search m' base ps' l' key k fuel S' So Hb) as (r & E' & R); auto.
  { eapply str_kept; eauto. } { rewrite Lp. nneg ps. lia. } { unfold zlen in Lp. lia. }
  rewrite Lp in E'. exists m', r. split; [exact E|]. split; [exact E'|]. destruct R as [[-> N]|(i & p & Hp & Hs & ->)].
  - split; [|congruence]. split; [congruence|]. intros I. exfalso. apply N. eapply Permutation_in; eauto.
  - split; [split; [intros _; eapply Permutation_in; [apply Permutation_sym; exact P|]; eapply nth_error_In; eauto|lia]|]. intros _. exists p.
    destruct S' as [B' F']. destruct (Forall2_nth _ _ _ F' i p Hp) as (s & Hs' & _ & Ss & _). rewrite Hs in Hs'. inversion Hs'. subst s. split; [|exact Ss].
    apply nth_error_split in Hp as (p1 & p2 & -> & Li). rewrite map_app, concat_app in B'. apply bytes_at_app in B' as [_ B']. cbn [map concat] in B'. apply bytes_at_app in B' as [B' _].
    replace (8 * Z.of_nat i) with (zlen (concat (map (le_bytes 8) p1))); [exact B'|]. subst i. clear. induction p1 as [|q p1 IH]; [reflexivity|]. cbn [map concat length]. rewrite zlen_app, IH, le_zlen. lia.
Qed.
Print Assumptions C185_dictionary.
(* "pear", "fig", "apple", "fig" *)
Definition ex_words : list (list Z) := [[112; 101; 97; 114]; [102; 105; 103]; [97; 112; 112; 108; 101]; [102; 105; 103]].
Definition ex_ptrs : list Z := [2000; 2005; 2009; 2015].
Definition ex_words_m : mem := mem_of [(1000, concat (map (le_bytes 8) ex_ptrs)); (2000, concat (map (fun s => s ++ [0]) ex_words)); (3000, [102; 105; 103; 0]); (3004, [102; 0])].
Example C185_case : strings_at ex_words_m 1000 ex_ptrs ex_words /\ str_at ex_words_m 3000 [102; 105; 103] /\ apart 3000 4 1000 32 /\
  match qsort (cmp_ptr 9 ex_words_m) 9 ex_words_m 1000 4 8 with
  | Ok m => bytes_at m 1000 (concat (map (le_bytes 8) [2009; 2005; 2015; 2000])) \/ bytes_at m 1000 (concat (map (le_bytes 8) [2009; 2015; 2005; 2000]))
  | _ => False
  end.
Proof.
  split; [|split; [cbn [str_at]; repeat (split; [reflexivity|split; [lia|]]); reflexivity|split; [unfold apart; lia|]]].
  - split; [vm_compute; repeat split|]. unfold ex_ptrs at 2, ex_words. repeat (apply Forall2_cons; [split; [lia|split; [cbn [str_at]; repeat (split; [reflexivity|split; [lia|]]); reflexivity|split; [unfold zlen, INT_MAX; cbn [length]; lia|unfold apart, zlen, ex_ptrs; cbn [length]; lia]]]|]). apply Forall2_nil.
  - vm_compute. (left; repeat split; reflexivity) || (right; repeat split; reflexivity).
Qed.
