(* Arrays as functions: rearrangements by bijections; contrib/qsort.h. *)
From Verif Require Import Base BaseLemmas KsortModel KsortSpec.

Lemma u64_id z : 0 <= z < 18446744073709551616 -> u64 z = z.
Proof. intros H. unfold u64. apply Z.mod_small. exact H. Qed.

Section arrays.
Context {A : Type}.
Implicit Types a b c : arr A.

Definition moved (l r : Z) a b : Prop := exists p q : Z -> Z,
  (forall x, q (p x) = x) /\ (forall x, p (q x) = x) /\ (forall x, ~ (l <= x <= r) -> p x = x) /\ forall x, b x = a (p x).

Lemma moved_refl l r a : moved l r a a.
Proof. exists (fun x => x), (fun x => x). repeat split; auto. Qed.
Lemma moved_trans l r a b c : moved l r a b -> moved l r b c -> moved l r a c.
Proof.
  intros (p & q & P1 & P2 & P3 & P4) (p' & q' & Q1 & Q2 & Q3 & Q4).
  exists (fun x => p (p' x)), (fun x => q' (q x)). repeat split; intros.
  - now rewrite P1, Q1.
  - now rewrite Q2, P2.
  - rewrite (Q3 x) by auto. now apply P3.
  - now rewrite Q4, P4.
Qed.
Lemma moved_sub l r l' r' a b : moved l r a b -> l' <= l -> r <= r' -> moved l' r' a b.
Proof.
  intros (p & q & P1 & P2 & P3 & P4) H1 H2. exists p, q. repeat split; auto. intros x Hx. apply P3. lia.
Qed.
Lemma moved_out l r a b x : moved l r a b -> ~ (l <= x <= r) -> b x = a x.
Proof. intros (p & q & P1 & P2 & P3 & P4) Hx. now rewrite P4, P3. Qed.
Lemma moved_in l r a b x : moved l r a b -> l <= x <= r -> exists y, l <= y <= r /\ b x = a y.
Proof.
  intros (p & q & P1 & P2 & P3 & P4) Hx. exists (p x). split; [|apply P4].
  destruct (Z_le_dec l (p x)); destruct (Z_le_dec (p x) r); try lia.
  - assert (E : p (p x) = p x) by (apply P3; lia). apply (f_equal q) in E. rewrite !P1 in E. lia.
  - assert (E : p (p x) = p x) by (apply P3; lia). apply (f_equal q) in E. rewrite !P1 in E. lia.
Qed.
Definition swp a i j : arr A := fun x => if x =? j then a i else if x =? i then a j else a x.
Lemma moved_swp l r a i j : l <= i <= r -> l <= j <= r -> moved l r a (swp a i j).
Proof.
  intros Hi Hj. set (p := fun x => if x =? j then i else if x =? i then j else x).
  exists p, p. assert (PP : forall x, p (p x) = x).
  { intros x. unfold p. destruct (Z.eqb_spec x j) as [->|N1].
    - destruct (Z.eqb_spec i j); [lia|]. now rewrite Z.eqb_refl.
    - destruct (Z.eqb_spec x i) as [->|N2]; [now rewrite Z.eqb_refl|]. destruct (Z.eqb_spec x j); [lia|]. destruct (Z.eqb_spec x i); lia. }
  repeat split; auto.
  - intros x Hx. unfold p. destruct (Z.eqb_spec x j); [lia|]. destruct (Z.eqb_spec x i); lia.
  - intros x. unfold swp, p. destruct (x =? j); [reflexivity|]. now destruct (x =? i).
Qed.

(* ---- the elements as a list ---- *)
Lemma elems_map : forall k a l, elems a l k = map a (map (fun i => l + Z.of_nat i) (seq 0 k)).
Proof.
  induction k; intros a l; [reflexivity|]. cbn [elems seq map]. rewrite Z.add_0_r. f_equal. rewrite IHk. rewrite !map_map.
  rewrite <- (seq_shift k 0), map_map. apply map_ext. intros i. f_equal. lia.
Qed.
Lemma elems_length : forall k a l, length (elems a l k) = k.
Proof. induction k; intros; cbn [elems length]; auto. Qed.
Lemma moved_rearranged n a b : moved 0 (n - 1) a b -> rearranged a b n.
Proof.
  intros M. split; [|intros i Hi; apply (moved_out _ _ _ _ _ M); lia].
  pose proof M as (p & q & P1 & P2 & P3 & P4). rewrite !elems_map.
  set (s := map (fun i => 0 + Z.of_nat i) (seq 0 (Z.to_nat n))).
  assert (E : map b s = map a (map p s)) by (rewrite map_map; apply map_ext; intros; apply P4). rewrite E. apply Permutation_map.
  assert (IN : forall x, In x s <-> 0 <= x < n).
  { intros x. unfold s. rewrite in_map_iff. split.
    - intros (i & <- & Hi). apply in_seq in Hi. lia.
    - intros Hx. exists (Z.to_nat x). split; [lia|]. apply in_seq. lia. }
  assert (ND : NoDup s).
  { unfold s. apply FinFun.Injective_map_NoDup; [|apply seq_NoDup]. intros i j. lia. }
  assert (pin : forall x, 0 <= x < n -> 0 <= p x < n).
  { intros x Hx. destruct (Z_le_dec 0 (p x)); destruct (Z_lt_dec (p x) n); try lia;
    (assert (E1 : p (p x) = p x) by (apply P3; lia); apply (f_equal q) in E1; rewrite !P1 in E1; lia). }
  assert (qin : forall x, 0 <= x < n -> 0 <= q x < n).
  { intros x Hx. destruct (Z_le_dec 0 (q x)); destruct (Z_lt_dec (q x) n); try lia;
    (assert (E1 : p (q x) = q x) by (apply P3; lia); rewrite P2 in E1; lia). }
  apply NoDup_Permutation; auto.
  - apply FinFun.Injective_map_NoDup; auto. intros x y Hxy. apply (f_equal q) in Hxy. now rewrite !P1 in Hxy.
  - intros x. rewrite in_map_iff. split.
    + intros Hx. exists (q x). split; [apply P2|]. apply IN, qin, IN, Hx.
    + intros (y & <- & Hy). apply IN, pin, IN, Hy.
Qed.

Lemma get_ok n a i : 0 <= i < n -> get n a i = Ok (a i).
Proof. intros H. unfold get. replace ((0 <=? i) && (i <? n)) with true by lia. reflexivity. Qed.
Lemma set_ok n a i v : 0 <= i < n -> set n a i v = Ok (fun x => if x =? i then v else a x).
Proof. intros H. unfold set. replace ((0 <=? i) && (i <? n)) with true by lia. reflexivity. Qed.
Lemma swap_ok n a i j : 0 <= i < n -> 0 <= j < n -> swap n a i j = Ok (swp a i j).
Proof. intros Hi Hj. unfold swap. rewrite !get_ok, bind_Ok by auto. rewrite bind_Ok. rewrite set_ok, bind_Ok by auto. rewrite set_ok by auto. reflexivity. Qed.
Lemma less_ok (lt : A -> A -> bool) n a i j : 0 <= i < n -> 0 <= j < n -> less lt n a i j = Ok (lt (a i) (a j)).
Proof. intros Hi Hj. unfold less. rewrite !get_ok, bind_Ok by auto. rewrite bind_Ok. reflexivity. Qed.
Lemma swp_l a i j : swp a i j i = a j.
Proof. unfold swp. destruct (Z.eqb_spec i j) as [->|]; [reflexivity|]. now rewrite Z.eqb_refl. Qed.
Lemma swp_r a i j : swp a i j j = a i.
Proof. unfold swp. now rewrite Z.eqb_refl. Qed.
Lemma swp_o a i j x : x <> i -> x <> j -> swp a i j x = a x.
Proof. intros H1 H2. unfold swp. destruct (Z.eqb_spec x j); [lia|]. destruct (Z.eqb_spec x i); [lia|reflexivity]. Qed.
End arrays.
Ltac sw := repeat first [rewrite swp_l | rewrite swp_r | rewrite swp_o by lia].

Section order.
Context {A : Type}.
Variable lt : A -> A -> bool.
Hypothesis SW : strict_weak lt.
Implicit Types a b c : arr A.

Definition le (x y : A) : Prop := lt y x = false.
Lemma le_trans x y z : le x y -> le y z -> le x z.
Proof. apply SW. Qed.
Lemma lt_le x y : lt x y = true -> le x y.
Proof. apply SW. Qed.
Lemma le_refl x : le x x.
Proof. unfold le. destruct (lt x x) eqn:E; auto. rewrite <- E. now apply SW. Qed.
Lemma le_or x y : le x y \/ lt y x = true.
Proof. unfold le. destruct (lt y x); auto. Qed.

Definition ord (l r : Z) a : Prop := forall i j, l <= i < j -> j <= r -> le (a i) (a j).

(* ---- Q_SORT3 ---- *)
Lemma sort3_ok n a l r x y z : 0 <= l -> r < n -> l <= x -> x < y -> y < z -> z <= r ->
  exists b, q_sort3 lt n a x y z = Ok b /\ moved l r a b /\ le (b x) (b y) /\ le (b y) (b z) /\ (forall i, i <> x -> i <> y -> i <> z -> b i = a i).
Proof.
  intros Hl Hr H1 H2 H3 H4. unfold q_sort3. rewrite !less_ok, !bind_Ok by lia.
  assert (O : forall b i j, l <= i <= r -> l <= j <= r -> swap n b i j = Ok (swp b i j)) by (intros; apply swap_ok; lia).
  assert (T : forall b i j, l <= i <= r -> l <= j <= r -> moved l r b (swp b i j)) by (intros; apply moved_swp; lia).
  assert (E : forall u v w : Z, u <> w -> v <> w -> forall b, swp b u v w = b w) by (intros; apply swp_o; lia).
  destruct (lt (a y) (a x)) eqn:A1.
  - destruct (lt (a z) (a y)) eqn:A2.
    + rewrite O by lia. eexists. split; [reflexivity|]. split; [apply T; lia|]. sw.
      split; [now apply lt_le|]. split; [now apply lt_le|]. intros; apply swp_o; lia.
    + rewrite O, bind_Ok by lia. rewrite less_ok, bind_Ok by lia. sw.
      destruct (lt (a z) (a x)) eqn:A3.
      * rewrite O by lia. eexists. split; [reflexivity|]. split; [eapply moved_trans; apply T; lia|]. sw.
        split; [exact A2|]. split; [now apply lt_le|]. intros; rewrite !swp_o; auto.
      * eexists. split; [reflexivity|]. split; [apply T; lia|]. sw.
        split; [now apply lt_le|]. split; [exact A3|]. intros; apply swp_o; lia.
  - destruct (lt (a z) (a y)) eqn:A2.
    + rewrite O, bind_Ok by lia. rewrite less_ok, bind_Ok by lia. sw.
      destruct (lt (a z) (a x)) eqn:A3.
      * rewrite O by lia. eexists. split; [reflexivity|]. split; [eapply moved_trans; apply T; lia|]. sw.
        split; [now apply lt_le|]. split; [exact A1|]. intros; rewrite !swp_o; auto.
      * eexists. split; [reflexivity|]. split; [apply T; lia|]. sw.
        split; [exact A3|]. split; [now apply lt_le|]. intros; apply swp_o; lia.
    + exists a. split; [reflexivity|]. split; [apply moved_refl|]. split; [exact A1|]. split; [exact A2|auto].
Qed.

(* ---- the scans ---- *)
Lemma up_ok n a l j : n < 18446744073709551616 -> 0 <= l < n -> j < n -> le (a l) (a j) ->
  forall f i, 0 <= i -> i < j -> (Z.to_nat (j - i) < f)%nat ->
  exists i1, q_up lt f n a l i = Ok i1 /\ i < i1 <= j /\ le (a l) (a i1) /\ forall x, i < x < i1 -> le (a x) (a l).
Proof.
  intros Hn Hl Hj Hle. induction f as [|f IH]; intros i Hi Hij Hf; [lia|]. cbn [q_up]. rewrite u64_id by lia.
  rewrite less_ok, bind_Ok by lia. destruct (lt (a (i + 1)) (a l)) eqn:E.
  - destruct (Z.eq_dec (i + 1) j) as [<-|N]; [unfold le in Hle; congruence|].
    destruct (IH (i + 1)) as (i1 & E1 & E2 & E3 & E4); [lia|lia|lia|]. exists i1. split; [exact E1|]. split; [lia|]. split; [exact E3|].
    intros x Hx. destruct (Z.eq_dec x (i + 1)) as [->|]; [now apply lt_le|apply E4; lia].
  - exists (i + 1). split; [reflexivity|]. split; [lia|]. split; [exact E|]. intros; lia.
Qed.
Lemma down_ok n a l i : n < 18446744073709551616 -> 0 <= l < n -> 0 <= i -> le (a i) (a l) ->
  forall f j, j <= n -> i < j -> (Z.to_nat (j - i) < f)%nat ->
  exists j1, q_down lt f n a l j = Ok j1 /\ i <= j1 < j /\ le (a j1) (a l) /\ forall x, j1 < x < j -> le (a l) (a x).
Proof.
  intros Hn Hl Hi Hle. induction f as [|f IH]; intros j Hj Hij Hf; [lia|]. cbn [q_down]. rewrite u64_id by lia.
  rewrite less_ok, bind_Ok by lia. destruct (lt (a l) (a (j - 1))) eqn:E.
  - destruct (Z.eq_dec (j - 1) i) as [<-|N]; [unfold le in Hle; congruence|].
    destruct (IH (j - 1)) as (j1 & E1 & E2 & E3 & E4); [lia|lia|lia|]. exists j1. split; [exact E1|]. split; [lia|]. split; [exact E3|].
    intros x Hx. destruct (Z.eq_dec x (j - 1)) as [->|]; [now apply lt_le|apply E4; lia].
  - exists (j - 1). split; [reflexivity|]. split; [lia|]. split; [exact E|]. intros; lia.
Qed.

Lemma part_loop_ok n l r g : n < 18446744073709551616 -> 0 <= l -> r < n -> (Z.to_nat (r - l) < g)%nat ->
  forall f a i j, l < i -> i < j -> j <= r -> (Z.to_nat (j - i) < f)%nat ->
  (forall x, l < x <= i -> le (a x) (a l)) -> (forall x, j <= x <= r -> le (a l) (a x)) ->
  exists b p, q_part_loop lt f g n a l i j = Ok (b, p) /\ moved (l + 1) r a b /\ l < p < r /\
    (forall x, l < x <= p -> le (b x) (b l)) /\ (forall x, p < x <= r -> le (b l) (b x)).
Proof.
  intros Hn Hl Hr Hg. induction f as [|f IH]; intros a i j H1 H2 H3 Hf HA HB; [lia|]. cbn [q_part_loop].
  destruct (up_ok n a l j Hn ltac:(lia) ltac:(lia) (HB j ltac:(lia)) g i ltac:(lia) H2 ltac:(lia)) as (i1 & E1 & I1 & I2 & I3). rewrite E1, bind_Ok.
  destruct (down_ok n a l i Hn ltac:(lia) ltac:(lia) (HA i ltac:(lia)) g j ltac:(lia) H2 ltac:(lia)) as (j1 & E2 & J1 & J2 & J3). rewrite E2, bind_Ok.
  destruct (Z.leb_spec j1 i1) as [L|L].
  - exists a, j1. split; [reflexivity|]. split; [apply moved_refl|]. split; [lia|]. split.
    + intros x Hx. destruct (Z_le_dec x i); [apply HA; lia|]. destruct (Z.eq_dec x j1) as [->|]; [exact J2|]. apply I3. lia.
    + intros x Hx. destruct (Z_le_dec j x); [apply HB; lia|]. apply J3. lia.
  - rewrite swap_ok, bind_Ok by lia.
    assert (SL : swp a i1 j1 l = a l) by (apply swp_o; lia).
    destruct (IH (swp a i1 j1) i1 j1) as (b & p & E & M & P1 & P2 & P3); [lia|lia|lia|lia| | |].
    + intros x Hx. rewrite SL. destruct (Z.eq_dec x i1) as [->|]; [rewrite swp_l; exact J2|]. rewrite swp_o by lia.
      destruct (Z_le_dec x i); [apply HA; lia|apply I3; lia].
    + intros x Hx. rewrite SL. destruct (Z.eq_dec x j1) as [->|]; [rewrite swp_r; exact I2|]. rewrite swp_o by lia.
      destruct (Z_le_dec j x); [apply HB; lia|apply J3; lia].
    + exists b, p. split; [exact E|]. split; [eapply moved_trans; [|exact M]; apply moved_swp; lia|auto].
Qed.

Lemma partition_ok n a l r f : n < 18446744073709551616 -> 0 <= l -> l + 4 <= r -> r < n -> (Z.to_nat (r - l) < f)%nat ->
  exists b p, q_partition lt f n a l r = Ok (b, p + 1, p - 1) /\ moved l r a b /\ l < p < r /\
    (forall x, l <= x < p -> le (b x) (b p)) /\ (forall x, p < x <= r -> le (b p) (b x)).
Proof.
  intros Hn Hl Hlr Hr Hf. unfold q_partition.
  set (m := l + (r - l) / 2). assert (Hm : l + 1 < m < r).
  { unfold m. pose proof (Z.div_mod (r - l) 2 ltac:(lia)). pose proof (Z.mod_pos_bound (r - l) 2 ltac:(lia)). lia. }
  assert (Em : u64 (l + u64 (r - l) / 2) = m) by (rewrite (u64_id (r - l)) by lia; apply u64_id; fold m; lia). rewrite Em. clear Em. cbv zeta.
  rewrite (u64_id (l + 1)) by lia.
  destruct (sort3_ok n a l r (l + 1) m r) as (a1 & E1 & M1 & L1 & L2 & O1); try lia. rewrite E1, bind_Ok.
  rewrite swap_ok, bind_Ok by lia. set (a2 := swp a1 l m).
  assert (A2 : a2 l = a1 m /\ a2 (l + 1) = a1 (l + 1) /\ a2 r = a1 r).
  { unfold a2. rewrite swp_l. split; [reflexivity|]. split; apply swp_o; lia. }
  destruct A2 as (Al & Al1 & Ar).
  destruct (part_loop_ok n l r f Hn Hl Hr Hf f a2 (l + 1) r) as (b & p & E & M & P1 & P2 & P3); [lia|lia|lia|lia| | |].
  - intros x Hx. replace x with (l + 1) by lia. now rewrite Al1, Al.
  - intros x Hx. replace x with r by lia. now rewrite Ar, Al.
  - rewrite E, bind_Ok. cbn beta iota. rewrite swap_ok, bind_Ok by lia. rewrite !u64_id by lia.
    exists (swp b l p), p. split; [reflexivity|]. split; [|split; [exact P1|]].
    + eapply moved_trans; [exact M1|]. eapply moved_trans; [apply (moved_swp l r a1 l m); lia|]. fold a2.
      eapply moved_trans; [eapply moved_sub; [exact M| |]; lia|]. apply moved_swp; lia.
    + rewrite swp_r. split.
      * intros x Hx. destruct (Z.eq_dec x l) as [->|]; [rewrite swp_l; apply P2; lia|]. rewrite swp_o by lia. apply P2. lia.
      * intros x Hx. rewrite swp_o by lia. apply P3. lia.
Qed.

(* ---- insertion sort ---- *)
Lemma ins_inner_ok n l i : n < 18446744073709551616 -> 0 <= l -> i < n -> forall f a j, l <= j <= i -> (Z.to_nat (j - l) < f)%nat ->
  ord l (j - 1) a -> ord j i a -> (forall x y, l <= x < j -> j < y <= i -> le (a x) (a y)) ->
  exists b, q_ins_inner lt f n a l j = Ok b /\ moved l i a b /\ ord l i b.
Proof.
  intros Hn Hl Hi. induction f as [|f IH]; intros a j Hj Hf O1 O2 O3; [lia|]. cbn [q_ins_inner].
  destruct (Z.ltb_spec l j) as [L|L].
  - rewrite (u64_id (j - 1)) by lia. rewrite less_ok, bind_Ok by lia. destruct (lt (a j) (a (j - 1))) eqn:E.
    + rewrite swap_ok, bind_Ok by lia.
      destruct (IH (swp a j (j - 1)) (j - 1)) as (b & E1 & M & O); [lia|lia| | | |].
      * intros x y Hx Hy. rewrite !swp_o by lia. apply O1; lia.
      * intros x y Hx Hy. destruct (Z.eq_dec x (j - 1)) as [->|].
        -- rewrite swp_r. destruct (Z.eq_dec y j) as [->|]; [rewrite swp_l; now apply lt_le|]. rewrite swp_o by lia. apply O2; lia.
        -- rewrite (swp_o a j (j - 1) y) by lia. destruct (Z.eq_dec x j) as [->|]; [rewrite swp_l; apply O3; lia|]. rewrite swp_o by lia. apply O2; lia.
      * intros x y Hx Hy. rewrite (swp_o a j (j - 1) x) by lia. destruct (Z.eq_dec y j) as [->|]; [rewrite swp_l; apply O1; lia|]. rewrite swp_o by lia. apply O3; lia.
      * exists b. split; [exact E1|]. split; [|exact O]. eapply moved_trans; [|exact M]. apply moved_swp; lia.
    + exists a. split; [reflexivity|]. split; [apply moved_refl|]. intros x y Hx Hy.
      destruct (Z_lt_dec x j) as [Lx|Lx].
      * destruct (Z_lt_dec y j); [apply O1; lia|]. destruct (Z.eq_dec y j) as [->|]; [|apply O3; lia].
        destruct (Z.eq_dec x (j - 1)) as [->|]; [exact E|]. eapply le_trans; [apply (O1 x (j - 1)); lia|exact E].
      * apply O2; lia.
  - exists a. split; [reflexivity|]. split; [apply moved_refl|]. replace j with l in O2 by lia. exact O2.
Qed.
Lemma insertion_ok n l r g : n < 18446744073709551616 -> 0 <= l -> r < n -> (Z.to_nat (r - l) < g)%nat ->
  forall f a i, l < i <= r + 1 -> (Z.to_nat (r + 1 - i) < f)%nat -> ord l (i - 1) a ->
  exists b, q_insertion lt f g n a l r i = Ok b /\ moved l r a b /\ ord l r b.
Proof.
  intros Hn Hl Hr Hg. induction f as [|f IH]; intros a i Hi Hf O; [lia|]. cbn [q_insertion]. destruct (Z.leb_spec i r) as [L|L].
  - destruct (ins_inner_ok n l i Hn Hl ltac:(lia) g a i) as (b & E & M & Ob); [lia|lia|exact O|intros x y; lia|intros x y; lia|].
    rewrite E, bind_Ok. rewrite u64_id by lia. destruct (IH b (i + 1)) as (c & E1 & M1 & O1); [lia|lia|replace (i + 1 - 1) with i by lia; exact Ob|].
    exists c. split; [exact E1|]. split; [|exact O1]. eapply moved_trans; [eapply moved_sub; [exact M| |]; lia|exact M1].
  - exists a. split; [reflexivity|]. split; [apply moved_refl|]. replace (i - 1) with r in O by lia. exact O.
Qed.

(* ---- the main loop ---- *)
Definition inseg (s : Z * Z) (x : Z) : Prop := fst s <= x <= snd s.
(* the pending segments: disjoint, nonempty, inside the array *)
Fixpoint segs_ok (n : Z) (ss : list (Z * Z)) : Prop :=
  match ss with
  | [] => True
  | s :: r => 0 <= fst s <= snd s /\ snd s < n /\ (forall t x, In t r -> inseg s x -> ~ inseg t x) /\ segs_ok n r
  end.
(* elements that are not in the same pending segment are in order *)
Definition cross (n : Z) a (ss : list (Z * Z)) : Prop :=
  forall i j, 0 <= i < j -> j < n -> (forall s, In s ss -> ~ (inseg s i /\ inseg s j)) -> le (a i) (a j).
Fixpoint total (ss : list (Z * Z)) : Z := match ss with [] => 0 | s :: r => snd s - fst s + 1 + total r end.
(* the segment popped at depth d has at most n / 2^d elements *)
Fixpoint depth_ok (n : Z) (ss : list (Z * Z)) : Prop :=
  match ss with [] => True | s :: r => (snd s - fst s + 1) * 2 ^ Z.of_nat (length r) <= n /\ depth_ok n r end.
Lemma total_pos n ss : segs_ok n ss -> Z.of_nat (length ss) <= total ss.
Proof. induction ss as [|s r IH]; cbn [segs_ok total length]; [lia|]. intros (H1 & H2 & H3 & H4). specialize (IH H4). lia. Qed.

(* rearranging one pending segment *)
Lemma cross_moved n a b s r ss : moved (fst s) (snd s) a b -> 0 <= fst s -> snd s < n -> cross n a (s :: r) ->
  (forall t, In t r -> In t ss) -> (forall t x, In t r -> inseg s x -> ~ inseg t x) ->
  (forall t, In t ss -> In t r \/ (forall x, inseg t x -> inseg s x)) ->
  (forall i j, inseg s i -> inseg s j -> i < j -> (forall t, In t ss -> ~ (inseg t i /\ inseg t j)) -> le (b i) (b j)) ->
  cross n b ss.
Proof.
  intros M Hl Hr C H1 HD H2 H3 i j Hi Hj Hn.
  assert (D : forall x, inseg s x \/ ~ inseg s x) by (intros x; unfold inseg; lia).
  destruct (D i) as [Ii|Ii]; destruct (D j) as [Ij|Ij].
  - apply H3; auto; lia.
  - destruct (moved_in _ _ _ _ _ M Ii) as (y & Hy & ->). rewrite (moved_out _ _ _ _ j M Ij).
    apply C; unfold inseg in *; try lia. intros t [<-|Ht] [K1 K2]; [cbn in *; lia|]. apply (HD t y Ht); auto.
  - destruct (moved_in _ _ _ _ _ M Ij) as (y & Hy & ->). rewrite (moved_out _ _ _ _ i M Ii).
    apply C; unfold inseg in *; try lia. intros t [<-|Ht] [K1 K2]; [cbn in *; lia|]. apply (HD t y Ht); auto.
  - rewrite (moved_out _ _ _ _ i M Ii), (moved_out _ _ _ _ j M Ij). apply C; auto. intros t [<-|Ht] K; [tauto|]. apply (Hn t); auto.
Qed.

Lemma loop_ok n cap g : n < 18446744073709551616 -> n < 16 * 2 ^ Z.of_nat cap -> (Z.to_nat n < g)%nat ->
  forall f a l r st, segs_ok n ((l, r) :: st) -> cross n a ((l, r) :: st) -> depth_ok n ((l, r) :: st) ->
  (Z.to_nat (total ((l, r) :: st)) < f)%nat ->
  exists b, q_loop lt f g cap n a l r st = Ok b /\ moved 0 (n - 1) a b /\ ord 0 (n - 1) b.
Proof.
  intros Hn Hcap Hg. induction f as [|f IH]; intros a l r st HS HC HD Hf; [lia|].
  pose proof HS as (S1 & S2 & S3 & S4). cbn [fst snd] in S1, S2. pose proof (total_pos n st S4) as TP. cbn [total fst snd] in Hf.
  cbn [q_loop]. rewrite (u64_id (r - l)) by lia. rewrite (u64_id (r - l + 1)) by lia.
  destruct (Z.leb_spec 16 (r - l + 1)) as [L|L].
  - destruct (partition_ok n a l r g) as (b & p & E & M & P1 & P2 & P3); [lia|lia|lia|lia|lia|]. rewrite E, bind_Ok. cbn beta iota.
    rewrite (u64_id (r - (p + 1))), (u64_id (p - 1 - l)) by lia.
    assert (MV : moved 0 (n - 1) a b) by (eapply moved_sub; [exact M| |]; lia).
    cbn [depth_ok fst snd] in HD. destruct HD as [D1 D2].
    assert (PW : 0 < 2 ^ Z.of_nat (length st)) by (apply Z.pow_pos_nonneg; lia).
    (* the two subfiles, first the larger one *)
    set (big := if r - (p + 1) <=? p - 1 - l then (l, p - 1) else (p + 1, r)).
    set (sml := if r - (p + 1) <=? p - 1 - l then (p + 1, r) else (l, p - 1)).
    assert (EQ : (if r - (p + 1) <=? p - 1 - l then (l, p - 1, p + 1, r) else (p + 1, r, l, p - 1)) = (fst big, snd big, fst sml, snd sml)).
    { unfold big, sml. destruct (r - (p + 1) <=? p - 1 - l); reflexivity. }
    rewrite EQ. clear EQ.
    assert (BS : (big = (l, p - 1) /\ sml = (p + 1, r) /\ r - (p + 1) <= p - 1 - l) \/ (big = (p + 1, r) /\ sml = (l, p - 1) /\ p - 1 - l <= r - (p + 1))).
    { unfold big, sml. destruct (Z.leb_spec (r - (p + 1)) (p - 1 - l)); [left|right]; repeat split; lia. }
    clearbody big sml.
    assert (B0 : 0 <= fst big <= snd big /\ snd big < n /\ (forall x, inseg big x -> l <= x <= r)) by (unfold inseg; destruct BS as [(-> & -> & ?)|(-> & -> & ?)]; cbn [fst snd]; repeat split; lia).
    assert (B1 : 0 <= fst sml <= snd sml /\ snd sml < n /\ (forall x, inseg sml x -> l <= x <= r)) by (unfold inseg; destruct BS as [(-> & -> & ?)|(-> & -> & ?)]; cbn [fst snd]; repeat split; lia).
    assert (BD : forall x, inseg sml x -> ~ inseg big x) by (intros x; unfold inseg; destruct BS as [(-> & -> & ?)|(-> & -> & ?)]; cbn [fst snd]; lia).
    assert (BT : snd big - fst big + 1 + (snd sml - fst sml + 1) = r - l) by (destruct BS as [(-> & -> & ?)|(-> & -> & ?)]; cbn [fst snd]; lia).
    assert (BL : snd sml - fst sml <= snd big - fst big) by (destruct BS as [(-> & -> & ?)|(-> & -> & ?)]; cbn [fst snd]; lia).
    assert (BO : forall i j, l <= i -> i < j -> j <= r -> ~ (inseg big i /\ inseg big j) -> ~ (inseg sml i /\ inseg sml j) -> le (b i) (b j)).
    { intros i j Hi Hij Hj N1 N2. assert (Q : i <= p <= j) by (unfold inseg in *; destruct BS as [(-> & -> & ?)|(-> & -> & ?)]; cbn [fst snd] in *; lia).
      destruct (Z.eq_dec i p) as [->|]; [apply P3; lia|]. destruct (Z.eq_dec j p) as [->|]; [apply P2; lia|].
      eapply le_trans; [apply P2; lia|apply P3; lia]. }
    destruct B0 as (B01 & B02 & B03). destruct B1 as (B11 & B12 & B13).
    assert (ST : forall t x, In t st -> l <= x <= r -> ~ inseg t x) by (intros t x Ht Hx; apply (S3 t x Ht); unfold inseg; cbn [fst snd]; lia).
    destruct (Z.eqb_spec (fst sml) (snd sml)) as [Es|Es].
    + destruct (IH b (fst big) (snd big) st) as (c & E1 & M1 & O1).
      * cbn [segs_ok fst snd]. repeat split; try lia; auto.
      * apply (cross_moved n a b (l, r) st); cbn [fst snd]; auto; try lia.
        -- intros t Ht. now right.
        -- intros t [<-|Ht]; [right|now left]. intros x Hx. apply B03 in Hx. exact Hx.
        -- unfold inseg at 1 2. cbn [fst snd]. intros i j Hi Hj Hij Hno. apply BO; try lia.
           ++ intros K. apply (Hno (fst big, snd big)); [now left|exact K].
           ++ intros [K1 K2]. unfold inseg in *. lia.
      * cbn [depth_ok fst snd]. split; [|exact D2]. eapply Z.le_trans; [|exact D1]. apply Z.mul_le_mono_nonneg_r; lia.
      * cbn [total fst snd]. lia.
      * exists c. split; [exact E1|]. split; [|exact O1]. eapply moved_trans; eauto.
    + assert (HL : (length st <? cap)%nat = true).
      { apply Nat.ltb_lt. destruct (le_lt_dec cap (length st)) as [K|]; [exfalso|assumption].
        pose proof (Z.pow_le_mono_r 2 (Z.of_nat cap) (Z.of_nat (length st)) ltac:(lia) ltac:(lia)) as PQ.
        apply (Z.lt_irrefl n). eapply Z.lt_le_trans; [exact Hcap|]. eapply Z.le_trans; [|exact D1].
        apply Z.mul_le_mono_nonneg; lia. }
      rewrite HL. replace (fst big, snd big) with big by (destruct big; reflexivity).
      destruct (IH b (fst sml) (snd sml) (big :: st)) as (c & E1 & M1 & O1).
      * cbn [segs_ok fst snd]. repeat split; try lia; auto.
        intros t x [<-|Ht] Hx; [apply BD; exact Hx|]. apply (ST t x Ht). apply B13. exact Hx.
      * apply (cross_moved n a b (l, r) st); cbn [fst snd]; auto; try lia.
        -- intros t Ht. right. now right.
        -- intros t [<-|[<-|Ht]]; [right|right|now left]; intros x Hx; [apply B13 in Hx|apply B03 in Hx]; exact Hx.
        -- unfold inseg at 1 2. cbn [fst snd]. intros i j Hi Hj Hij Hno. apply BO; try lia.
           ++ intros K. apply (Hno big); [right; now left|exact K].
           ++ intros K. apply (Hno (fst sml, snd sml)); [now left|exact K].
      * cbn [depth_ok fst snd length]. split; [|split; [|exact D2]].
        -- rewrite Nat2Z.inj_succ, Z.pow_succ_r, Z.mul_assoc by lia. eapply Z.le_trans; [|exact D1]. apply Z.mul_le_mono_nonneg_r; lia.
        -- eapply Z.le_trans; [|exact D1]. apply Z.mul_le_mono_nonneg_r; lia.
      * cbn [total fst snd]. lia.
      * exists c. split; [exact E1|]. split; [|exact O1]. eapply moved_trans; eauto.
  - rewrite (u64_id (l + 1)) by lia.
    destruct (insertion_ok n l r g) with (f := g) (a := a) (i := l + 1) as (b & E & M & O); [lia|lia|lia|lia|lia|lia|intros x y; lia|].
    rewrite E, bind_Ok.
    assert (MV : moved 0 (n - 1) a b) by (eapply moved_sub; [exact M| |]; lia).
    assert (CB : cross n b st).
    { apply (cross_moved n a b (l, r) st); cbn [fst snd]; auto; try lia.
      unfold inseg at 1 2. cbn [fst snd]. intros i j Hi Hj Hij _. apply O; lia. }
    destruct st as [|[l' r'] st'].
    + exists b. split; [reflexivity|]. split; [exact MV|]. intros i j Hi Hj. apply CB; [lia|lia|intros s []].
    + destruct (IH b l' r' st') as (c & E1 & M1 & O1); auto.
      * cbn [depth_ok] in HD. apply HD.
      * cbn [total fst snd] in *. lia.
      * exists c. split; [exact E1|]. split; [|exact O1]. eapply moved_trans; eauto.
Qed.

Lemma qsort_h_ok f cap n a : n < 18446744073709551616 -> n < 16 * 2 ^ Z.of_nat cap -> (Z.to_nat n < f)%nat ->
  exists b, qsort_h lt f cap n a = Ok b /\ moved 0 (n - 1) a b /\ ord 0 (n - 1) b.
Proof.
  intros Hn Hc Hf. unfold qsort_h. destruct (Z.ltb_spec 1 n) as [L|L].
  - rewrite u64_id by lia. apply loop_ok; auto.
    + cbn [segs_ok fst snd]. repeat split; try lia. intros t x [].
    + intros i j Hi Hj H. exfalso. apply (H (0, n - 1)); [now left|]. unfold inseg. cbn [fst snd]. lia.
    + cbn [depth_ok fst snd length]. cbn. lia.
    + cbn [total fst snd]. lia.
  - exists a. split; [reflexivity|]. split; [apply moved_refl|]. intros i j; lia.
Qed.
End order.
