(* Proofs about compute_regions and compute_disps of shrinkelf. *)
From Verif Require Import Base BaseLemmas ShrinkModel ShrinkSpec.

Definition B32 := 4294967296.
Definition B64 := 18446744073709551616.

Lemma u64_id z : 0 <= z < B64 -> u64 z = z.
Proof. intros. unfold u64. apply Z.mod_small. exact H. Qed.
Lemma u32_id z : 0 <= z < B32 -> u32 z = z.
Proof. intros. unfold u32. apply Z.mod_small. exact H. Qed.
Lemma u32_le z : 0 <= z -> 0 <= u32 z <= z /\ u32 z < B32.
Proof.
  intros. unfold u32, B32. pose proof (Z.mod_pos_bound z 4294967296).
  pose proof (Z.mod_le z 4294967296). lia.
Qed.

(* sorted, disjoint, not adjacent, everything above lo *)
Fixpoint from (lo : Z) (rs : list region) : Prop :=
  match rs with
  | [] => True
  | r :: t => lo < r_off r /\ 0 <= r_sz r < B32 /\ r_off r + r_sz r < B64 /\
              from (r_off r + r_sz r) t
  end.

Definition cov (rs : list region) (x : Z) : Prop :=
  exists r, In r rs /\ r_off r <= x < r_off r + r_sz r.

Lemma from_weak lo lo' rs : lo <= lo' -> from lo' rs -> from lo rs.
Proof. destruct rs; cbn [from]; intros; [exact I|]. intuition lia. Qed.

Fixpoint endof (lo : Z) (rs : list region) : Z :=
  match rs with [] => lo | r :: t => endof (r_off r + r_sz r) t end.

Lemma from_app lo a b : from lo (a ++ b) <-> from lo a /\ from (endof lo a) b.
Proof.
  revert lo. induction a as [|r a IH]; intros; cbn [app from endof]; [tauto|].
  rewrite IH. tauto.
Qed.

Lemma endof_snoc lo a r : endof lo (a ++ [r]) = r_off r + r_sz r.
Proof. revert lo. induction a; intros; cbn [app endof]; auto. Qed.

Lemma endof_ge lo rs : from lo rs -> lo <= endof lo rs.
Proof.
  revert lo. induction rs; intros; cbn [endof from] in *; [lia|].
  destruct H as (? & ? & ? & ?). apply IHrs in H2. lia.
Qed.

Lemma cov_cons r rs x :
  cov (r :: rs) x <-> (r_off r <= x < r_off r + r_sz r) \/ cov rs x.
Proof.
  unfold cov. split.
  - intros (y & [->|Hy] & ?); [tauto|]. right. eauto.
  - intros [?|(y & ? & ?)]; [exists r|exists y]; cbn [In]; auto.
Qed.
Lemma cov_app a b x : cov (a ++ b) x <-> cov a x \/ cov b x.
Proof.
  unfold cov. split.
  - intros (y & H & ?). apply in_app_or in H. destruct H; [left|right]; eauto.
  - intros [(y & ? & ?)|(y & ? & ?)]; exists y; split; auto; apply in_or_app; auto.
Qed.
Lemma cov_nil x : ~ cov [] x.
Proof. intros (r & [] & _). Qed.

Lemma run_short (P : Z -> Prop) a v :
  no_long_run P -> (forall x, a <= x < a + v -> P x) -> v < B32.
Proof.
  intros H Hc. destruct (H a) as (x & Hx & Hn). unfold B32.
  destruct (Z_lt_dec v 4294967296); [auto|]. exfalso. apply Hn, Hc. lia.
Qed.

(* growing region p so that it also covers [o, o+k), which touches it *)
Lemma grow p o k P :
  0 <= r_off p <= o -> 0 <= r_sz p < B32 -> r_off p + r_sz p < B64 ->
  0 <= k -> o + k < B64 -> o <= r_off p + r_sz p ->
  let p' := if r_end p <? u64 (o + k) then set_sz p (u64 (o - r_off p + k)) else p in
  r_off p' = r_off p /\ 0 <= r_sz p' < B32 /\ r_off p' + r_sz p' < B64 /\
  (no_long_run P ->
   (forall x, r_off p <= x < r_off p + r_sz p \/ o <= x < o + k -> P x) ->
   0 < r_sz p -> 0 < r_sz p' /\
   forall x, r_off p <= x < r_off p' + r_sz p' <->
             r_off p <= x < r_off p + r_sz p \/ o <= x < o + k).
Proof.
  intros Ho Hs He Hk Hok Ht. cbv zeta. unfold r_end.
  rewrite !u64_id by (unfold B64 in *; lia).
  destruct (Z.ltb_spec (r_off p + r_sz p) (o + k)).
  - unfold set_sz; cbn [r_off r_sz].
    pose proof (u32_le (o - r_off p + k)) as Hu.
    split; [reflexivity|]. split; [lia|]. split; [lia|].
    intros HP Hin Hp.
    assert (o - r_off p + k < B32).
    { apply (run_short P (r_off p)); auto. intros x Hx. apply Hin. lia. }
    rewrite u32_id by lia. split; [lia|]. intros x. lia.
  - repeat split; auto; lia.
Qed.

Definition pos_sizes (rs : list region) : Prop := Forall (fun r => 0 < r_sz r) rs.

Lemma merge_next_ok P q : forall p,
  0 <= r_off p -> 0 <= r_sz p < B32 -> r_off p + r_sz p < B64 ->
  from (r_off p - 1) q ->
  from (r_off p - 1) (merge_next p q) /\
  (no_long_run P -> (forall x, cov (p :: q) x -> P x) -> pos_sizes (p :: q) ->
   pos_sizes (merge_next p q) /\
   forall x, cov (merge_next p q) x <-> cov (p :: q) x).
Proof.
  induction q as [|r q IH]; intros p Ho Hs He Hf; cbn [merge_next].
  - split; [cbn [from]; repeat split; lia|]. tauto.
  - cbn [from] in Hf. destruct Hf as (Hr1 & Hr2 & Hr3 & Hr4).
    assert (Ep : (r_off r <=? r_end p) = (r_off r <=? r_off p + r_sz p))
      by (unfold r_end; rewrite u64_id by (unfold B64 in *; lia); reflexivity).
    rewrite Ep.
    destruct (Z.leb_spec (r_off r) (r_off p + r_sz p)).
    + destruct (grow p (r_off r) (r_sz r) P) as (G1 & G2 & G3 & G4); try lia.
      change (u64 (r_off r + r_sz r)) with (r_end r) in *.
      set (p' := if r_end p <? r_end r
                 then set_sz p (u64 (r_off r - r_off p + r_sz r)) else p) in *.
      destruct (IH p') as (I1 & I2); try lia.
      { rewrite G1. apply (from_weak _ (r_off r + r_sz r)); [lia|auto]. }
      rewrite G1 in I1. split; [exact I1|].
      intros HP Hin Hpos. unfold pos_sizes in Hpos.
      apply Forall_cons_iff in Hpos. destruct Hpos as (Hp1 & Hpos).
      apply Forall_cons_iff in Hpos. destruct Hpos as (Hp2 & Hpos).
      destruct (G4 HP) as (Gp & Gc); auto.
      { intros x Hx. apply Hin. rewrite !cov_cons. tauto. }
      rewrite <- G1 in Gc.
      assert (E : forall x, cov (p' :: q) x <-> cov (p :: r :: q) x).
      { intros x. rewrite !cov_cons. rewrite Gc, G1. tauto. }
      destruct I2 as (I2 & I3); auto.
      * intros x Hx. apply Hin, E, Hx.
      * constructor; auto.
      * split; auto. intros x. rewrite I3. apply E.
    + split; [|intros; split; [auto|tauto]].
      cbn [from]. repeat split; auto; lia.
Qed.

Lemma find_place_ok q : forall bef s b' q',
  find_place bef q s = (b', q') ->
  rev bef ++ q = rev b' ++ q' /\
  (Forall (fun r => r_off r < s) bef -> Forall (fun r => r_off r < s) b') /\
  match q' with [] => True | r :: _ => s <= r_off r end.
Proof.
  induction q as [|r q IH]; intros bef s b' q' H; cbn [find_place] in H.
  - injection H as <- <-. auto.
  - destruct (Z.ltb_spec (r_off r) s).
    + apply IH in H. destruct H as (H1 & H2 & H3).
      rewrite <- H1. cbn [rev]. rewrite <- app_assoc. cbn [app].
      split; [reflexivity|]. split; [|auto]. intros. apply H2. constructor; auto.
    + injection H as <- <-. auto.
Qed.

Lemma add_region_ok P rs s n :
  from (-1) rs -> 0 <= s -> 0 < n < B32 -> s + n < B64 ->
  from (-1) (add_region rs s n) /\
  (no_long_run P -> (forall x, cov rs x \/ s <= x < s + n -> P x) -> pos_sizes rs ->
   pos_sizes (add_region rs s n) /\
   forall x, cov (add_region rs s n) x <-> cov rs x \/ s <= x < s + n).
Proof.
  intros Hf Hs Hn Hsn. unfold add_region.
  destruct (find_place [] rs s) as (bef & q) eqn:E.
  apply find_place_ok in E. cbn [rev app] in E. destruct E as (E & Hb & Hq).
  specialize (Hb (Forall_nil _)).
  assert (NEW : forall lo, lo < s -> from lo q ->
    from lo (merge_next (Region s n 0 0) q) /\
    (no_long_run P -> (forall x, s <= x < s + n \/ cov q x -> P x) -> pos_sizes q ->
     pos_sizes (merge_next (Region s n 0 0) q) /\
     forall x, cov (merge_next (Region s n 0 0) q) x <-> s <= x < s + n \/ cov q x)).
  { intros lo Hlo Hfq.
    destruct (merge_next_ok P q (Region s n 0 0)) as (M1 & M2);
      cbn [r_off r_sz]; try lia.
    { destruct q as [|r q']; cbn [from] in *; [exact I|]. repeat split; lia || tauto. }
    split. { cbn [r_off] in M1. apply (from_weak _ (s - 1)); [lia|auto]. }
    intros HP Hin Hpos. destruct (M2 HP) as (M3 & M4).
    - intros x Hx. rewrite cov_cons in Hx. cbn [r_off r_sz] in Hx. auto.
    - constructor; cbn [r_sz]; [lia|auto].
    - split; auto. intros x. rewrite M4, cov_cons. cbn [r_off r_sz]. tauto. }
  destruct bef as [|p bef'].
  - cbn [rev app] in E. subst q.
    destruct (NEW (-1)) as (N1 & N2); [lia|auto|].
    split; auto. intros HP Hin Hpos. destruct (N2 HP) as (N3 & N4); auto.
    + intros x Hx. apply Hin. tauto.
    + split; auto. intros x. rewrite N4. tauto.
  - cbn [rev] in E. rewrite <- app_assoc in E. cbn [app] in E.
    apply Forall_cons_iff in Hb. destruct Hb as (Hp & _).
    pose proof Hf as Hf'. rewrite E in Hf'. apply from_app in Hf'.
    destruct Hf' as (F1 & F2). cbn [from] in F2. destruct F2 as (F2 & F3 & F4 & F5).
    pose proof (endof_ge _ _ F1) as Hge.
    assert (Ep : (s <=? r_end p) = (s <=? r_off p + r_sz p))
      by (unfold r_end; rewrite u64_id by (unfold B64 in *; lia); reflexivity).
    rewrite Ep.
    destruct (Z.leb_spec s (r_off p + r_sz p)).
    + destruct (grow p s n P) as (G1 & G2 & G3 & G4); try lia.
      set (p' := if r_end p <? u64 (s + n)
                 then set_sz p (u64 (s - r_off p + n)) else p) in *.
      destruct (merge_next_ok P q p') as (M1 & M2); try lia.
      { rewrite G1. apply (from_weak _ (r_off p + r_sz p)); [lia|auto]. }
      split.
      { apply from_app. split; auto. rewrite G1 in M1.
        apply (from_weak _ (r_off p - 1)); [lia|auto]. }
      intros HP Hin Hpos. rewrite E in Hpos. unfold pos_sizes in Hpos.
      apply Forall_app in Hpos. destruct Hpos as (Q1 & Q2).
      apply Forall_cons_iff in Q2. destruct Q2 as (Q2 & Q3).
      destruct (G4 HP) as (G5 & G6); auto.
      { intros x Hx. apply Hin. rewrite E, cov_app, cov_cons. tauto. }
      rewrite <- G1 in G6.
      destruct (M2 HP) as (M3 & M4).
      * intros x Hx. apply Hin. rewrite E, cov_app, cov_cons.
        rewrite cov_cons, G6, G1 in Hx. tauto.
      * constructor; auto.
      * split; [apply Forall_app; auto|].
        intros x. rewrite E, !cov_app, M4, !cov_cons, G6, G1. tauto.
    + destruct (NEW (r_off p + r_sz p)) as (N1 & N2); [lia|auto|].
      replace (rev (p :: bef')) with (rev bef' ++ [p]) by reflexivity.
      rewrite <- app_assoc. cbn [app].
      split.
      { apply from_app. split; auto. cbn [from]. auto. }
      intros HP Hin Hpos. rewrite E in Hpos. unfold pos_sizes in Hpos.
      apply Forall_app in Hpos. destruct Hpos as (Q1 & Q2).
      apply Forall_cons_iff in Q2. destruct Q2 as (Q2 & Q3).
      destruct (N2 HP) as (N3 & N4); auto.
      * intros x Hx. apply Hin. rewrite E, cov_app, cov_cons. tauto.
      * split; [apply Forall_app; split; auto; constructor; auto|].
        intros x. rewrite E, !cov_app, !cov_cons, N4. tauto.
Qed.

Definition part_good (phoff phsz : Z) (ph : list Z) (i : Z) : Prop :=
  forall s k, part_of phoff phsz ph i = Some (s, k) ->
              0 <= s /\ 0 < k < B32 /\ s + k < B64.
Definition in_part (phoff phsz : Z) (ph : list Z) (i x : Z) : Prop :=
  exists s k, part_of phoff phsz ph i = Some (s, k) /\ s <= x < s + k.

Lemma regions_loop_ok P phoff phsz ph n : forall i rs,
  (forall j, i <= j < i + Z.of_nat n -> part_good phoff phsz ph j) ->
  from (-1) rs ->
  from (-1) (regions_loop n i phoff phsz ph rs) /\
  (no_long_run P ->
   (forall x, cov rs x -> P x) ->
   (forall j x, i <= j < i + Z.of_nat n -> in_part phoff phsz ph j x -> P x) ->
   pos_sizes rs ->
   pos_sizes (regions_loop n i phoff phsz ph rs) /\
   forall x, cov (regions_loop n i phoff phsz ph rs) x <->
             cov rs x \/ exists j, i <= j < i + Z.of_nat n /\ in_part phoff phsz ph j x).
Proof.
  induction n as [|n IH]; intros i rs Hg Hf; cbn [regions_loop].
  - split; auto. intros HP H1 H2 H3. split; auto. intros x. split; auto.
    intros [?|(j & ? & ?)]; auto. lia.
  - assert (Hg' : forall j, i + 1 <= j < i + 1 + Z.of_nat n -> part_good phoff phsz ph j)
      by (intros; apply Hg; lia).
    assert (SPLIT : forall x, (exists j, i <= j < i + Z.of_nat (S n) /\
                 in_part phoff phsz ph j x) <->
             in_part phoff phsz ph i x \/
             exists j, i + 1 <= j < i + 1 + Z.of_nat n /\ in_part phoff phsz ph j x).
    { intros x. split.
      - intros (j & Hj & Hx). destruct (Z.eq_dec j i) as [->|]; auto.
        right. exists j. split; [lia|auto].
      - intros [Hx|(j & Hj & Hx)]; [exists i|exists j]; split; auto; lia. }
    destruct (part_of phoff phsz ph i) as [(s & k)|] eqn:E.
    + destruct (Hg i ltac:(lia) s k E) as (K1 & K2 & K3).
      destruct (add_region_ok P rs s k) as (A1 & A2); auto.
      destruct (IH (i + 1) (add_region rs s k) Hg' A1) as (I1 & I2).
      split; auto. intros HP H1 H2 H3.
      assert (Hin : forall x, in_part phoff phsz ph i x <-> s <= x < s + k).
      { intros x. split.
        - intros (s' & k' & E' & Hx). rewrite E in E'. injection E' as <- <-. auto.
        - intros. exists s, k. auto. }
      destruct (A2 HP) as (A3 & A4); auto.
      { intros x [Hx|Hx]; auto. apply (H2 i); [lia|]. apply Hin, Hx. }
      destruct (I2 HP) as (I3 & I4); auto.
      { intros x Hx. apply A4 in Hx. destruct Hx; auto.
        apply (H2 i); [lia|]. apply Hin; auto. }
      { intros j x Hj. apply H2. lia. }
      split; auto. intros x. rewrite I4, A4, SPLIT, Hin. tauto.
    + destruct (IH (i + 1) rs Hg' Hf) as (I1 & I2).
      split; auto. intros HP H1 H2 H3.
      destruct (I2 HP) as (I3 & I4); auto.
      { intros j x Hj. apply H2. lia. }
      split; auto. intros x. rewrite I4, SPLIT.
      assert (~ in_part phoff phsz ph i x).
      { intros (s' & k' & E' & Hx). rewrite E in E'. discriminate. }
      tauto.
Qed.

Lemma from_order lo rs : from lo rs -> forall a r1 b r2 c,
  rs = a ++ r1 :: b ++ r2 :: c -> r_off r1 + r_sz r1 < r_off r2.
Proof.
  intros Hf a r1 b r2 c ->. apply from_app in Hf. destruct Hf as (_ & Hf).
  cbn [from] in Hf. destruct Hf as (_ & _ & _ & Hf). apply from_app in Hf.
  destruct Hf as (Hb & Hf). cbn [from] in Hf. apply endof_ge in Hb. lia.
Qed.
