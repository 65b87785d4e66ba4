(* The data segment as a stack of blocks. *)
From Verif Require Import Base BaseLemmas SortModel SortProofs ShrinkModel DirModel DirSpec DirProofs.

Definition op_of (o : hop) : bop :=
  match o with
  | Malloc n => BMalloc n | Realloc n => BRealloc n | Free i => BFree i
  | Write i off v => BWrite i off v
  end.

Definition hdr (z : Z) (live : bool) : Z :=
  if live then Z.lor MALLOC_BRK z else Z.lor (Z.lor MALLOC_BRK z) MALLOC_FREE.

Fixpoint layout (m : mem) (base bk : Z) (st : list block) (ps : list Z) : Prop :=
  match st, ps with
  | [], [] => bk = base
  | b :: st', p :: ps' =>
      exists z, 8 <= z < 268435456 /\ zlen (fst b) + 4 <= z < zlen (fst b) + 8 /\
        bk = p - 4 + z /\ base <= p - 4 /\
        bytes_at m (p - 4) (le_bytes 4 (hdr z (snd b))) /\ room m (p - 4) z /\
        holds m p b /\ layout m base (p - 4) st' ps'
  | _, _ => False
  end.

Lemma holds_ext m m' p b : holds m p b ->
  (forall x, p <= x < p + zlen (fst b) -> m' x = m x) -> holds m' p b.
Proof.
  intros H E L. destruct (H L) as (R & V). split.
  - intros x Hx. rewrite E by auto. apply R. auto.
  - intros i v Hi. rewrite E; auto. assert (i < length (fst b))%nat by (apply nth_error_Some; congruence).
    unfold zlen. lia.
Qed.
Lemma layout_ext base st : forall ps m m' bk, layout m base bk st ps ->
  (forall x, base <= x < bk -> m' x = m x) -> layout m' base bk st ps.
Proof.
  induction st as [|b st IH]; intros [|p ps] m m' bk H E; cbn [layout] in *; auto.
  destruct H as (z & H1 & H2 & H3 & H4 & H5 & H6 & H7 & H8). exists z.
  split; [auto|]. split; [auto|]. split; [auto|]. split; [auto|]. split; [|split; [|split]].
  - apply (bytes_at_ext m); auto. rewrite le_zlen. intros x Hx. apply E. lia.
  - intros x Hx. rewrite E by lia. apply H6. auto.
  - apply (holds_ext m); auto. intros x Hx. apply E. lia.
  - apply (IH ps m); auto. intros x Hx. apply E. lia.
Qed.
Lemma layout_base base st : forall ps m bk, layout m base bk st ps ->
  base <= bk <= base + used st.
Proof.
  induction st as [|[c l] st IH]; intros [|p ps] m bk H; cbn [layout used fst] in *; try tauto.
  - lia.
  - destruct H as (z & H1 & H2 & H3 & H4 & H5 & H6 & H7 & H8). apply IH in H8. lia.
Qed.
Lemma layout_nth base st : forall ps m bk i b, layout m base bk st ps -> nth_error st i = Some b ->
  exists p z, nth_error ps i = Some p /\ 8 <= z < 268435456 /\ base <= p - 4 /\
    zlen (fst b) + 4 <= z < zlen (fst b) + 8 /\
    p - 4 + z <= bk /\ (i <> O -> p - 4 + z + 8 <= bk) /\
    bytes_at m (p - 4) (le_bytes 4 (hdr z (snd b))) /\ room m (p - 4) z /\ holds m p b.
Proof.
  induction st as [|a st IH]; intros [|p ps] m bk [|i] b H Hi; cbn [layout nth_error] in *;
    try discriminate; try tauto.
  - injection Hi as ->. destruct H as (z & H1 & H2 & H3 & H4 & H5 & H6 & H7 & H8).
    exists p, z. split; [auto|]. split; [auto|]. split; [auto|]. split; [auto|].
    split; [lia|]. split; [tauto|]. auto.
  - destruct H as (z & H1 & H2 & H3 & H4 & H5 & H6 & H7 & H8).
    destruct (IH ps m (p - 4) i b H8 Hi) as (q & y & Q1 & Q2 & Q3 & Q4 & Q5 & Q6 & Q7 & Q8 & Q9).
    exists q, y. split; [auto|]. split; [auto|]. split; [auto|]. split; [auto|].
    split; [lia|]. split; [lia|]. auto.
Qed.

(* changing the header or a byte of block i *)
Lemma layout_change base st : forall ps m m' bk i (b b' : block) p,
  layout m base bk st ps -> nth_error st i = Some b -> nth_error ps i = Some p ->
  zlen (fst b') = zlen (fst b) -> (forall q n, room m q n -> room m' q n) ->
  same_outside m m' (p - 4) (zlen (fst b) + 4) -> holds m' p b' ->
  (forall z, 8 <= z < 268435456 -> bytes_at m (p - 4) (le_bytes 4 (hdr z (snd b))) ->
             bytes_at m' (p - 4) (le_bytes 4 (hdr z (snd b')))) ->
  layout m' base bk (change i b' st) ps.
Proof.
  induction st as [|a st IH]; intros [|q ps] m m' bk [|i] b b' p H Hi Hp HL HR HS HH HB;
    cbn [layout nth_error change] in *; try discriminate; try tauto.
  - injection Hi as ->. injection Hp as ->.
    destruct H as (z & H1 & H2 & H3 & H4 & H5 & H6 & H7 & H8). exists z. rewrite HL.
    split; [auto|]. split; [auto|]. split; [auto|]. split; [auto|]. split; [auto|]. split; [auto|].
    split; [auto|]. apply (layout_ext base st ps m); auto. intros x Hx. apply HS. lia.
  - destruct H as (z & H1 & H2 & H3 & H4 & H5 & H6 & H7 & H8).
    destruct (layout_nth _ _ _ _ _ _ _ H8 Hi) as (p' & y & Q1 & Q2 & Q3 & Q4 & Q5 & Q6 & Q7 & Q8 & Q9).
    rewrite Hp in Q1. injection Q1 as <-. exists z.
    split; [auto|]. split; [auto|]. split; [auto|]. split; [auto|]. split; [|split; [auto|split]].
    + apply (bytes_at_ext m); auto. rewrite le_zlen. intros x Hx. apply HS. lia.
    + apply (holds_ext m); auto. intros x Hx. apply HS. lia.
    + eapply IH; eauto.
Qed.

Lemma layout_stacked base st : forall ps m bk, layout m base bk st ps -> stacked ps st bk.
Proof.
  induction st as [|b st IH]; intros [|p ps] m bk H; cbn [layout stacked] in *; auto.
  destruct H as (z & H1 & H2 & H3 & H4 & H5 & H6 & H7 & H8). split; [lia|]. eauto.
Qed.
Lemma layout_holds base st : forall ps m bk, layout m base bk st ps -> Forall2 (holds m) ps st.
Proof.
  induction st as [|b st IH]; intros [|p ps] m bk H; cbn [layout] in *; try tauto; constructor.
  - destruct H as (z & H1 & H2 & H3 & H4 & H5 & H6 & H7 & H8). auto.
  - destruct H as (z & H1 & H2 & H3 & H4 & H5 & H6 & H7 & H8). eauto.
Qed.
Lemma layout_above base st : forall ps m bk, layout m base bk st ps -> Forall (fun p => base < p) ps.
Proof.
  induction st as [|b st IH]; intros [|p ps] m bk H; cbn [layout] in *; try tauto; constructor;
    destruct H as (z & H1 & H2 & H3 & H4 & H5 & H6 & H7 & H8); [lia|eauto].
Qed.

Lemma lor_free z : 0 <= z < 268435456 -> 0 <= Z.lor (Z.lor MALLOC_BRK z) MALLOC_FREE < 4294967296.
Proof.
  intros H. destruct (lor_size z H) as (_ & _ & L).
  assert (E : Z.land (Z.lor (Z.lor MALLOC_BRK z) MALLOC_FREE) (Z.ones 32)
              = Z.lor (Z.lor MALLOC_BRK z) MALLOC_FREE).
  { rewrite Z.land_lor_distr_l. f_equal. rewrite Z.land_ones by lia.
    apply Z.mod_small. change (2 ^ 32) with 4294967296. lia. }
  rewrite Z.land_ones in E by lia. rewrite <- E. apply Z.mod_pos_bound. lia.
Qed.
Lemma le_bytes_inj n a b m p : 0 <= a < 256 ^ Z.of_nat n -> 0 <= b < 256 ^ Z.of_nat n ->
  bytes_at m p (le_bytes n a) -> bytes_at m p (le_bytes n b) -> a = b.
Proof.
  intros Ha Hb A B. apply (get_le_ok n m p a Ha) in A. apply (get_le_ok n m p b Hb) in B. congruence.
Qed.

Lemma nth_repeat_none n i (v : Z) : nth_error (repeat (@None Z) n) i = Some (Some v) -> False.
Proof. intros H. apply nth_error_In in H. apply repeat_spec in H. discriminate. Qed.

Section heap.
Variables lo hi base : Z.
Variable m0 : mem.
Hypothesis Hb : 0 < base.
Hypothesis Hlo : lo <= base.
Hypothesis Hhi : hi <= LONG_MAX.

Definition heap_ok (st : list block) (hs : seg * Z * list Z) : Prop :=
  let '(s, start, ps) := hs in
  layout (sm s) base (sbk s) st ps /\ (start = base \/ (start = 0 /\ sbk s = base)) /\
  (forall x, x < base -> sm s x = m0 x) /\ sbk s <= hi.

Lemma heap_step_ok st hs o st' : heap_ok st hs -> stack_step (hi - base) st o = Some st' ->
  exists hs', heap_step lo hi hs (op_of o) = Ok hs' /\ heap_ok st' hs'.
Proof.
  destruct hs as ((s & start) & ps). intros (HL & Hst & Hlow & Hbk) HS.
  pose proof (layout_base _ _ _ _ _ HL) as HB.
  destruct o as [n|n|i|i off v]; cbn [op_of heap_step stack_step] in *.
  - (* malloc *)
    destruct (Z.leb_spec 1 n); cbn [andb] in HS; [|discriminate].
    destruct (Z.leb_spec n 268435440); [|discriminate].
    destruct (Z.leb_spec (used ((repeat None (Z.to_nat n), true) :: st)) (hi - base)) as [HU|];
      [|discriminate].
    injection HS as <-. cbn [used] in HU. 
    assert (ZR : zlen (repeat (@None Z) (Z.to_nat n)) = n) by (unfold zlen; rewrite repeat_length; lia).
    rewrite ZR in HU.
    destruct (malloc_brk_ok lo hi s start n) as (s' & start' & z & -> & L & Hz & K & Es); try lia.
    rewrite bind_Ok. eexists. split; [reflexivity|].
    destruct L as (L1 & L2 & L3 & L4 & L5).
    split; [|split; [|split]].
    + cbn [layout fst snd hdr]. exists z. rewrite ZR.
      replace (sbk s + 4 - 4) with (sbk s) in * by lia.
      split; [lia|]. split; [lia|]. split; [lia|]. split; [lia|]. split; [exact L4|].
      split; [exact L5|]. split.
      * intros _. cbn [fst]. rewrite ZR. split; [apply (room_sub _ (sbk s) z); auto; lia|].
        intros j v Hj. destruct (nth_repeat_none _ _ _ Hj).
      * apply (layout_ext _ _ _ (sm s)); auto. intros x Hx. apply K. lia.
    + rewrite Es. left. destruct (Z.eqb_spec start 0); lia.
    + intros x Hx. rewrite K by lia. auto.
    + lia.
  - (* realloc *)
    destruct st as [|[c [|]] st]; try discriminate. destruct ps as [|p ps]; [destruct HL|].
    destruct (Z.leb_spec 1 n); cbn [andb] in HS; [|discriminate].
    destruct (Z.leb_spec n 268435440); [|discriminate].
    destruct (Z.leb_spec (used ((resize c n, true) :: st)) (hi - base)) as [HU|]; [|discriminate].
    injection HS as <-. cbn [used] in HU.
    assert (ZR : zlen (resize c n) = n).
    { unfold zlen, resize. rewrite app_length, firstn_length, repeat_length. lia. }
    rewrite ZR in HU. cbn [layout fst snd hdr] in HL.
    destruct HL as (z & H1 & H2 & H3 & H4 & H5 & H6 & H7 & H8).
    pose proof (layout_base _ _ _ _ _ H8) as HB8.
    assert (LB : last_block s p z) by (unfold last_block; split; [lia|split; [lia|split; [lia|auto]]]).
    destruct (realloc_brk_ok lo hi s p z n LB) as (s' & z' & -> & L & Hz & K); try lia.
    rewrite bind_Ok. eexists. split; [reflexivity|].
    destruct L as (L1 & L2 & L3 & L4 & L5).
    split; [|split; [|split]].
    + cbn [layout fst snd hdr]. exists z'. rewrite ZR.
      split; [lia|]. split; [lia|]. split; [lia|]. split; [lia|]. split; [exact L4|].
      split; [exact L5|]. split.
      * intros _. cbn [fst]. rewrite ZR. split; [apply (room_sub _ (p - 4) z'); auto; lia|].
        intros j v Hj. destruct (H7 eq_refl) as (_ & HV). cbn [fst] in HV.
        unfold resize in Hj.
        destruct (Nat.lt_ge_cases j (length (firstn (Z.to_nat n) c))) as [Hl|Hl].
        -- rewrite nth_error_app1 in Hj by auto. rewrite firstn_length in Hl.
           rewrite K.
           ++ apply HV. rewrite <- Hj. rewrite <- (firstn_skipn (Z.to_nat n) c) at 1.
              rewrite nth_error_app1; auto. rewrite firstn_length. auto.
           ++ right. unfold zlen in *. lia.
        -- rewrite nth_error_app2 in Hj by auto. destruct (nth_repeat_none _ _ _ Hj).
      * apply (layout_ext _ _ _ (sm s)); auto. intros x Hx. apply K. lia.
    + destruct Hst as [->|(-> & Hst)]; [auto|]. lia.
    + intros x Hx. rewrite K by lia. auto.
    + lia.
  - (* free *)
    destruct (nth_error st i) as [[c [|]]|] eqn:Ei; try discriminate.
    destruct (layout_nth _ _ _ _ _ _ _ HL Ei) as (p & z & Q1 & Q2 & Q3 & Q4 & Q5 & Q6 & Q7 & Q8 & Q9).
    cbn [snd hdr fst] in *. rewrite Q1. unfold free_blk.
    destruct (Z.eqb_spec p 0); [lia|].
    destruct (lor_size z ltac:(lia)) as (O1 & O2 & O3).
    rewrite (get_le_ok 4 _ _ _ O3 Q7), bind_Ok.
    destruct (Z.eqb_spec (Z.land (Z.lor MALLOC_BRK z) MALLOC_BRK) 0); [tauto|]. rewrite O1.
    destruct i as [|i].
    + destruct st as [|b st]; [discriminate|]. destruct ps as [|q ps]; [discriminate|].
      cbn [nth_error] in Ei, Q1. injection Ei as ->. injection Q1 as ->. injection HS as <-.
      cbn [layout fst snd hdr] in HL. destruct HL as (z2 & H1 & H2 & H3 & H4 & H5 & H6 & H7 & H8).
      assert (z2 = z).
      { destruct (lor_size z2 ltac:(lia)) as (P1 & _ & P3).
        rewrite <- O1, <- P1. f_equal. eapply (le_bytes_inj 4); eauto. }
      subst z2. destruct (Z.leb_spec (sbk s) (p + z)); [|lia].
      unfold brk, sys_brk. destruct (Z.leb_spec lo (p - 4)); [|lia].
      destruct (Z.leb_spec (p - 4) hi); [|lia]. cbn [andb].
      destruct (Z.ltb_spec 0 (p - 4)); [|lia]. rewrite bind_Ok. eexists. split; [reflexivity|].
      assert (K : forall x, x < p - 4 -> (if (sbk s <=? x) && (x <? p - 4) then Some 0
          else if (p - 4 <=? x) && (x <? sbk s) then None else sm s x) = sm s x).
      { intros x Hx. destruct (Z.leb_spec (sbk s) x); [lia|]. cbn [andb].
        destruct (Z.leb_spec (p - 4) x); [lia|]. reflexivity. }
      split; [|split; [|split]]; cbn [sm sbk drop].
      * apply (layout_ext _ _ _ (sm s)); auto. intros x Hx. apply K. lia.
      * destruct Hst as [->|(-> & Hst)]; [auto|]. lia.
      * intros x Hx. rewrite K by lia. auto.
      * lia.
    + injection HS as <-. specialize (Q6 ltac:(discriminate)).
      destruct (Z.leb_spec (sbk s) (p + z)); [lia|].
      destruct (put_le_ok 4 (sm s) (p - 4) (Z.lor (Z.lor MALLOC_BRK z) MALLOC_FREE))
        as (m' & -> & P1 & P2).
      { apply (room_sub _ (p - 4) z); auto; lia. }
      rewrite !bind_Ok. eexists. split; [reflexivity|].
      pose proof (zlen_nonneg c).
      split; [|split; [|split]]; cbn [sm sbk].
      * change (drop (S i) ps) with ps.
        apply (layout_change base st ps (sm s) m' (sbk s) (S i) (c, true) (c, false) p); auto.
        -- intros q k Hq. apply (room_keep (sm s) m' q k (p - 4) 4); auto.
           apply bytes_room in P1. rewrite le_zlen in P1. exact P1.
        -- intros x Hx. apply P2. cbn [fst] in Hx. change (Z.of_nat 4) with 4. lia.
        -- intros F. discriminate.
        -- cbn [snd hdr]. intros y Hy By.
           destruct (lor_size y ltac:(lia)) as (_ & _ & P3).
           rewrite (le_bytes_inj 4 _ _ _ _ P3 O3 By Q7). exact P1.
      * auto.
      * intros x Hx. rewrite P2 by lia. auto.
      * lia.
  - (* write *)
    destruct (nth_error st i) as [[c [|]]|] eqn:Ei; try discriminate.
    destruct (Z.leb_spec 0 off); cbn [andb] in HS; [|discriminate].
    destruct (Z.ltb_spec off (zlen c)); [|discriminate]. injection HS as <-.
    destruct (layout_nth _ _ _ _ _ _ _ HL Ei) as (p & z & Q1 & Q2 & Q3 & Q4 & Q5 & Q6 & Q7 & Q8 & Q9).
    cbn [snd hdr fst] in *. rewrite Q1.
    rewrite (store_room (sm s) (p - 4) z) by (auto; lia). rewrite !bind_Ok.
    eexists. split; [reflexivity|]. split; [|split; [|split]]; cbn [sm sbk].
    + assert (ZS : length (set_cell c off v) = length c).
      { unfold set_cell, zlen in *. rewrite app_length, firstn_length. cbn [length].
        rewrite skipn_length. lia. }
      apply (layout_change base st ps (sm s) _ (sbk s) i (c, true) (set_cell c off v, true) p); auto.
      * cbn [fst]. unfold zlen. rewrite ZS. reflexivity.
      * intros. apply room_upd. auto.
      * intros x Hx. apply upd_other. cbn [fst] in Hx. lia.
      * intros _. cbn [fst]. unfold zlen. rewrite ZS. split.
        -- apply room_upd. apply (room_sub _ (p - 4) z); auto; unfold zlen in *; lia.
        -- intros j w Hj. destruct (Q9 eq_refl) as (_ & HV). cbn [fst] in HV.
           assert (Lf : length (firstn (Z.to_nat off) c) = Z.to_nat off)
             by (rewrite firstn_length; unfold zlen in *; lia).
           unfold set_cell in Hj. destruct (Nat.lt_trichotomy j (Z.to_nat off)) as [Hlt|[->|Hlt]].
           ++ rewrite upd_other by lia. apply HV. rewrite nth_error_app1 in Hj by lia.
              rewrite <- (firstn_skipn (Z.to_nat off) c), nth_error_app1 by lia. exact Hj.
           ++ rewrite nth_error_app2, Lf, Nat.sub_diag in Hj by lia. injection Hj as ->.
              rewrite Z2Nat.id by lia. apply upd_same.
           ++ rewrite upd_other by lia. apply HV. rewrite nth_error_app2, Lf in Hj by lia.
              destruct (j - Z.to_nat off)%nat as [|k] eqn:Ek; [lia|]. cbn [nth_error] in Hj.
              rewrite <- (firstn_skipn (S (Z.to_nat off)) c). rewrite nth_error_app2;
                rewrite firstn_length; unfold zlen in *; [|lia].
              replace (j - Nat.min (S (Z.to_nat off)) (length c))%nat with k by lia. exact Hj.
      * cbn [snd]. intros y _ Hy. apply bytes_at_upd; auto. rewrite le_zlen. lia.
    + auto.
    + intros x Hx. rewrite upd_other by lia. auto.
    + lia.
Qed.

Lemma heap_run_ok os : forall st hs st', heap_ok st hs -> stack_run (hi - base) st os = Some st' ->
  exists hs', heap_run lo hi hs (map op_of os) = Ok hs' /\ heap_ok st' hs'.
Proof.
  induction os as [|o os IH]; intros st hs st' H S; cbn [stack_run map heap_run] in *.
  - injection S as <-. eauto.
  - destruct (stack_step (hi - base) st o) as [st1|] eqn:E; [|discriminate].
    destruct (heap_step_ok st hs o st1 H E) as (hs1 & -> & H1). rewrite bind_Ok. eauto.
Qed.

Lemma free_brk_ok st s start ps : heap_ok st (s, start, ps) ->
  let s' := fst (free_brk lo hi s start) in
  sbk s' = base /\ forall x, x < base -> sm s' x = m0 x.
Proof.
  intros (HL & Hst & Hlow & Hbk). pose proof (layout_base _ _ _ _ _ HL) as HB. unfold free_brk.
  destruct Hst as [->|(-> & Hst)]; [|cbn [Z.eqb negb andb fst]; auto].
  destruct (Z.eqb_spec base 0); [lia|]. cbn [negb andb].
  destruct (Z.ltb_spec base (sbk s)); [|cbn [fst]; split; [lia|auto]].
  unfold brk, sys_brk. destruct (Z.leb_spec lo base); [|lia].
  destruct (Z.leb_spec base hi); [|lia]. cbn [andb]. destruct (Z.ltb_spec 0 base); [|lia].
  cbn [fst sbk sm]. split; [auto|]. intros x Hx. destruct (Z.leb_spec (sbk s) x); [lia|].
  cbn [andb]. destruct (Z.leb_spec base x); [lia|]. cbn [andb]. auto.
Qed.
End heap.
