(* Displacements, modification of the headers, the whole of shrinkelf. *)
From Verif Require Import Base BaseLemmas ShrinkModel ShrinkSpec ShrinkProofs ShrinkProofs2.

(* ---- compute_disps -------------------------------------------------------- *)
Definition disped (r d : region) : Prop :=
  r_off d = r_off r /\ r_sz d = r_sz r /\ r_disp d mod 4096 = 0 /\
  0 <= r_disp d <= r_off r /\ r_toff d = r_off r - r_disp d.

Ltac Zify.zify_post_hook ::= Z.div_mod_to_equations.

Lemma disp_value x : 0 <= x < B64 ->
  let d := u32 (u64 (x / PAGE * PAGE)) in
  0 <= d <= x /\ d mod 4096 = 0 /\ (x < B32 -> x < d + 4096).
Proof.
  intros H. cbv zeta. unfold PAGE, B64, B32 in *.
  rewrite (u64_id (x / 4096 * 4096)) by (unfold B64; lia). unfold u32. lia.
Qed.

Lemma compute_disps_ok rs : forall lo cur,
  from lo rs -> 0 <= cur <= lo + 1 ->
  Forall2 disped rs (compute_disps cur rs) /\ tfrom cur (compute_disps cur rs).
Proof.
  induction rs as [|r rs IH]; intros lo cur Hf Hc; cbn [compute_disps tfrom].
  - split; auto.
  - cbn [from] in Hf. destruct Hf as (F1 & F2 & F3 & F4).
    rewrite (u64_id (r_off r - cur)) by (unfold B64 in *; lia).
    destruct (disp_value (r_off r - cur)) as (D1 & D2 & _); [unfold B64 in *; lia|].
    set (d := u32 (u64 ((r_off r - cur) / PAGE * PAGE))) in *. clearbody d.
    rewrite (u64_id (r_off r - d)) by (unfold B64 in *; lia).
    rewrite (u64_id (r_off r - d + r_sz r)) by (unfold B64 in *; lia).
    destruct (IH (r_off r + r_sz r) (r_off r - d + r_sz r) F4) as (I1 & I2); [lia|].
    split.
    + constructor; auto. unfold disped; cbn [r_off r_sz r_disp r_toff]. repeat split; lia.
    + cbn [r_toff r_sz]. split; [lia|auto].
Qed.

(* no hole of a page or more between two consecutive target regions *)
Fixpoint tight (cur : Z) (rs : list region) : Prop :=
  match rs with
  | [] => True
  | r :: t => r_toff r < cur + 4096 /\ tight (r_toff r + r_sz r) t
  end.

Lemma compute_disps_tight rs : forall lo cur,
  from lo rs -> 0 <= cur <= lo + 1 -> Forall (fun r => r_off r < B32) rs ->
  tight cur (compute_disps cur rs).
Proof.
  induction rs as [|r rs IH]; intros lo cur Hf Hc HB; cbn [compute_disps tight]; auto.
  cbn [from] in Hf. destruct Hf as (F1 & F2 & F3 & F4).
  apply Forall_cons_iff in HB. destruct HB as (HB1 & HB).
  rewrite (u64_id (r_off r - cur)) by (unfold B64 in *; lia).
  destruct (disp_value (r_off r - cur)) as (D1 & D2 & D3); [unfold B64 in *; lia|].
  set (d := u32 (u64 ((r_off r - cur) / PAGE * PAGE))) in *. clearbody d.
  rewrite (u64_id (r_off r - d)) by (unfold B64 in *; lia).
  rewrite (u64_id (r_off r - d + r_sz r)) by (unfold B64 in *; lia).
  cbn [r_toff r_sz]. split; [lia|].
  apply (IH (r_off r + r_sz r)); auto. lia.
Qed.

Ltac Zify.zify_post_hook ::= idtac.

Lemma tight_consec cur rs : tight cur rs -> forall a r1 r2 c,
  rs = a ++ r1 :: r2 :: c -> r_toff r2 < r_toff r1 + r_sz r1 + 4096.
Proof.
  intros H a. revert cur rs H. induction a as [|y a IH]; intros cur rs H r1 r2 c ->.
  - cbn [app tight] in H. tauto.
  - cbn [app tight] in H. destruct H as (_ & H). eapply IH; eauto.
Qed.

Lemma tfrom_order lo rs : tfrom lo rs -> Forall (fun r => 0 <= r_sz r) rs ->
  forall a r1 b r2 c, rs = a ++ r1 :: b ++ r2 :: c -> r_toff r1 + r_sz r1 <= r_toff r2.
Proof.
  intros Ht HF a. revert lo rs Ht HF. induction a as [|y a IH]; intros lo rs Ht HF r1 b r2 c ->.
  - cbn [app tfrom] in Ht. destruct Ht as (_ & Ht).
    apply Forall_cons_iff in HF. destruct HF as (_ & HF).
    revert Ht. generalize (r_toff r1 + r_sz r1) as l. clear lo r1.
    induction b as [|z b IHb]; intros l Ht.
    + cbn [app tfrom] in Ht. tauto.
    + cbn [app tfrom] in Ht. cbn [app] in HF. apply Forall_cons_iff in HF.
      destruct HF as (Hz & HF). destruct Ht as (Ht1 & Ht2).
      apply (IHb HF) in Ht2. lia.
  - cbn [app tfrom] in Ht. destruct Ht as (_ & Ht).
    cbn [app] in HF. apply Forall_cons_iff in HF. destruct HF as (_ & HF).
    eapply IH; eauto.
Qed.

(* ---- the region of a part ------------------------------------------------- *)
Lemma interval_in_region lo rs off n :
  from lo rs -> 0 < n -> (forall x, off <= x < off + n -> cov rs x) ->
  exists r, In r rs /\ r_off r <= off /\ off + n <= r_off r + r_sz r.
Proof.
  intros Hf Hn Hc. destruct (Hc off) as (r & Hr & Ho); [lia|].
  exists r. split; auto. split; [lia|].
  destruct (Z_le_dec (off + n) (r_off r + r_sz r)); auto. exfalso.
  destruct (Hc (r_off r + r_sz r)) as (r' & Hr' & Ho'); [lia|].
  apply in_split in Hr. destruct Hr as (a & b & E).
  pose proof Hf as Hf0. rewrite E in Hr', Hf. apply in_app_or in Hr'.
  destruct Hr' as [Hr'|[<-|Hr']]; [| lia |].
  - apply in_split in Hr'. destruct Hr' as (a1 & a2 & ->).
    pose proof (from_order lo _ Hf0 a1 r' a2 r b). rewrite E, <- app_assoc in H.
    specialize (H eq_refl). lia.
  - apply in_split in Hr'. destruct Hr' as (a1 & a2 & ->).
    pose proof (from_order lo _ Hf0 a r a1 r' a2 E). lia.
Qed.

Lemma region_of_ok rs off n :
  Forall (fun r => 0 <= r_off r /\ 0 <= r_sz r /\ r_off r + r_sz r < B64) rs ->
  0 <= off -> 0 <= n -> off + n < B64 ->
  (exists r, In r rs /\ r_off r <= off /\ off + n <= r_off r + r_sz r) ->
  exists p, region_of rs off n = Some p /\ In p rs /\
            r_off p <= off /\ off + n <= r_off p + r_sz p.
Proof.
  induction rs as [|y rs IH]; intros HF Ho Hn Hb (r & Hr & H1 & H2); [destruct Hr|].
  cbn [region_of]. apply Forall_cons_iff in HF. destruct HF as (Hy & HF).
  unfold r_end. rewrite !u64_id by lia.
  destruct (Z.leb_spec (r_off y) off); cbn [andb].
  - destruct (Z.leb_spec (off + n) (r_off y + r_sz y)).
    + exists y. cbn [In]. auto.
    + destruct Hr as [->|Hr]; [lia|].
      destruct IH as (p & P1 & P2 & P3); auto. { exists r. auto. }
      exists p. cbn [In]. auto.
  - destruct Hr as [->|Hr]; [lia|].
    destruct IH as (p & P1 & P2 & P3); auto. { exists r. auto. }
    exists p. cbn [In]. auto.
Qed.

(* ---- modify_hdrs ---------------------------------------------------------- *)
Definition found (rs : list region) (off n : Z) (p : region) : Prop :=
  In p rs /\ r_off p <= off /\ off + n <= r_off p + r_sz p.

Lemma p_type_number ph i : 0 <= i -> p_type ph i = number ph (56 * i) 4.
Proof. intros. apply fld_number. unfold PHDR_SIZE. lia. Qed.
Lemma p_offset_number ph i : 0 <= i -> p_offset ph i = number ph (56 * i + 8) 8.
Proof. intros. apply fld_number. unfold PHDR_SIZE. lia. Qed.
Lemma p_filesz_number ph i : 0 <= i -> p_filesz ph i = number ph (56 * i + 32) 8.
Proof. intros. apply fld_number. unfold PHDR_SIZE. lia. Qed.

Definition nonempty (ph : list Z) (i : Z) : Prop :=
  number ph (56 * i) 4 <> 0 /\ number ph (56 * i + 32) 8 <> 0.

Lemma modify_loop_ok rs n : forall i ph,
  0 <= i -> 56 * (i + Z.of_nat n) <= zlen ph ->
  Forall (fun r => 0 <= r_off r /\ 0 <= r_sz r /\ r_off r + r_sz r < B64 /\
                   0 <= r_disp r <= r_off r) rs ->
  (forall j, i <= j < i + Z.of_nat n ->
     0 <= number ph (56 * j + 8) 8 /\ 0 <= number ph (56 * j + 32) 8 /\
     (nonempty ph j ->
      number ph (56 * j + 8) 8 + number ph (56 * j + 32) 8 < B64 /\
      exists r, found rs (number ph (56 * j + 8) 8) (number ph (56 * j + 32) 8) r)) ->
  exists ph', modify_loop n i rs ph = Some ph' /\ zlen ph' = zlen ph /\
    (forall j x, 0 <= j -> 0 <= x < 56 -> ~ 8 <= x < 16 ->
       byte ph' (56 * j + x) = byte ph (56 * j + x)) /\
    (forall j, 0 <= j < i -> number ph' (56 * j + 8) 8 = number ph (56 * j + 8) 8) /\
    (forall j, i <= j < i + Z.of_nat n -> ~ nonempty ph j ->
       number ph' (56 * j + 8) 8 = number ph (56 * j + 8) 8) /\
    (forall j, i <= j < i + Z.of_nat n -> nonempty ph j -> exists p,
       found rs (number ph (56 * j + 8) 8) (number ph (56 * j + 32) 8) p /\
       number ph' (56 * j + 8) 8 = number ph (56 * j + 8) 8 - r_disp p).
Proof.
  induction n as [|n IH]; intros i ph Hi Hl HF Hs; cbn [modify_loop].
  - exists ph. repeat split; auto; intros; lia.
  - rewrite p_type_number, p_filesz_number, p_offset_number by auto.
    destruct (Hs i ltac:(lia)) as (S1 & S2 & S3).
    destruct (Z.eqb_spec (number ph (56 * i) 4) 0) as [E1|E1];
    [|destruct (Z.eqb_spec (number ph (56 * i + 32) 8) 0) as [E2|E2]]; cbn [orb].
    + destruct (IH (i + 1) ph) as (ph' & I1 & I2 & I3 & I4 & I5 & I6); auto; try lia.
      { intros j Hj. apply Hs. lia. }
      exists ph'. repeat split; auto.
      * intros j Hj. apply I4. lia.
      * intros j Hj Hne. destruct (Z.eq_dec j i) as [->|]; [apply I4; lia|apply I5; auto; lia].
      * intros j Hj Hne. destruct (Z.eq_dec j i) as [->|]; [destruct Hne; tauto|].
        apply I6; auto; lia.
    + destruct (IH (i + 1) ph) as (ph' & I1 & I2 & I3 & I4 & I5 & I6); auto; try lia.
      { intros j Hj. apply Hs. lia. }
      exists ph'. repeat split; auto.
      * intros j Hj. apply I4. lia.
      * intros j Hj Hne. destruct (Z.eq_dec j i) as [->|]; [apply I4; lia|apply I5; auto; lia].
      * intros j Hj Hne. destruct (Z.eq_dec j i) as [->|]; [destruct Hne; tauto|].
        apply I6; auto; lia.
    + assert (Hne : nonempty ph i) by (split; auto).
      destruct (S3 Hne) as (S4 & r & Hr).
      destruct (region_of_ok rs (number ph (56 * i + 8) 8) (number ph (56 * i + 32) 8))
        as (p & R1 & R2); auto.
      { eapply Forall_impl; [|exact HF]. cbn beta. intros. tauto. }
      { exists r. exact Hr. }
      rewrite R1.
      assert (Hd : 0 <= r_disp p <= number ph (56 * i + 8) 8).
      { rewrite Forall_forall in HF. destruct R2 as (R2 & R3 & R4).
        specialize (HF p R2). lia. }
      rewrite u64_id by (unfold B64 in *; lia).
      set (v := number ph (56 * i + 8) 8 - r_disp p).
      change (PHDR_SIZE * i + 8) with (56 * i + 8).
      set (ph1 := setfld ph (56 * i + 8) 8 v).
      assert (L1 : zlen ph1 = zlen ph) by (apply zlen_setfld; lia).
      assert (N1 : number ph1 (56 * i + 8) 8 = v).
      { unfold ph1. rewrite number_setfld by lia. apply Z.mod_small.
        change (256 ^ Z.of_nat 8) with B64. unfold v. lia. }
      assert (N2 : forall x k, x + Z.of_nat k <= 56 * i + 8 \/ 56 * i + 16 <= x ->
                   number ph1 x k = number ph x k).
      { intros x k Hx. apply number_setfld_other; lia. }
      destruct (IH (i + 1) ph1) as (ph' & I1 & I2 & I3 & I4 & I5 & I6); auto; try lia.
      { intros j Hj. unfold nonempty. rewrite !N2 by lia. apply Hs. lia. }
      exists ph'. split; [exact I1|]. split; [lia|]. split.
      { intros j x Hj Hx Hx8. rewrite I3 by auto. unfold ph1. rewrite byte_setfld by lia.
        destruct (Z.leb_spec (56 * i + 8) (56 * j + x)); cbn [andb]; auto.
        destruct (Z.ltb_spec (56 * j + x) (56 * i + 8 + Z.of_nat 8)); auto. lia. }
      split; [|split].
      * intros j Hj. rewrite I4 by lia. apply N2. lia.
      * intros j Hj Hn. destruct (Z.eq_dec j i) as [->|]; [tauto|].
        rewrite I5; [apply N2; lia|lia|]. unfold nonempty. rewrite !N2 by lia. exact Hn.
      * intros j Hj Hn. destruct (Z.eq_dec j i) as [->|].
        -- exists p. split; [exact R2|]. rewrite I4 by lia. exact N1.
        -- destruct (I6 j) as (p' & P1 & P2); [lia| |].
           { unfold nonempty. rewrite !N2 by lia. exact Hn. }
           rewrite !N2 in P1 by lia. rewrite !N2 in P2 by lia. exists p'. split; [exact P1|exact P2].
Qed.

(* the ELF header after the section fields are cleared and e_phoff is set *)
Lemma ehdr_ok e v : zlen e = 64 -> 0 <= v < B64 ->
  let e4 := setfld (setfld (setfld (setfld e 40 8 0) 58 2 0) 60 2 0) 62 2 0 in
  let e5 := setfld e4 32 8 v in
  zlen e4 = 64 /\ zlen e5 = 64 /\ number e4 32 8 = number e 32 8 /\
  number e5 56 2 = number e 56 2 /\ number e5 32 8 = v /\
  (forall x, ~ 32 <= x < 48 -> ~ 58 <= x < 64 -> byte e5 x = byte e x) /\
  (forall x, 40 <= x < 48 \/ 58 <= x < 64 -> byte e5 x = Some 0).
Proof.
  intros Hl Hv. cbv zeta.
  set (e1 := setfld e 40 8 0). assert (L1 : zlen e1 = 64) by (unfold e1; rewrite zlen_setfld; lia).
  set (e2 := setfld e1 58 2 0). assert (L2 : zlen e2 = 64) by (unfold e2; rewrite zlen_setfld; lia).
  set (e3 := setfld e2 60 2 0). assert (L3 : zlen e3 = 64) by (unfold e3; rewrite zlen_setfld; lia).
  set (e4 := setfld e3 62 2 0). assert (L4 : zlen e4 = 64) by (unfold e4; rewrite zlen_setfld; lia).
  set (e5 := setfld e4 32 8 v). assert (L5 : zlen e5 = 64) by (unfold e5; rewrite zlen_setfld; lia).
  split; [exact L4|]. split; [exact L5|].
  split. { unfold e4. rewrite number_setfld_other by lia. unfold e3.
    rewrite number_setfld_other by lia. unfold e2. rewrite number_setfld_other by lia.
    unfold e1. apply number_setfld_other; lia. }
  split. { unfold e5. rewrite number_setfld_other by lia. unfold e4.
    rewrite number_setfld_other by lia. unfold e3. rewrite number_setfld_other by lia.
    unfold e2. rewrite number_setfld_other by lia. unfold e1. apply number_setfld_other; lia. }
  split. { unfold e5. rewrite number_setfld by lia. apply Z.mod_small. exact Hv. }
  split.
  - intros x H1 H2. unfold e5. rewrite byte_setfld by lia. unfold e4. rewrite byte_setfld by lia.
    unfold e3. rewrite byte_setfld by lia. unfold e2. rewrite byte_setfld by lia.
    unfold e1. rewrite byte_setfld by lia.
    replace ((32 <=? x) && (x <? 32 + Z.of_nat 8)) with false by lia.
    replace ((62 <=? x) && (x <? 62 + Z.of_nat 2)) with false by lia.
    replace ((60 <=? x) && (x <? 60 + Z.of_nat 2)) with false by lia.
    replace ((58 <=? x) && (x <? 58 + Z.of_nat 2)) with false by lia.
    replace ((40 <=? x) && (x <? 40 + Z.of_nat 8)) with false by lia. reflexivity.
  - intros x Hx. unfold e5. rewrite byte_setfld by lia.
    replace ((32 <=? x) && (x <? 32 + Z.of_nat 8)) with false by lia.
    unfold e4. rewrite byte_setfld by lia.
    destruct ((62 <=? x) && (x <? 62 + Z.of_nat 2)) eqn:E4.
    { assert (x - 62 = 0 \/ x - 62 = 1) as [->| ->] by lia; reflexivity. }
    unfold e3. rewrite byte_setfld by lia.
    destruct ((60 <=? x) && (x <? 60 + Z.of_nat 2)) eqn:E3.
    { assert (x - 60 = 0 \/ x - 60 = 1) as [->| ->] by lia; reflexivity. }
    unfold e2. rewrite byte_setfld by lia.
    destruct ((58 <=? x) && (x <? 58 + Z.of_nat 2)) eqn:E2.
    { assert (x - 58 = 0 \/ x - 58 = 1) as [->| ->] by lia; reflexivity. }
    unfold e1. rewrite byte_setfld by lia.
    replace ((40 <=? x) && (x <? 40 + Z.of_nat 8)) with true by lia.
    assert (x - 40 = 0 \/ x - 40 = 1 \/ x - 40 = 2 \/ x - 40 = 3 \/ x - 40 = 4 \/
            x - 40 = 5 \/ x - 40 = 6 \/ x - 40 = 7)
      as [->|[->|[->|[->|[->|[->|[->| ->]]]]]]] by lia; reflexivity.
Qed.
