(* The whole of shrinkelf. *)
From Verif Require Import Base BaseLemmas ShrinkModel ShrinkSpec ShrinkProofs ShrinkProofs2
  ShrinkProofs3.

Definition bytes (f : list Z) : Prop := Forall (fun b => 0 <= b <= 255) f.

Lemma read_hdrs_inv f e ph : bytes f -> read_hdrs f = Some (e, ph) ->
  e = read_at f 0 64 /\ 64 <= zlen f /\
  e_phoff e = ph_off f /\ e_phnum e = ph_num f /\ e_phentsize e = 56 /\
  ph = read_at f (ph_off f) (ph_num f * 56) /\
  0 < ph_off f < B64 /\ 0 < ph_num f < 65536 /\ ph_off f + ph_num f * 56 <= zlen f.
Proof.
  intros Hb. unfold read_hdrs, EHDR_SIZE, PHDR_SIZE.
  set (e0 := read_at f 0 64).
  destruct (Z.ltb_spec (zlen e0) 64); [discriminate|].
  assert (Hf : 64 <= zlen f) by (apply (read_at_full_range f 0 64); unfold e0 in *; lia).
  assert (F : forall pos k, 0 <= pos -> pos + Z.of_nat k <= 64 -> fld e0 pos k = number f pos k).
  { intros. unfold e0. rewrite fld_read_at by lia. reflexivity. }
  unfold e_class, e_vers, e_type, e_version, e_phoff, e_phentsize, e_phnum.
  rewrite !F by lia. fold (ph_off f) (ph_num f).
  pose proof (number_bound f 8 Hb 32) as B1. change (256 ^ Z.of_nat 8) with B64 in B1.
  pose proof (number_bound f 2 Hb 56) as B2. change (256 ^ Z.of_nat 2) with 65536 in B2.
  fold (ph_off f) in B1. fold (ph_num f) in B2.
  destruct (Z.eqb_spec (number f 4 1) 2); cbn [negb]; [|discriminate].
  destruct (Z.eqb_spec (number f 6 1) 1); cbn [negb]; [|discriminate].
  destruct (Z.eqb_spec (number f 16 2) 2); cbn [negb]; [|discriminate].
  destruct (Z.eqb_spec (number f 20 4) 1); cbn [negb]; [|discriminate].
  destruct (Z.eqb_spec (ph_off f) 0); cbn [negb]; [discriminate|].
  destruct (Z.eqb_spec (number f 54 2) 56); cbn [negb]; [|discriminate].
  destruct (Z.eqb_spec (ph_num f) 0); cbn [negb]; [discriminate|].
  destruct (Z.ltb_spec (zlen (read_at f (ph_off f) (ph_num f * 56))) (ph_num f * 56));
    [discriminate|].
  intros E. injection E as <- <-. rewrite !F by lia. fold (ph_off f) (ph_num f).
  assert (ph_off f + ph_num f * 56 <= zlen f)
    by (apply read_at_full_range; lia).
  repeat split; auto; lia.
Qed.

Lemma read_hdrs_exec f : elf_exec f ->
  read_hdrs f = Some (read_at f 0 64, read_at f (ph_off f) (ph_num f * 56)).
Proof.
  intros (Hb & Hl & C1 & C2 & C3 & C4 & C5 & C6 & C7 & C8 & _).
  unfold read_hdrs, EHDR_SIZE, PHDR_SIZE.
  set (e0 := read_at f 0 64).
  assert (Z0 : zlen e0 = 64) by (apply zlen_read_at; lia).
  assert (F : forall pos k, 0 <= pos -> pos + Z.of_nat k <= 64 -> fld e0 pos k = number f pos k).
  { intros. unfold e0. rewrite fld_read_at by lia. reflexivity. }
  unfold e_class, e_vers, e_type, e_version, e_phoff, e_phentsize, e_phnum.
  rewrite Z0, !F by lia. fold (ph_off f) (ph_num f).
  rewrite C1, C2, C3, C4, C5. cbn [Z.ltb Z.compare Z.eqb Pos.eqb negb Pos.compare Pos.compare_cont].
  destruct (Z.eqb_spec (ph_off f) 0); [lia|].
  destruct (Z.eqb_spec (ph_num f) 0); [lia|].
  rewrite zlen_read_at by lia. rewrite Z.ltb_irrefl. reflexivity.
Qed.

Lemma ph_fields f n i : 0 <= ph_off f -> 0 <= i -> 56 * (i + 1) <= n ->
  let ph := read_at f (ph_off f) n in
  number ph (56 * i) 4 = seg_type f i /\ number ph (56 * i + 8) 8 = seg_off f i /\
  number ph (56 * i + 32) 8 = seg_size f i.
Proof.
  intros H0 Hi Hn. cbv zeta. unfold seg_type, seg_off, seg_size.
  rewrite <- !fld_number by lia. rewrite !fld_read_at by lia.
  rewrite !Z.add_assoc, ?fld_number by lia. repeat split; reflexivity.
Qed.

Lemma regions_file f e ph :
  bytes f -> zlen f <= LONG_MAX -> read_hdrs f = Some (e, ph) ->
  (forall i, 0 <= i < ph_num f -> seg_type f i <> 0 ->
     seg_off f i + u32 (seg_size f i) < B64) ->
  let rs := compute_regions (e_phoff e) (u32 (e_phentsize e * e_phnum e)) (e_phnum e) ph in
  from (-1) rs /\
  (no_long_run (needed f) ->
   pos_sizes rs /\ forall x, cov rs x <-> needed f x).
Proof.
  intros Hb Hl Hr Hs. cbv zeta.
  destruct (read_hdrs_inv f e ph Hb Hr) as (_ & Hf & -> & -> & -> & Eph & Ho & Hn & Hin).
  rewrite u32_id by (unfold B32; lia).
  unfold compute_regions.
  assert (FLD : forall i, 0 <= i < ph_num f ->
     p_type ph i = seg_type f i /\ p_offset ph i = seg_off f i /\ p_filesz ph i = seg_size f i).
  { intros i Hi. rewrite p_type_number, p_offset_number, p_filesz_number by lia. subst ph.
    apply ph_fields; lia. }
  assert (SB : forall i, 0 <= seg_off f i < B64 /\ 0 <= seg_size f i < B64).
  { intros i. split; apply number_bound; auto. }
  assert (G : forall j, -2 <= j < -2 + Z.of_nat (Z.to_nat (ph_num f + 2)) ->
              part_good (ph_off f) (56 * ph_num f) ph j).
  { intros j Hj s k. unfold part_of, EHDR_SIZE.
    destruct (Z.eqb_spec j (-2)).
    { intros E. injection E as <- <-. unfold B32, B64. lia. }
    destruct (Z.eqb_spec j (-1)).
    { destruct (Z.eqb_spec (56 * ph_num f) 0); [discriminate|].
      intros E. injection E as <- <-. unfold B32, B64, LONG_MAX in *. lia. }
    destruct (FLD j) as (-> & -> & ->); [lia|].
    destruct (Z.eqb_spec (seg_type f j) 0); [discriminate|].
    destruct (Z.eqb_spec (u32 (seg_size f j)) 0); [discriminate|].
    intros E. injection E as <- <-. specialize (SB j).
    pose proof (u32_le (seg_size f j)). specialize (Hs j). lia. }
  destruct (regions_loop_ok (needed f) (ph_off f) (56 * ph_num f) ph
              (Z.to_nat (ph_num f + 2)) (-2) []) as (R1 & R2); auto.
  { exact I. }
  split; [exact R1|]. intros HP.
  assert (SM : forall i, 0 <= i < ph_num f -> seg_type f i <> 0 -> u32 (seg_size f i) = seg_size f i).
  { intros i Hi Ht. apply u32_id. split; [apply SB|].
    apply (run_short (needed f) (seg_off f i)); auto.
    intros x Hx. right. right. exists i. auto. }
  assert (PART : forall x, (exists j, -2 <= j < -2 + Z.of_nat (Z.to_nat (ph_num f + 2)) /\
            in_part (ph_off f) (56 * ph_num f) ph j x) <-> needed f x).
  { intros x. unfold needed, in_part. split.
    - intros (j & Hj & s & k & E & Hx). unfold part_of, EHDR_SIZE in E.
      destruct (Z.eqb_spec j (-2)).
      { injection E as <- <-. left. exact Hx. }
      destruct (Z.eqb_spec j (-1)).
      { destruct (Z.eqb_spec (56 * ph_num f) 0); [discriminate|].
        injection E as <- <-. right. left. exact Hx. }
      destruct (FLD j) as (E1 & E2 & E3); [lia|]. rewrite E1, E2, E3 in E.
      destruct (Z.eqb_spec (seg_type f j) 0); [discriminate|].
      rewrite SM in E by (auto; lia).
      destruct (Z.eqb_spec (seg_size f j) 0); [discriminate|].
      injection E as <- <-. right. right. exists j. repeat split; auto; lia.
    - intros [Hx|[Hx|(i & Hi & Ht & Hx)]].
      + exists (-2). split; [lia|]. exists 0, 64. split; [reflexivity|exact Hx].
      + exists (-1). split; [lia|]. exists (ph_off f), (56 * ph_num f).
        split; [|exact Hx]. unfold part_of. cbn [Z.eqb Pos.eqb].
        destruct (Z.eqb_spec (56 * ph_num f) 0); [lia|reflexivity].
      + exists i. split; [lia|]. exists (seg_off f i), (seg_size f i).
        split; [|exact Hx]. unfold part_of.
        destruct (Z.eqb_spec i (-2)); [lia|]. destruct (Z.eqb_spec i (-1)); [lia|].
        destruct (FLD i) as (-> & -> & ->); [lia|].
        destruct (Z.eqb_spec (seg_type f i) 0); [tauto|]. rewrite SM by auto.
        destruct (Z.eqb_spec (seg_size f i) 0); [lia|reflexivity]. }
  destruct (R2 HP) as (R3 & R4).
  - intros x Hx. destruct (cov_nil x Hx).
  - intros j x Hj Hx. apply PART. exists j. auto.
  - constructor.
  - split; auto. intros x. rewrite R4, <- PART. split; auto.
    intros [Hx|]; auto. destruct (cov_nil x Hx).
Qed.

Lemma from_bounds lo rs : from lo rs ->
  Forall (fun r => lo < r_off r /\ 0 <= r_sz r < B32 /\ r_off r + r_sz r < B64) rs.
Proof.
  revert lo. induction rs as [|r rs IH]; intros lo H; constructor; cbn [from] in H.
  - intuition.
  - destruct H as (H1 & H2 & H3 & H4). apply IH in H4.
    eapply Forall_impl; [|exact H4]. cbn beta. intros. lia.
Qed.

Lemma Forall2_in_r {A B} (R : A -> B -> Prop) l l' : Forall2 R l l' ->
  forall b, In b l' -> exists a, In a l /\ R a b.
Proof.
  induction 1; intros b [].
  - subst. exists x. cbn [In]. auto.
  - destruct (IHForall2 b H1) as (a & ? & ?). exists a. cbn [In]. auto.
Qed.
Lemma Forall2_in_l {A B} (R : A -> B -> Prop) l l' : Forall2 R l l' ->
  forall a, In a l -> exists b, In b l' /\ R a b.
Proof.
  induction 1; intros b [].
  - subst. exists y. cbn [In]. auto.
  - destruct (IHForall2 b H1) as (a & ? & ?). exists a. cbn [In]. auto.
Qed.

Theorem shrinkelf_ok f : elf_exec f -> no_long_run (needed f) ->
  exists out, shrinkelf f = Ok (Some out) /\ zlen out <= zlen f /\ relocated f out.
Proof.
  intros He HP. pose proof (read_hdrs_exec f He) as Hr.
  destruct He as (Hb & Hl & _ & _ & _ & _ & _ & C6 & C7 & C8 & Hseg).
  unfold shrinkelf. rewrite Hr.
  set (e := read_at f 0 64) in *. set (ph := read_at f (ph_off f) (ph_num f * 56)) in *.
  assert (SB : forall i, 0 <= seg_off f i < B64 /\ 0 <= seg_size f i < B64).
  { intros i. split; apply number_bound; auto. }
  assert (SM : forall i, 0 <= i < ph_num f -> seg_type f i <> 0 ->
               u32 (seg_size f i) = seg_size f i).
  { intros i Hi Ht. apply u32_id. split; [apply SB|].
    apply (run_short (needed f) (seg_off f i)); auto.
    intros x Hx. right. right. exists i. auto. }
  assert (SE : forall i, 0 <= i < ph_num f -> seg_type f i <> 0 ->
               seg_off f i + seg_size f i < B64).
  { intros i Hi Ht. destruct (Z.eq_dec (seg_size f i) 0) as [E|E].
    - rewrite E. specialize (SB i). lia.
    - specialize (Hseg i Hi (conj Ht E)). unfold LONG_MAX, B64 in *. lia. }
  destruct (regions_file f e ph Hb (proj2 Hl) Hr) as (R1 & R2).
  { intros i Hi Ht. rewrite SM by auto. auto. }
  destruct (R2 HP) as (R3 & R4). clear R2.
  destruct (read_hdrs_inv f e ph Hb Hr) as (_ & _ & Ee & En & Es & _ & Ho & Hn & _).
  rewrite Ee, En, Es in *. rewrite u32_id in * by (unfold B32; lia).
  set (rs0 := compute_regions (ph_off f) (56 * ph_num f) (ph_num f) ph) in *.
  clearbody rs0.
  destruct (compute_disps_ok rs0 (-1) 0 R1) as (D1 & D2); [lia|].
  set (rs := compute_disps 0 rs0) in *. clearbody rs.
  assert (RS : Forall (fun r => 0 <= r_off r /\ 0 < r_sz r < B32 /\
      r_off r + r_sz r <= zlen f /\ 0 <= r_disp r <= r_off r /\ r_disp r mod 4096 = 0 /\
      r_toff r = r_off r - r_disp r) rs).
  { apply Forall_forall. intros d Hd.
    destruct (Forall2_in_r _ _ _ D1 d Hd) as (r & Hr0 & Q1 & Q2 & Q3 & Q4 & Q5).
    pose proof (from_bounds _ _ R1) as FB. rewrite Forall_forall in FB. specialize (FB r Hr0).
    unfold pos_sizes in R3. rewrite Forall_forall in R3. specialize (R3 r Hr0).
    assert (needed f (r_off r + r_sz r - 1)) as Hneed.
    { apply R4. exists r. split; auto. lia. }
    assert (r_off r + r_sz r <= zlen f).
    { destruct Hneed as [Hx|[Hx|(i & Hi & Ht & Hx)]].
      - unfold in_ehdr in Hx. lia.
      - unfold in_phdr in Hx. lia.
      - assert (has_bytes f i) by (split; [auto|lia]). specialize (Hseg i Hi H). lia. }
    rewrite Q1, Q2, Q5. repeat split; auto; lia. }
  (* the region of a needed interval *)
  assert (REG : forall off n, 0 < n -> (forall x, off <= x < off + n -> needed f x) ->
            exists r, found rs off n r).
  { intros off n Hn0 Hx.
    destruct (interval_in_region (-1) rs0 off n R1 Hn0) as (r & I1 & I2 & I3).
    { intros x Hx0. apply R4. auto. }
    destruct (Forall2_in_l _ _ _ D1 r I1) as (d & Hd & Q1 & Q2 & _).
    exists d. unfold found. rewrite Q1, Q2. auto. }
  assert (RS64 : Forall (fun r => 0 <= r_off r /\ 0 <= r_sz r /\ r_off r + r_sz r < B64 /\
                          0 <= r_disp r <= r_off r) rs).
  { eapply Forall_impl; [|exact RS]. cbn beta. unfold LONG_MAX, B64 in *. intros. lia. }
  assert (RS64' : Forall (fun r => 0 <= r_off r /\ 0 <= r_sz r /\ r_off r + r_sz r < B64) rs).
  { eapply Forall_impl; [|exact RS64]. cbn beta. tauto. }
  unfold modify_hdrs.
  (* the region of the program header *)
  destruct (region_of_ok rs (ph_off f) (56 * ph_num f)) as (p & P1 & P2 & P3 & P4); auto;
    try (unfold LONG_MAX, B64 in *; lia).
  { apply REG; [lia|]. intros x Hx. right. left. exact Hx. }
  rewrite P1.
  assert (Le : zlen e = 64) by (apply zlen_read_at; lia).
  assert (Lp : zlen ph = 56 * ph_num f) by (unfold ph; rewrite zlen_read_at; lia).
  pose proof (proj1 (Forall_forall _ _) RS) as RS'.  cbn beta in RS'.
  pose proof (RS' p P2) as Hp.
  destruct (ehdr_ok e (ph_off f - r_disp p) Le) as (X1 & X2 & X3 & X4 & X5 & X6 & X7);
    [unfold B64 in *; lia|].
  assert (Ne : number e 32 8 = ph_off f).
  { rewrite <- fld_number by lia. exact Ee. }
  assert (Nn : number e 56 2 = ph_num f).
  { rewrite <- fld_number by lia. exact En. }
  set (e4 := setfld (setfld (setfld (setfld e 40 8 0) 58 2 0) 60 2 0) 62 2 0) in *.
  assert (E4 : e_phoff e4 = ph_off f).
  { unfold e_phoff. rewrite fld_number by lia. lia. }
  rewrite E4. rewrite u64_id by (unfold B64 in *; lia).
  set (e5 := setfld e4 32 8 (ph_off f - r_disp p)) in *.
  assert (E5 : e_phnum e5 = ph_num f).
  { unfold e_phnum. rewrite fld_number by lia. lia. }
  rewrite E5. clearbody e4 e5.
  assert (PF : forall i, 0 <= i < ph_num f ->
    number ph (56 * i) 4 = seg_type f i /\ number ph (56 * i + 8) 8 = seg_off f i /\
    number ph (56 * i + 32) 8 = seg_size f i).
  { intros i Hi. apply ph_fields; lia. }
  destruct (modify_loop_ok rs (Z.to_nat (ph_num f)) 0 ph) as (ph' & M1 & M2 & M3 & _ & M5 & M6);
    auto; try lia.
  { intros j Hj. unfold nonempty. destruct (PF j) as (-> & -> & ->); [lia|].
    split; [apply SB|]. split; [apply SB|]. intros (N1 & N2). split; [apply SE; auto; lia|].
    apply REG; [specialize (SB j); lia|].
    intros x Hx. right. right. exists j. repeat split; auto; lia. }
  rewrite M1.
  destruct (process_file_ok f e5 ph' (ph_off f) (56 * ph_num f) X2 ltac:(lia) ltac:(lia)
              ltac:(lia) ltac:(lia) rs [] 0) as (out & O1 & O2 & _ & _ & O3); auto; try lia.
  { eapply Forall_impl; [|exact RS]. cbn beta. intros. lia. }
  { unfold zlen. cbn [length]. lia. }
  exists out. split; [exact O1|]. split; [exact O2|].
  pose proof (byte_patched f e5 ph' (ph_off f) (56 * ph_num f) X2 ltac:(lia) ltac:(lia)
              ltac:(lia) ltac:(lia)) as BP.
  (* the bytes of the output inside a needed interval *)
  assert (OUT : forall off n r, found rs off n r -> forall x, off <= x < off + n ->
            byte out (off - r_disp r + (x - off)) = byte (patched f e5 ph' (ph_off f)) x).
  { intros off n r (F1 & F2 & F3) x Hx. specialize (RS' r F1).
    replace (off - r_disp r + (x - off)) with (r_toff r + (x - r_off r)) by lia.
    rewrite O3 by (auto; lia). f_equal. lia. }
  (* ELF header *)
  assert (OE : forall x, in_ehdr x -> byte out x = byte e5 x).
  { intros x Hx. unfold in_ehdr in Hx.
    destruct (REG 0 64) as (r & Hr0); [lia|intros y Hy; left; exact Hy|].
    pose proof (OUT 0 64 r Hr0 x Hx) as HO. destruct Hr0 as (F1 & F2 & F3).
    specialize (RS' r F1). replace (0 - r_disp r + (x - 0)) with x in HO by lia.
    rewrite HO, BP.
    replace ((ph_off f <=? x) && (x <? ph_off f + 56 * ph_num f)) with false by lia.
    replace ((0 <=? x) && (x <? 64)) with true by lia. reflexivity. }
  assert (OPH : ph_off out = ph_off f - r_disp p).
  { unfold ph_off at 1. rewrite <- X5. apply number_ext. intros k Hk. apply OE.
    unfold in_ehdr. lia. }
  (* program header *)
  assert (OP : forall x, 0 <= x < 56 * ph_num f -> byte out (ph_off out + x) = byte ph' x).
  { intros x Hx. rewrite OPH.
    pose proof (OUT (ph_off f) (56 * ph_num f) p (conj P2 (conj P3 P4)) (ph_off f + x)) as HO.
    replace (ph_off f + x - ph_off f) with x in HO by lia. rewrite HO by lia.
    rewrite BP.
    replace ((ph_off f <=? ph_off f + x) && (ph_off f + x <? ph_off f + 56 * ph_num f))
      with true by lia. f_equal. lia. }
  assert (BPH : forall x, 0 <= x < 56 * ph_num f -> byte ph x = byte f (ph_off f + x)).
  { intros x Hx. unfold ph. rewrite byte_read_at by lia.
    replace ((0 <=? x) && (x <? ph_num f * 56)) with true by lia. reflexivity. }
  assert (OS : forall i, 0 <= i < ph_num f ->
            seg_off out i = number ph' (56 * i + 8) 8).
  { intros i Hi. apply number_ext. intros k Hk.
    replace (ph_off out + 56 * i + 8 + k) with (ph_off out + (56 * i + 8 + k)) by lia.
    apply OP. lia. }
  split; [|split; [|split; [|split]]].
  - intros x Hx H1 H2. rewrite OE by auto. rewrite X6 by auto.
    unfold e. rewrite byte_read_at by lia. unfold in_ehdr in Hx.
    replace ((0 <=? x) && (x <? 64)) with true by lia. reflexivity.
  - intros x Hx. rewrite OE by (unfold in_ehdr; lia). apply X7. exact Hx.
  - intros i x Hi Hx Hx8. rewrite <- !Z.add_assoc. rewrite OP by lia.
    rewrite M3 by lia. apply BPH. lia.
  - intros i Hi Hnb. rewrite OS by auto. destruct (PF i Hi) as (Q1 & Q2 & Q3).
    rewrite <- Q2. apply M5; [lia|]. unfold nonempty. rewrite Q1, Q3. exact Hnb.
  - intros i Hi Hnb. rewrite OS by auto. destruct (PF i Hi) as (Q1 & Q2 & Q3).
    destruct (M6 i) as (r & F & N); [lia|unfold nonempty; rewrite Q1, Q3; exact Hnb|].
    rewrite Q2, Q3 in *. rewrite N. pose proof F as (F1 & F2 & F3). pose proof (RS' r F1) as Hd.
    split.
    { rewrite Zminus_mod. destruct Hd as (_ & _ & _ & _ & -> & _).
      rewrite Z.sub_0_r. apply Z.mod_mod. lia. }
    split; [lia|].
    intros x Hx. cbv zeta.
    pose proof (OUT _ _ _ F x Hx) as HO.
    split; [|split].
    + intros Hi0. unfold in_ehdr in Hi0. rewrite HO, BP. rewrite OE by exact Hi0.
      replace ((ph_off f <=? x) && (x <? ph_off f + 56 * ph_num f)) with false by lia.
      replace ((0 <=? x) && (x <? 64)) with true by lia. reflexivity.
    + intros Hi0. unfold in_phdr in Hi0. rewrite HO, BP. rewrite OP by lia.
      replace ((ph_off f <=? x) && (x <? ph_off f + 56 * ph_num f)) with true by lia.
      reflexivity.
    + intros Hi0 Hi1. unfold in_ehdr, in_phdr in *. rewrite HO, BP.
      replace ((ph_off f <=? x) && (x <? ph_off f + 56 * ph_num f)) with false by lia.
      replace ((0 <=? x) && (x <? 64)) with false by lia. split; [reflexivity|].
      apply byte_in. specialize (SB i). specialize (Hseg i Hi Hnb). lia.
Qed.
