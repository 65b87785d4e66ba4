(* Number conversions with widths and the modifier l. *)
From Verif Require Import Base BaseLemmas ConvModel ConvSpec ConvProofs ConvProofs2 ConvProofs3 ConvProofs4 ConvProofs6 PrintModel PrintSpec PrintProofs PrintProofs2 PrintProofs3.
Ltac Zify.zify_post_hook ::= Z.div_mod_to_equations.

Lemma digit_val d : digit d -> digval d = d - 48.
Proof. unfold digit, digval. intros H. replace ((48 <=? d) && (d <=? 57)) with true by lia. reflexivity. Qed.
Lemma width_exact strict : forall w fuel m fmt a p f, bytes_at m (fmt + a) (w ++ [f]) -> Forall digit w ->
  0 <= f < 256 -> ~ digit f -> 0 <= p -> (p + 1) * 10 ^ zlen w <= 1000000000 -> (length w < fuel)%nat ->
  width_loop strict fuel m fmt a p = Ok (a + zlen w, fold_left (fun v b => 10 * v + digval b) w p).
Proof.
  induction w as [|d w IH]; intros fuel m fmt a p f B D Hf Nf Hp Hb Hl; (destruct fuel as [|k]; [cbn [length] in Hl; lia|]); cbn [width_loop app bytes_at fold_left] in *.
  - destruct B as [B _]. rewrite (ldc_ok _ _ _ B), bind_Ok. rewrite schar_digit by exact Hf. unfold digit in Nf.
    assert ((48 <=? f) && (f <=? 57) = false) as -> by lia. change (zlen (@nil Z)) with 0 in *. do 2 f_equal; lia.
  - destruct B as [B1 B2]. apply Forall_cons_iff in D as [D1 D2]. rewrite (digit_val d D1). unfold digit in D1. rewrite zlen_cons in *. nneg w.
    rewrite Z.pow_add_r in Hb by lia. change (10 ^ 1) with 10 in Hb.
    assert (HP : 0 < 10 ^ zlen w) by (apply Z.pow_pos_nonneg; lia). set (P := 10 ^ zlen w) in *.
    assert (Hb1 : (p + 1) * 10 <= 1000000000) by nia.
    rewrite (ldc_ok _ _ _ B1), bind_Ok. rewrite schar_digit by lia.
    assert ((48 <=? d) && (d <=? 57) = true) as -> by lia.
    assert (I : forall z, 0 <= z <= 1000000000 -> iar strict z = Ok z).
    { intros z Hz. unfold iar. destruct strict; [apply iop_ok; unfold INT_MIN, INT_MAX; lia|]. f_equal. apply s32_small. unfold INT_MIN, INT_MAX. lia. }
    rewrite I by lia. rewrite bind_Ok. rewrite schar_low by lia. rewrite I by lia. rewrite bind_Ok.
    rewrite (IH k m fmt (a + 1) (p * 10 + (d - 48)) f); auto.
    + f_equal. f_equal; [lia|]. f_equal. lia.
    + replace (fmt + (a + 1)) with (fmt + a + 1) by lia. exact B2.
    + lia.
    + fold P. nia.
    + cbn [length] in Hl. lia.
Qed.

Definition fillc (w : list Z) : Z := if hd 0 w =? 48 then 48 else 32.
Lemma conv_exact strict k tmp0 m buf size fmt a b args st w f :
  bytes_at m (fmt + (a + 1)) (w ++ [f]) -> Forall digit w -> 0 < f < 256 -> ~ digit f ->
  padding st = 0 -> pad st = 32 -> (length w <= 9)%nat -> (length w <= k)%nat ->
  conv_loop strict (S k) tmp0 m buf size fmt a b args st =
      bind (switch strict (S k) tmp0 m buf size fmt (a + 1 + zlen w) b (schar f) args
              {| padding := value 10 w; sep := sep st; groups := groups st; modl := modl st; pad := fillc w |})
           (conv_after strict k tmp0 buf size fmt).
Proof.
  intros B D Hf Nf Hp Hpd Hn Hk. cbn [conv_loop]. rewrite Hp, Hpd.
  assert (Bf : m (fmt + (a + 1 + zlen w)) = Some f).
  { apply bytes_at_app in B as [_ [B _]]. rewrite <- B. f_equal. lia. }
  assert (Hhead : m (fmt + (a + 1)) = Some (hd f w) /\ 0 < hd f w < 256).
  { destruct w as [|d w]; cbn [app bytes_at hd] in *.
    - destruct B. auto.
    - destruct B as [B _]. apply Forall_cons_iff in D as [D _]. unfold digit in D. split; auto; lia. }
  destruct Hhead as (Hc0 & Rc0). rewrite (ldc_ok _ _ _ Hc0), bind_Ok. rewrite schar_nz by lia.
  assert (P9 : forall l : list Z, (length l <= 9)%nat -> (0 + 1) * 10 ^ zlen l <= 1000000000).
  { intros l Hl. pose proof (pow10_le (length l) Hl). unfold zlen. lia. }
  destruct (hd f w =? 48) eqn:E48.
  - destruct w as [|d w]; cbn [hd] in *; [exfalso; apply Nf; unfold digit; lia|].
    assert (d = 48) by lia. subst d. clear E48. apply Forall_cons_iff in D as [_ D]. cbn [app bytes_at length] in *. destruct B as [_ B].
    rewrite zlen_cons in *. nneg w.
    rewrite (width_exact strict w (S k) m fmt (a + 1 + 1) 0 f); auto; try lia.
    2:{ replace (fmt + (a + 1 + 1)) with (fmt + (a + 1) + 1) by lia. exact B. }
    2:{ apply P9. lia. }
    rewrite bind_Ok. cbn beta iota. replace (a + 1 + 1 + zlen w) with (a + 1 + (zlen w + 1)) by lia.
    rewrite (ldc_ok _ _ _ Bf), bind_Ok. reflexivity.
  - rewrite (width_exact strict w (S k) m fmt (a + 1) 0 f); auto; try lia.
    rewrite bind_Ok. cbn beta iota. rewrite (ldc_ok _ _ _ Bf), bind_Ok.
    replace (fillc w) with 32; [reflexivity|]. unfold fillc. destruct w; cbn [hd] in *; [reflexivity|]. now rewrite E48.
Qed.

(* ---- padded numerals are unique ---- *)
Lemma value_from base l : 0 < base -> digits base l -> forall a, 0 <= a ->
  a * base ^ zlen l <= fold_left (fun v b => base * v + digval b) l a < (a + 1) * base ^ zlen l.
Proof.
  intros Hb. induction l as [|b r IH]; intros D a Ha; cbn [fold_left]; [change (zlen (@nil Z)) with 0; rewrite Z.pow_0_r; lia|].
  apply Forall_cons_iff in D as [D1 D2]. rewrite zlen_cons. nneg r. rewrite Z.pow_add_r by lia. rewrite Z.pow_1_r.
  specialize (IH D2 (base * a + digval b) ltac:(nia)). assert (0 < base ^ zlen r) by (apply Z.pow_pos_nonneg; lia).
  set (P := base ^ zlen r) in *. clearbody P. nia.
Qed.
Lemma value_inj (P : Z -> Prop) base : (forall a b, P a -> P b -> 0 <= digval a -> digval a = digval b -> a = b) -> 1 < base ->
  forall l1 l2, digits base l1 -> digits base l2 -> zlen l1 = zlen l2 -> value base l1 = value base l2 -> Forall P l1 -> Forall P l2 -> l1 = l2.
Proof.
  intros Hi Hb. induction l1 as [|d1 l1 IH] using rev_ind; intros l2 D1 D2 HL V P1 P2.
  - destruct l2; [reflexivity|]. rewrite zlen_cons in HL. change (zlen (@nil Z)) with 0 in HL. nneg l2. lia.
  - destruct l2 as [|d2 l2 _] using rev_ind; [rewrite zlen_app in HL; change (zlen [d1]) with 1 in HL; change (zlen (@nil Z)) with 0 in HL; nneg l1; lia|].
    rewrite !zlen_app in HL. change (zlen [d1]) with 1 in HL. change (zlen [d2]) with 1 in HL. rewrite !value_snoc in V.
    apply Forall_app in D1 as [D1 D1']. apply Forall_app in D2 as [D2 D2'].
    apply Forall_cons_iff in D1' as [D1' _]. apply Forall_cons_iff in D2' as [D2' _].
    apply Forall_app in P1 as [P1 P1']. apply Forall_app in P2 as [P2 P2'].
    apply Forall_cons_iff in P1' as [P1' _]. apply Forall_cons_iff in P2' as [P2' _].
    assert (E : value base l1 = value base l2 /\ digval d1 = digval d2) by (apply (Z.div_mod_unique base); lia).
    destruct E as [E1 E2]. f_equal; [apply IH; auto; lia|]. f_equal. apply Hi; auto; lia.
Qed.
Lemma longer base w l1 l2 v : 1 < base -> padded_numeral base v w l1 -> padded_numeral base v w l2 -> zlen l1 < zlen l2 -> False.
Proof.
  intros Hb (D1 & V1 & W1 & H1) (D2 & V2 & W2 & H2) HL.
  destruct l2 as [|d l2]; [change (zlen (@nil Z)) with 0 in HL; nneg l1; lia|]. cbn [hd] in H2.
  assert (Hd : d <> 48) by (intros E; specialize (H2 E); lia).
  apply Forall_cons_iff in D2 as [Dd D2]. assert (1 <= digval d).
  { destruct (Z.eq_dec (digval d) 0) as [E|]; [|lia]. now apply digval_zero in E. }
  unfold value in V1, V2. cbn [fold_left] in V2.
  pose proof (value_from base l1 ltac:(lia) D1 0 ltac:(lia)) as R1. pose proof (value_from base l2 ltac:(lia) D2 (base * 0 + digval d) ltac:(lia)) as R2.
  rewrite V1 in R1. rewrite V2 in R2. rewrite zlen_cons in HL. nneg l1.
  pose proof (Z.pow_le_mono_r base (zlen l1) (zlen l2) ltac:(lia) ltac:(lia)). nia.
Qed.
Lemma padded_unique (P : Z -> Prop) base : (forall a b, P a -> P b -> 0 <= digval a -> digval a = digval b -> a = b) -> 1 < base ->
  forall w v l1 l2, padded_numeral base v w l1 -> padded_numeral base v w l2 -> Forall P l1 -> Forall P l2 -> l1 = l2.
Proof.
  intros Hi Hb w v l1 l2 H1 H2 P1 P2.
  destruct (Z.lt_trichotomy (zlen l1) (zlen l2)) as [HL|[HL|HL]]; [exfalso; eapply longer; [exact Hb|exact H1|exact H2|exact HL]| |exfalso; eapply longer; [exact Hb|exact H2|exact H1|exact HL]].
  destruct H1 as (D1 & V1 & _). destruct H2 as (D2 & V2 & _). eapply value_inj; eauto. congruence.
Qed.
Lemma padded10_unique w v l1 l2 : padded_numeral 10 v w l1 -> padded_numeral 10 v w l2 -> l1 = l2.
Proof. intros H1 H2. eapply (padded_unique lower 10 digval_inj ltac:(lia)); eauto; apply digits10_lower; [apply H1|apply H2]. Qed.

(* ---- uitodec, zeros in front ---- *)
Lemma value_zeros n l : value 10 (repeat 48 n ++ l) = value 10 l.
Proof. induction n; [reflexivity|]. cbn [repeat app]. unfold value in *. cbn [fold_left]. exact IHn. Qed.
Lemma digits_zeros n l : digits 10 l -> digits 10 (repeat 48 n ++ l).
Proof. intros D. apply Forall_app. split; [|exact D]. apply Forall_forall. intros x Hx. apply repeat_spec in Hx. subst. cbn. lia. Qed.
Lemma uitodec_zeros i prec : 0 <= i < 4294967296 -> 1 <= prec <= 9 ->
  exists l, padded_numeral 10 i prec l /\ forall m buf, room m buf (zlen l + 1) ->
    exists m', uitodec m i buf prec 0 48 = Ok (m', zlen l) /\ wrote m m' buf l.
Proof.
  intros Hi Hp. destruct (Z.eq_dec i 0) as [->|H0].
  - exists (repeat 48 (Z.to_nat prec)). assert (EL : zlen (repeat 48 (Z.to_nat prec)) = prec) by (rewrite zlen_repeat; lia).
    assert (D : digits 10 (repeat 48 (Z.to_nat prec))) by (rewrite <- (app_nil_r (repeat _ _)); apply digits_zeros; constructor).
    split.
    + split; [exact D|]. split; [rewrite <- (app_nil_r (repeat _ _)); rewrite value_zeros; reflexivity|]. split; [lia|auto].
    + intros m buf R. destruct (uitodec_text m 0 buf prec 48 ltac:(lia) ltac:(lia)) as (m' & E & W);
      change (ubyte (if 48 =? 0 then 32 else 48)) with 48 in *; cbv zeta in *;
      assert (ET : uit_text 0 prec 48 = repeat 48 (Z.to_nat prec))
        by (assert (HC : prec = 1 \/ prec = 2 \/ prec = 3 \/ prec = 4 \/ prec = 5 \/ prec = 6 \/ prec = 7 \/ prec = 8 \/ prec = 9) by lia;
            destruct HC as [->|[->|[->|[->|[->|[->|[->|[->| ->]]]]]]]]; reflexivity).
      * rewrite ET. exact R.
      * rewrite ET in E, W. exists m'. split; [exact E|]. apply wrote_or; auto; [eapply digits_bytes; eauto|].
        destruct (Z.to_nat prec) eqn:En; [lia|discriminate].
  - destruct (uitodec_padded i prec 48 ltac:(lia) ltac:(lia) ltac:(lia)) as (n & l & N & L1 & L2 & HH).
    change (ubyte (if 48 =? 0 then 32 else 48)) with 48 in HH.
    assert (EL : zlen (repeat 48 n ++ l) = Z.of_nat n + zlen l) by (rewrite zlen_app, zlen_repeat; reflexivity).
    destruct N as (D & V & Hn & Hh).
    exists (repeat 48 n ++ l). rewrite EL. split; [|exact HH].
    split; [now apply digits_zeros|]. split; [now rewrite value_zeros|]. rewrite EL. split; [lia|].
    destruct n; [|intros _; apply L2; discriminate]. cbn [repeat app]. intros E. specialize (Hh E). subst l. change (zlen [48]) with 1 in *. 
    change (value 10 [48]) with 0 in V. lia.
Qed.

(* ---- ltodec with width 1 ---- *)
Lemma ultodec_one ui : 0 <= ui < 18446744073709551616 -> forall l, numeral 10 ui l -> zlen l <= 20 /\ forall m buf, room m buf (zlen l + 1) ->
    exists m', ultodec m ui buf 1 0 = Ok (m', zlen l) /\ wrote m m' buf l.
Proof.
  intros Hu l N. destruct (ultodec_text ui 1 Hu ltac:(lia)) as (l' & P & _ & L & HH). specialize (P ltac:(lia)). change (Z.max 1 1) with 1 in P.
  apply padded1 in P. assert (l' = l) by (eapply numeral10_unique; eauto). subst l'. auto.
Qed.
Lemma ltodec_one strict i l : LONG_MIN <= i <= LONG_MAX -> (strict = true -> i <> LONG_MIN) -> signed_numeral 10 i l ->
  zlen l <= 21 /\ forall m buf, room m buf (zlen l + 1) -> exists m', ltodec strict m i buf 1 0 = Ok (m', zlen l) /\ wrote m m' buf l.
Proof.
  unfold LONG_MIN, LONG_MAX. intros Hi Hs N. unfold signed_numeral in N. unfold ltodec. destruct (i <? 0) eqn:E.
  - destruct N as (r & -> & N). destruct (ultodec_one (- i) ltac:(lia) r N) as [L HH]. rewrite zlen_cons. split; [lia|]. intros m buf R.
    nneg r. rewrite (PrintProofs.put_ok m buf 0 45 (zlen r + 1 + 1)) by (auto; lia). rewrite bind_Ok.
    assert (EJ : exists j, lar strict (- i) = Ok j /\ u64 j = - i).
    { unfold lar. destruct strict.
      - exists (- i). split; [apply lop_ok; unfold LONG_MIN, LONG_MAX; specialize (Hs eq_refl); lia|apply u64_small; lia].
      - eexists. split; [reflexivity|]. unfold u64, s64. lia. }
    destruct EJ as (j & EJ & EU). rewrite EJ, bind_Ok, EU. rewrite Z.add_0_r. change (ubyte 45) with 45.
    destruct (HH (upd m buf 45) (buf + 1)) as (m' & E1 & W).
    { apply room_upd. apply (room_sub m buf (zlen r + 1 + 1)); auto; lia. }
    rewrite E1, bind_Ok. cbn beta iota. exists m'. split; [reflexivity|]. eapply wrote_cons; [lia|reflexivity|exact W].
  - destruct (ultodec_one i ltac:(lia) l N) as [L HH]. rewrite u64_small by lia. split; [lia|exact HH].
Qed.

Lemma number_char strict mods w c v o : number strict mods w c v o -> 0 < c < 256 /\ ~ digit c.
Proof. intros H. inversion H; subst; unfold digit; lia. Qed.

Lemma switch_number strict k tmp0 m buf size fmt a b mods w c v o args st :
  number strict mods w c v o -> room m buf size -> 0 <= b -> b + zlen o + 28 <= size ->
  padding st = value 10 (flat_map fst mods ++ w) -> pad st = fillc (flat_map fst mods ++ w) -> sep st = 0 -> modl st = (if long_mod mods then 1 else 0) ->
  exists R, switch strict (S k) tmp0 m buf size fmt a b (schar c) (v :: args) st = Ok R /\ sw_out m buf a b args o R.
Proof.
  intros HN R Hb Hsz Hp Hpd Hsep Hmod.
  assert (VN : forall l, Forall digit l -> 0 <= value 10 l).
  { intros l Hl. apply (value_range 10); [lia|]. eapply Forall_impl; [|exact Hl]. intros d Hd. rewrite (digit_val d Hd). unfold digit in Hd. lia. }
  inversion HN; subst; clear HN; cbn [flat_map app fst] in *; rewrite ?app_nil_r in *; unfold switch; cbv zeta; rewrite Hp, ?Hpd, Hsep, Hmod.
  - destruct (Z.eqb_spec (value 10 w) 0); [lia|]. nneg l.
    assert (PF : fillc w = 32) by (unfold fillc; destruct (Z.eqb_spec (hd 0 w) 48); [contradiction|reflexivity]). rewrite PF.
    assert (Hu : 0 < v < 4294967296) by (clear - H3; unfold INT_MAX in *; destruct (c =? 117); lia).
    destruct (uitodec_padded v (value 10 w) 32 Hu ltac:(lia) ltac:(lia)) as (n' & l' & N & L1 & L2 & HH).
    assert (l' = l) by (eapply numeral10_unique; eauto). subst l'. change (ubyte (if 32 =? 0 then 32 else 32)) with 32 in HH.
    assert (En : n' = Z.to_nat (value 10 w - zlen l)).
    { destruct n'; [lia|]. specialize (L2 ltac:(discriminate)). lia. }
    rewrite <- En in *. rewrite zlen_app, zlen_repeat in Hsz.
    destruct (HH m (buf + b)) as (m' & E1 & W); [apply (room_wr m buf size); auto; lia|].
    assert (EL : Z.of_nat n' + zlen l = zlen (repeat 32 n' ++ l)) by (rewrite zlen_app, zlen_repeat; lia). rewrite EL in E1.
    destruct H as [-> | ->].
    + change (schar 117) with 117. ceq. destruct (size <=? b + 13) eqn:E; [lia|]. cbn [va_arg long_mod map existsb]. rewrite bind_Ok. cbn beta iota.
      rewrite u32_small by lia. change (0 =? 0) with true. cbv iota. rewrite E1, bind_Ok. eexists. split; [reflexivity|]. now apply wrote_out.
    + change (schar 100) with 100. ceq. destruct (size <=? b + 13) eqn:E; [lia|]. cbn [va_arg long_mod map existsb]. rewrite bind_Ok. cbn beta iota.
      change (100 =? 117) with false in *. cbv iota in *. rewrite s32_small by (unfold INT_MIN, INT_MAX in *; lia). unfold itodec. destruct (v <? 0) eqn:Ev; [lia|].
      rewrite u32_small by lia. rewrite E1, bind_Ok. eexists. split; [reflexivity|]. now apply wrote_out.
  - destruct (Z.eqb_spec (value 10 w) 0); [lia|]. nneg o.
    assert (PF : fillc w = 48) by (unfold fillc; destruct (Z.eqb_spec (hd 0 w) 48); [reflexivity|contradiction]). rewrite PF.
    assert (Hu : 0 <= v < 4294967296) by (clear - H4; unfold INT_MAX in *; destruct (c =? 117); lia).
    destruct (uitodec_zeros v (value 10 w) Hu ltac:(lia)) as (l' & N & HH).
    assert (l' = o) by (eapply padded10_unique; eauto). subst l'.
    destruct (HH m (buf + b)) as (m' & E1 & W); [apply (room_wr m buf size); auto; lia|].
    destruct H as [-> | ->].
    + change (schar 117) with 117. ceq. destruct (size <=? b + 13) eqn:E; [lia|]. cbn [va_arg long_mod map existsb]. rewrite bind_Ok. cbn beta iota.
      rewrite u32_small by lia. rewrite E1, bind_Ok. eexists. split; [reflexivity|]. now apply wrote_out.
    + change (schar 100) with 100. ceq. destruct (size <=? b + 13) eqn:E; [lia|]. cbn [va_arg long_mod map existsb]. rewrite bind_Ok. cbn beta iota.
      change (100 =? 117) with false in *. cbv iota in *. rewrite s32_small by (unfold INT_MIN, INT_MAX in *; lia). unfold itodec. destruct (v <? 0) eqn:Ev; [lia|].
      rewrite u32_small by lia. rewrite E1, bind_Ok. eexists. split; [reflexivity|]. now apply wrote_out.
  - nneg o. pose proof (VN w ltac:(assumption)) as Hv.
    destruct (itohex_numeral (s32 v) (value 10 w) (if c =? 88 then 1 else 0)) as (l' & N & L & C & HH); [apply s32_int|lia|].
    assert (u32 (s32 v) = v) as Eu by (unfold u32, s32; lia). rewrite Eu in N.
    assert (l' = o).
    { destruct H as [-> | ->].
      - change (120 =? 88) with false in *. change (0 <? 0) with false in *. cbv iota in *.
        apply (padded_unique lower 16 digval_inj ltac:(lia) (Z.max 1 (value 10 w)) v); auto; apply Forall_forall; unfold lower; auto.
      - change (88 =? 88) with true in *. change (0 <? 1) with true in *. cbv iota in *.
        apply (padded_unique upper 16 digval_inj_up ltac:(lia) (Z.max 1 (value 10 w)) v); auto; apply Forall_forall; unfold upper; auto. }
    subst l'. destruct (HH m (buf + b)) as (m' & E1 & W); [apply (room_wr m buf size); auto; lia|].
    destruct H as [-> | ->]; [change (schar 120) with 120|change (schar 88) with 88]; ceq; (destruct (size <=? b + 8) eqn:E; [lia|]); cbn [va_arg]; rewrite bind_Ok; cbn beta iota;
      [change (120 =? 88) with false in E1|change (88 =? 88) with true in E1]; cbv iota in E1; rewrite E1, bind_Ok; (eexists; split; [reflexivity|]; now apply wrote_out).
  - nneg o. pose proof (VN w0 ltac:(assumption)) as Hv. change (schar 117) with 117. cbn [long_mod map snd existsb]. change (108 =? 108) with true. ceq. cbn [orb]. ceq.
    destruct (size <=? b + 27) eqn:E; [lia|]. cbn [va_arg]. rewrite bind_Ok. cbn beta iota. rewrite u64_small by lia.
    assert (EW : (if value 10 w0 =? 0 then 1 else value 10 w0) = Z.max 1 (value 10 w0)) by (destruct (value 10 w0 =? 0) eqn:?; lia). rewrite EW.
    destruct (ultodec_text v (Z.max 1 (value 10 w0)) ltac:(lia) ltac:(lia)) as (l' & P & _ & L & HH). specialize (P ltac:(lia)).
    replace (Z.max 1 (Z.max 1 (value 10 w0))) with (Z.max 1 (value 10 w0)) in P by lia.
    assert (l' = o) by (eapply padded10_unique; eauto). subst l'.
    destruct (HH m (buf + b)) as (m' & E1 & W); [apply (room_wr m buf size); auto; lia|]. rewrite E1, bind_Ok. eexists. split; [reflexivity|]. now apply wrote_out.
  - nneg o. change (schar 100) with 100. cbn [long_mod map snd existsb]. change (108 =? 108) with true. ceq. cbn [orb]. ceq.
    destruct (size <=? b + 27) eqn:E; [lia|]. cbn [va_arg]. rewrite bind_Ok. cbn beta iota. change (value 10 []) with 0. ceq. rewrite s64_small by lia.
    destruct (ltodec_one strict v o ltac:(assumption) ltac:(assumption) ltac:(assumption)) as [L HH].
    destruct (HH m (buf + b)) as (m' & E1 & W); [apply (room_wr m buf size); auto; lia|]. rewrite E1, bind_Ok. eexists. split; [reflexivity|]. now apply wrote_out.
Qed.

(* a whole conversion *)
Lemma number_conv strict k tmp0 m buf size fmt a b mods w c v o args :
  number strict mods w c v o -> room m buf size -> 0 <= b -> b + zlen o + 28 <= size ->
  bytes_at m (fmt + (a + 1)) (mods_text mods ++ w ++ [c]) -> (length (mods_text mods ++ w ++ [c]) <= k)%nat ->
  exists m' st', conv_loop strict k tmp0 m buf size fmt a b (v :: args) cst0 =
      Ok (SwGo m' (a + zlen (mods_text mods ++ w ++ [c])) (b + zlen o) args true st') /\
    bytes_at m' (buf + b) o /\ same_outside m m' (buf + b) (zlen o + 1) /\ mapped m m'.
Proof.
  intros HN R Hb Hsz B Hk. destruct (number_char _ _ _ _ _ _ HN) as [Rc Nc].
  assert (HM : (mods = [] /\ Forall digit w /\ (length w <= 9)%nat) \/ (exists w0, mods = [(w0, 108)] /\ w = [] /\ Forall digit w0 /\ (length w0 <= 9)%nat)).
  { assert (V9 : forall x, Forall digit x -> hd 0 x <> 48 -> value 10 x <= 9 -> (length x <= 9)%nat).
    { intros x D Hh Hx. destruct x as [|d x]; [cbn; lia|]. cbn [hd] in Hh. apply Forall_cons_iff in D as [Dd D]. unfold value in Hx. cbn [fold_left] in Hx.
      assert (Dx : digits 10 x) by (eapply Forall_impl; [|exact D]; intros e He; rewrite (digit_val e He); unfold digit in He; lia).
      pose proof (digit_val d Dd) as Ed. unfold digit in Dd.
      pose proof (value_from 10 x ltac:(lia) Dx (10 * 0 + digval d) ltac:(lia)) as Hv. cbn [length].
      destruct x as [|e x]; [cbn; lia|]. rewrite zlen_cons in Hv. nneg x. rewrite Z.pow_add_r in Hv by lia. change (10 ^ 1) with 10 in Hv.
      assert (0 < 10 ^ zlen x) by (apply Z.pow_pos_nonneg; lia). nia. }
    inversion HN; subst; [left|left|left|right|right]; auto.
    - split; [reflexivity|]. split; [assumption|]. apply V9; auto. lia.
    - exists w0. auto.
    - exists []. repeat split; auto. cbn. lia. }
  destruct HM as [(-> & D & L)|(w0 & -> & -> & D & L)].
  - cbn [mods_text flat_map app] in *. destruct k as [|k]; [rewrite app_length in Hk; cbn in Hk; lia|].
    rewrite app_length in Hk; cbn [length] in Hk.
    rewrite (conv_exact strict k tmp0 m buf size fmt a b (v :: args) cst0 w c); auto; [|lia].
    destruct (switch_number strict k tmp0 m buf size fmt (a + 1 + zlen w) b [] w c v o args
      {| padding := value 10 w; sep := sep cst0; groups := groups cst0; modl := modl cst0; pad := fillc w |} HN R Hb Hsz) as (Rs & E & W); auto.
    rewrite E, bind_Ok. destruct Rs as [m1 b1|m1 a1 b1 args1 stop1 st1]; cbn [sw_out] in W; [contradiction|].
    destruct W as (-> & -> & -> & -> & B1 & S1 & M1). cbn [conv_after]. do 2 eexists. split; [|split; [exact B1|split; [exact S1|exact M1]]].
    rewrite zlen_app. change (zlen [c]) with 1. replace (a + (zlen w + 1)) with (a + 1 + zlen w) by lia. reflexivity.
  - cbn [mods_text flat_map app fst snd] in *. rewrite <- ?app_assoc in *. cbn [app] in *. rewrite app_length in Hk. cbn [length] in Hk.
    destruct k as [|k]; [lia|]. destruct k as [|k]; [lia|].
    assert (B1 : bytes_at m (fmt + (a + 1)) (w0 ++ [108])).
    { change (w0 ++ [108; c]) with (w0 ++ [108] ++ [c]) in B. rewrite app_assoc in B. apply bytes_at_app in B. apply B. }
    assert (B2 : bytes_at m (fmt + (a + 1 + zlen w0 + 1)) [c]).
    { change (w0 ++ [108; c]) with (w0 ++ [108] ++ [c]) in B. rewrite app_assoc in B. apply bytes_at_app in B as [_ B]. rewrite zlen_app in B. change (zlen [108]) with 1 in B.
      replace (fmt + (a + 1 + zlen w0 + 1)) with (fmt + (a + 1) + (zlen w0 + 1)) by lia. exact B. }
    rewrite (conv_exact strict (S k) tmp0 m buf size fmt a b (v :: args) cst0 w0 108); auto; [|lia|unfold digit; lia|lia].
    unfold switch at 1. change (schar 108) with 108. ceq. rewrite bind_Ok. unfold conv_after at 1. cbn [padding sep groups modl pad].
    destruct B2 as [B2 B2']. rewrite (ldc_ok _ _ _ B2), bind_Ok. rewrite schar_nz by lia. assert (c =? 0 = false) as -> by lia.
    destruct (conv_step strict k tmp0 m buf size fmt (a + 1 + zlen w0) b (v :: args)
       {| padding := value 10 w0; sep := 0; groups := 0; modl := 1; pad := fillc w0 |} [] c (length w0)) as (p' & pd' & C1 & C2 & C3 & C4);
      [cbn [app]; split; [exact B2|exact I]|constructor|exact Rc|exact Nc| | |cbn; lia|cbn; lia|].
    { cbn [padding]. apply (value_range 10); [lia|]. eapply Forall_impl; [|exact D]. intros e He; rewrite (digit_val e He); unfold digit in He; lia. }
    { cbn [padding]. assert (Dx : digits 10 w0) by (eapply Forall_impl; [|exact D]; intros e He; rewrite (digit_val e He); unfold digit in He; lia).
      pose proof (value_from 10 w0 ltac:(lia) Dx 0 ltac:(lia)) as Hv. unfold value, zlen in *. lia. }
    destruct (C3 eq_refl) as [-> ->]. cbn [padding sep groups modl pad] in C4. cbn [sep groups cst0]. rewrite C4. clear C1 C2 C3 C4.
    change (zlen (@nil Z)) with 0. rewrite Z.add_0_r.
    destruct (switch_number strict k tmp0 m buf size fmt (a + 1 + zlen w0 + 1) b [(w0, 108)] [] c v o args
      {| padding := value 10 w0; sep := 0; groups := 0; modl := 1; pad := fillc w0 |} HN R Hb Hsz) as (Rs & E & W); auto;
      [cbn [flat_map fst app]; rewrite !app_nil_r; reflexivity|cbn [flat_map fst app]; rewrite !app_nil_r; reflexivity|].
    rewrite E, bind_Ok. destruct Rs as [m1 b1|m1 a1 b1 args1 stop1 st1]; cbn [sw_out] in W; [contradiction|].
    destruct W as (-> & -> & -> & -> & W1 & S1 & M1). cbn [conv_after]. do 2 eexists. split; [|split; [exact W1|split; [exact S1|exact M1]]].
    rewrite zlen_app. change (zlen [108; c]) with 2. replace (a + (zlen w0 + 2)) with (a + 1 + zlen w0 + 1) by lia. reflexivity.
Qed.

Lemma print_numbers (strict : bool) tmp0 buf size fmt : forall items args out m a b fuel,
  str_at m (fmt + a) (format_text items) -> apart (fmt + a) (zlen (format_text items) + 1) buf size ->
  numbers strict items args out -> room m buf size -> 0 <= b -> b + zlen out + 28 <= size ->
  (length (format_text items) < fuel)%nat ->
  exists m', print_loop strict fuel tmp0 m buf size fmt a b args = Ok (Done m' (b + zlen out)) /\
    bytes_at m' (buf + b) (out ++ [0]) /\ same_outside m m' (buf + b) (zlen out + 1).
Proof.
  induction items as [|i items IH]; intros args out m a b fuel Hs Ha HF R Hb Hsz Hf; (destruct fuel as [|k]; [lia|]); cbn [print_loop].
  - inversion HF; subst. change (format_text []) with (@nil Z) in *. cbn [str_at] in Hs. rewrite (ldc_ok _ _ _ Hs), bind_Ok. change (schar 0 =? 0) with true. cbv iota.
    change (zlen (@nil Z)) with 0 in *. rewrite (put_ok m buf b 0 size R) by lia. rewrite bind_Ok. eexists. rewrite Z.add_0_r. split; [reflexivity|]. split.
    + cbn [app bytes_at]. split; [apply upd_same|exact I].
    + apply same_outside_upd. lia.
  - change (format_text (i :: items)) with (item_text i ++ format_text items) in *.
    pose proof (str_at_range _ _ _ Hs) as Hr. apply Forall_app in Hr as [Hr _].
    pose proof Hs as Hs0. apply str_at_app in Hs as [Hi1 Hs]; [|exact Hr]. nneg (format_text items).
    assert (G : exists o rest out' m1, out = o ++ out' /\ numbers strict items rest out' /\
      bytes_at m1 (buf + b) o /\ same_outside m m1 (buf + b) (zlen o + 1) /\ mapped m m1 /\
      print_loop strict (S k) tmp0 m buf size fmt a b args = print_loop strict k tmp0 m1 buf size fmt (a + zlen (item_text i)) (b + zlen o) rest).
    { cbn [print_loop]. inversion HF; subst.
      - exists [c], args, out0. cbn [item_text bytes_at] in *. destruct Hi1 as [Hc _]. rewrite (ldc_ok _ _ _ Hc), bind_Ok. rewrite !schar_nz by lia.
        assert (c =? 0 = false) as -> by lia. assert (c =? 37 = false) as -> by lia. rewrite zlen_cons in Hsz. nneg out0.
        rewrite (put_ok m buf b _ size R) by lia. rewrite bind_Ok. destruct (size <=? b + 1) eqn:E; [lia|].
        rewrite ubyte_schar by lia. change (zlen [c]) with 1.
        eexists. split; [reflexivity|]. split; [assumption|]. split; [cbn [bytes_at]; split; [apply upd_same|exact I]|].
        split; [apply same_outside_upd; lia|]. split; [apply mapped_upd|reflexivity].
      - exists o, args0, out0. rewrite zlen_app in Hsz. nneg out0. nneg o.
        rewrite app_length in Hf. cbn [item_text length bytes_at] in *. destruct Hi1 as [Hc Hi1].
        rewrite (ldc_ok _ _ _ Hc), bind_Ok; change (schar 37 =? 0) with false; change (schar 37 =? 37) with true; cbv iota.
        replace (fmt + a + 1) with (fmt + (a + 1)) in Hi1 by lia.
        destruct (number_conv strict k tmp0 m buf size fmt a b mods w c v o args0) as (m' & st' & E & B1 & S1 & M1); auto; [lia|lia|].
        rewrite E, bind_Ok. exists m'. split; [reflexivity|]. split; [assumption|]. split; [exact B1|]. split; [exact S1|]. split; [exact M1|].
        f_equal. rewrite zlen_cons. lia. }
    destruct G as (o & rest & out' & m1 & -> & HF' & B1 & S1 & M1 & EQ). cbn [print_loop] in EQ. rewrite EQ. clear EQ.
    rewrite zlen_app in *. rewrite !app_length in Hf. nneg o. nneg out'. nneg (item_text i).
    assert (S2 : same_outside m m1 buf size) by (eapply so_at; [exact S1| |]; lia).
    assert (HI : (0 < length (item_text i))%nat) by (destruct i; cbn [item_text length]; lia).
    replace (fmt + a + zlen (item_text i)) with (fmt + (a + zlen (item_text i))) in Hs by lia.
    destruct (IH rest out' m1 (a + zlen (item_text i)) (b + zlen o) k) as (m' & E1 & E2 & E3); auto.
    + eapply str_keep; [exact Hs| |exact S2]. unfold apart in *. lia.
    + unfold apart in *. lia.
    + eapply mapped_room; eauto.
    + lia.
    + lia.
    + lia.
    + exists m'. rewrite E1. split; [do 2 f_equal; lia|]. split.
      * rewrite <- app_assoc. apply bytes_at_app. split.
        -- apply (bytes_at_ext m1); [exact B1|]. intros x Hx. apply E3. lia.
        -- replace (buf + b + zlen o) with (buf + (b + zlen o)) by lia. exact E2.
      * eapply same_outside_trans; [eapply same_outside_weaken; [exact S1| |]; lia|eapply same_outside_weaken; [exact E3| |]; lia].
Qed.
