(* Plain formats again: only the output and its terminator need room. *)
From Verif Require Import Base BaseLemmas ConvModel ConvSpec ConvProofs ConvProofs2 ConvProofs3 ConvProofs4 ConvProofs6 PrintModel PrintSpec PrintProofs PrintProofs2 PrintProofs3.
Ltac Zify.zify_post_hook ::= Z.div_mod_to_equations.
Lemma str_fits : forall s fuel m buf size rs b p, str_at m p s -> apart p (zlen s + 1) buf rs -> room m buf rs -> 0 <= b ->
  b + zlen s < rs -> b + zlen s < size -> (length s < fuel)%nat ->
  exists m', str_loop fuel m buf size b p = Ok (Done m' (b + zlen s)) /\
    same_outside m m' (buf + b) (zlen s) /\ mapped m m' /\ bytes_at m' (buf + b) s.
Proof.
  induction s as [|c s IH]; intros fuel m buf size rs b p Hs Ha R Hb Hr Hz Hl; (destruct fuel as [|k]; [cbn [length] in Hl; lia|]); cbn [str_loop].
  - pose proof (str_at_end _ _ _ Hs) as He. change (zlen (@nil Z)) with 0 in *. rewrite Z.add_0_r in *. rewrite (load_some _ _ _ He), bind_Ok. cbn [Z.eqb].
    eexists. split; [reflexivity|]. split; [apply same_outside_refl|]. split; [apply mapped_refl|exact I].
  - pose proof (str_at_range _ _ _ Hs) as Hr0. apply Forall_cons_iff in Hr0 as [Hr0 _].
    destruct Hs as (Hc & _ & Hs). rewrite zlen_cons in *. nneg s.
    rewrite (load_some _ _ _ Hc), bind_Ok. assert (c =? 0 = false) as -> by lia.
    rewrite (put_ok m buf b c rs R) by lia. rewrite bind_Ok. rewrite ubyte_small by lia.
    destruct (size <=? b + 1) eqn:E; [lia|].
    destruct (IH k (upd m (buf + b) c) buf size rs (b + 1) (p + 1)) as (m' & E1 & S & M & B).
    + apply str_at_upd; [exact Hs|]. unfold apart in Ha. lia.
    + unfold apart in *. lia.
    + apply (mapped_room m); [apply mapped_upd|exact R].
    + lia.
    + lia.
    + lia.
    + cbn [length] in Hl. lia.
    + exists m'. split; [rewrite E1; do 2 f_equal; lia|]. replace (buf + (b + 1)) with (buf + b + 1) in * by lia.
      split; [|split].
      * eapply same_outside_trans; [eapply same_outside_weaken; [apply (same_outside_upd m (buf + b) 1 (buf + b) c); lia| |]; lia|eapply same_outside_weaken; [exact S| |]; lia].
      * eapply mapped_trans; [apply mapped_upd|exact M].
      * cbn [bytes_at]. split; [|exact B]. rewrite S by lia. apply upd_same.
Qed.

Lemma switch_plain_r (strict : bool) k tmp0 m buf size rs fmt a b c r args out :
  formats (ok_int strict) ok_uns m buf rs (Conv [] [] c :: r) args out ->
  room m buf rs -> 0 <= b -> b + zlen out + 14 <= size -> b + zlen out < rs -> (length out < S k)%nat ->
  exists o rest out' R, out = o ++ out' /\ formats (ok_int strict) ok_uns m buf rs r rest out' /\ 0 < c < 256 /\ ~ digit c /\
    switch strict (S k) tmp0 m buf size fmt a b (schar c) args cst0 = Ok R /\ sw_out m buf a b rest o R.
Proof.
  intros HF R Hb Hsz Hr Hl. inversion HF; subst; clear HF.
  - exists [37], args, out0. rewrite zlen_cons in Hsz, Hr. nneg out0. unfold switch. cbv zeta. ceq.
    rewrite (put_ok m buf b 37 rs R) by lia. rewrite bind_Ok. destruct (size <=? b + 1) eqn:E; [lia|].
    eexists. split; [reflexivity|]. split; [assumption|]. split; [lia|]. split; [unfold digit; lia|]. split; [reflexivity|]. now apply upd_out.
  - exists s, args0, out0. rewrite zlen_app in Hsz, Hr. rewrite app_length in Hl. nneg out0. nneg s. unfold switch. cbv zeta. ceq. cbn [va_arg]. rewrite bind_Ok. cbn beta iota.
    cbn [padding cst0]. change (0 =? 0) with true. cbv iota. rewrite bind_Ok. cbn beta iota.
    destruct (str_fits s (S k) m buf size rs b p) as (o & E1 & E2); auto; [lia|lia|lia|].
    rewrite E1, bind_Ok. destruct E2 as (S & M & B). rename o into m'.
    eexists. split; [reflexivity|]. split; [assumption|]. split; [lia|]. split; [unfold digit; lia|]. split; [reflexivity|].
    cbn [sw_out]. repeat (split; [reflexivity|]). split; [exact B|]. split; [|exact M]. eapply same_outside_weaken; [exact S| |]; lia.
  - exists [ubyte v], args0, out0. rewrite zlen_cons in Hsz, Hr. nneg out0. unfold switch. cbv zeta. ceq. cbn [va_arg]. rewrite bind_Ok. cbn beta iota.
    rewrite (put_ok m buf b v rs R) by lia. rewrite bind_Ok. destruct (size <=? b + 1) eqn:E; [lia|].
    eexists. split; [reflexivity|]. split; [assumption|]. split; [lia|]. split; [unfold digit; lia|]. split; [reflexivity|]. now apply upd_out.
  - exists l, args0, out0. rewrite zlen_app in Hsz, Hr. nneg out0. nneg l. unfold switch. cbv zeta. change (schar 100) with 100. cbn [padding sep modl pad cst0]. ceq.
    destruct (size <=? b + 13) eqn:E; [lia|]. cbn [va_arg]. rewrite bind_Ok. cbn beta iota. rewrite s32_small by lia.
    destruct (itodec_numeral strict v) as (l' & N & L & HH); [assumption|assumption|].
    assert (l' = l) by (eapply signed10_unique; eauto). subst l'.
    destruct (HH m (buf + b) 32) as (m' & E1 & W); [apply (room_wr m buf rs); auto; lia|]. rewrite E1, bind_Ok.
    eexists. split; [reflexivity|]. split; [assumption|]. split; [lia|]. split; [unfold digit; lia|]. split; [reflexivity|]. now apply wrote_out.
  - exists l, args0, out0. rewrite zlen_app in Hsz, Hr. nneg out0. nneg l. unfold switch. cbv zeta. change (schar 117) with 117. cbn [padding sep modl pad cst0]. ceq.
    destruct (size <=? b + 13) eqn:E; [lia|]. cbn [va_arg]. rewrite bind_Ok. cbn beta iota. rewrite u32_small by lia. unfold ok_uns in *.
    destruct (uitodec_padded v 1 32) as (n & l' & N & L1 & L2 & HH); [lia|lia|lia|].
    assert (l' = l) by (eapply numeral10_unique; eauto). subst l'.
    assert (n = 0)%nat.
    { destruct n; [reflexivity|]. specialize (L2 ltac:(discriminate)). destruct l; [destruct N as (_ & _ & N & _); congruence|]. rewrite zlen_cons in L2. nneg l. lia. }
    subst n. change (Z.of_nat 0) with 0 in HH. cbn [repeat app] in HH. replace (0 + zlen l) with (zlen l) in HH by lia.
    destruct (HH m (buf + b)) as (m' & E1 & W); [apply (room_wr m buf rs); auto; lia|]. rewrite E1, bind_Ok.
    eexists. split; [reflexivity|]. split; [assumption|]. split; [lia|]. split; [unfold digit; lia|]. split; [reflexivity|]. now apply wrote_out.
  - exists l, args0, out0. rewrite zlen_app in Hsz, Hr. nneg out0. nneg l. unfold switch. cbv zeta. change (schar 120) with 120. cbn [padding sep modl pad cst0]. ceq.
    destruct (size <=? b + 8) eqn:E; [lia|]. cbn [va_arg]. rewrite bind_Ok. cbn beta iota.
    destruct (itohex_numeral (s32 v) 0 0) as (l' & N & L & C & HH); [apply s32_int|lia|].
    assert (u32 (s32 v) = v) as Eu by (unfold u32, s32; lia). rewrite Eu in N. change (Z.max 1 0) with 1 in N. apply padded1 in N.
    assert (l' = l).
    { apply (numeral_unique 16 ltac:(lia) l' l v); auto; apply Forall_forall; unfold lower; [intros x Hx; apply (C x Hx)|auto]. }
    subst l'. destruct (HH m (buf + b)) as (m' & E1 & W); [apply (room_wr m buf rs); auto; lia|]. rewrite E1, bind_Ok.
    eexists. split; [reflexivity|]. split; [assumption|]. split; [lia|]. split; [unfold digit; lia|]. split; [reflexivity|]. now apply wrote_out.
  - exists l, args0, out0. rewrite zlen_app in Hsz, Hr. nneg out0. nneg l. unfold switch. cbv zeta. change (schar 88) with 88. cbn [padding sep modl pad cst0]. ceq.
    destruct (size <=? b + 8) eqn:E; [lia|]. cbn [va_arg]. rewrite bind_Ok. cbn beta iota.
    destruct (itohex_numeral (s32 v) 0 1) as (l' & N & L & C & HH); [apply s32_int|lia|].
    assert (u32 (s32 v) = v) as Eu by (unfold u32, s32; lia). rewrite Eu in N. change (Z.max 1 0) with 1 in N. apply padded1 in N.
    assert (l' = l).
    { apply (numeral_unique_up 16 ltac:(lia) l' l v); auto; apply Forall_forall; unfold upper; [intros x Hx; apply (C x Hx)|auto]. }
    subst l'. destruct (HH m (buf + b)) as (m' & E1 & W); [apply (room_wr m buf rs); auto; lia|]. rewrite E1, bind_Ok.
    eexists. split; [reflexivity|]. split; [assumption|]. split; [lia|]. split; [unfold digit; lia|]. split; [reflexivity|]. now apply wrote_out.
Qed.

Lemma print_plain_r (strict : bool) tmp0 buf size rs fmt : forall items args out m a b fuel,
  str_at m (fmt + a) (format_text items) -> apart (fmt + a) (zlen (format_text items) + 1) buf rs ->
  formats (ok_int strict) ok_uns m buf rs items args out -> room m buf rs -> 0 <= b -> b + zlen out + 14 <= size -> b + zlen out < rs ->
  (length (format_text items) + length out + 1 < fuel)%nat ->
  exists m', print_loop strict fuel tmp0 m buf size fmt a b args = Ok (Done m' (b + zlen out)) /\
    bytes_at m' (buf + b) (out ++ [0]) /\ same_outside m m' (buf + b) (zlen out + 1).
Proof.
  induction items as [|i items IH]; intros args out m a b fuel Hs Ha HF R Hb Hsz Hrs Hf; (destruct fuel as [|k]; [lia|]); cbn [print_loop].
  - inversion HF; subst. change (format_text []) with (@nil Z) in *. cbn [str_at] in Hs. rewrite (ldc_ok _ _ _ Hs), bind_Ok. change (schar 0 =? 0) with true. cbv iota.
    change (zlen (@nil Z)) with 0 in *. rewrite (put_ok m buf b 0 rs R) by lia. rewrite bind_Ok. eexists. rewrite Z.add_0_r. split; [reflexivity|]. split.
    + cbn [app bytes_at]. split; [apply upd_same|exact I].
    + apply same_outside_upd. lia.
  - change (format_text (i :: items)) with (item_text i ++ format_text items) in *.
    pose proof (str_at_range _ _ _ Hs) as Hr. apply Forall_app in Hr as [Hr _].
    pose proof Hs as Hs0. apply str_at_app in Hs as [Hi1 Hs]; [|exact Hr]. nneg (format_text items).
    assert (G : exists o rest out' m1 a1, out = o ++ out' /\ formats (ok_int strict) ok_uns m buf rs items rest out' /\
      a1 = a + zlen (item_text i) /\ bytes_at m1 (buf + b) o /\ same_outside m m1 (buf + b) (zlen o + 1) /\ mapped m m1 /\
      print_loop strict (S k) tmp0 m buf size fmt a b args = print_loop strict k tmp0 m1 buf size fmt a1 (b + zlen o) rest).
    { cbn [print_loop]. destruct i as [c|mods w c].
      - inversion HF; subst. exists [c], args, out0. cbn [item_text bytes_at] in *. destruct Hi1 as [Hc _]. rewrite (ldc_ok _ _ _ Hc), bind_Ok. rewrite !schar_nz by lia.
        assert (c =? 0 = false) as -> by lia. assert (c =? 37 = false) as -> by lia. rewrite zlen_cons in Hsz, Hrs. nneg out0.
        rewrite (put_ok m buf b _ rs R) by lia. rewrite bind_Ok. destruct (size <=? b + 1) eqn:E; [lia|].
        rewrite ubyte_schar by lia. change (zlen [c]) with 1.
        do 2 eexists. split; [reflexivity|]. split; [assumption|]. split; [reflexivity|]. split; [cbn [bytes_at]; split; [apply upd_same|exact I]|].
        split; [apply same_outside_upd; lia|]. split; [apply mapped_upd|reflexivity].
      - destruct (formats_conv _ _ _ _ _ _ _ _ _ _ _ HF) as [-> ->].
        rewrite app_length in Hf; cbn [item_text mods_text flat_map app length] in Hf.
        cbn [item_text bytes_at mods_text flat_map app] in Hi1; destruct Hi1 as [Hc Hi1]; rewrite (ldc_ok _ _ _ Hc), bind_Ok; change (schar 37 =? 0) with false; change (schar 37 =? 37) with true; cbv iota.
        replace (fmt + a + 1) with (fmt + (a + 1)) in Hi1 by lia.
        destruct k as [|k]; [lia|].
        assert (Hlen : (length out < S k)%nat) by lia.
        destruct (switch_plain_r strict k tmp0 m buf size rs fmt (a + 1) b c _ _ _ HF R Hb Hsz Hrs Hlen) as (o & rest & out' & Rs & Q1 & Q2 & Q3 & Q4 & Q5 & Q6).
        destruct (conv_step strict k tmp0 m buf size fmt a b args cst0 [] c 0) as (p' & pd' & C1 & C2 & C3 & C4);
          [exact Hi1|constructor|exact Q3|exact Q4|cbn; lia|cbn; lia|cbn; lia|cbn; lia|].
        destruct (C3 eq_refl) as [-> ->]; cbn [padding pad sep groups modl cst0] in C4; change (zlen (@nil Z)) with 0 in C4; rewrite Z.add_0_r in C4; fold cst0 in C4.
        rewrite C4, Q5, bind_Ok. destruct Rs as [m1 b1|m1 a1 b1 args1 stop1 st1]; cbn [sw_out] in Q6; [contradiction|].
        destruct Q6 as (-> & -> & -> & -> & B1 & S1 & M1). cbn [conv_after]. rewrite bind_Ok.
        exists o, rest, out', m1. eexists. split; [exact Q1|]. split; [exact Q2|]. split; [|split; [exact B1|split; [exact S1|split; [exact M1|reflexivity]]]].
        change (zlen (item_text (Conv [] [] c))) with 2. lia. }
    destruct G as (o & rest & out' & m1 & a1 & -> & HF' & -> & B1 & S1 & M1 & EQ). cbn [print_loop] in EQ. rewrite EQ. clear EQ.
    rewrite zlen_app in *. rewrite !app_length in Hf. nneg o. nneg out'. nneg (item_text i).
    assert (S2 : same_outside m m1 buf rs) by (eapply so_at; [exact S1| |]; lia).
    assert (HI : (0 < length (item_text i))%nat) by (destruct i; cbn [item_text length]; lia).
    replace (fmt + a + zlen (item_text i)) with (fmt + (a + zlen (item_text i))) in Hs by lia.
    destruct (IH rest out' m1 (a + zlen (item_text i)) (b + zlen o) k) as (m' & E1 & E2 & E3).
    + eapply str_keep; [exact Hs| |exact S2]. unfold apart in *. lia.
    + unfold apart in *. lia.
    + eapply formats_keep; eauto.
    + eapply mapped_room; eauto.
    + lia.
    + lia.
    + lia.
    + lia.
    + exists m'. rewrite E1. split; [do 2 f_equal; lia|]. split.
      * rewrite <- app_assoc. apply bytes_at_app. split.
        -- apply (bytes_at_ext m1); [exact B1|]. intros x Hx. apply E3. lia.
        -- replace (buf + b + zlen o) with (buf + (b + zlen o)) by lia. exact E2.
      * eapply same_outside_trans; [eapply same_outside_weaken; [exact S1| |]; lia|eapply same_outside_weaken; [exact E3| |]; lia].
Qed.
