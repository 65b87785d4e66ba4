(* Plain formats: exactly when the size is enough. *)
From Verif Require Import Base BaseLemmas ConvModel ConvSpec ConvProofs ConvProofs2 ConvProofs3 ConvProofs4 ConvProofs6 PrintModel PrintSpec PrintProofs PrintProofs2 PrintProofs3 PrintProofs5.
Ltac Zify.zify_post_hook ::= Z.div_mod_to_equations.

Lemma str_at_unique m : forall s1 s2 p, str_at m p s1 -> str_at m p s2 -> s1 = s2.
Proof.
  induction s1 as [|c s1 IH]; intros [|d s2] p H1 H2; cbn [str_at] in *; [reflexivity| | |].
  - destruct H2 as (H2 & H3 & _). rewrite H1 in H2. injection H2 as <-. lia.
  - destruct H1 as (H1 & H3 & _). rewrite H1 in H2. injection H2 as ->. lia.
  - destruct H1 as (H1 & _ & H3), H2 as (H2 & _ & H4). rewrite H1 in H2. injection H2 as <-. f_equal. eauto.
Qed.

(* the arguments behind those of the item *)
Definition rest_args (i : item) (args : list Z) : list Z :=
  match i with Conv _ _ c => if c =? 37 then args else tl args | Lit _ => args end.
(* the output of the first item, and the arguments behind it *)
Lemma formats_head iok uok m buf rs i r args out : formats iok uok m buf rs (i :: r) args out ->
  exists o rest out', out = o ++ out' /\ formats iok uok m buf rs r rest out' /\ rest = rest_args i args /\
    (forall r2 out2, formats iok uok m buf rs r2 rest out2 -> formats iok uok m buf rs (i :: r2) args (o ++ out2)) /\
    (forall r2 out2, formats iok uok m buf rs (i :: r2) args out2 -> exists out3, out2 = o ++ out3 /\ formats iok uok m buf rs r2 rest out3).
Proof.
  intros H. inversion H; subst; clear H.
  - exists [c], args, out0. split; [reflexivity|]. split; [assumption|]. split; [reflexivity|]. split; [intros; now apply f_lit|].
    intros r2 out2 HX. inversion HX; subst. eexists. split; [reflexivity|assumption].
  - exists [37], args, out0. split; [reflexivity|]. split; [assumption|]. split; [reflexivity|]. split; [intros; now apply f_percent|].
    intros r2 out2 HX. inversion HX; subst. eexists. split; [reflexivity|assumption].
  - exists s, args0, out0. split; [reflexivity|]. split; [assumption|]. split; [reflexivity|]. split; [intros; now apply f_string|].
    intros r2 out2 HX. inversion HX; subst. rewrite (str_at_unique m s s0 p) by assumption. eexists. split; [reflexivity|assumption].
  - exists [ubyte v], args0, out0. split; [reflexivity|]. split; [assumption|]. split; [reflexivity|]. split; [intros; now apply f_char|].
    intros r2 out2 HX. inversion HX; subst. eexists. split; [reflexivity|assumption].
  - exists l, args0, out0. split; [reflexivity|]. split; [assumption|]. split; [reflexivity|]. split; [intros; now apply f_int|].
    intros r2 out2 HX. inversion HX; subst. rewrite (signed10_unique v l l0) by assumption.
    eexists. split; [reflexivity|assumption].
  - exists l, args0, out0. split; [reflexivity|]. split; [assumption|]. split; [reflexivity|]. split; [intros; now apply f_unsigned|].
    intros r2 out2 HX. inversion HX; subst. rewrite (numeral10_unique v l l0) by assumption.
    eexists. split; [reflexivity|assumption].
  - exists l, args0, out0. split; [reflexivity|]. split; [assumption|]. split; [reflexivity|]. split; [intros; now apply f_hex|].
    intros r2 out2 HX. inversion HX; subst. rewrite (numeral_unique 16 ltac:(lia) l l0 v) by (assumption || (apply Forall_forall; unfold lower; auto)).
    eexists. split; [reflexivity|assumption].
  - exists l, args0, out0. split; [reflexivity|]. split; [assumption|]. split; [reflexivity|]. split; [intros; now apply f_hexcap|].
    intros r2 out2 HX. inversion HX; subst. rewrite (numeral_unique_up 16 ltac:(lia) l l0 v) by (assumption || (apply Forall_forall; unfold upper; auto)).
    eexists. split; [reflexivity|assumption].
Qed.

(* a string that does not fit *)
Lemma str_segv : forall s fuel m buf size rs b p, str_at m p s -> apart p (zlen s + 1) buf rs -> room m buf rs -> 0 <= b < size ->
  b + zlen s < rs -> size <= b + zlen s -> (length s < fuel)%nat ->
  exists m' b', str_loop fuel m buf size b p = Ok (Segv m' b') /\ same_outside m m' buf rs.
Proof.
  induction s as [|c s IH]; intros fuel m buf size rs b p Hs Ha R Hb Hr Hz Hl; (destruct fuel as [|k]; [cbn [length] in Hl; lia|]); cbn [str_loop].
  - change (zlen (@nil Z)) with 0 in *. lia.
  - pose proof (str_at_range _ _ _ Hs) as Hr0. apply Forall_cons_iff in Hr0 as [Hr0 _].
    destruct Hs as (Hc & _ & Hs). rewrite zlen_cons in *. nneg s.
    rewrite (load_some _ _ _ Hc), bind_Ok. assert (c =? 0 = false) as -> by lia.
    rewrite (put_ok m buf b c rs R) by lia. rewrite bind_Ok. rewrite ubyte_small by lia.
    destruct (size <=? b + 1) eqn:E.
    + do 2 eexists. split; [reflexivity|]. apply same_outside_upd. lia.
    + destruct (IH k (upd m (buf + b) c) buf size rs (b + 1) (p + 1)) as (m' & b' & E1 & S).
      * apply str_at_upd; [exact Hs|]. unfold apart in Ha. lia.
      * unfold apart in *. lia.
      * apply (mapped_room m); [apply mapped_upd|exact R].
      * lia.
      * lia.
      * lia.
      * cbn [length] in Hl. lia.
      * do 2 eexists. split; [exact E1|]. eapply same_outside_trans; [apply (same_outside_upd m buf rs (buf + b) c); lia|exact S].
Qed.

Definition sw_seg (m : mem) (buf rs : Z) (r : swres) : Prop :=
  match r with SwSegv m' _ => same_outside m m' buf rs | SwGo _ _ _ _ _ _ => False end.


Lemma switch_exact (strict : bool) k tmp0 m buf size rs fmt a b c r args out :
  formats (ok_int strict) ok_uns m buf rs (Conv [] [] c :: r) args out ->
  room m buf rs -> 0 <= b < size -> b + zlen out < rs -> (length out < S k)%nat ->
  exists o rest out', out = o ++ out' /\ formats (ok_int strict) ok_uns m buf rs r rest out' /\ rest = rest_args (Conv [] [] c) args /\ formats (ok_int strict) ok_uns m buf rs [Conv [] [] c] args (o ++ []) /\ 0 < c < 256 /\ ~ digit c /\
    (exists R, switch strict (S k) tmp0 m buf size fmt a b (schar c) args cst0 = Ok R /\
      (b + asks (Conv [] [] c) < size /\ b + zlen o < size /\ sw_out m buf a b rest o R \/
       ~ (b + asks (Conv [] [] c) < size /\ b + zlen o < size) /\ sw_seg m buf rs R)).
Proof.
  intros HF R Hb Hr Hl. inversion HF; subst; clear HF.
  - exists [37], args, out0. rewrite zlen_cons in Hr. nneg out0. split; [reflexivity|]. split; [assumption|]. split; [reflexivity|]. split; [constructor; auto; apply f_nil|]. split; [lia|]. split; [unfold digit; lia|].
    unfold switch. cbv zeta. ceq. cbn [asks Z.eqb Pos.eqb orb]. change (zlen [37]) with 1.
    rewrite (put_ok m buf b 37 rs R) by lia. rewrite bind_Ok. destruct (size <=? b + 1) eqn:E; eexists; (split; [reflexivity|]).
    + right. split; [lia|]. cbn [sw_seg]. apply same_outside_upd. lia.
    + left. split; [lia|]. split; [lia|]. now apply upd_out.
  - exists s, args0, out0. rewrite zlen_app in Hr. rewrite app_length in Hl. nneg out0. nneg s. split; [reflexivity|]. split; [assumption|]. split; [reflexivity|]. split; [constructor; auto; apply f_nil|]. split; [lia|]. split; [unfold digit; lia|].
    unfold switch. cbv zeta. ceq. cbn [va_arg]. rewrite bind_Ok. cbn beta iota.
    cbn [padding cst0]. change (0 =? 0) with true. cbv iota. rewrite bind_Ok. cbn beta iota. cbn [asks Z.eqb Pos.eqb orb].
    destruct (Z_lt_dec (b + zlen s) size) as [L|L].
    + destruct (str_fits s (S k) m buf size rs b p) as (m' & E1 & S & M & B); auto; [lia|lia|lia|].
      rewrite E1, bind_Ok. eexists. split; [reflexivity|]. left. split; [lia|]. split; [lia|].
      cbn [sw_out]. repeat (split; [reflexivity|]). split; [exact B|]. split; [|exact M]. eapply same_outside_weaken; [exact S| |]; lia.
    + destruct (str_segv s (S k) m buf size rs b p) as (m' & b' & E1 & S); auto; [lia|lia|lia|].
      rewrite E1, bind_Ok. eexists. split; [reflexivity|]. right. split; [lia|exact S].
  - exists [ubyte v], args0, out0. rewrite zlen_cons in Hr. nneg out0. split; [reflexivity|]. split; [assumption|]. split; [reflexivity|]. split; [constructor; auto; apply f_nil|]. split; [lia|]. split; [unfold digit; lia|].
    unfold switch. cbv zeta. ceq. cbn [va_arg]. rewrite bind_Ok. cbn beta iota. cbn [asks Z.eqb Pos.eqb orb]. change (zlen [ubyte v]) with 1.
    rewrite (put_ok m buf b v rs R) by lia. rewrite bind_Ok. destruct (size <=? b + 1) eqn:E; eexists; (split; [reflexivity|]).
    + right. split; [lia|]. cbn [sw_seg]. apply same_outside_upd. lia.
    + left. split; [lia|]. split; [lia|]. now apply upd_out.
  - exists l, args0, out0. rewrite zlen_app in Hr. nneg out0. nneg l. split; [reflexivity|]. split; [assumption|]. split; [reflexivity|]. split; [constructor; auto; apply f_nil|]. split; [lia|]. split; [unfold digit; lia|].
    unfold switch. cbv zeta. change (schar 100) with 100. cbn [padding sep modl pad cst0]. ceq. cbn [asks Z.eqb Pos.eqb orb].
    destruct (size <=? b + 13) eqn:E; [eexists; split; [reflexivity|]; right; split; [lia|apply same_outside_refl]|]. cbn [va_arg]. rewrite bind_Ok. cbn beta iota. rewrite s32_small by lia.
    destruct (itodec_numeral strict v) as (l' & N & L & HH); [assumption|assumption|].
    assert (l' = l) by (eapply signed10_unique; eauto). subst l'.
    destruct (HH m (buf + b) 32) as (m' & E1 & W); [apply (room_wr m buf rs); auto; lia|]. rewrite E1, bind_Ok.
    eexists. split; [reflexivity|]. left. split; [lia|]. split; [lia|]. now apply wrote_out.
  - exists l, args0, out0. rewrite zlen_app in Hr. nneg out0. nneg l. split; [reflexivity|]. split; [assumption|]. split; [reflexivity|]. split; [constructor; auto; apply f_nil|]. split; [lia|]. split; [unfold digit; lia|].
    unfold switch. cbv zeta. change (schar 117) with 117. cbn [padding sep modl pad cst0]. ceq. cbn [asks Z.eqb Pos.eqb orb].
    destruct (size <=? b + 13) eqn:E; [eexists; split; [reflexivity|]; right; split; [lia|apply same_outside_refl]|]. cbn [va_arg]. rewrite bind_Ok. cbn beta iota. rewrite u32_small by lia. unfold ok_uns in *.
    destruct (uitodec_padded v 1 32) as (n & l' & N & L1 & L2 & HH); [lia|lia|lia|].
    assert (l' = l) by (eapply numeral10_unique; eauto). subst l'.
    assert (L10 : zlen l <= 10).
    { destruct (uitodec_numeral v) as (l'' & N' & L & _); [lia|]. replace l with l''; auto. eapply numeral10_unique; eauto. }
    assert (n = 0)%nat.
    { destruct n; [reflexivity|]. specialize (L2 ltac:(discriminate)). destruct l; [destruct N as (_ & _ & N & _); congruence|]. rewrite zlen_cons in L2. nneg l. lia. }
    subst n. change (Z.of_nat 0) with 0 in HH. cbn [repeat app] in HH. replace (0 + zlen l) with (zlen l) in HH by lia.
    destruct (HH m (buf + b)) as (m' & E1 & W); [apply (room_wr m buf rs); auto; lia|]. rewrite E1, bind_Ok.
    eexists. split; [reflexivity|]. left. split; [lia|]. split; [lia|]. now apply wrote_out.
  - exists l, args0, out0. rewrite zlen_app in Hr. nneg out0. nneg l. split; [reflexivity|]. split; [assumption|]. split; [reflexivity|]. split; [constructor; auto; apply f_nil|]. split; [lia|]. split; [unfold digit; lia|].
    unfold switch. cbv zeta. change (schar 120) with 120. cbn [padding sep modl pad cst0]. ceq. cbn [asks Z.eqb Pos.eqb orb].
    destruct (size <=? b + 8) eqn:E; [eexists; split; [reflexivity|]; right; split; [lia|apply same_outside_refl]|]. cbn [va_arg]. rewrite bind_Ok. cbn beta iota.
    destruct (itohex_numeral (s32 v) 0 0) as (l' & N & L & C & HH); [apply s32_int|lia|].
    assert (u32 (s32 v) = v) as Eu by (unfold u32, s32; lia). rewrite Eu in N. change (Z.max 1 0) with 1 in N. apply padded1 in N.
    assert (l' = l).
    { apply (numeral_unique 16 ltac:(lia) l' l v); auto; apply Forall_forall; unfold lower; [intros x Hx; apply (C x Hx)|auto]. }
    subst l'. destruct (HH m (buf + b)) as (m' & E1 & W); [apply (room_wr m buf rs); auto; lia|]. rewrite E1, bind_Ok.
    eexists. split; [reflexivity|]. left. split; [lia|]. split; [lia|]. now apply wrote_out.
  - exists l, args0, out0. rewrite zlen_app in Hr. nneg out0. nneg l. split; [reflexivity|]. split; [assumption|]. split; [reflexivity|]. split; [constructor; auto; apply f_nil|]. split; [lia|]. split; [unfold digit; lia|].
    unfold switch. cbv zeta. change (schar 88) with 88. cbn [padding sep modl pad cst0]. ceq. cbn [asks Z.eqb Pos.eqb orb].
    destruct (size <=? b + 8) eqn:E; [eexists; split; [reflexivity|]; right; split; [lia|apply same_outside_refl]|]. cbn [va_arg]. rewrite bind_Ok. cbn beta iota.
    destruct (itohex_numeral (s32 v) 0 1) as (l' & N & L & C & HH); [apply s32_int|lia|].
    assert (u32 (s32 v) = v) as Eu by (unfold u32, s32; lia). rewrite Eu in N. change (Z.max 1 0) with 1 in N. apply padded1 in N.
    assert (l' = l).
    { apply (numeral_unique_up 16 ltac:(lia) l' l v); auto; apply Forall_forall; unfold upper; [intros x Hx; apply (C x Hx)|auto]. }
    subst l'. destruct (HH m (buf + b)) as (m' & E1 & W); [apply (room_wr m buf rs); auto; lia|]. rewrite E1, bind_Ok.
    eexists. split; [reflexivity|]. left. split; [lia|]. split; [lia|]. now apply wrote_out.
Qed.

Lemma enough_cons iok uok m m1 buf rs size b i items args rest o out' : same_outside m m1 buf rs ->
  (forall r2 out2, formats iok uok m buf rs r2 rest out2 -> formats iok uok m buf rs (i :: r2) args (o ++ out2)) ->
  (forall r2 out2, formats iok uok m buf rs (i :: r2) args out2 -> exists out3, out2 = o ++ out3 /\ formats iok uok m buf rs r2 rest out3) ->
  enough iok uok m buf rs size b (i :: items) args (o ++ out') <->
  b + asks i < size /\ enough iok uok m1 buf rs size (b + zlen o) items rest out'.
Proof.
  intros S F1 F2. assert (S' : same_outside m1 m buf rs) by (intros x Hx; symmetry; auto). unfold enough. rewrite zlen_app. split.
  - intros [A B]. split; [|split; [lia|]].
    + specialize (B [] i items [] eq_refl (f_nil _ _ _ _ _ _)). change (zlen (@nil Z)) with 0 in B. lia.
    + intros pre j post o2 -> HF. specialize (B (i :: pre) j post (o ++ o2) eq_refl). rewrite zlen_app in B.
      specialize (B (F1 _ _ (formats_keep _ _ _ _ _ _ _ _ _ S' HF))). lia.
  - intros (A & B & C). split; [lia|]. intros [|j pre] k post o2 E HF; injection E; clear E.
    + intros -> ->. inversion HF; subst. change (zlen (@nil Z)) with 0. lia.
    + intros -> ->. destruct (F2 _ _ HF) as (o3 & -> & HF3). rewrite zlen_app.
      specialize (C pre k post o3 eq_refl (formats_keep _ _ _ _ _ _ _ _ _ S HF3)). lia.
Qed.

Lemma print_exact (strict : bool) tmp0 buf size rs fmt : forall items args out m a b fuel,
  str_at m (fmt + a) (format_text items) -> apart (fmt + a) (zlen (format_text items) + 1) buf rs ->
  formats (ok_int strict) ok_uns m buf rs items args out -> room m buf rs -> 0 <= b < size -> b + zlen out < rs ->
  (length (format_text items) + length out + 1 < fuel)%nat ->
  (exists m', print_loop strict fuel tmp0 m buf size fmt a b args = Ok (Done m' (b + zlen out)) /\
     enough (ok_int strict) ok_uns m buf rs size b items args out /\
     bytes_at m' (buf + b) (out ++ [0]) /\ same_outside m m' (buf + b) (zlen out + 1)) \/
  (exists m' b', print_loop strict fuel tmp0 m buf size fmt a b args = Ok (Segv m' b') /\
     ~ enough (ok_int strict) ok_uns m buf rs size b items args out /\ same_outside m m' buf rs).
Proof.
  induction items as [|i items IH]; intros args out m a b fuel Hs Ha HF R Hb Hrs Hf; (destruct fuel as [|k]; [lia|]); cbn [print_loop].
  - left. inversion HF; subst. change (format_text []) with (@nil Z) in *. cbn [str_at] in Hs. rewrite (ldc_ok _ _ _ Hs), bind_Ok. change (schar 0 =? 0) with true. cbv iota.
    change (zlen (@nil Z)) with 0 in *. rewrite (put_ok m buf b 0 rs R) by lia. rewrite bind_Ok. eexists. rewrite Z.add_0_r. split; [reflexivity|].
    split; [split; [change (zlen (@nil Z)) with 0; lia|intros [|] ? ? ? E; discriminate]|]. split.
    + cbn [app bytes_at]. split; [apply upd_same|exact I].
    + apply same_outside_upd. lia.
  - change (format_text (i :: items)) with (item_text i ++ format_text items) in *.
    pose proof (str_at_range _ _ _ Hs) as Hr. apply Forall_app in Hr as [Hr _].
    pose proof Hs as Hs0. apply str_at_app in Hs as [Hi1 Hs]; [|exact Hr]. nneg (format_text items).
    destruct (formats_head _ _ _ _ _ _ _ _ _ HF) as (o & rest & out' & Eo & HF' & Er & F1 & F2).
    assert (G : (b + asks i < size /\ b + zlen o < size /\ exists m1, bytes_at m1 (buf + b) o /\ same_outside m m1 (buf + b) (zlen o + 1) /\ mapped m m1 /\
        print_loop strict (S k) tmp0 m buf size fmt a b args = print_loop strict k tmp0 m1 buf size fmt (a + zlen (item_text i)) (b + zlen o) rest) \/
      (~ (b + asks i < size /\ b + zlen o < size) /\ exists m1 b1, same_outside m m1 buf rs /\ print_loop strict (S k) tmp0 m buf size fmt a b args = Ok (Segv m1 b1))).
    { cbn [print_loop]. destruct i as [c|mods w c].
      - assert (Hc0 : 0 < c < 256 /\ c <> 37) by (inversion HF; auto). destruct Hc0 as [Hc0 Hc1].
        destruct (F2 [] [c]) as (o3 & E3 & HF3); [apply f_lit; auto; apply f_nil|]. inversion HF3; subst o3. rewrite app_nil_r in E3. subst o. cbn [rest_args] in Er. subst rest.
        cbn [asks item_text bytes_at] in *. destruct Hi1 as [Hc _]. rewrite (ldc_ok _ _ _ Hc), bind_Ok. rewrite !schar_nz by lia.
        assert (c =? 0 = false) as -> by lia. assert (c =? 37 = false) as -> by lia. rewrite Eo in Hrs. cbn [app] in Hrs. rewrite zlen_cons in Hrs. nneg out'.
        rewrite (put_ok m buf b _ rs R) by lia. rewrite bind_Ok. rewrite ubyte_schar by lia. change (zlen [c]) with 1.
        destruct (size <=? b + 1) eqn:E.
        + right. split; [lia|]. do 2 eexists. split; [|reflexivity]. apply same_outside_upd. lia.
        + left. split; [lia|]. split; [lia|]. eexists. split; [cbn [bytes_at]; split; [apply upd_same|exact I]|].
          split; [apply same_outside_upd; lia|]. split; [apply mapped_upd|reflexivity].
      - destruct (formats_conv _ _ _ _ _ _ _ _ _ _ _ HF) as [-> ->].
        rewrite app_length in Hf; cbn [item_text mods_text flat_map app length] in Hf.
        cbn [item_text bytes_at mods_text flat_map app] in Hi1; destruct Hi1 as [Hc Hi1]; rewrite (ldc_ok _ _ _ Hc), bind_Ok; change (schar 37 =? 0) with false; change (schar 37 =? 37) with true; cbv iota.
        replace (fmt + a + 1) with (fmt + (a + 1)) in Hi1 by lia.
        destruct k as [|k]; [lia|].
        assert (Hlen : (length out < S k)%nat) by lia.
        destruct (switch_exact strict k tmp0 m buf size rs fmt (a + 1) b c _ _ _ HF R Hb Hrs Hlen) as (o2 & rest2 & out2 & Q1 & Q2 & Qr & Qo & Q3 & Q4 & Rs & Q5 & Q6).
        destruct (F2 _ _ Qo) as (o3 & E3 & HF3). inversion HF3; subst o3. rewrite !app_nil_r in E3. subst o2. subst rest2. rewrite <- Er in *.
        destruct (conv_step strict k tmp0 m buf size fmt a b args cst0 [] c 0) as (p' & pd' & C1 & C2 & C3 & C4);
          [exact Hi1|constructor|exact Q3|exact Q4|cbn; lia|cbn; lia|cbn; lia|cbn; lia|].
        destruct (C3 eq_refl) as [-> ->]; cbn [padding pad sep groups modl cst0] in C4; change (zlen (@nil Z)) with 0 in C4; rewrite Z.add_0_r in C4; fold cst0 in C4.
        rewrite C4, Q5, bind_Ok. destruct Q6 as [(A1 & A2 & A3)|[A1 A2]].
        + left. split; [exact A1|]. split; [exact A2|]. destruct Rs as [m1 b1|m1 a1 b1 args1 stop1 st1]; cbn [sw_out] in A3; [contradiction|].
          destruct A3 as (-> & -> & -> & -> & B1 & S1 & M1). cbn [conv_after]. rewrite bind_Ok.
          exists m1. split; [exact B1|]. split; [exact S1|]. split; [exact M1|].
          change (zlen (item_text (Conv [] [] c))) with 2. replace (a + 2) with (a + 1 + 1) by lia. reflexivity.
        + right. split; [exact A1|]. destruct Rs as [m1 b1|m1 a1 b1 args1 stop1 st1]; cbn [sw_seg] in A2; [|contradiction].
          cbn [conv_after]. rewrite bind_Ok. exists m1, b1. split; [exact A2|reflexivity]. }
    cbn [print_loop] in G. subst out. rewrite zlen_app in *. rewrite !app_length in Hf. nneg o. nneg out'. nneg (item_text i).
    destruct G as [(A1 & A2 & m1 & B1 & S1 & M1 & EQ)|(A1 & m1 & b1 & S1 & EQ)]; rewrite EQ; clear EQ.
    + assert (S2 : same_outside m m1 buf rs) by (eapply so_at; [exact S1| |]; lia).
      assert (HI : (0 < length (item_text i))%nat) by (destruct i; cbn [item_text length]; lia).
      replace (fmt + a + zlen (item_text i)) with (fmt + (a + zlen (item_text i))) in Hs by lia.
      pose proof (enough_cons _ _ m m1 buf rs size b i items args rest o out' S2 F1 F2) as EN.
      destruct (IH rest out' m1 (a + zlen (item_text i)) (b + zlen o) k) as [(m' & E1 & E0 & E2 & E3)|(m' & b' & E1 & E0 & E3)].
      * eapply str_keep; [exact Hs| |exact S2]. unfold apart in *. lia.
      * unfold apart in *. lia.
      * eapply formats_keep; eauto.
      * eapply mapped_room; eauto.
      * lia.
      * lia.
      * lia.
      * left. exists m'. rewrite E1. split; [do 2 f_equal; lia|]. split; [apply EN; split; assumption|]. split.
        -- rewrite <- app_assoc. apply bytes_at_app. split.
           ++ apply (bytes_at_ext m1); [exact B1|]. intros x Hx. apply E3. lia.
           ++ replace (buf + b + zlen o) with (buf + (b + zlen o)) by lia. exact E2.
        -- eapply same_outside_trans; [eapply same_outside_weaken; [exact S1| |]; lia|eapply same_outside_weaken; [exact E3| |]; lia].
      * right. exists m', b'. rewrite E1. split; [reflexivity|]. split; [rewrite EN; tauto|]. eapply same_outside_trans; eauto.
    + right. exists m1, b1. split; [reflexivity|]. split; [|exact S1].
      rewrite (enough_cons _ _ m m buf rs size b i items args rest o out' (same_outside_refl _ _ _) F1 F2).
      intros (X1 & X2 & _). apply A1. split; [exact X1|]. lia.
Qed.
