From Verif Require Import Base BaseLemmas ConvModel ConvSpec ConvProofs ConvProofs2 ConvProofs3 ConvProofs4 DtoModel PrintModel PrintSpec PrintProofs PrintProofs0.
Ltac Zify.zify_post_hook ::= Z.div_mod_to_equations.

Lemma ldc_ok m a c : m a = Some c -> ldc m a = Ok (schar c).
Proof. intros H. unfold ldc. now rewrite (load_some _ _ _ H). Qed.
Lemma schar_nz c d : 0 <= c < 256 -> 0 <= d < 128 -> (schar c =? d) = (c =? d).
Proof. intros Hc Hd. unfold schar. destruct (c <? 128) eqn:E; lia. Qed.
Lemma ubyte_schar c : 0 <= c < 256 -> ubyte (schar c) = c.
Proof. intros H. unfold ubyte, schar. destruct (c <? 128) eqn:E; lia. Qed.
Lemma schar_digit c : 0 <= c < 256 -> (47 <? schar c) && (schar c <? 58) = (48 <=? c) && (c <=? 57).
Proof. intros H. unfold schar. destruct (c <? 128) eqn:E; lia. Qed.

(* ---- reading a conversion ---- *)
Lemma width_loop_ok strict : forall w fuel m fmt a p f, bytes_at m (fmt + a) (w ++ [f]) -> Forall digit w ->
  0 <= f < 256 -> ~ digit f -> 0 <= p -> (p + 1) * 10 ^ zlen w <= 1000000000 -> (length w < fuel)%nat ->
  exists p', width_loop strict fuel m fmt a p = Ok (a + zlen w, p') /\ 0 <= p' /\ p' + 1 <= (p + 1) * 10 ^ zlen w /\ (w = [] -> p' = p).
Proof.
  induction w as [|d w IH]; intros fuel m fmt a p f B D Hf Nf Hp Hb Hl; (destruct fuel as [|k]; [cbn [length] in Hl; lia|]); cbn [width_loop app bytes_at] in *.
  - destruct B as [B _]. rewrite (ldc_ok _ _ _ B), bind_Ok. rewrite schar_digit by exact Hf. unfold digit in Nf.
    assert ((48 <=? f) && (f <=? 57) = false) as -> by lia. exists p. change (zlen (@nil Z)) with 0 in *. repeat split; try lia. do 2 f_equal; lia.
  - destruct B as [B1 B2]. apply Forall_cons_iff in D as [D1 D2]. unfold digit in D1. rewrite zlen_cons in *. nneg w.
    rewrite Z.pow_add_r in Hb by lia. change (10 ^ 1) with 10 in Hb.
    rewrite Z.pow_add_r by lia. change (10 ^ 1) with 10.
    assert (HP : 0 < 10 ^ zlen w) by (apply Z.pow_pos_nonneg; lia). set (P := 10 ^ zlen w) in *. clearbody P.
    assert (Hb1 : (p + 1) * 10 <= 1000000000) by nia.
    rewrite (ldc_ok _ _ _ B1), bind_Ok. rewrite schar_digit by lia.
    assert ((48 <=? d) && (d <=? 57) = true) as -> by lia.
    assert (I : forall z, 0 <= z <= 1000000000 -> iar strict z = Ok z).
    { intros z Hz. unfold iar. destruct strict; [apply iop_ok; unfold INT_MIN, INT_MAX; lia|]. f_equal. apply s32_small. unfold INT_MIN, INT_MAX. lia. }
    rewrite I by lia. rewrite bind_Ok. rewrite schar_low by lia. rewrite I by lia. rewrite bind_Ok.
    destruct (IH k m fmt (a + 1) (p * 10 + (d - 48)) f) as (p' & E1 & E2 & E3 & E4); auto.
    + replace (fmt + (a + 1)) with (fmt + a + 1) by lia. exact B2.
    + lia.
    + nia.
    + cbn [length] in Hl. lia.
    + exists p'. rewrite E1. split; [do 2 f_equal; lia|]. split; [exact E2|]. split; [nia|discriminate].
Qed.

Definition conv_after (strict : bool) (k : nat) (tmp0 : Z -> Z) (buf size fmt : Z) (r : swres) : res swres :=
  match r with
  | SwSegv m b => Ok (SwSegv m b)
  | SwGo m a b args stop st =>
      if stop then Ok (SwGo m a b args true st)
      else
        let* n := ldc m (fmt + (a + 1)) in
        if n =? 0 then Ok (SwGo m a b args false st)
        else conv_loop strict k tmp0 m buf size fmt a b args st
  end.

Lemma pow10_le n : (n <= 9)%nat -> 10 ^ Z.of_nat n <= 1000000000.
Proof. intros H. change 1000000000 with (10 ^ 9). apply Z.pow_le_mono_r; lia. Qed.

Lemma conv_step strict k tmp0 m buf size fmt a b args st w f n :
  bytes_at m (fmt + (a + 1)) (w ++ [f]) -> Forall digit w -> 0 < f < 256 -> ~ digit f ->
  0 <= padding st -> padding st + 1 <= 10 ^ Z.of_nat n -> (n + length w <= 9)%nat -> (length w <= k)%nat ->
  exists p' pd', 0 <= p' /\ p' + 1 <= 10 ^ Z.of_nat (n + length w) /\ (w = [] -> p' = padding st /\ pd' = pad st) /\
    conv_loop strict (S k) tmp0 m buf size fmt a b args st =
      bind (switch strict (S k) tmp0 m buf size fmt (a + 1 + zlen w) b (schar f) args
              {| padding := p'; sep := sep st; groups := groups st; modl := modl st; pad := pd' |})
           (conv_after strict k tmp0 buf size fmt).
Proof.
  intros B D Hf Nf Hp Hpn Hn Hk. cbn [conv_loop].
  assert (PW : forall j, 0 < 10 ^ Z.of_nat j) by (intros; apply Z.pow_pos_nonneg; lia).
  assert (Bf : m (fmt + (a + 1 + zlen w)) = Some f).
  { apply bytes_at_app in B as [_ [B _]]. rewrite <- B. f_equal. lia. }
  assert (H9 : 10 ^ Z.of_nat (n + length w) <= 1000000000) by (apply pow10_le; exact Hn).
  rewrite Nat2Z.inj_add, Z.pow_add_r in H9 by lia. fold (zlen w) in H9.
  assert (Hbound : (padding st + 1) * 10 ^ zlen w <= 10 ^ Z.of_nat (n + length w)).
  { rewrite Nat2Z.inj_add, Z.pow_add_r by lia. fold (zlen w). specialize (PW (length w)). fold (zlen w) in PW. nia. }
  assert (Hhead : exists c0, m (fmt + (a + 1)) = Some c0 /\ c0 = hd f w /\ 0 < c0 < 256).
  { destruct w as [|d w]; cbn [app bytes_at hd] in *.
    - exists f. destruct B. auto.
    - exists d. destruct B as [B _]. apply Forall_cons_iff in D as [D _]. unfold digit in D. repeat split; auto; lia. }
  destruct Hhead as (c0 & Hc0 & Ec0 & Rc0).
  rewrite (ldc_ok _ _ _ Hc0), bind_Ok. rewrite schar_nz by lia.
  destruct (c0 =? 48) eqn:E48.
  - destruct w as [|d w]; cbn [hd] in Ec0.
    { exfalso. apply Nf. unfold digit. lia. }
    subst c0. assert (d = 48) by lia. subst d. clear E48. apply Forall_cons_iff in D as [_ D]. cbn [app bytes_at] in B. destruct B as [_ B].
    assert (HZ : zlen (48 :: w) = zlen w + 1) by apply zlen_cons. nneg w.
    assert (PWw : 0 < 10 ^ zlen w) by apply (PW (length w)).
    assert (Hb2 : (padding st + 1) * 10 ^ zlen w <= 10 ^ Z.of_nat (n + length (48 :: w))).
    { rewrite HZ, Z.pow_add_r in Hbound by lia. change (10 ^ 1) with 10 in Hbound. nia. }
    destruct (width_loop_ok strict w (S k) m fmt (a + 1 + 1) (padding st) f) as (p' & E1 & E2 & E3 & E4); auto.
    + replace (fmt + (a + 1 + 1)) with (fmt + (a + 1) + 1) by lia. exact B.
    + lia.
    + pose proof (pow10_le _ Hn). lia.
    + exists p', 48. split; [exact E2|]. split; [lia|]. split; [discriminate|].
      rewrite E1, bind_Ok. cbn beta iota. replace (a + 1 + 1 + zlen w) with (a + 1 + zlen (48 :: w)) by lia.
      rewrite (ldc_ok _ _ _ Bf), bind_Ok. reflexivity.
  - destruct (width_loop_ok strict w (S k) m fmt (a + 1) (padding st) f) as (p' & E1 & E2 & E3 & E4); auto.
    + lia.
    + pose proof (pow10_le _ Hn). lia.
    + lia.
    + exists p', (pad st). split; [exact E2|]. split; [lia|]. split; [intros Ew; split; [auto|reflexivity]|].
      rewrite E1, bind_Ok. cbn beta iota. rewrite (ldc_ok _ _ _ Bf), bind_Ok. reflexivity.
Qed.

Ltac ceq := repeat match goal with |- context [?x =? ?y] =>
    let v := eval vm_compute in (x =? y) in
    match v with true => change (x =? y) with true | false => change (x =? y) with false end end; cbv iota.

(* a modifier *)
Lemma switch_mod strict fuel tmp0 m buf size fmt a b f args st : 0 < f < 256 -> ~ In f conversions ->
  exists st', switch strict fuel tmp0 m buf size fmt a b (schar f) args st = Ok (SwGo m a b args false st') /\
    padding st' = padding st /\ pad st' = pad st /\
    modl st' = (if 108 =? f then 1 else modl st) /\ sep st' = (if 39 =? f then 46 else sep st).
Proof.
  intros Hf Hin. unfold switch. cbv zeta. unfold conversions in Hin. cbn [In] in Hin.
  rewrite !schar_nz by lia.
  assert (forall c, In c conversions -> (f =? c) = false) as N.
  { intros c Hc. apply Z.eqb_neq. intros ->. apply Hin. exact Hc. }
  rewrite (N 37), (N 117), (N 100), (N 102) by (unfold conversions; cbn [In]; lia).
  rewrite (Z.eqb_sym 108 f), (Z.eqb_sym 39 f).
  destruct (f =? 108) eqn:E1.
  { eexists. split; [reflexivity|]. cbn [padding pad modl sep]. assert (f =? 39 = false) as -> by lia. auto. }
  destruct (f =? 39) eqn:E2.
  { eexists. split; [reflexivity|]. cbn [padding pad modl sep]. auto. }
  rewrite (N 120), (N 88), (N 111), (N 98), (N 40), (N 115), (N 99) by (unfold conversions; cbn [In]; lia).
  exists st. auto.
Qed.

Definition mod_ok (wf : list Z * Z) : Prop :=
  Forall digit (fst wf) /\ 0 < snd wf < 256 /\ ~ digit (snd wf) /\ ~ In (snd wf) conversions.

Lemma conv_mods strict tmp0 m buf size fmt b args c : 0 < c < 256 -> ~ digit c ->
  forall mods w k a st n N,
  Forall mod_ok mods -> Forall digit w ->
  bytes_at m (fmt + (a + 1)) (mods_text mods ++ w ++ [c]) ->
  0 <= padding st -> padding st + 1 <= 10 ^ Z.of_nat n -> (n + length (flat_map fst mods ++ w) <= 9)%nat ->
  (length (mods_text mods ++ w ++ [c]) + N <= k)%nat ->
  exists k' st', (N <= k')%nat /\ 0 <= padding st' < 10 ^ Z.of_nat (n + length (flat_map fst mods ++ w)) /\ 
    (flat_map fst mods ++ w = [] -> padding st' = padding st /\ pad st' = pad st) /\
    modl st' = (if long_mod mods then 1 else modl st) /\ sep st' = (if group_mod mods then 46 else sep st) /\
    conv_loop strict k tmp0 m buf size fmt a b args st =
      bind (switch strict (S k') tmp0 m buf size fmt (a + zlen (mods_text mods ++ w ++ [c])) b (schar c) args st')
           (conv_after strict k' tmp0 buf size fmt).
Proof.
  intros Hc Nc. induction mods as [|[w0 f] mods IH]; intros w k a st n N Hm Hw B Hp Hpn Hn Hk.
  - cbn [mods_text flat_map app] in *. destruct k as [|k]; [rewrite app_length in Hk; cbn [length] in Hk; lia|].
    rewrite app_length in Hk. cbn [length] in Hk.
    destruct (conv_step strict k tmp0 m buf size fmt a b args st w c n) as (p' & pd' & E1 & E2 & E3 & E4); auto; [lia|].
    exists k. eexists. split; [|split; [|split; [|split; [|split; [|rewrite E4; rewrite zlen_app; change (zlen [c]) with 1; replace (a + (zlen w + 1)) with (a + 1 + zlen w) by lia; reflexivity]]]]].
    + lia.
    + cbn [padding]. lia.
    + cbn [padding pad]. exact E3.
    + reflexivity.
    + reflexivity.
  - apply Forall_cons_iff in Hm as [(M1 & M2 & M3 & M4) Hm]. cbn [fst snd] in *.
    change (mods_text ((w0, f) :: mods)) with ((w0 ++ [f]) ++ mods_text mods) in *.
    change (flat_map fst ((w0, f) :: mods)) with (w0 ++ flat_map fst mods) in *.
    rewrite <- !app_assoc in *. rewrite !app_length in *. cbn [length] in *.
    destruct k as [|k]; [lia|].
    assert (B1 : bytes_at m (fmt + (a + 1)) (w0 ++ [f])).
    { rewrite app_assoc in B. apply bytes_at_app in B. apply B. }
    assert (B2 : bytes_at m (fmt + (a + 1 + zlen w0 + 1)) (mods_text mods ++ w ++ [c])).
    { rewrite app_assoc in B. apply bytes_at_app in B as [_ B]. rewrite zlen_app in B. change (zlen [f]) with 1 in B.
      replace (fmt + (a + 1 + zlen w0 + 1)) with (fmt + (a + 1) + (zlen w0 + 1)) by lia. exact B. }
    destruct (conv_step strict k tmp0 m buf size fmt a b args st w0 f n) as (p' & pd' & E1 & E2 & E3 & E4); auto; [lia|lia|].
    destruct (switch_mod strict (S k) tmp0 m buf size fmt (a + 1 + zlen w0) b f args
               {| padding := p'; sep := sep st; groups := groups st; modl := modl st; pad := pd' |} M2 M4) as (st1 & S1 & S2 & S3 & S4 & S5).
    cbn [padding pad modl sep] in S2, S3, S4, S5.
    destruct (IH w k (a + 1 + zlen w0) st1 (n + length w0)%nat N) as (k' & st' & G1 & G2 & G3 & G4 & G5 & G6); auto.
    + lia.
    + lia.
    + rewrite app_length. lia.
    + rewrite !app_length. cbn [length]. lia.
    + exists k', st'. split; [exact G1|]. split; [rewrite !app_length in *; replace (n + (length w0 + (length (flat_map fst mods) + length w)))%nat with (n + length w0 + (length (flat_map fst mods) + length w))%nat by lia; exact G2|]. split; [|split; [|split]].
      * intros Ee. apply app_eq_nil in Ee as [Ew Er]. destruct (E3 Ew) as [-> ->]. destruct (G3 Er) as [-> ->]. auto.
      * rewrite G4. unfold long_mod. cbn [map snd existsb]. rewrite S4. destruct (108 =? f), (existsb (Z.eqb 108) (map snd mods)); reflexivity.
      * rewrite G5. unfold group_mod. cbn [map snd existsb]. rewrite S5. destruct (39 =? f), (existsb (Z.eqb 39) (map snd mods)); reflexivity.
      * rewrite E4, S1, bind_Ok. unfold conv_after at 1.
        assert (exists g, m (fmt + (a + 1 + zlen w0 + 1)) = Some g /\ 0 < g < 256) as (g & Hg & Rg).
        { destruct (mods_text mods ++ w ++ [c]) as [|g t] eqn:Et; [destruct (mods_text mods); [destruct w|]; discriminate Et|].
          exists g. destruct B2 as [B2 _]. split; [exact B2|].
          assert (Hall : Forall (fun x => 0 < x < 256) (mods_text mods ++ w ++ [c])).
          { apply Forall_app. split; [|apply Forall_app; split; [eapply Forall_impl; [|exact Hw]; unfold digit; lia|constructor; [exact Hc|constructor]]].
            clear - Hm. induction mods as [|[w1 f1] mods IH]; [constructor|]. apply Forall_cons_iff in Hm as [(M1 & M2 & M3 & M4) Hm]. cbn [fst snd] in *.
            change (mods_text ((w1, f1) :: mods)) with ((w1 ++ [f1]) ++ mods_text mods). apply Forall_app. split; [|apply IH; exact Hm].
            apply Forall_app. split; [eapply Forall_impl; [|exact M1]; unfold digit; lia|]. constructor; [exact M2|constructor]. }
          rewrite Et in Hall. apply Forall_cons_iff in Hall. apply Hall. }
        rewrite (ldc_ok _ _ _ Hg), bind_Ok. rewrite schar_nz by lia. assert (g =? 0 = false) as -> by lia.
        rewrite G6. do 2 f_equal. rewrite !zlen_app. change (zlen [f]) with 1. change (zlen [c]) with 1. lia.
Qed.

(* ---- C48: each conversion stays inside the buffer ---- *)
Lemma room_at m buf size b k : room m buf size -> 0 <= b -> b + k <= size -> room m (buf + b) k.
Proof. intros R Hb Hk x Hx. apply R. lia. Qed.
Lemma so_at m m' buf size b k : same_outside m m' (buf + b) k -> 0 <= b -> b + k <= size -> same_outside m m' buf size.
Proof. intros S Hb Hk. eapply same_outside_weaken; [exact S| |]; lia. Qed.

Lemma str_loop_ok : forall s fuel m buf size b p, str_at m p s -> apart p (zlen s + 1) buf size -> room m buf size -> 0 <= b < size ->
  (length s < fuel)%nat ->
  exists o, str_loop fuel m buf size b p = Ok o /\
    match o with
    | Segv m' _ => same_outside m m' buf size /\ size <= b + zlen s
    | Done m' b' => same_outside m m' (buf + b) (zlen s) /\ mapped m m' /\ b' = b + zlen s /\ b' < size /\ bytes_at m' (buf + b) s
    end.
Proof.
  induction s as [|c s IH]; intros fuel m buf size b p Hs Ha R Hb Hl; (destruct fuel as [|k]; [cbn [length] in Hl; lia|]); cbn [str_loop].
  - pose proof (str_at_end _ _ _ Hs) as He. change (zlen (@nil Z)) with 0 in *. rewrite Z.add_0_r in He. rewrite (load_some _ _ _ He), bind_Ok. cbn [Z.eqb].
    eexists. split; [reflexivity|]. cbn beta iota. split; [apply same_outside_refl|]. split; [apply mapped_refl|]. split; [lia|]. split; [lia|exact I].
  - pose proof (str_at_range _ _ _ Hs) as Hr. apply Forall_cons_iff in Hr as [Hr _]. pose proof Hs as Hs0.
    destruct Hs as (Hc & _ & Hs). rewrite zlen_cons in *. nneg s.
    rewrite (load_some _ _ _ Hc), bind_Ok. assert (c =? 0 = false) as -> by lia.
    rewrite (put_ok m buf b c size R) by lia. rewrite bind_Ok. rewrite ubyte_small by lia.
    destruct (size <=? b + 1) eqn:E.
    + eexists. split; [reflexivity|]. cbn beta iota. split; [apply same_outside_upd; lia|lia].
    + destruct (IH k (upd m (buf + b) c) buf size (b + 1) (p + 1)) as (o & E1 & E2).
      * apply str_at_upd; [exact Hs|]. unfold apart in Ha. lia.
      * unfold apart in *. lia.
      * apply (mapped_room m); [apply mapped_upd|exact R].
      * lia.
      * cbn [length] in Hl. lia.
      * exists o. split; [exact E1|]. destruct o as [m' b'|m' b'].
        -- destruct E2 as (S & M & -> & L & B). replace (buf + (b + 1)) with (buf + b + 1) in * by lia.
           split; [|split; [|split; [lia|split; [lia|]]]].
           ++ eapply same_outside_trans; [eapply same_outside_weaken; [apply (same_outside_upd m (buf + b) 1 (buf + b) c); lia| |]; lia|eapply same_outside_weaken; [exact S| |]; lia].
           ++ eapply mapped_trans; [apply mapped_upd|exact M].
           ++ cbn [bytes_at]. split; [|exact B]. rewrite S by lia. apply upd_same.
        -- destruct E2 as (S & L). split; [|lia]. eapply same_outside_trans; [apply (same_outside_upd m buf size (buf + b) c); lia|exact S].
Qed.

Definition sw_fine (m : mem) (buf size a : Z) (rest : list Z) (r : swres) : Prop :=
  match r with
  | SwSegv m' _ => same_outside m m' buf size
  | SwGo m' a' b' args' stop _ => stop = true /\ a' = a /\ args' = rest /\ 0 <= b' < size /\ same_outside m m' buf size /\ mapped m m'
  end.

Lemma s32_int v : INT_MIN <= s32 v <= INT_MAX.
Proof. unfold s32, INT_MIN, INT_MAX. lia. Qed.
Lemma s64_long v : LONG_MIN <= s64 v <= LONG_MAX.
Proof. unfold s64, LONG_MIN, LONG_MAX. lia. Qed.

Lemma one_digit p n : p < 10 ^ Z.of_nat n -> (n <= 1)%nat -> p <= 9.
Proof. intros H L. destruct n as [|[|n]]; [change (10 ^ Z.of_nat 0) with 1 in H|change (10 ^ Z.of_nat 1) with 10 in H|]; lia. Qed.

Lemma switch_safe (strict : bool) k tmp0 m buf size fmt a b mods w c r args st N :
  safe_args strict N m buf size (Conv mods w c :: r) args -> room m buf size -> 0 <= b < size ->
  (N <= S k)%nat ->
  0 <= padding st <= 1000000000 -> padding st < 10 ^ Z.of_nat (length (flat_map fst mods ++ w)) -> (flat_map fst mods ++ w = [] -> padding st = 0) ->
  modl st = (if long_mod mods then 1 else 0) -> sep st = (if group_mod mods then 46 else 0) ->
  exists rest R, safe_args strict N m buf size r rest /\
    switch strict (S k) tmp0 m buf size fmt a b (schar c) args st = Ok R /\ sw_fine m buf size a rest R.
Proof.
  intros HA R Hb Hk Hp Hpw Hp0 Hmod Hsep.
  assert (HI : INT_MIN + 10 <= padding st <= INT_MAX) by (unfold INT_MIN, INT_MAX; lia).
  assert (HI1 : INT_MIN + 10 <= (if padding st =? 0 then 1 else padding st) <= INT_MAX) by (destruct (padding st =? 0); unfold INT_MIN, INT_MAX in *; lia).
  inversion HA; subst; clear HA.
  - (* %% *) exists args. unfold switch. cbv zeta. ceq. rewrite (put_ok m buf b 37 size R) by lia. rewrite bind_Ok.
    destruct (size <=? b + 1) eqn:E; eexists; (split; [eassumption|split; [reflexivity|]]); cbn [sw_fine].
    + apply same_outside_upd. lia.
    + split; [reflexivity|]. split; [reflexivity|]. split; [reflexivity|]. split; [lia|]. split; [apply same_outside_upd; lia|apply mapped_upd].
  - (* %s *) unfold switch. cbv zeta. ceq. exists args0. cbn [va_arg]. rewrite bind_Ok. cbn beta iota. rewrite (Hp0 ltac:(assumption)). cbn [Z.eqb]. cbv iota. rewrite bind_Ok. cbn beta iota.
    destruct (str_loop_ok s (S k) m buf size b p) as (o & E1 & E2); auto.
    { lia. }
    rewrite E1, bind_Ok. nneg s. destruct o as [m' b'|m' b']; eexists; (split; [eassumption|split; [reflexivity|]]); cbn [sw_fine].
    + destruct E2 as (S & M & -> & L & B). split; [reflexivity|]. split; [reflexivity|]. split; [reflexivity|]. split; [lia|]. split; [|exact M].
      eapply so_at; [exact S| |]; lia.
    + apply E2.
  - (* %c *) exists args0. unfold switch. cbv zeta. ceq. cbn [va_arg]. rewrite bind_Ok. cbn beta iota. rewrite (put_ok m buf b v size R) by lia. rewrite bind_Ok.
    destruct (size <=? b + 1) eqn:E; eexists; (split; [eassumption|split; [reflexivity|]]); cbn [sw_fine].
    + apply same_outside_upd. lia.
    + split; [reflexivity|]. split; [reflexivity|]. split; [reflexivity|]. split; [lia|]. split; [apply same_outside_upd; lia|apply mapped_upd].
  - (* %u *) exists args0. unfold switch. cbv zeta. change (schar 117) with 117. ceq. rewrite Hmod. destruct (long_mod mods); ceq.
    + destruct (size <=? b + 27) eqn:E; [eexists; split; [eassumption|split; [reflexivity|apply same_outside_refl]]|].
      cbn [va_arg]. rewrite bind_Ok. cbn beta iota.
      destruct (ultodec_bound m (u64 v) (buf + b) (if padding st =? 0 then 1 else padding st) (sep st)) as (m' & n & E1 & E2 & E3 & E4 & E5).
      { unfold u64. lia. } { apply (room_at m buf size); lia || exact R. }
      rewrite E1, bind_Ok. eexists; split; [eassumption|split; [reflexivity|]]. cbn [sw_fine].
      split; [reflexivity|]. split; [reflexivity|]. split; [reflexivity|]. split; [lia|]. split; [|exact E4]. eapply so_at; [exact E3| |]; lia.
    + destruct (size <=? b + 13) eqn:E; [eexists; split; [eassumption|split; [reflexivity|apply same_outside_refl]]|].
      cbn [va_arg]. rewrite bind_Ok. cbn beta iota.
      destruct (uitodec_bound m (u32 v) (buf + b) (if padding st =? 0 then 1 else padding st) (sep st) (pad st) HI1) as (m' & n & E1 & E2 & E3 & E4 & E5).
      { apply (room_at m buf size); [exact R|lia|]. destruct (sep st =? 0); lia. }
      rewrite E1, bind_Ok. eexists; split; [eassumption|split; [reflexivity|]]. cbn [sw_fine].
      split; [reflexivity|]. split; [reflexivity|]. split; [reflexivity|]. split; [destruct (sep st =? 0); lia|]. split; [|exact E4].
      eapply so_at; [exact E3| |]; destruct (sep st =? 0); lia.
  - (* %x *) exists args0. unfold switch. cbv zeta.
    assert (X : exists caps, forall number : Z -> (Z -> res (mem * Z)) -> res swres, 
       (if schar c =? 120 then number 8 (fun v => _itohex m (s32 v) (buf + b) (padding st) 0)
        else if schar c =? 88 then number 8 (fun v => _itohex m (s32 v) (buf + b) (padding st) 1) else Fault) = number 8 (fun v => _itohex m (s32 v) (buf + b) (padding st) caps)).
    { destruct H4 as [-> | ->]; [exists 0|exists 1]; reflexivity. }
    assert (G : forall caps, exists R0, (if size <=? b + 8 then Ok (SwSegv m b) else let* v0 := va_arg (v :: args0) in let (v1, args1) := v0 in
       let* r0 := _itohex m (s32 v1) (buf + b) (padding st) caps in let (m0, n) := r0 in Ok (SwGo m0 a (b + n) args1 true st)) = Ok R0 /\ sw_fine m buf size a args0 R0).
    { intros caps. destruct (size <=? b + 8) eqn:E; [eexists; split; [reflexivity|apply same_outside_refl]|].
      cbn [va_arg]. rewrite bind_Ok. cbn beta iota.
      destruct (itohex_bound m (s32 v) (buf + b) (padding st) caps) as (m' & n & E1 & E2 & E3 & E4 & E5).
      { unfold INT_MIN, INT_MAX in *; lia. } { apply (room_at m buf size); lia || exact R. }
      rewrite E1, bind_Ok. eexists; split; [reflexivity|]. cbn [sw_fine].
      split; [reflexivity|]. split; [reflexivity|]. split; [reflexivity|]. split; [lia|]. split; [|exact E4]. eapply so_at; [exact E3| |]; lia. }
    clear X. destruct H4 as [-> | ->]; [change (schar 120) with 120|change (schar 88) with 88]; ceq.
    + destruct (G 0) as (R0 & G1 & G2). exists R0. split; [eassumption|]. split; [exact G1|exact G2].
    + destruct (G 1) as (R0 & G1 & G2). exists R0. split; [eassumption|]. split; [exact G1|exact G2].
  - (* %d *) exists args0. unfold switch. cbv zeta. change (schar 100) with 100. ceq. rewrite Hmod. destruct (long_mod mods); ceq.
    + destruct (size <=? b + 27) eqn:E; [eexists; split; [eassumption|split; [reflexivity|apply same_outside_refl]]|].
      cbn [va_arg]. rewrite bind_Ok. cbn beta iota.
      destruct (ltodec_bound strict m (s64 v) (buf + b) (if padding st =? 0 then 1 else padding st) (sep st)) as (m' & n & E1 & E2 & E3 & E4 & E5).
      { apply s64_long. } { auto. } { apply (room_at m buf size); lia || exact R. }
      rewrite E1, bind_Ok. eexists; split; [eassumption|split; [reflexivity|]]. cbn [sw_fine].
      split; [reflexivity|]. split; [reflexivity|]. split; [reflexivity|]. split; [lia|]. split; [|exact E4]. eapply so_at; [exact E3| |]; lia.
    + destruct (size <=? b + 13) eqn:E; [eexists; split; [eassumption|split; [reflexivity|apply same_outside_refl]]|].
      cbn [va_arg]. rewrite bind_Ok. cbn beta iota. destruct (H4 eq_refl) as [Hg Hst]. rewrite Hg in Hsep. rewrite Hsep.
      destruct (itodec_bound strict m (s32 v) (buf + b) (padding st) (pad st)) as (m' & n & E1 & E2 & E3 & E4 & E5).
      { apply s32_int. } { auto. } { exact HI. } { apply (room_at m buf size); lia || exact R. }
      rewrite E1, bind_Ok. eexists; split; [eassumption|split; [reflexivity|]]. cbn [sw_fine].
      split; [reflexivity|]. split; [reflexivity|]. split; [reflexivity|]. split; [lia|]. split; [|exact E4]. eapply so_at; [exact E3| |]; lia.
  - (* %o *) exists args0. unfold switch. cbv zeta. change (schar 111) with 111. ceq.
    destruct (size <=? b + 16) eqn:E; [eexists; split; [eassumption|split; [reflexivity|apply same_outside_refl]]|].
    cbn [va_arg]. rewrite bind_Ok. cbn beta iota. pose proof (s32_int v) as Hv.
    destruct (itooct_bound strict (S k) tmp0 m (s32 v) (buf + b)) as (m' & n & E1 & E2 & E3 & E4); [lia|lia|apply (room_at m buf size); lia || exact R|].
    rewrite E1, bind_Ok. eexists; split; [eassumption|split; [reflexivity|]]. cbn [sw_fine].
    split; [reflexivity|]. split; [reflexivity|]. split; [reflexivity|]. split; [lia|]. split; [|exact E4]. eapply so_at; [exact E3| |]; lia.
  - (* %b *) exists args0. unfold switch. cbv zeta. change (schar 98) with 98. ceq.
    destruct (size <=? b + 32) eqn:E; [eexists; split; [eassumption|split; [reflexivity|apply same_outside_refl]]|].
    cbn [va_arg]. rewrite bind_Ok. cbn beta iota. apply one_digit in Hpw; [|assumption].
    destruct (itobin_bound m (s32 v) (buf + b) (if padding st =? 0 then 1 else padding st) (groups st)) as (m' & n & E1 & E2 & E3 & E4); [lia|destruct (padding st =? 0) eqn:?; lia|apply (room_at m buf size); lia || exact R|].
    rewrite E1, bind_Ok. eexists; split; [eassumption|split; [reflexivity|]]. cbn [sw_fine].
    split; [reflexivity|]. split; [reflexivity|]. split; [reflexivity|]. split; [lia|]. split; [|exact E4]. eapply so_at; [exact E3| |]; lia.
  - (* %f *) exists args0. unfold switch. cbv zeta. change (schar 102) with 102. ceq.
    destruct (size <=? b + 27) eqn:E; [eexists; split; [eassumption|split; [reflexivity|apply same_outside_refl]]|].
    cbn [va_arg]. rewrite bind_Ok. cbn beta iota. apply one_digit in Hpw; [|assumption].
    match goal with |- context [dtodec strict m ?d (buf + b) ?pr] => destruct (dtodec_bound strict m d (buf + b) pr i i2) as (m' & n & E1 & E2 & E3 & E4); auto; [apply (room_at m buf size); lia || exact R|destruct (padding st =? 0); cbn [padding]; lia|] end.
    rewrite E1, bind_Ok. eexists; split; [eassumption|split; [reflexivity|]]. cbn [sw_fine].
    split; [reflexivity|]. split; [reflexivity|]. split; [reflexivity|]. split; [lia|]. split; [|exact E4]. eapply so_at; [exact E3| |]; lia.
Qed.

Lemma str_keep m m' p s buf size : str_at m p s -> apart p (zlen s + 1) buf size -> same_outside m m' buf size -> str_at m' p s.
Proof. intros H A S. apply (str_at_ext m); [exact H|]. intros x Hx. apply S. unfold apart in A. lia. Qed.
Lemma safe_keep strict N m m' buf size items args : same_outside m m' buf size -> safe_args strict N m buf size items args -> safe_args strict N m' buf size items args.
Proof.
  intros S H. induction H.
  - apply s_nil.
  - apply s_lit; auto.
  - apply s_percent; auto.
  - eapply s_string; eauto. eapply str_keep; eauto.
  - apply s_char; auto.
  - apply s_unsigned; auto.
  - apply s_hex; auto.
  - apply s_int; auto.
  - apply s_octal; auto.
  - apply s_binary; auto.
  - eapply s_double; eauto.
Qed.

Definition fine (m : mem) (buf size : Z) (o : outcome) : Prop :=
  match o with
  | Done m' b => 0 <= b < size /\ same_outside m m' buf size /\ m' (buf + b) = Some 0
  | Segv m' _ => same_outside m m' buf size
  end.
Lemma fine_trans m m' buf size o : same_outside m m' buf size -> fine m' buf size o -> fine m buf size o.
Proof.
  intros S H. destruct o; cbn [fine] in *.
  - destruct H as (A & B & C). split; [exact A|]. split; [eapply same_outside_trans; eauto|exact C].
  - eapply same_outside_trans; eauto.
Qed.

Lemma safe_conv_char strict N m buf size mods w c r args : safe_args strict N m buf size (Conv mods w c :: r) args -> 0 < c < 256 /\ ~ digit c.
Proof. intros H. unfold digit. inversion H; subst; try lia. Qed.

Lemma print_safe strict N tmp0 buf size fmt : forall items args m a b fuel,
  str_at m (fmt + a) (format_text items) -> apart (fmt + a) (zlen (format_text items) + 1) buf size ->
  Forall well_formed items -> safe_args strict N m buf size items args -> room m buf size -> 0 <= b < size ->
  (length (format_text items) + N < fuel)%nat ->
  exists o, print_loop strict fuel tmp0 m buf size fmt a b args = Ok o /\ fine m buf size o.
Proof.
  induction items as [|i items IH]; intros args m a b fuel Hs Ha Hw HA R Hb Hf; (destruct fuel as [|k]; [lia|]); cbn [print_loop].
  - change (format_text []) with (@nil Z) in *. cbn [str_at] in Hs. rewrite (ldc_ok _ _ _ Hs), bind_Ok. change (schar 0 =? 0) with true. cbv iota.
    rewrite (put_ok m buf b 0 size R) by lia. rewrite bind_Ok. eexists. split; [reflexivity|]. cbn [fine].
    split; [exact Hb|]. split; [apply same_outside_upd; lia|apply upd_same].
  - apply Forall_cons_iff in Hw as [Hi Hw]. change (format_text (i :: items)) with (item_text i ++ format_text items) in *.
    pose proof (str_at_range _ _ _ Hs) as Hr. apply Forall_app in Hr as [Hr _].
    pose proof Hs as Hs0. apply str_at_app in Hs as [Hi1 Hs]; [|exact Hr].
    destruct i as [c|mods w c]; cbn [item_text well_formed] in *.
    + cbn [bytes_at] in Hi1. destruct Hi1 as [Hc _]. rewrite (ldc_ok _ _ _ Hc), bind_Ok. rewrite !schar_nz by lia.
      assert (c =? 0 = false) as -> by lia. assert (c =? 37 = false) as -> by lia.
      rewrite (put_ok m buf b _ size R) by lia. rewrite bind_Ok.
      destruct (size <=? b + 1) eqn:E; [eexists; split; [reflexivity|cbn [fine]; apply same_outside_upd; lia]|].
      set (m1 := upd m (buf + b) (ubyte (schar c))). assert (S1 : same_outside m m1 buf size) by (apply same_outside_upd; lia).
      change (zlen [c]) with 1 in Hs. replace (fmt + a + 1) with (fmt + (a + 1)) in Hs by lia.
      nneg (format_text items). rewrite zlen_app in Ha. change (zlen [c]) with 1 in Ha.
      destruct (IH args m1 (a + 1) (b + 1) k) as (o & E1 & E2).
      * eapply str_keep; [exact Hs| |exact S1]. unfold apart in *. lia.
      * unfold apart in *. lia.
      * exact Hw.
      * inversion HA; subst. eapply safe_keep; eauto.
      * eapply mapped_room; [apply mapped_upd|exact R].
      * lia.
      * rewrite app_length in Hf. cbn [length] in Hf. lia.
      * exists o. split; [exact E1|]. eapply fine_trans; eauto.
    + destruct (safe_conv_char _ _ _ _ _ _ _ _ _ _ HA) as [Rc Nc].
      cbn [bytes_at] in Hi1. destruct Hi1 as [Hc Hi1]. rewrite (ldc_ok _ _ _ Hc), bind_Ok. change (schar 37 =? 0) with false. change (schar 37 =? 37) with true. cbv iota.
      destruct Hi as (M1 & M2 & M3).
      replace (fmt + a + 1) with (fmt + (a + 1)) in Hi1 by lia. rewrite app_length in Hf. cbn [length] in Hf.
      rewrite zlen_cons in Hs. rewrite zlen_app, zlen_cons in Ha.
      destruct (conv_mods strict tmp0 m buf size fmt b args c Rc Nc mods w k a cst0 0 N) as (k' & st' & G1 & G2 & G3 & G4 & G5 & G6); auto.
      { cbn [padding cst0]. lia. } { cbn [padding cst0]. cbn. lia. } { lia. }
      destruct (switch_safe strict k' tmp0 m buf size fmt (a + zlen (mods_text mods ++ w ++ [c])) b mods w c items args st' N) as (rest & Rs & Q1 & Q2 & Q3); auto.
      { rewrite Nat.add_0_l in G2. pose proof (pow10_le _ M3). lia. }
      { apply G2. }
      { intros Ee. apply G3 in Ee. apply Ee. }
      rewrite G6, Q2, bind_Ok. nneg (format_text items). nneg (mods_text mods ++ w ++ [c]).
      destruct Rs as [m1 b1|m1 a1 b1 args1 stop1 st1]; cbn [conv_after sw_fine] in *.
      * rewrite bind_Ok. eexists. split; [reflexivity|]. exact Q3.
      * destruct Q3 as (-> & -> & -> & Hb1 & S1 & Mp). cbv iota. rewrite bind_Ok.
        set (T := mods_text mods ++ w ++ [c]) in *. 
        assert (Hs1 : str_at m (fmt + (a + zlen T + 1)) (format_text items)) by (replace (fmt + (a + zlen T + 1)) with (fmt + a + (zlen T + 1)) by lia; exact Hs).
        destruct (IH rest m1 (a + zlen T + 1) b1 k) as (o & E1 & E2).
        -- eapply str_keep; [exact Hs1| |exact S1]. unfold apart in *. lia.
        -- unfold apart in *. lia.
        -- exact Hw.
        -- eapply safe_keep; eauto.
        -- eapply mapped_room; eauto.
        -- exact Hb1.
        -- lia.
        -- exists o. split; [exact E1|]. eapply fine_trans; eauto.
Qed.
