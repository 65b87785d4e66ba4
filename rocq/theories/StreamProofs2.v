From Verif Require Import Base BaseLemmas StreamModel StreamSpec StreamProofs.
Ltac Zify.zify_post_hook ::= Z.div_mod_to_equations.

Lemma lor_high a c : 0 <= a < 16777216 -> 0 <= c -> Z.lor a (c * 16777216) = a + c * 16777216.
Proof.
  intros Ha Hc. assert (Hl : Z.land a (c * 16777216) = 0).
  { change 16777216 with (2 ^ 24). rewrite <- Z.shiftl_mul_pow2 by lia. apply Z.bits_inj'. intros n Hn.
    rewrite Z.land_spec, Z.bits_0. destruct (Z.lt_ge_cases n 24).
    - rewrite Z.shiftl_spec_low by lia. apply andb_false_r.
    - rewrite (Z.bits_above_log2 a); [reflexivity|lia|].
      destruct (Z.eq_dec a 0) as [->|]; [cbn; lia|].
      assert (Z.log2 a < 24) by (apply Z.log2_lt_pow2; lia). lia. }
  rewrite <- Z.lxor_lor by exact Hl. symmetry. apply Z.add_nocarry_lxor. exact Hl.
Qed.

Lemma ungetc_word (strict : bool) c s : 1 <= c <= (if strict then 127 else 255) -> 
  exists v, ungetc strict c s = Ok (c, v) /\ input v = input s /\
    word v = word s mod 16777216 + schar c * 16777216.
Proof.
  intros Hc. unfold ungetc, schar. rewrite mask24.
  set (w := word s mod 16777216). assert (Hw : 0 <= w < 16777216) by (unfold w; lia).
  destruct strict.
  - assert (0 <=? c = true) as -> by lia. rewrite iop_ok by (unfold INT_MIN, INT_MAX; lia). rewrite bind_Ok.
    rewrite u32_small by lia. rewrite lor_high by lia. rewrite s32_small by (unfold INT_MIN, INT_MAX; lia).
    assert (c <? 128 = true) as -> by lia. eexists. split; [reflexivity|]. split; reflexivity.
  - rewrite bind_Ok. rewrite s32_u32. rewrite u32_small by lia. rewrite lor_high by lia.
    eexists. split; [reflexivity|]. split; [reflexivity|]. cbn [word]. fold w. destruct (c <? 128) eqn:E.
    + apply s32_small. unfold INT_MIN, INT_MAX. lia.
    + unfold s32. lia.
Qed.

Lemma fgetc_pushed v w c : 0 <= w < 16777216 -> word v = w + c * 16777216 -> c <> 0 ->
  fgetc v = (c, {| word := w; input := input v |}).
Proof.
  intros Hw E Hc. unfold fgetc. rewrite shr24, mask24, E.
  replace ((w + c * 16777216) / 16777216) with c by lia.
  replace ((w + c * 16777216) mod 16777216) with w by lia.
  assert (c =? 0 = false) as -> by lia. cbn [negb]. rewrite s32_small by (unfold INT_MIN, INT_MAX; lia). reflexivity.
Qed.

(* ---- fgetud, fgetul ---- *)
Lemma c_isdigit_ok c : 0 <= c < 256 -> c_isdigit c = (48 <=? c) && (c <=? 57).
Proof. intros H. unfold c_isdigit, schar, u32. destruct (c <? 128) eqn:E; lia. Qed.

Lemma decimal_mod N ds : 0 < N -> forall a b, a mod N = b mod N -> decimal a ds mod N = decimal b ds mod N.
Proof.
  intros HN. induction ds as [|c r IH]; intros a b H; cbn [decimal]; [exact H|].
  apply IH. rewrite Z.add_mod, (Z.mul_mod a) by lia. rewrite H.
  rewrite <- (Z.mul_mod b), <- Z.add_mod by lia. reflexivity.
Qed.

Section FGETUD.
Variable N : Z.
Hypothesis HN : 1000 < N.
Variable wrap : Z -> Z.
Hypothesis Hwrap : forall z, wrap z = z mod N.
Lemma fgetud_ok : forall ds rest fuel s ret, wok s -> Forall (fun c => 0 <= c < 256) (cont s) ->
  cont s = ds ++ rest -> Forall is_digit ds -> no_digit rest -> (length ds < fuel)%nat -> 0 <= ret < N ->
  exists s', fgetud_loop wrap fuel s ret = Ok (decimal ret ds mod N, s') /\ cont s' = tl rest /\ wok s'.
Proof.
  induction ds as [|d ds IH]; intros rest fuel s ret Hw Hb Hc Hd Hn Hf Hr.
  - destruct fuel as [|k]; [cbn [length] in Hf; lia|]. cbn [fgetud_loop decimal app] in *.
    destruct (fgetc s) as [x s'] eqn:E. destruct (fgetc_ok _ _ _ Hw Hb E) as [(E1 & -> & ->) | (E1 & E2)].
    + exists s. rewrite Hc in E1. subst rest. change (ubyte 0) with 0. cbn [Z.eqb negb andb].
      rewrite Z.mod_small by lia. repeat split; [rewrite E1; reflexivity|apply Hw|apply Hw].
    + rewrite Hc in E1. rewrite E1 in *. cbn [no_digit tl] in *. unfold is_digit in Hn.
      assert (0 <= ubyte x < 256) by (unfold ubyte; lia).
      rewrite c_isdigit_ok by assumption.
      assert ((48 <=? ubyte x) && (ubyte x <=? 57) = false) as -> by lia. rewrite andb_false_r.
      exists s'. rewrite Z.mod_small by lia. auto.
  - destruct fuel as [|k]; [cbn [length] in Hf; lia|]. cbn [fgetud_loop decimal app length] in *.
    destruct (fgetc s) as [x s'] eqn:E. destruct (fgetc_ok _ _ _ Hw Hb E) as [(E1 & -> & ->) | (E1 & E2)].
    + rewrite Hc in E1. discriminate E1.
    + rewrite Hc in E1. inversion E1; subst d. apply Forall_cons_iff in Hd as [Hd1 Hd2]. unfold is_digit in Hd1.
      rewrite c_isdigit_ok by lia.
      assert ((48 <=? ubyte x) && (ubyte x <=? 57) = true) as -> by lia.
      assert (ubyte x =? 0 = false) as -> by lia. cbn [negb andb].
      destruct (IH rest k s' (wrap (wrap (ret * 10) + (ubyte x - 48)))) as (s2 & G1 & G2 & G3); auto.
      * rewrite Hc in Hb. apply Forall_cons_iff in Hb. rewrite <- H1. apply Hb.
      * lia.
      * rewrite Hwrap. apply Z.mod_pos_bound. lia.
      * exists s2. rewrite G1. split; [|auto]. do 2 f_equal. apply decimal_mod; [lia|].
        rewrite !Hwrap. rewrite Z.mod_mod by lia. rewrite Z.add_mod_idemp_l by lia. reflexivity.
Qed.
End FGETUD.

(* ---- fread ---- *)
Lemma skipn_add2 {A} a b (l : list A) : skipn b (skipn a l) = skipn (a + b) l.
Proof. revert l. induction a; intros l; [reflexivity|]. destruct l; [rewrite !skipn_nil; reflexivity|]. apply IHa. Qed.
Lemma put_bytes_ok : forall l m p, room m p (zlen l) ->
  exists m', put_bytes m p l = Ok m' /\ bytes_at m' p l /\ same_outside m m' p (zlen l).
Proof.
  induction l as [|b r IH]; intros m p Hr; cbn [put_bytes].
  - exists m. repeat split. 
  - rewrite zlen_cons in Hr. nneg r. rewrite (store_room _ _ _ _ _ Hr) by lia. rewrite bind_Ok.
    destruct (IH (upd m p b) (p + 1)) as (m' & G1 & G2 & G3).
    + apply room_upd. eapply room_sub; [exact Hr| |]; lia.
    + exists m'. split; [exact G1|]. rewrite zlen_cons. split.
      * split; [|exact G2]. rewrite (G3 p) by lia. apply upd_same.
      * apply (same_outside_trans _ (upd m p b)).
        -- apply same_outside_upd. lia.
        -- eapply same_outside_weaken; [exact G3| |]; lia.
Qed.

Lemma fread_loop_ok size : 1 <= size -> forall n m s p a, 0 <= a -> a + Z.of_nat n <= INT_MAX ->
  room m p (zlen (firstn (n * Z.to_nat size) (input s))) ->
  exists m' s' k,
    fread_loop n m s p size a = Ok (m', s', a + k) /\
    k = Z.min (Z.of_nat n) (zlen (input s) / size) /\
    bytes_at m' p (firstn (n * Z.to_nat size) (input s)) /\
    same_outside m m' p (zlen (firstn (n * Z.to_nat size) (input s))) /\
    input s' = skipn (n * Z.to_nat size) (input s) /\
    word s' = (if k <? Z.of_nat n then Z.lor (word s) 0x800000 else word s).
Proof.
  intros Hz. induction n as [|n IH]; intros m s p a Ha Hn Hr.
  - cbn [fread_loop Nat.mul firstn skipn]. exists m, s, 0. nneg (input s).
    repeat split; try lia. f_equal. f_equal. lia.
    assert (0 <= zlen (input s) / size) by (apply Z.div_pos; lia). cbn [Z.of_nat]. lia.
  - cbn [fread_loop]. unfold sys_read. set (sz := Z.to_nat size) in *.
    cbn [Nat.mul] in *.
    set (l := input s) in *. nneg l.
    assert (Efl : firstn (sz + n * sz) l = firstn sz l ++ firstn (n * sz) (skipn sz l)).
    { rewrite <- (firstn_skipn sz l) at 1. rewrite firstn_app.
      destruct (Nat.le_gt_cases sz (length l)).
      - rewrite firstn_all2 by (rewrite firstn_length; lia). rewrite firstn_length. f_equal. f_equal. lia.
      - rewrite skipn_all2 by lia. rewrite !firstn_nil, !app_nil_r.
        rewrite firstn_firstn. rewrite !firstn_all2 by lia. reflexivity. }
    rewrite Efl in *. rewrite zlen_app in *.
    nneg (firstn sz l). nneg (firstn (n * sz) (skipn sz l)).
    destruct (put_bytes_ok (firstn sz l) m p) as (m1 & G1 & G2 & G3).
    { eapply room_sub; [exact Hr| |]; lia. }
    rewrite G1, !bind_Ok.
    assert (El : zlen (firstn sz l) = Z.min size (zlen l)) by (rewrite zlen_firstn; lia).
    destruct (zlen (firstn sz l) =? size) eqn:Es; cbn [negb].
    + rewrite iop_ok by (unfold INT_MIN, INT_MAX in *; lia). rewrite bind_Ok.
      destruct (IH m1 {| word := word s; input := skipn sz l |} (p + size) (a + 1)) as (m' & s' & k & F1 & F2 & F3 & F4 & F5 & F6).
      * lia.
      * lia.
      * cbn [input]. eapply room_same; [|exact G3|unfold apart; lia].
        eapply room_sub; [exact Hr| |]; lia.
      * cbn [input word] in *. exists m', s', (k + 1). 
        assert (Esk : zlen (skipn sz l) = zlen l - size).
        { rewrite <- (firstn_skipn sz l) at 2. rewrite zlen_app. lia. }
        rewrite Esk in F2.
        assert (Ediv : (zlen l - size) / size = zlen l / size - 1).
        { replace (zlen l - size) with (zlen l + (-1) * size) by lia. rewrite Z.div_add by lia. lia. }
        rewrite Ediv in F2. 
        split; [|split; [|split; [|split; [|split]]]].
        -- rewrite F1. do 2 f_equal. lia.
        -- lia.
        -- apply bytes_at_app. split.
           ++ eapply bytes_at_ext; [exact G2|]. intros x Hx. apply F4. lia.
           ++ assert (zlen (firstn sz l) = size) as -> by lia. exact F3.
        -- apply (same_outside_trans _ m1).
           ++ eapply same_outside_weaken; [exact G3| |]; lia.
           ++ eapply same_outside_weaken; [exact F4| |]; lia.
        -- rewrite F5. apply skipn_add2.
        -- rewrite F6. assert ((k <? Z.of_nat n) = (k + 1 <? Z.of_nat (S n))) as -> by lia. reflexivity.
    + assert (zlen l < size) by lia.
      assert (skipn sz l = []) as Esk by (apply skipn_all2; unfold zlen in *; lia).
      rewrite Esk in *. rewrite firstn_nil, app_nil_r in *. change (zlen (@nil Z)) with 0 in *.
      exists m1, {| word := Z.lor (word s) 0x800000; input := [] |}, 0. cbn [word input].
      assert (Ed : zlen l / size = 0) by (apply Z.div_small; lia).
      split; [|split; [|split; [|split; [|split]]]].
      * do 2 f_equal. lia.
      * rewrite Ed. lia.
      * exact G2.
      * rewrite Z.add_0_r. exact G3.
      * symmetry. apply skipn_all2. unfold zlen in *. lia.
      * assert (0 <? Z.of_nat (S n) = true) as -> by lia. reflexivity.
Qed.

(* ---- the table of streams ---- *)
Definition safe (l : list (Z * Z)) (a : Z) : Prop :=
  (forall b e, In (b, e) l -> b <= a) \/ (exists e, In (a + 1, e) l).

Definition inv (n : nat) (t : streams) (l : list (Z * Z)) : Prop :=
  NoDup (map fst l) /\
  (forall a fd, In (a, fd) l -> slot t a = fd /\ 0 < fd < 4194304 /\ 3 <= a < pstream t) /\
  (forall a, 3 <= a -> slot t a <= 0 \/ In (a, slot t a) l) /\
  (forall a, 0 <= a < 3 -> slot t a = a) /\
  3 <= pstream t <= 16 /\ pstream t <= 3 + Z.of_nat n.

Lemma sget_ok t a : 0 <= a < 16 -> sget t a = Ok (slot t a).
Proof. intros H. unfold sget. assert ((0 <=? a) && (a <? 16) = true) as -> by lia. reflexivity. Qed.

Lemma search_ok : forall fuel t a o, fopen_search fuel t a = Ok o -> 3 <= a -> 
  exists b, o = Some b /\ a <= b < 16 /\ slot t b < 0.
Proof.
  induction fuel as [|k IH]; intros t a o H Ha; cbn [fopen_search] in H; [discriminate H|].
  unfold sget in H. destruct ((0 <=? a) && (a <? 16)) eqn:E; [|discriminate H]. rewrite bind_Ok in H.
  destruct (0 <=? slot t a) eqn:E2.
  - assert (16 <=? a = false) as X by lia. rewrite X in H. apply IH in H; [|lia].
    destruct H as (b & J1 & J2 & J3). exists b. repeat split; auto; lia.
  - inversion H; subst. exists a. repeat split; auto; lia.
Qed.

(* the slot fopen takes *)
Lemma fopen_slot_inv n t l r t' o : inv n t l -> fopen_slot t r = Ok (t', o) ->
  exists a, o = (if r <? 0 then None else Some a) /\ 3 <= a < 16 /\ ~ In a (map fst l) /\
    (forall b, slot t' b = if b =? a then r else slot t b) /\
    a < pstream t' /\ pstream t <= pstream t' <= 16 /\ pstream t' <= pstream t + 1.
Proof.
  intros (I1 & I2 & I3 & I4 & I5 & I6) H. unfold fopen_slot in H.
  assert (Hin : forall a, slot t a < 0 \/ pstream t <= a -> ~ In a (map fst l)).
  { intros a Ha Hin. apply in_map_iff in Hin as ((a' & fd) & E & Hin). cbn [fst] in E. subst a'.
    destruct (I2 _ _ Hin) as (J1 & J2 & J3). lia. }
  destruct (16 <=? pstream t) eqn:E.
  - destruct (fopen_search 20 t 3) as [o'| |] eqn:Es; cbn [bind] in H; try discriminate H.
    apply search_ok in Es; [|lia]. destruct Es as (a & -> & Ha & Hs).
    unfold sset in H. assert ((0 <=? a) && (a <? 16) = true) as X by lia. rewrite X in H. cbn [bind] in H.
    exists a. destruct (r <? 0); inversion H; subst; cbn [slot pstream]; repeat split; auto; try lia; apply Hin; lia.
  - cbn [bind] in H. unfold sset in H. assert ((0 <=? pstream t) && (pstream t <? 16) = true) as X by lia.
    rewrite X in H. cbn [bind slot pstream] in H.
    exists (pstream t). destruct (r <? 0); inversion H; subst; cbn [slot pstream]; repeat split; auto; try lia; apply Hin; lia.
Qed.

Lemma pop_ok t : (forall a, 0 <= a < 3 -> slot t a = a) -> forall k p q, fclose_pop k t p = Ok q -> 3 <= p ->
  3 <= q <= p /\ forall a, q <= a < p -> slot t a = -1.
Proof.
  intros H0. induction k as [|k IH]; intros p q H Hp; cbn [fclose_pop] in H; [discriminate H|].
  unfold sget in H. destruct ((0 <=? p - 1) && (p - 1 <? 16)) eqn:E; [|discriminate H]. cbn [bind] in H.
  destruct (slot t (p - 1) =? -1) eqn:E1.
  - assert (3 <= p - 1). { destruct (Z.eq_dec p 3) as [->|]; [|lia]. rewrite H0 in E1 by lia. lia. }
    apply IH in H; [|lia]. destruct H as [K1 K2]. split; [lia|]. intros a Ha.
    destruct (Z.eq_dec a (p - 1)) as [->|]; [lia|]. apply K2. lia.
  - inversion H; subst. split; [lia|]. intros; lia.
Qed.

Lemma pop_total t : (forall a, 0 <= a < 3 -> slot t a = a) -> forall k p, 3 <= p < 16 -> p <= Z.of_nat k + 2 ->
  exists q, fclose_pop k t p = Ok q.
Proof.
  intros H0. induction k as [|k IH]; intros p Hp Hk; [lia|]. cbn [fclose_pop].
  rewrite sget_ok by lia. cbn [bind]. destruct (slot t (p - 1) =? -1) eqn:E1; [|eexists; reflexivity].
  apply IH; [|lia]. destruct (Z.eq_dec p 3) as [->|]; [|lia]. rewrite H0 in E1 by lia. lia.
Qed.

Lemma fileno_ok fd : 0 <= fd < 4194304 -> fileno fd = fd.
Proof.
  intros H. unfold fileno. rewrite u32_small by lia. change 0x3fffff with (Z.ones 22).
  rewrite Z.land_ones by lia. apply Z.mod_small. exact H.
Qed.

Lemma fclose_inv n t l l1 l2 a fd t' d : inv n t l -> l = l1 ++ (a, fd) :: l2 ->
  ((forall b e, In (b, e) l -> b <= a) \/ (exists e, In (a + 1, e) l)) ->
  fclose t a = Ok (t', d) -> inv n t' (l1 ++ l2) /\ d = fd.
Proof.
  intros (I1 & I2 & I3 & I4 & I5 & I6) El Hsafe H.
  assert (Hin : In (a, fd) l) by (subst l; apply in_elt).
  destruct (I2 _ _ Hin) as (J1 & J2 & J3).
  assert (Hsub : forall b e, In (b, e) (l1 ++ l2) -> In (b, e) l /\ b <> a).
  { intros b e Hb. split.
    - subst l. apply in_or_app. apply in_app_or in Hb as [Hb|Hb]; [left|right; right]; exact Hb.
    - intros ->. subst l. rewrite map_app in I1. cbn [map fst] in I1. apply NoDup_remove_2 in I1. apply I1.
      rewrite <- map_app. apply in_map_iff. exists (a, e). auto. }
  unfold fclose in H. rewrite sget_ok in H by lia. cbn [bind] in H.
  unfold sset in H. assert ((0 <=? a) && (a <? 16) = true) as X by lia. rewrite X in H. cbn [bind pstream] in H.
  set (t1 := {| slot := fun x => if x =? a then -1 else slot t x; pstream := pstream t |}) in *.
  assert (Hs1 : forall x, slot t1 x = if x =? a then -1 else slot t x) by reflexivity.
  unfold sget in H.
  destruct ((0 <=? a + 1) && (a + 1 <? 16)) eqn:Ea1; [|discriminate H]. cbn [bind] in H.
  destruct ((0 <=? pstream t) && (pstream t <? 16)) eqn:Ep; [|discriminate H]. cbn [bind] in H.
  rewrite J1, fileno_ok in H by lia.
  assert (Hnd : NoDup (map fst (l1 ++ l2))).
  { subst l. rewrite map_app in I1. cbn [map fst] in I1. apply NoDup_remove_1 in I1. rewrite map_app. exact I1. }
  assert (H03 : forall x, 0 <= x < 3 -> slot t1 x = x).
  { intros x Hx. rewrite Hs1. assert (x =? a = false) as -> by lia. apply I4. exact Hx. }
  assert (Hkeep : forall b e, In (b, e) (l1 ++ l2) -> slot t1 b = e /\ 0 < e < 4194304 /\ 3 <= b < pstream t).
  { intros b e Hb. destruct (Hsub _ _ Hb) as [Hb1 Hb2]. destruct (I2 _ _ Hb1) as (K1 & K2 & K3).
    rewrite Hs1. assert (b =? a = false) as -> by lia. auto. }
  assert (Hcov : forall b, 3 <= b -> slot t1 b <= 0 \/ In (b, slot t1 b) (l1 ++ l2)).
  { intros b Hb. rewrite Hs1. destruct (b =? a) eqn:Eba; [left; lia|].
    destruct (I3 b Hb) as [L|L]; [left; exact L|]. right. subst l. apply in_or_app.
    apply in_app_or in L as [L|[L|L]]; [left; exact L| |right; exact L]. inversion L. lia. }
  destruct (slot t1 (a + 1) =? slot t1 (pstream t)) eqn:Eq.
  - destruct (fclose_pop 20 t1 (pstream t - 1)) as [q| |] eqn:Eqp; cbn [bind] in H; try discriminate H.
    inversion H; subst t' d; clear H. split; [|reflexivity].
    assert (Hp3 : 3 <= pstream t - 1) by lia.
    destruct (pop_ok t1 H03 _ _ _ Eqp Hp3) as [Q1 Q2].
    (* the slot given up first is not an open stream *)
    assert (Htop : forall b e, In (b, e) (l1 ++ l2) -> b <> pstream t - 1).
    { intros b e Hb Hbe. destruct (Hsub _ _ Hb) as [Hb1 Hb2]. destruct Hsafe as [Hs|[e' He']].
      - specialize (Hs _ _ Hb1). lia.
      - destruct (I2 _ _ He') as (K1 & K2 & K3). rewrite !Hs1 in Eq.
        assert (a + 1 =? a = false) as X1 by lia. rewrite X1, K1 in Eq.
        assert (pstream t =? a = false) as X2 by lia. rewrite X2 in Eq. destruct (I3 (pstream t)) as [L|L]; [lia| |].
        + lia.
        + destruct (I2 _ _ L). lia. }
    unfold inv. split; [exact Hnd|]. split; [|split; [|split; [|cbn [pstream]; lia]]].
    + intros b e Hb. destruct (Hkeep _ _ Hb) as (K1 & K2 & K3). split; [exact K1|]. split; [exact K2|].
      cbn [pstream]. specialize (Htop _ _ Hb). destruct (Z.lt_ge_cases b q); [lia|]. specialize (Q2 b). lia.
    + exact Hcov.
    + exact H03.
  - inversion H; subst t' d; clear H. split; [|reflexivity].
    unfold inv. split; [exact Hnd|]. split; [|split; [|split; [|cbn [pstream t1]; lia]]].
    + exact Hkeep.
    + exact Hcov.
    + exact H03.
Qed.

Lemma history_inv n t l : history safe n t l -> inv n t l.
Proof.
  induction 1 as [ | n t l r t' a Hh IH Hr H | n t l r t' Hh IH Hr H | n t l a fd l1 l2 t' d Hh IH El Hs H ].
  - unfold inv, streams_init. cbn [slot pstream map]. split; [constructor|]. split; [intros a fd []|].
    split; [|split; [|lia]].
    + intros a Ha. assert ((0 <=? a) && (a <? 3) = false) as -> by lia. left. lia.
    + intros a Ha. assert ((0 <=? a) && (a <? 3) = true) as -> by lia. reflexivity.
  - destruct (fopen_slot_inv _ _ _ _ _ _ IH H) as (a' & E & A1 & A2 & A3 & A4 & A5 & A6).
    assert (r <? 0 = false) as X by lia. rewrite X in E. injection E as <-. clear X.
    destruct IH as (I1 & I2 & I3 & I4 & I5 & I6). unfold inv. cbn [map fst].
    split; [constructor; assumption|]. split; [|split; [|split; [|lia]]].
    + intros b e [Hb|Hb].
      * inversion Hb; subst. rewrite A3, Z.eqb_refl. repeat split; lia.
      * destruct (I2 _ _ Hb) as (J1 & J2 & J3). rewrite A3.
        destruct (b =? a) eqn:Eb; [exfalso|repeat split; auto; lia].
        apply A2. apply in_map_iff. exists (b, e). cbn [fst]. split; [lia|exact Hb].
    + intros b Hb. rewrite A3. destruct (b =? a) eqn:Eb.
      * right. left. f_equal. lia.
      * destruct (I3 b Hb); [left; assumption|right; right; assumption].
    + intros b Hb. rewrite A3. assert (b =? a = false) as -> by lia. apply I4. exact Hb.
  - destruct (fopen_slot_inv _ _ _ _ _ _ IH H) as (a & E & A1 & A2 & A3 & A4 & A5 & A6).
    destruct IH as (I1 & I2 & I3 & I4 & I5 & I6). unfold inv.
    split; [assumption|]. split; [|split; [|split; [|lia]]].
    + intros b e Hb. destruct (I2 _ _ Hb) as (J1 & J2 & J3). rewrite A3.
      destruct (b =? a) eqn:Eb; [exfalso|repeat split; auto; lia].
      apply A2. apply in_map_iff. exists (b, e). cbn [fst]. split; [lia|exact Hb].
    + intros b Hb. rewrite A3. destruct (b =? a) eqn:Eb; [left; lia|]. apply I3. exact Hb.
    + intros b Hb. rewrite A3. assert (b =? a = false) as -> by lia. apply I4. exact Hb.
  - eapply fclose_inv; eassumption.
Qed.

(* no call goes outside the table as long as fopen was called at most twelve times *)
Lemma fopen_total n t l r : inv n t l -> (n <= 12)%nat -> exists t' o, fopen_slot t r = Ok (t', o).
Proof.
  intros (I1 & I2 & I3 & I4 & I5 & I6) Hn. unfold fopen_slot.
  assert (16 <=? pstream t = false) as -> by lia. cbn [bind]. unfold sset.
  assert ((0 <=? pstream t) && (pstream t <? 16) = true) as -> by lia. cbn [bind].
  destruct (r <? 0); eexists; eexists; reflexivity.
Qed.

Lemma fclose_total n t l a fd : inv n t l -> (n <= 12)%nat -> In (a, fd) l -> exists t' d, fclose t a = Ok (t', d).
Proof.
  intros (I1 & I2 & I3 & I4 & I5 & I6) Hn Hin. destruct (I2 _ _ Hin) as (J1 & J2 & J3). unfold fclose.
  rewrite sget_ok by lia. cbn [bind]. unfold sset.
  assert ((0 <=? a) && (a <? 16) = true) as -> by lia. cbn [bind].
  rewrite !sget_ok by (cbn [pstream]; lia). cbn [bind pstream slot].
  destruct ((if a + 1 =? a then -1 else slot t (a + 1)) =? (if pstream t =? a then -1 else slot t (pstream t))); [|eexists; eexists; reflexivity].
  edestruct (pop_total {| slot := fun x => if x =? a then -1 else slot t x; pstream := pstream t |}) as [q Hq].
  - intros x Hx. cbn [slot]. assert (x =? a = false) as -> by lia. apply I4. exact Hx.
  - instantiate (1 := pstream t - 1). lia.
  - instantiate (1 := 20%nat). lia.
  - rewrite Hq. cbn [bind]. eexists; eexists; reflexivity.
Qed.

(* ---- flags ---- *)
Lemma fopen_plus_twice k : forall mode i, 
  fopen_plus k mode i = if existsb (Z.eqb 43) (firstn k mode)
    then Z.land (Z.lor i O_RDWR) (Z.lnot (Z.lor O_WRONLY 0)) else i.
Proof.
  induction k as [|k IH]; intros mode i; [reflexivity|]. destruct mode as [|c r]; [reflexivity|].
  cbn [fopen_plus firstn existsb]. rewrite IH. rewrite (Z.eqb_sym 43 c). destruct (c =? 43); cbn [orb]; [|reflexivity].
  destruct (existsb (Z.eqb 43) (firstn k r)); [|reflexivity].
  apply Z.bits_inj'. intros n Hn. rewrite !Z.land_spec, !Z.lor_spec, !Z.land_spec, !Z.lor_spec.
  destruct (Z.testbit i n), (Z.testbit O_RDWR n), (Z.testbit (Z.lnot (Z.lor O_WRONLY 0)) n); reflexivity.
Qed.
