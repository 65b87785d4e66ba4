(* atoi, atol, strtol. *)
From Verif Require Import Base BaseLemmas ConvModel ConvSpec ConvProofs ConvProofs2 ConvProofs3 ConvProofs4.
Ltac Zify.zify_post_hook ::= Z.div_mod_to_equations.

(* ---- values of digit strings ---- *)
Lemma value_fold base l : forall a, fold_left (fun v b => base * v + digval b) l a = a * base ^ zlen l + value base l.
Proof.
  unfold value. induction l as [|d l IH]; intro a; cbn [fold_left]; zl.
  - rewrite Z.pow_0_r. lia.
  - rewrite IH, (IH (base * 0 + digval d)). nneg l. rewrite Z.pow_add_r by lia. ring.
Qed.
Lemma value_cons base b l : value base (b :: l) = digval b * base ^ zlen l + value base l.
Proof. unfold value at 1. cbn [fold_left]. rewrite value_fold. ring. Qed.
Lemma value_app base l1 l2 : value base (l1 ++ l2) = value base l1 * base ^ zlen l2 + value base l2.
Proof. unfold value at 1. rewrite fold_left_app. rewrite value_fold. reflexivity. Qed.
Lemma value_snoc base l b : value base (l ++ [b]) = base * value base l + digval b.
Proof. unfold value. now rewrite fold_left_app. Qed.
Lemma value_range base l : 0 < base -> digits base l -> 0 <= value base l < base ^ zlen l.
Proof.
  intros Hb. induction l as [|b l IH]; intro D.
  - unfold value. cbn [fold_left]. zl. rewrite Z.pow_0_r. lia.
  - apply Forall_cons_iff in D as [Db D]. specialize (IH D). rewrite value_cons. zl. nneg l. rewrite Z.pow_add_r, Z.pow_1_r by lia. nia.
Qed.
Lemma value_zero base l : 0 < base -> digits base l -> value base l = 0 -> Forall (fun b => digval b = 0) l.
Proof.
  intros Hb. induction l as [|b l IH]; intros D V; constructor.
  - apply Forall_cons_iff in D as [Db D]. rewrite value_cons in V. pose proof (value_range base l Hb D). nneg l.
    pose proof (Z.pow_pos_nonneg base (zlen l) Hb ltac:(lia)). nia.
  - apply Forall_cons_iff in D as [Db D]. apply IH; auto. rewrite value_cons in V. pose proof (value_range base l Hb D). nneg l.
    pose proof (Z.pow_pos_nonneg base (zlen l) Hb ltac:(lia)). nia.
Qed.
Lemma digit10 b : 0 <= digval b < 10 -> 48 <= b <= 57 /\ digval b = b - 48.
Proof.
  unfold digval. destruct ((48 <=? b) && (b <=? 57)) eqn:A; [lia|].
  destruct ((65 <=? b) && (b <=? 90)) eqn:B; [lia|]. destruct ((97 <=? b) && (b <=? 122)) eqn:C; lia.
Qed.

(* ---- atoi ---- *)
Fixpoint aloop (strict : bool) (rl : list Z) (ret dez : Z) : res (Z * Z) :=
  match rl with
  | [] => Ok (ret, dez)
  | b :: r => let* (ret1, dez1) := atoi_char strict (schar b) ret dez in aloop strict r ret1 dez1
  end.
Lemma aloop_app strict r1 : forall r2 ret dez,
  aloop strict (r1 ++ r2) ret dez = let* (a, b) := aloop strict r1 ret dez in aloop strict r2 a b.
Proof.
  induction r1 as [|b r1 IH]; intros; cbn [aloop app]; [reflexivity|].
  destruct (atoi_char strict (schar b) ret dez) as [[x y]| |]; cbn [bind]; auto.
Qed.
Lemma atoi_loop_aloop strict m c l : bytes_at m c l -> forall ret dez,
  atoi_loop strict (length l) m c ret dez = let* (r, _) := aloop strict (rev l) ret dez in Ok r.
Proof.
  induction l as [|x l IH] using rev_ind; intros H ret dez; [reflexivity|].
  apply bytes_at_app in H as [H1 [H2 _]]. rewrite app_length, Nat.add_1_r. cbn [atoi_loop].
  unfold ldc, load. change (Z.of_nat (length l)) with (zlen l). rewrite H2, !bind_Ok, rev_app_distr. cbn [rev app aloop].
  destruct (atoi_char strict (schar x) ret dez) as [[a b]| |]; cbn [bind]; auto.
Qed.
Lemma atoi_end_ok m c l : str_at m c l -> zlen l <= INT_MAX -> forall fuel, (length l < fuel)%nat -> atoi_end fuel m c 0 = Ok (zlen l).
Proof.
  intros S HL. assert (G : forall r k fuel, str_at m (c + k) r -> 0 <= k -> k + zlen r <= INT_MAX -> (length r < fuel)%nat -> atoi_end fuel m c k = Ok (k + zlen r)).
  { induction r as [|b r IH]; intros k fuel Hs Hk Hm Hf; (destruct fuel as [|f]; [cbn [length] in Hf; lia|]); cbn [atoi_end]; unfold ldc, load; cbn [str_at] in Hs.
    - rewrite Hs, !bind_Ok. cbn. zl. now rewrite Z.add_0_r.
    - destruct Hs as (Hb & Rb & Hs). rewrite Hb, !bind_Ok. revert Hm. zl. intro Hm. nneg r.
      destruct (Z.eqb_spec (schar b) 0) as [E|E]; [unfold schar in E; destruct (Z.ltb_spec b 128); lia|].
      rewrite iop_ok by (unfold INT_MIN, INT_MAX in *; lia). rewrite bind_Ok. cbn [length] in Hf.
      rewrite IH; try lia; [f_equal; lia|]. now rewrite Z.add_assoc. }
  intros fuel Hf. apply (G l 0); auto; try lia. now rewrite Z.add_0_r.
Qed.

(* successive values of dez *)
Definition dstep (strict : bool) (dez : Z) : res Z := iar strict (s32 (dez * 8) + Z.shiftr (s32 (dez * 8)) 2).
Lemma s32_mul_l a b : s32 (s32 a * b) = s32 (a * b).
Proof.
  unfold s32. set (k := (a + 2147483648) / 4294967296).
  assert (E : (a + 2147483648) mod 4294967296 - 2147483648 = a - 4294967296 * k) by (unfold k; pose proof (Z.div_mod (a + 2147483648) 4294967296); lia).
  rewrite E. replace ((a - 4294967296 * k) * b + 2147483648) with (a * b + 2147483648 + (- k * b) * 4294967296) by ring.
  rewrite Z.mod_add by lia. reflexivity.
Qed.
Lemma atoi_char_zero strict b ret dez : ~ (48 < b < 58) -> atoi_char strict b ret dez = let* d := dstep strict dez in Ok (ret, d).
Proof.
  intro H. unfold atoi_char, dstep. destruct ((48 <? b) && (b <? 58)) eqn:E; [lia|]. now rewrite bind_Ok.
Qed.
Lemma dstep_total dez : exists d, dstep false dez = Ok d.
Proof. unfold dstep, iar. eauto. Qed.

Fixpoint dseq (strict : bool) (k : nat) (d : Z) : res Z :=
  match k with O => Ok d | S k' => let* d1 := dstep strict d in dseq strict k' d1 end.
Lemma dseq_app strict j : forall k d d1, dseq strict j d = Ok d1 -> dseq strict (j + k) d = dseq strict k d1.
Proof.
  induction j as [|j IH]; intros k d d1 H; cbn [dseq Nat.add] in *; [congruence|].
  destruct (dstep strict d); cbn [bind] in *; try discriminate. eauto.
Qed.
Lemma dseq_ok strict k : (strict = true -> (k <= 13)%nat) -> exists d, dseq strict k 1 = Ok d.
Proof.
  destruct strict; intro H.
  - specialize (H eq_refl). do 14 (destruct k as [|k]; [eexists; vm_compute; reflexivity|]). lia.
  - clear H. generalize 1 as d. induction k as [|k IH]; intro d; cbn [dseq]; [eauto|]. destruct (dstep_total d) as [d1 E]. rewrite E, bind_Ok. apply IH.
Qed.
Lemma dseq_pow strict k : (k <= 9)%nat -> dseq strict k 1 = Ok (10 ^ Z.of_nat k).
Proof. intro H. destruct strict; do 10 (destruct k as [|k]; [vm_compute; reflexivity|]); lia. Qed.

Lemma aloop_zeros strict rl : Forall (fun b => 0 <= b < 256 /\ ~ (48 < b < 58)) rl -> forall k ret d,
  dseq strict k 1 = Ok d -> (strict = true -> (k + length rl <= 13)%nat) -> exists d', aloop strict rl ret d = Ok (ret, d').
Proof.
  induction rl as [|b rl IH]; intros HF k ret d Hd Hk; cbn [aloop]; [eauto|].
  apply Forall_cons_iff in HF as [[Rb Hb] HF]. rewrite atoi_char_zero.
  2:{ unfold schar. destruct (Z.ltb_spec b 128); lia. }
  cbn [length] in Hk. destruct (dseq_ok strict (k + 1)) as [d1 E1]; [intro Hs; specialize (Hk Hs); lia|].
  pose proof E1 as E2. rewrite (dseq_app strict k 1 1 d Hd) in E2. cbn [dseq] in E2.
  destruct (dstep strict d) as [d2| |] eqn:E3; cbn [bind] in E2; try discriminate. injection E2 as ->. rewrite bind_Ok. cbn [bind].
  apply (IH HF (k + 1)%nat); auto. intro Hs. specialize (Hk Hs). lia.
Qed.

Lemma iar_small strict z : INT_MIN <= z <= INT_MAX -> iar strict z = Ok z.
Proof. intro H. unfold iar. destruct strict; [now apply iop_ok|]. f_equal. now apply s32_small. Qed.

(* a digit whose weighted sum still fits *)
Lemma atoi_char_digit strict b ret dez : 48 <= b <= 57 -> 1 <= dez -> 0 <= ret -> 8 * dez <= INT_MAX -> ret + (b - 48) * dez <= INT_MAX ->
  atoi_char strict b ret dez = let* d := dstep strict dez in Ok (ret + (b - 48) * dez, d).
Proof.
  unfold INT_MAX. intros Hb Hd Hr Hdd Hs. destruct (Z.eq_dec b 48) as [->|Hb0].
  { rewrite atoi_char_zero by lia. now replace (ret + (48 - 48) * dez) with ret by lia. }
  unfold atoi_char, dstep. destruct ((48 <? b) && (b <? 58)) eqn:E; [|lia].
  rewrite !s32_mul_l. replace (dez * 2 * 2 * 2) with (dez * 8) by lia.
  rewrite (s32_small (dez * 2)), (s32_small (dez * 2 * 2)), (s32_small (dez * 8)) by (unfold INT_MIN, INT_MAX; lia).
  assert (B : b = 49 \/ b = 50 \/ b = 51 \/ b = 52 \/ b = 53 \/ b = 54 \/ b = 55 \/ b = 56 \/ b = 57) by lia.
  destruct B as [->|[->|[->|[->|[->|[->|[->|[->| ->]]]]]]]];
    repeat match goal with |- context [Z.land ?a ?b =? 0] => let v := eval vm_compute in (Z.land a b =? 0) in change (Z.land a b =? 0) with v end;
    cbv iota; repeat (first [rewrite bind_Ok | rewrite (iar_small strict (_ + _)) by (unfold INT_MIN, INT_MAX; lia)]; cbv iota);
    destruct (iar strict _); cbn [bind]; auto; do 2 f_equal; lia.
Qed.
Lemma dstep_seq strict k : (k <= 8)%nat -> dstep strict (10 ^ Z.of_nat k) = Ok (10 ^ Z.of_nat (S k)).
Proof.
  intro H. pose proof (dseq_app strict k 1 1 _ (dseq_pow strict k ltac:(lia))) as E. replace (k + 1)%nat with (S k) in E by lia.
  rewrite (dseq_pow strict (S k)) in E by lia. cbn [dseq] in E. destruct (dstep strict (10 ^ Z.of_nat k)); cbn [bind] in E; congruence.
Qed.
Lemma aloop_digits strict l : (length l <= 9)%nat -> digits 10 l -> aloop strict (rev l) 0 1 = Ok (value 10 l, 10 ^ zlen l).
Proof.
  induction l as [|b l IH]; intros HL D; [reflexivity|]. cbn [length] in HL. apply Forall_cons_iff in D as [Db D].
  cbn [rev]. rewrite aloop_app, IH by (auto; lia). rewrite bind_Ok. cbn [aloop]. apply digit10 in Db as [Rb Eb].
  pose proof (value_range 10 l ltac:(lia) D) as V. rewrite schar_low by lia.
  pose proof (pow10_pos (length l)) as P. pose proof (pow10_mono (length l) 8 ltac:(lia)) as P8. change (10 ^ Z.of_nat 8) with 100000000 in P8.
  unfold zlen in *. rewrite atoi_char_digit by (unfold INT_MAX; try lia; nia).
  rewrite dstep_seq by lia. rewrite bind_Ok, value_cons, Eb. unfold zlen. cbn [bind length]. f_equal. f_equal. ring.
Qed.

Ltac lands := repeat match goal with |- context [Z.land ?a ?b =? 0] => let v := eval vm_compute in (Z.land a b =? 0) in change (Z.land a b =? 0) with v end; cbv iota.
(* the tenth digit *)
Lemma atoi_char_ten (strict : bool) b ret : 48 <= b <= 57 -> 0 <= ret < 1000000000 -> ret + (b - 48) * 1000000000 <= (if strict then INT_MAX else 2147483648) ->
  atoi_char strict b ret 1000000000 = let* d := dstep strict 1000000000 in Ok (s32 (ret + (b - 48) * 1000000000), d).
Proof.
  intros Hb Hr Hs. assert (Hs' : ret + (b - 48) * 1000000000 <= 2147483648) by (unfold INT_MAX in Hs; destruct strict; lia).
  assert (B : b = 48 \/ b = 49 \/ b = 50) by lia. destruct B as [->|[-> | ->]].
  - rewrite atoi_char_zero by lia. rewrite s32_small by (unfold INT_MIN, INT_MAX; lia). now replace (ret + (48 - 48) * 1000000000) with ret by lia.
  - unfold atoi_char, dstep. change (s32 (s32 (s32 (1000000000 * 2) * 2) * 2)) with (s32 (1000000000 * 8)).
    change ((48 <? 49) && (49 <? 58)) with true. cbv iota zeta. lands. rewrite iar_small by (unfold INT_MIN, INT_MAX; lia). rewrite !bind_Ok.
    change (49 - 48) with 1. rewrite Z.mul_1_l.
    rewrite (s32_small (ret + 1000000000)) by (unfold INT_MIN, INT_MAX; lia). destruct (iar strict _); cbn [bind]; auto.
  - unfold atoi_char, dstep. change (s32 (s32 (s32 (1000000000 * 2) * 2) * 2)) with (s32 (1000000000 * 8)).
    change ((48 <? 50) && (50 <? 58)) with true. cbv iota zeta. lands. change (50 - 48) with 2. rewrite (s32_small (1000000000 * 2)) by (unfold INT_MIN, INT_MAX; lia). rewrite !bind_Ok.
    assert (E : iar strict (ret + 1000000000 * 2) = Ok (s32 (ret + 2 * 1000000000))).
    { unfold iar. destruct strict; [|f_equal; f_equal; lia]. rewrite iop_ok by (unfold INT_MIN, INT_MAX in *; lia).
      rewrite s32_small by (unfold INT_MIN, INT_MAX in *; lia). f_equal; lia. }
    rewrite E, !bind_Ok. destruct (iar strict _); cbn [bind]; auto.
Qed.

Lemma atoi_digits (strict : bool) p ds : digits 10 ds -> Forall (fun b => 0 <= b < 256 /\ ~ (48 < b < 58)) p ->
  value 10 ds <= (if strict then INT_MAX else 2147483648) -> (strict = true -> zlen (p ++ ds) <= 13) ->
  exists d, aloop strict (rev (p ++ ds)) 0 1 = Ok (s32 (value 10 ds), d).
Proof.
  intros D HP HV HL. pose proof (value_range 10 ds ltac:(lia) D) as VR.
  assert (VS : value 10 ds <= 2147483648) by (unfold INT_MAX in HV; destruct strict; lia).
  destruct (Nat.le_gt_cases (length ds) 9) as [Hs|Hb].
  - rewrite rev_app_distr, aloop_app, aloop_digits by auto. rewrite bind_Ok.
    pose proof (pow10_mono (length ds) 9 Hs) as P. change (10 ^ Z.of_nat 9) with 1000000000 in P.
    rewrite s32_small by (unfold INT_MIN, INT_MAX; unfold zlen in VR; lia).
    apply (aloop_zeros strict (rev p)) with (k := length ds); [now apply Forall_rev| |].
    + unfold zlen. now rewrite dseq_pow.
    + intro S. specialize (HL S). revert HL. zl. unfold zlen. rewrite rev_length. lia.
  - (* z ++ t :: c' *)
    set (n := (length ds - 10)%nat). set (z := firstn n ds). set (c := skipn n ds).
    assert (Eds : ds = z ++ c) by (symmetry; apply firstn_skipn).
    assert (Lc : length c = 10%nat) by (unfold c; rewrite skipn_length; lia).
    assert (Lz : length z = n) by (unfold z; rewrite firstn_length; lia).
    clearbody z c. subst ds. apply Forall_app in D as [Dz Dc]. rewrite value_app in *.
    pose proof (value_range 10 z ltac:(lia) Dz) as Vz. pose proof (value_range 10 c ltac:(lia) Dc) as Vc.
    assert (P10 : 10 ^ zlen c = 10000000000) by (unfold zlen; rewrite Lc; reflexivity). rewrite P10 in *.
    assert (Z0 : value 10 z = 0) by nia. rewrite Z0 in *. rewrite Z.mul_0_l, Z.add_0_l in *.
    destruct c as [|t c]; [discriminate|]. cbn [length] in Lc. apply Forall_cons_iff in Dc as [Dt Dc]. apply digit10 in Dt as [Rt Et].
    rewrite app_assoc, rev_app_distr. cbn [rev]. rewrite !aloop_app, aloop_digits by (auto; lia). rewrite bind_Ok.
    assert (P9 : 10 ^ zlen c = 1000000000) by (unfold zlen; replace (length c) with 9%nat by lia; reflexivity). rewrite P9.
    rewrite value_cons, P9, Et in *. pose proof (value_range 10 c ltac:(lia) Dc) as Vc'. rewrite P9 in Vc'.
    cbn [aloop]. rewrite schar_low by lia. rewrite atoi_char_ten by (auto; lia).
    assert (D9 : dseq strict 9 1 = Ok 1000000000) by (rewrite dseq_pow by lia; reflexivity).
    destruct (dseq_ok strict 10) as [d10 E10]; [lia|]. pose proof E10 as E11. change 10%nat with (9 + 1)%nat in E11.
    rewrite (dseq_app strict 9 1 1 _ D9) in E11. cbn [dseq] in E11. destruct (dstep strict 1000000000) as [d'| |]; cbn [bind] in E11; try discriminate.
    injection E11 as ->. rewrite bind_Ok. cbn [bind]. replace (value 10 c + (t - 48) * 1000000000) with ((t - 48) * 1000000000 + value 10 c) by lia.
    apply (aloop_zeros strict _) with (k := 10%nat); auto.
    + apply Forall_rev. apply Forall_app. split; auto. pose proof (value_zero 10 z ltac:(lia) Dz Z0) as HZ.
      rewrite Forall_forall in *. intros b Hb'. specialize (HZ b Hb'). specialize (Dz b Hb'). apply digit10 in Dz. lia.
    + intro S. specialize (HL S). revert HL. zl. unfold zlen. rewrite rev_length, app_length. lia.
Qed.

Lemma atoi_ok strict m c neg ds fuel : str_at m c (minus neg ++ ds) -> digits 10 ds ->
  INT_MIN <= signed neg (value 10 ds) <= INT_MAX ->
  zlen (minus neg ++ ds) <= INT_MAX -> (length (minus neg ++ ds) < fuel)%nat ->
  (strict = true -> zlen (minus neg ++ ds) <= 13 /\ signed neg (value 10 ds) <> INT_MIN) ->
  atoi strict fuel m c = Ok (signed neg (value 10 ds)).
Proof.
  intros S D V HL Hf Hs. unfold atoi. rewrite (atoi_end_ok m c _ S HL fuel Hf), bind_Ok.
  unfold zlen at 1. rewrite Nat2Z.id. rewrite atoi_loop_aloop by (eapply str_at_bytes; eauto).
  pose proof (value_range 10 ds ltac:(lia) D) as VR. unfold INT_MIN, INT_MAX in *.
  destruct (atoi_digits strict (minus neg) ds D) as [d E].
  - unfold minus. destruct neg; [constructor; [lia|constructor]|constructor].
  - unfold signed in *. destruct strict; [specialize (Hs eq_refl); unfold INT_MAX; destruct neg; lia|destruct neg; lia].
  - intro T. apply Hs in T. apply T.
  - rewrite E, !bind_Ok. unfold ldc, load, minus in *. destruct neg; cbn [app] in *.
    + cbn [str_at] in S. destruct S as (S0 & _ & _). rewrite S0, !bind_Ok. change (schar 45 =? 45) with true. cbv iota. unfold signed in *.
      unfold iar. destruct strict.
      * specialize (Hs eq_refl). rewrite s32_small by (unfold INT_MIN, INT_MAX; lia). apply iop_ok. unfold INT_MIN, INT_MAX. lia.
      * f_equal. unfold s32. lia.
    + unfold signed in *. rewrite s32_small by (unfold INT_MIN, INT_MAX; lia).
      destruct ds as [|x ds]; cbn [str_at] in S.
      * rewrite S, !bind_Ok. reflexivity.
      * destruct S as (S0 & Rx & _). rewrite S0, !bind_Ok. apply Forall_cons_iff in D as [Dx _]. apply digit10 in Dx as [Rd _].
        rewrite schar_low by lia. destruct (Z.eqb_spec x 45); [lia|reflexivity].
Qed.

(* ---- atol ---- *)
Lemma s64_add_mul a b c : s64 (s64 (s64 a * b) + c) = s64 (a * b + c).
Proof.
  assert (G : forall x, exists k, s64 x = x - 18446744073709551616 * k).
  { intro x. exists ((x + 9223372036854775808) / 18446744073709551616). unfold s64.
    pose proof (Z.div_mod (x + 9223372036854775808) 18446744073709551616). lia. }
  assert (G2 : forall x k, s64 (x + k * 18446744073709551616) = s64 x).
  { intros x k. unfold s64. replace (x + k * 18446744073709551616 + 9223372036854775808) with (x + 9223372036854775808 + k * 18446744073709551616) by ring.
    rewrite Z.mod_add by lia. reflexivity. }
  destruct (G a) as [k1 E1]. rewrite E1. destruct (G ((a - 18446744073709551616 * k1) * b)) as [k2 E2]. rewrite E2.
  rewrite <- (G2 (a * b + c) (- k1 * b - k2)). f_equal. ring.
Qed.
Definition nondigit (b : Z) : Prop := 0 <= b < 256 /\ ~ (48 <= b <= 57).
Lemma atol_loop_ok strict ds : forall m c e v fuel, bytes_at m c ds -> digits 10 ds -> m (c + zlen ds) = Some e -> nondigit e ->
  (length ds < fuel)%nat -> 0 <= v -> (strict = true -> v * 10 ^ zlen ds + value 10 ds <= LONG_MAX) ->
  atol_loop strict fuel m c (s64 v) = Ok (s64 (v * 10 ^ zlen ds + value 10 ds)).
Proof.
  induction ds as [|b ds IH]; intros m c e v fuel HB D He Ne Hf Hv HS; (destruct fuel as [|f]; [cbn [length] in Hf; lia|]);
    cbn [atol_loop]; unfold ldc, load.
  - revert He HS. zl. rewrite Z.add_0_r, Z.pow_0_r. intros He HS. rewrite He, !bind_Ok. destruct Ne as [Re Ne].
    destruct ((48 <=? schar e) && (schar e <=? 57)) eqn:E; [unfold schar in E; destruct (Z.ltb_spec e 128); lia|].
    unfold value. cbn [fold_left]. do 2 f_equal. lia.
  - destruct HB as [H0 HB]. rewrite H0, !bind_Ok. apply Forall_cons_iff in D as [Db D]. apply digit10 in Db as [Rb Eb].
    rewrite schar_low by lia. destruct ((48 <=? b) && (b <=? 57)) eqn:E; [|lia].
    revert He HS. zl. intros He HS. nneg ds. cbn [length] in Hf.
    pose proof (Z.pow_pos_nonneg 10 (zlen ds) ltac:(lia) ltac:(lia)) as P. pose proof (value_range 10 ds ltac:(lia) D) as VR.
    assert (V : v * 10 ^ (zlen ds + 1) + value 10 (b :: ds) = (v * 10 + (b - 48)) * 10 ^ zlen ds + value 10 ds).
    { rewrite value_cons, Eb. rewrite Z.pow_add_r, Z.pow_1_r by lia. ring. }
    rewrite V in *.
    assert (St : (let* r1 := lar strict (s64 v * 10) in let* r2 := lar strict (r1 + (b - 48)) in atol_loop strict f m (c + 1) r2) =
      atol_loop strict f m (c + 1) (s64 (v * 10 + (b - 48)))).
    { unfold lar. destruct strict.
      - specialize (HS eq_refl). unfold LONG_MAX in HS. assert (v * 10 + (b - 48) <= 9223372036854775807) by nia.
        rewrite (s64_small v) by (unfold LONG_MIN, LONG_MAX; lia). rewrite lop_ok by (unfold LONG_MIN, LONG_MAX; lia). rewrite bind_Ok.
        rewrite lop_ok by (unfold LONG_MIN, LONG_MAX; lia). rewrite bind_Ok. rewrite s64_small by (unfold LONG_MIN, LONG_MAX; lia). reflexivity.
      - rewrite !bind_Ok. now rewrite s64_add_mul. }
    rewrite St. apply (IH _ _ e); auto; try lia. now replace (c + 1 + zlen ds) with (c + (zlen ds + 1)) by lia.
Qed.
Lemma s64_opp v : s64 (- s64 v) = s64 (- v).
Proof. unfold s64. lia. Qed.
Lemma atol_ok strict m c neg ds e fuel : bytes_at m c (minus neg ++ ds) -> digits 10 ds -> m (c + zlen (minus neg ++ ds)) = Some e -> nondigit e ->
  (neg = true \/ ds <> [] \/ e <> 45) ->
  LONG_MIN <= signed neg (value 10 ds) <= LONG_MAX -> (strict = true -> signed neg (value 10 ds) <> LONG_MIN) -> (length ds < fuel)%nat ->
  atol strict fuel m c = Ok (signed neg (value 10 ds)).
Proof.
  intros HB D He Ne Hc V Hs Hf. unfold atol, ldc, load, minus, signed, LONG_MIN, LONG_MAX in *. pose proof (value_range 10 ds ltac:(lia) D) as VR.
  destruct neg; cbn [app] in *.
  - destruct HB as [H0 HB]. rewrite H0, !bind_Ok. change (schar 45 =? 45) with true. cbv iota. revert He. zl. intro He.
    change 0 with (s64 0). erewrite (atol_loop_ok strict ds m (c + 1) e 0); eauto; try lia.
    + rewrite bind_Ok, Z.mul_0_l, Z.add_0_l. unfold lar. destruct strict.
      * specialize (Hs eq_refl). rewrite s64_small by (unfold LONG_MIN, LONG_MAX; lia). apply lop_ok. unfold LONG_MIN, LONG_MAX. lia.
      * rewrite s64_opp. rewrite s64_small by (unfold LONG_MIN, LONG_MAX; lia). reflexivity.
    + now replace (c + 1 + zlen ds) with (c + (zlen ds + 1)) by lia.
    + intro T. specialize (Hs T). unfold LONG_MAX. lia.
  - assert (L : atol_loop strict fuel m c 0 = Ok (value 10 ds)).
    { change 0 with (s64 0). rewrite (atol_loop_ok strict ds m c e 0); auto; try lia; [|intros _; unfold LONG_MAX; lia].
      rewrite Z.mul_0_l, Z.add_0_l, s64_small by (unfold LONG_MIN, LONG_MAX; lia). reflexivity. }
    assert (exists x, m c = Some x /\ schar x <> 45) as (x & Hx & Nx).
    { destruct ds as [|x ds].
      - revert He. zl. rewrite Z.add_0_r. intro He. exists e. split; auto. destruct Ne as [Re Ne].
        unfold schar. destruct (Z.ltb_spec e 128); [|lia]. destruct Hc as [?|[?|?]]; congruence.
      - destruct HB as [H0 _]. exists x. split; auto. apply Forall_cons_iff in D as [Dx _]. apply digit10 in Dx. rewrite schar_low; lia. }
    rewrite Hx, !bind_Ok. destruct (Z.eqb_spec (schar x) 45); [congruence|auto].
Qed.

(* ---- strtol ---- *)
Definition not_digit (base b : Z) : Prop := digval b < 0 \/ base < digval b.
Lemma strtol_digit_val b : 0 <= b < 256 -> strtol_digit (schar b) = digval b.
Proof.
  intro Hb. unfold strtol_digit, digval, schar. destruct (Z.ltb_spec b 128).
  - destruct ((48 <=? b) && (b <=? 57)) eqn:A; destruct ((65 <=? b) && (b <=? 90)) eqn:B; destruct ((97 <=? b) && (b <=? 122)) eqn:C; lia.
  - destruct ((48 <=? b) && (b <=? 57)) eqn:A; [lia|]. destruct ((65 <=? b) && (b <=? 90)) eqn:B; [lia|]. destruct ((97 <=? b) && (b <=? 122)) eqn:C; [lia|].
    destruct ((97 <=? b - 256) && (b - 256 <=? 122)) eqn:A'; [lia|]. destruct ((65 <=? b - 256) && (b - 256 <=? 90)) eqn:B'; [lia|].
    destruct ((48 <=? b - 256) && (b - 256 <=? 57)) eqn:C'; [lia|]. reflexivity.
Qed.
Lemma digval_min b : -1 <= digval b.
Proof. unfold digval. destruct ((48 <=? b) && (b <=? 57)) eqn:A; [lia|]. destruct ((65 <=? b) && (b <=? 90)) eqn:B; [lia|]. destruct ((97 <=? b) && (b <=? 122)) eqn:C; lia. Qed.
Lemma digval_range b : 0 <= digval b -> 48 <= b <= 122.
Proof. unfold digval. destruct ((48 <=? b) && (b <=? 57)) eqn:A; [lia|]. destruct ((65 <=? b) && (b <=? 90)) eqn:B; [lia|]. destruct ((97 <=? b) && (b <=? 122)) eqn:C; lia. Qed.

Lemma lar_small strict z : LONG_MIN <= z <= LONG_MAX -> lar strict z = Ok z.
Proof. intro H. unfold lar. destruct strict; [now apply lop_ok|]. f_equal. now apply s64_small. Qed.

(* one digit *)
Lemma strtol_step strict f m c base sign v b : m c = Some b -> 2 <= base -> 0 <= digval b < base -> 0 <= v -> base * v + digval b <= LONG_MAX ->
  strtol_loop strict (S f) m c base sign v = strtol_loop strict f m (c + 1) base sign (base * v + digval b).
Proof.
  intros Hm Hb Hd Hv HV. pose proof (digval_range b ltac:(lia)) as R. cbn [strtol_loop]. unfold ldc, load. rewrite Hm, !bind_Ok. rewrite strtol_digit_val by lia.
  destruct ((base <? digval b) || (digval b =? -1)) eqn:E; [lia|]. unfold LONG_MAX in HV.
  rewrite lar_small by (unfold LONG_MIN, LONG_MAX; nia). rewrite bind_Ok. rewrite lar_small by (unfold LONG_MIN, LONG_MAX; nia). rewrite bind_Ok.
  replace (v * base + digval b) with (base * v + digval b) by lia. destruct (Z.ltb_spec (base * v + digval b) 0); [nia|reflexivity].
Qed.
Lemma strtol_loop_ok strict base sign ds : 2 <= base -> forall m c v f, bytes_at m c ds -> digits base ds -> 0 <= v ->
  v * base ^ zlen ds + value base ds <= LONG_MAX ->
  strtol_loop strict (length ds + f) m c base sign v = strtol_loop strict f m (c + zlen ds) base sign (v * base ^ zlen ds + value base ds).
Proof.
  intro Hb. induction ds as [|b ds IH]; intros m c v f HB D Hv HV.
  - cbn [length Nat.add]. zl. rewrite Z.add_0_r, Z.pow_0_r. unfold value. cbn [fold_left]. f_equal. lia.
  - destruct HB as [H0 HB]. apply Forall_cons_iff in D as [Db D]. cbn [length Nat.add]. revert HV. zl. intro HV. nneg ds.
    pose proof (Z.pow_pos_nonneg base (zlen ds) ltac:(lia) ltac:(lia)) as P. pose proof (value_range base ds ltac:(lia) D) as VR.
    assert (V : v * base ^ (zlen ds + 1) + value base (b :: ds) = (base * v + digval b) * base ^ zlen ds + value base ds).
    { rewrite value_cons. rewrite Z.pow_add_r, Z.pow_1_r by lia. ring. }
    rewrite V in *. rewrite (strtol_step strict _ m c base sign v b); auto; [|nia].
    rewrite IH; auto; [f_equal; lia|nia].
Qed.
Lemma strtol_loop_end strict m c base sign v e f : m c = Some e -> 0 <= e < 256 -> not_digit base e -> 0 <= v <= LONG_MAX -> 0 <= base ->
  strtol_loop strict (S f) m c base sign v = Ok (signed sign v, c, false).
Proof.
  intros Hm He Hn Hv Hb. cbn [strtol_loop]. unfold ldc, load. rewrite Hm, !bind_Ok, strtol_digit_val by auto.
  pose proof (digval_min e). destruct Hn as [Hn|Hn]; (destruct ((base <? digval e) || (digval e =? -1)) eqn:E; [|lia]);
  (unfold signed; destruct sign; [rewrite lar_small by (unfold LONG_MIN, LONG_MAX in *; lia)|]; rewrite bind_Ok; reflexivity).
Qed.
(* wrap-around into the negative range is noticed *)
Lemma strtol_step_over m c base sign v b f : m c = Some b -> 2 <= base -> 0 <= digval b < base -> 0 <= v <= LONG_MAX ->
  9223372036854775808 <= base * v + digval b < 18446744073709551616 ->
  strtol_loop false (S f) m c base sign v = Ok (if sign then LONG_MIN else LONG_MAX, c, true).
Proof.
  intros Hm Hb Hd Hv HV. pose proof (digval_range b ltac:(lia)) as R. cbn [strtol_loop]. unfold ldc, load. rewrite Hm, !bind_Ok. rewrite strtol_digit_val by lia.
  destruct ((base <? digval b) || (digval b =? -1)) eqn:E; [lia|]. unfold lar. rewrite !bind_Ok.
  assert (A : s64 (s64 (v * base) + digval b) = base * v + digval b - 18446744073709551616).
  { replace v with (s64 v) by (apply s64_small; unfold LONG_MIN, LONG_MAX in *; lia). rewrite s64_add_mul.
    rewrite (s64_small v) by (unfold LONG_MIN, LONG_MAX in *; lia). rewrite (Z.mul_comm v). set (x := base * v + digval b) in *. unfold s64. lia. }
  rewrite A. destruct (Z.ltb_spec (base * v + digval b - 18446744073709551616) 0); [reflexivity|lia].
Qed.

Lemma space_iff b : 0 <= b < 256 -> c_isspace (schar b) = true <-> is_space b.
Proof.
  intro Hb. unfold c_isspace, is_space, schar. destruct (Z.ltb_spec b 128); split; intro H0.
  - destruct (_ || _) eqn:E in H0; [lia|discriminate].
  - destruct (_ || _) eqn:E; lia.
  - destruct (_ || _) eqn:E in H0; [lia|discriminate].
  - destruct (_ || _) eqn:E; lia.
Qed.
Lemma skip_space_ok ws : Forall is_space ws -> forall m s x f, bytes_at m s ws -> m (s + zlen ws) = Some x -> 0 <= x < 256 -> ~ is_space x ->
  (length ws < f)%nat -> skip_space f m s = Ok (s + zlen ws).
Proof.
  induction ws as [|w ws IH]; intros HF m s x f HB Hx Rx Nx Hf; (destruct f as [|f]; [cbn [length] in Hf; lia|]); cbn [skip_space]; unfold ldc, load.
  - revert Hx. zl. rewrite Z.add_0_r. intro Hx. rewrite Hx, !bind_Ok. destruct (c_isspace (schar x)) eqn:E; [|reflexivity].
    apply space_iff in E; auto. contradiction.
  - apply Forall_cons_iff in HF as [Hw HF]. destruct HB as [H0 HB]. rewrite H0, !bind_Ok.
    assert (Rw : 0 <= w < 256) by (unfold is_space in Hw; lia). rewrite (proj2 (space_iff w Rw) Hw). cbn [length] in Hf. revert Hx. zl. intro Hx.
    rewrite (IH HF _ _ x); auto; try lia; [f_equal; lia|]. now replace (s + 1 + zlen ws) with (s + (zlen ws + 1)) by lia.
Qed.

(* the part of strtol in front of the loop; x is the first character of the digits or prefix *)
Lemma strtol_front strict m s base ws neg x f : Forall is_space ws -> bytes_at m s (ws ++ minus neg) -> 0 <= digval x ->
  m (s + zlen (ws ++ minus neg)) = Some x -> (length ws + 1 < f)%nat ->
  strtol strict f m s base =
  let c1 := s + zlen (ws ++ minus neg) in
  let* (c2, base2) :=
    if base =? 0 then
      if x =? 48 then
        let* b2 := ldc m (c1 + 1) in
        if b2 =? 120 then Ok (c1 + 2, 16) else Ok (c1 + 1, 8)
      else Ok (c1, 10)
    else Ok (c1, base) in
  strtol_loop strict f m c2 base2 neg 0.
Proof.
  intros HW HB Hd Hx Hf. pose proof (digval_range x Hd) as Rx. unfold strtol. apply bytes_at_app in HB as [HB1 HB2].
  assert (K : forall y, 0 <= y < 256 -> m (s + zlen ws) = Some y -> ~ is_space y -> skip_space f m s = Ok (s + zlen ws)).
  { intros y Ry Hy Ny. eapply skip_space_ok; eauto. lia. }
  assert (LX : ldc m (s + zlen (ws ++ minus neg)) = Ok x) by (unfold ldc, load; rewrite Hx, bind_Ok, schar_low by lia; reflexivity).
  destruct neg; cbn [minus] in *.
  - destruct HB2 as [H45 _]. rewrite (K 45); auto; [|lia|unfold is_space; lia]. rewrite bind_Ok. unfold ldc at 1, load at 1. rewrite H45, !bind_Ok.
    change (schar 45 =? 45) with true. cbv iota zeta. revert Hx LX. rewrite zlen_app. change (zlen [45]) with 1. rewrite Z.add_assoc. intros Hx LX.
    destruct (base =? 0); [rewrite LX, bind_Ok|]; reflexivity.
  - rewrite app_nil_r in *. rewrite (K x); auto; [|lia|unfold is_space; lia]. rewrite bind_Ok, LX, bind_Ok. cbv zeta.
    destruct (Z.eqb_spec x 45); [lia|]. destruct (base =? 0); [rewrite LX, bind_Ok|]; reflexivity.
Qed.

Lemma strtol_run strict base neg ds m c e f : 2 <= base -> bytes_at m c ds -> digits base ds -> value base ds <= LONG_MAX ->
  m (c + zlen ds) = Some e -> 0 <= e < 256 -> not_digit base e -> (length ds < f)%nat ->
  strtol_loop strict f m c base neg 0 = Ok (signed neg (value base ds), c + zlen ds, false).
Proof.
  intros Hb HB D V He Re Ne Hf. pose proof (value_range base ds ltac:(lia) D).
  replace f with (length ds + S (f - length ds - 1))%nat by lia. rewrite strtol_loop_ok; auto; try lia.
  rewrite Z.mul_0_l, Z.add_0_l. eapply strtol_loop_end; eauto; lia.
Qed.

Lemma strtol_ok strict m s base ws neg ds e f : 2 <= base <= 36 -> Forall is_space ws -> digits base ds -> ds <> [] ->
  bytes_at m s (ws ++ minus neg ++ ds) -> m (s + zlen (ws ++ minus neg ++ ds)) = Some e -> 0 <= e < 256 -> not_digit base e ->
  value base ds <= LONG_MAX -> (length (ws ++ minus neg ++ ds) < f)%nat ->
  strtol strict f m s base = Ok (signed neg (value base ds), s + zlen (ws ++ minus neg ++ ds), false).
Proof.
  intros Hb HW D Hne HB He Re Ne V Hf. destruct ds as [|x ds]; [congruence|]. rewrite !app_assoc in *. set (p := ws ++ minus neg) in *.
  pose proof HB as HB'. apply bytes_at_app in HB' as [HB1 HB2]. assert (Dx : 0 <= digval x < base) by (apply Forall_cons_iff in D as [? _]; auto).
  revert Hf. rewrite app_length. cbn [length]. intro Hf.
  assert (LW : (length ws <= length p)%nat) by (unfold p; rewrite app_length; lia).
  rewrite (strtol_front strict m s base ws neg x f); auto; try lia; [|apply HB2]. fold p. cbv zeta. destruct (Z.eqb_spec base 0); [lia|]. rewrite bind_Ok.
  rewrite (strtol_run strict base neg (x :: ds) m (s + zlen p) e f); auto; try lia.
  - do 3 f_equal. zl. lia.
  - revert He. rewrite zlen_app. now rewrite Z.add_assoc.
  - cbn [length]. lia.
Qed.

(* base 0 *)
Lemma strtol_base0_dec strict m s ws neg ds e f : Forall is_space ws -> digits 10 ds -> ds <> [] -> hd 0 ds <> 48 ->
  bytes_at m s (ws ++ minus neg ++ ds) -> m (s + zlen (ws ++ minus neg ++ ds)) = Some e -> 0 <= e < 256 -> not_digit 10 e ->
  value 10 ds <= LONG_MAX -> (length (ws ++ minus neg ++ ds) < f)%nat ->
  strtol strict f m s 0 = Ok (signed neg (value 10 ds), s + zlen (ws ++ minus neg ++ ds), false).
Proof.
  intros HW D Hne Hh HB He Re Ne V Hf. rewrite <- (strtol_ok strict m s 10 ws neg ds e f); auto; [|lia].
  destruct ds as [|x ds]; [congruence|]. cbn [hd] in Hh. rewrite !app_assoc in *.
  apply bytes_at_app in HB as [HB1 [HB2 _]]. assert (Dx : 0 <= digval x) by (apply Forall_cons_iff in D as [? _]; lia).
  revert Hf. rewrite app_length. cbn [length]. intro Hf.
  assert (LW : (length ws <= length (ws ++ minus neg))%nat) by (rewrite app_length; lia).
  rewrite (strtol_front strict m s 0 ws neg x f), (strtol_front strict m s 10 ws neg x f); auto; try lia. cbn [Z.eqb Z.leb].
  destruct (Z.eqb_spec x 48); [congruence|]. reflexivity.
Qed.
Lemma strtol_base0_oct strict m s ws neg ds e f : Forall is_space ws -> digits 8 ds ->
  bytes_at m s (ws ++ minus neg ++ 48 :: ds) -> m (s + zlen (ws ++ minus neg ++ 48 :: ds)) = Some e -> 0 <= e < 256 -> not_digit 8 e ->
  hd e ds <> 120 -> value 8 ds <= LONG_MAX -> (length (ws ++ minus neg ++ 48%Z :: ds) < f)%nat ->
  strtol strict f m s 0 = Ok (signed neg (value 8 ds), s + zlen (ws ++ minus neg ++ 48 :: ds), false).
Proof.
  intros HW D HB He Re Ne Hh V Hf. rewrite !app_assoc in *.
  apply bytes_at_app in HB as [HB1 [HB2 HB3]]. revert Hf He. rewrite app_length, !zlen_app, (zlen_cons _ ds). cbn [length]. intros Hf He.
  set (p := ws ++ minus neg) in *. assert (LW : (length ws <= length p)%nat) by (unfold p; rewrite app_length; lia).
  rewrite (strtol_front strict m s 0 ws neg 48 f); auto; try lia; [|reflexivity || (cbn; lia)]. fold p. cbn [Z.eqb Pos.eqb]. cbv zeta.
  assert (E : exists y, ldc m (s + zlen p + 1) = Ok y /\ y <> 120).
  { unfold ldc, load. destruct ds as [|y ds]; cbn [hd] in Hh.
    - revert He. zl. intro He. exists (schar e). replace (s + zlen p + 1) with (s + (zlen ws + zlen (minus neg) + (0 + 1))) by (unfold p; zl; lia). rewrite He, bind_Ok. split; auto.
      unfold schar. destruct (Z.ltb_spec e 128); lia.
    - destruct HB3 as [Hy _]. rewrite Hy, bind_Ok. apply Forall_cons_iff in D as [Dy _]. pose proof (digval_range y ltac:(lia)).
      exists y. rewrite schar_low by lia. auto. }
  destruct E as (y & Ey & Hy). rewrite Ey, bind_Ok. destruct (Z.eqb_spec y 120); [congruence|]. rewrite bind_Ok.
  rewrite (strtol_run strict 8 neg ds m (s + zlen p + 1) e f); auto; try lia.
  - do 3 f_equal. unfold p. zl. lia.
  - unfold p in *. rewrite <- He. f_equal. zl. lia.
Qed.
Lemma strtol_base0_hex strict m s ws neg ds e f : Forall is_space ws -> digits 16 ds ->
  bytes_at m s (ws ++ minus neg ++ 48 :: 120 :: ds) -> m (s + zlen (ws ++ minus neg ++ 48 :: 120 :: ds)) = Some e -> 0 <= e < 256 -> not_digit 16 e ->
  value 16 ds <= LONG_MAX -> (length (ws ++ minus neg ++ 48%Z :: 120%Z :: ds) < f)%nat ->
  strtol strict f m s 0 = Ok (signed neg (value 16 ds), s + zlen (ws ++ minus neg ++ 48 :: 120 :: ds), false).
Proof.
  intros HW D HB He Re Ne V Hf. rewrite !app_assoc in *.
  apply bytes_at_app in HB as [HB1 [HB2 [HB4 HB3]]]. revert Hf He. rewrite app_length, !zlen_app, (zlen_cons 48), (zlen_cons 120). cbn [length]. intros Hf He.
  set (p := ws ++ minus neg) in *. assert (LW : (length ws <= length p)%nat) by (unfold p; rewrite app_length; lia).
  rewrite (strtol_front strict m s 0 ws neg 48 f); auto; try lia; [|reflexivity || (cbn; lia)]. fold p. cbn [Z.eqb Pos.eqb]. cbv zeta.
  unfold ldc, load. rewrite HB4, !bind_Ok. change (schar 120 =? 120) with true. cbv iota. rewrite bind_Ok.
  rewrite (strtol_run strict 16 neg ds m (s + zlen p + 2) e f); auto; try lia.
  - do 3 f_equal. unfold p. zl. lia.
  - now replace (s + zlen p + 2) with (s + zlen p + 1 + 1) by lia.
  - unfold p in *. rewrite <- He. f_equal. zl. lia.
Qed.
