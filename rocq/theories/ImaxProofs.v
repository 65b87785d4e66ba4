(* strtoimax, as strtol in ConvProofs6.v, and term_width. *)
From Verif Require Import Base BaseLemmas ConvModel ConvSpec ConvProofs ConvProofs2 ConvProofs3 ConvProofs4 ConvProofs6 ImaxModel.
Ltac Zify.zify_post_hook ::= Z.div_mod_to_equations.

Lemma s32_add_mul a b c : s32 (s32 (s32 a * b) + c) = s32 (a * b + c).
Proof.
  assert (G : forall x, exists k, s32 x = x - 4294967296 * k).
  { intro x. exists ((x + 2147483648) / 4294967296). unfold s32.
    pose proof (Z.div_mod (x + 2147483648) 4294967296). lia. }
  assert (G2 : forall x k, s32 (x + k * 4294967296) = s32 x).
  { intros x k. unfold s32. replace (x + k * 4294967296 + 2147483648) with (x + 2147483648 + k * 4294967296) by ring.
    rewrite Z.mod_add by lia. reflexivity. }
  destruct (G a) as [k1 E1]. rewrite E1. destruct (G ((a - 4294967296 * k1) * b)) as [k2 E2]. rewrite E2.
  rewrite <- (G2 (a * b + c) (- k1 * b - k2)). f_equal. ring.
Qed.
(* one digit *)
Lemma strtoimax_step strict f m c base sign v b : m c = Some b -> 2 <= base -> 0 <= digval b < base -> 0 <= v -> base * v + digval b <= INT_MAX ->
  imax_loop strict (S f) m c base sign v = imax_loop strict f m (c + 1) base sign (base * v + digval b).
Proof.
  intros Hm Hb Hd Hv HV. pose proof (digval_range b ltac:(lia)) as R. cbn [imax_loop]. unfold ldc, load. rewrite Hm, !bind_Ok. rewrite strtol_digit_val by lia.
  destruct ((base <? digval b) || (digval b =? -1)) eqn:E; [lia|]. unfold INT_MAX in HV.
  rewrite iar_small by (unfold INT_MIN, INT_MAX; nia). rewrite bind_Ok. rewrite iar_small by (unfold INT_MIN, INT_MAX; nia). rewrite bind_Ok.
  replace (v * base + digval b) with (base * v + digval b) by lia. destruct (Z.ltb_spec (base * v + digval b) 0); [nia|reflexivity].
Qed.
Lemma imax_loop_ok strict base sign ds : 2 <= base -> forall m c v f, bytes_at m c ds -> digits base ds -> 0 <= v ->
  v * base ^ zlen ds + value base ds <= INT_MAX ->
  imax_loop strict (length ds + f) m c base sign v = imax_loop strict f m (c + zlen ds) base sign (v * base ^ zlen ds + value base ds).
Proof.
  intro Hb. induction ds as [|b ds IH]; intros m c v f HB D Hv HV.
  - cbn [length Nat.add]. zl. rewrite Z.add_0_r, Z.pow_0_r. unfold value. cbn [fold_left]. f_equal. lia.
  - destruct HB as [H0 HB]. apply Forall_cons_iff in D as [Db D]. cbn [length Nat.add]. revert HV. zl. intro HV. nneg ds.
    pose proof (Z.pow_pos_nonneg base (zlen ds) ltac:(lia) ltac:(lia)) as P. pose proof (value_range base ds ltac:(lia) D) as VR.
    assert (V : v * base ^ (zlen ds + 1) + value base (b :: ds) = (base * v + digval b) * base ^ zlen ds + value base ds).
    { rewrite value_cons. rewrite Z.pow_add_r, Z.pow_1_r by lia. ring. }
    rewrite V in *. rewrite (strtoimax_step strict _ m c base sign v b); auto; [|nia].
    rewrite IH; auto; [f_equal; lia|nia].
Qed.
Lemma imax_loop_end strict m c base sign v e f : m c = Some e -> 0 <= e < 256 -> not_digit base e -> 0 <= v <= INT_MAX -> 0 <= base ->
  imax_loop strict (S f) m c base sign v = Ok (signed sign v, c, false).
Proof.
  intros Hm He Hn Hv Hb. cbn [imax_loop]. unfold ldc, load. rewrite Hm, !bind_Ok, strtol_digit_val by auto.
  pose proof (digval_min e). destruct Hn as [Hn|Hn]; (destruct ((base <? digval e) || (digval e =? -1)) eqn:E; [|lia]);
  (unfold signed; destruct sign; [rewrite iar_small by (unfold INT_MIN, INT_MAX in *; lia)|]; rewrite bind_Ok; reflexivity).
Qed.
(* wrap-around into the negative range is noticed *)
Lemma strtoimax_step_over m c base sign v b f : m c = Some b -> 2 <= base -> 0 <= digval b < base -> 0 <= v <= INT_MAX ->
  2147483648 <= base * v + digval b < 4294967296 ->
  imax_loop false (S f) m c base sign v = Ok (if sign then INT_MIN else INT_MAX, c, true).
Proof.
  intros Hm Hb Hd Hv HV. pose proof (digval_range b ltac:(lia)) as R. cbn [imax_loop]. unfold ldc, load. rewrite Hm, !bind_Ok. rewrite strtol_digit_val by lia.
  destruct ((base <? digval b) || (digval b =? -1)) eqn:E; [lia|]. unfold iar. rewrite !bind_Ok.
  assert (A : s32 (s32 (v * base) + digval b) = base * v + digval b - 4294967296).
  { replace v with (s32 v) by (apply s32_small; unfold INT_MIN, INT_MAX in *; lia). rewrite s32_add_mul.
    rewrite (s32_small v) by (unfold INT_MIN, INT_MAX in *; lia). rewrite (Z.mul_comm v). set (x := base * v + digval b) in *. unfold s32. lia. }
  rewrite A. destruct (Z.ltb_spec (base * v + digval b - 4294967296) 0); [reflexivity|lia].
Qed.

(* the part of strtoimax in front of the loop; x is the first character of the digits or prefix *)
Lemma strtoimax_front strict m s base ws neg x f : Forall is_space ws -> bytes_at m s (ws ++ minus neg) -> 0 <= digval x ->
  m (s + zlen (ws ++ minus neg)) = Some x -> (length ws + 1 < f)%nat ->
  strtoimax strict f m s base =
  let c1 := s + zlen (ws ++ minus neg) in
  let* (c2, base2) :=
    if base =? 0 then
      if x =? 48 then
        let* b2 := ldc m (c1 + 1) in
        if b2 =? 120 then Ok (c1 + 2, 16) else Ok (c1 + 1, 8)
      else Ok (c1, 10)
    else Ok (c1, base) in
  imax_loop strict f m c2 base2 neg 0.
Proof.
  intros HW HB Hd Hx Hf. pose proof (digval_range x Hd) as Rx. unfold strtoimax. apply bytes_at_app in HB as [HB1 HB2].
  assert (K : forall y, 0 <= y < 256 -> m (s + zlen ws) = Some y -> ~ is_space y -> skip_space f m s = Ok (s + zlen ws)).
  { intros y Ry Hy Ny. eapply skip_space_ok; eauto. lia. }
  assert (LX : ldc m (s + zlen (ws ++ minus neg)) = Ok x) by (unfold ldc, load; rewrite Hx, bind_Ok, schar_low by lia; reflexivity).
  destruct neg; cbn [minus] in *.
  - destruct HB2 as [H45 _]. rewrite (K 45); auto; [|lia|unfold is_space; lia]. rewrite bind_Ok. unfold ldc at 1, load at 1. rewrite H45, !bind_Ok.
    change (schar 45 =? 45) with true. cbv iota zeta. revert Hx LX. rewrite zlen_app. change (zlen [45]) with 1. rewrite Z.add_assoc. intros Hx LX.
    destruct (base =? 0); [rewrite LX, bind_Ok|]; reflexivity.
  - rewrite app_nil_r in *. rewrite (K x); auto; [|lia|unfold is_space; lia]. rewrite bind_Ok, LX, bind_Ok. cbv zeta.
    destruct (Z.eqb_spec x 45); [lia|]. destruct (base =? 0); [rewrite LX, bind_Ok|]; reflexivity.
Qed.

Lemma strtoimax_run strict base neg ds m c e f : 2 <= base -> bytes_at m c ds -> digits base ds -> value base ds <= INT_MAX ->
  m (c + zlen ds) = Some e -> 0 <= e < 256 -> not_digit base e -> (length ds < f)%nat ->
  imax_loop strict f m c base neg 0 = Ok (signed neg (value base ds), c + zlen ds, false).
Proof.
  intros Hb HB D V He Re Ne Hf. pose proof (value_range base ds ltac:(lia) D).
  replace f with (length ds + S (f - length ds - 1))%nat by lia. rewrite imax_loop_ok; auto; try lia.
  rewrite Z.mul_0_l, Z.add_0_l. eapply imax_loop_end; eauto; lia.
Qed.

Lemma strtoimax_ok strict m s base ws neg ds e f : 2 <= base <= 36 -> Forall is_space ws -> digits base ds -> ds <> [] ->
  bytes_at m s (ws ++ minus neg ++ ds) -> m (s + zlen (ws ++ minus neg ++ ds)) = Some e -> 0 <= e < 256 -> not_digit base e ->
  value base ds <= INT_MAX -> (length (ws ++ minus neg ++ ds) < f)%nat ->
  strtoimax strict f m s base = Ok (signed neg (value base ds), s + zlen (ws ++ minus neg ++ ds), false).
Proof.
  intros Hb HW D Hne HB He Re Ne V Hf. destruct ds as [|x ds]; [congruence|]. rewrite !app_assoc in *. set (p := ws ++ minus neg) in *.
  pose proof HB as HB'. apply bytes_at_app in HB' as [HB1 HB2]. assert (Dx : 0 <= digval x < base) by (apply Forall_cons_iff in D as [? _]; auto).
  revert Hf. rewrite app_length. cbn [length]. intro Hf.
  assert (LW : (length ws <= length p)%nat) by (unfold p; rewrite app_length; lia).
  rewrite (strtoimax_front strict m s base ws neg x f); auto; try lia; [|apply HB2]. fold p. cbv zeta. destruct (Z.eqb_spec base 0); [lia|]. rewrite bind_Ok.
  rewrite (strtoimax_run strict base neg (x :: ds) m (s + zlen p) e f); auto; try lia.
  - do 3 f_equal. zl. lia.
  - revert He. rewrite zlen_app. now rewrite Z.add_assoc.
  - cbn [length]. lia.
Qed.

(* base 0 *)
Lemma strtoimax_base0_dec strict m s ws neg ds e f : Forall is_space ws -> digits 10 ds -> ds <> [] -> hd 0 ds <> 48 ->
  bytes_at m s (ws ++ minus neg ++ ds) -> m (s + zlen (ws ++ minus neg ++ ds)) = Some e -> 0 <= e < 256 -> not_digit 10 e ->
  value 10 ds <= INT_MAX -> (length (ws ++ minus neg ++ ds) < f)%nat ->
  strtoimax strict f m s 0 = Ok (signed neg (value 10 ds), s + zlen (ws ++ minus neg ++ ds), false).
Proof.
  intros HW D Hne Hh HB He Re Ne V Hf. rewrite <- (strtoimax_ok strict m s 10 ws neg ds e f); auto; [|lia].
  destruct ds as [|x ds]; [congruence|]. cbn [hd] in Hh. rewrite !app_assoc in *.
  apply bytes_at_app in HB as [HB1 [HB2 _]]. assert (Dx : 0 <= digval x) by (apply Forall_cons_iff in D as [? _]; lia).
  revert Hf. rewrite app_length. cbn [length]. intro Hf.
  assert (LW : (length ws <= length (ws ++ minus neg))%nat) by (rewrite app_length; lia).
  rewrite (strtoimax_front strict m s 0 ws neg x f), (strtoimax_front strict m s 10 ws neg x f); auto; try lia. cbn [Z.eqb Z.leb].
  destruct (Z.eqb_spec x 48); [congruence|]. reflexivity.
Qed.
Lemma strtoimax_base0_oct strict m s ws neg ds e f : Forall is_space ws -> digits 8 ds ->
  bytes_at m s (ws ++ minus neg ++ 48 :: ds) -> m (s + zlen (ws ++ minus neg ++ 48 :: ds)) = Some e -> 0 <= e < 256 -> not_digit 8 e ->
  hd e ds <> 120 -> value 8 ds <= INT_MAX -> (length (ws ++ minus neg ++ 48%Z :: ds) < f)%nat ->
  strtoimax strict f m s 0 = Ok (signed neg (value 8 ds), s + zlen (ws ++ minus neg ++ 48 :: ds), false).
Proof.
  intros HW D HB He Re Ne Hh V Hf. rewrite !app_assoc in *.
  apply bytes_at_app in HB as [HB1 [HB2 HB3]]. revert Hf He. rewrite app_length, !zlen_app, (zlen_cons _ ds). cbn [length]. intros Hf He.
  set (p := ws ++ minus neg) in *. assert (LW : (length ws <= length p)%nat) by (unfold p; rewrite app_length; lia).
  rewrite (strtoimax_front strict m s 0 ws neg 48 f); auto; try lia; [|reflexivity || (cbn; lia)]. fold p. cbn [Z.eqb Pos.eqb]. cbv zeta.
  assert (E : exists y, ldc m (s + zlen p + 1) = Ok y /\ y <> 120).
  { unfold ldc, load. destruct ds as [|y ds]; cbn [hd] in Hh.
    - revert He. zl. intro He. exists (schar e). replace (s + zlen p + 1) with (s + (zlen ws + zlen (minus neg) + (0 + 1))) by (unfold p; zl; lia). rewrite He, bind_Ok. split; auto.
      unfold schar. destruct (Z.ltb_spec e 128); lia.
    - destruct HB3 as [Hy _]. rewrite Hy, bind_Ok. apply Forall_cons_iff in D as [Dy _]. pose proof (digval_range y ltac:(lia)).
      exists y. rewrite schar_low by lia. auto. }
  destruct E as (y & Ey & Hy). rewrite Ey, bind_Ok. destruct (Z.eqb_spec y 120); [congruence|]. rewrite bind_Ok.
  rewrite (strtoimax_run strict 8 neg ds m (s + zlen p + 1) e f); auto; try lia.
  - do 3 f_equal. unfold p. zl. lia.
  - unfold p in *. rewrite <- He. f_equal. zl. lia.
Qed.
Lemma strtoimax_base0_hex strict m s ws neg ds e f : Forall is_space ws -> digits 16 ds ->
  bytes_at m s (ws ++ minus neg ++ 48 :: 120 :: ds) -> m (s + zlen (ws ++ minus neg ++ 48 :: 120 :: ds)) = Some e -> 0 <= e < 256 -> not_digit 16 e ->
  value 16 ds <= INT_MAX -> (length (ws ++ minus neg ++ 48%Z :: 120%Z :: ds) < f)%nat ->
  strtoimax strict f m s 0 = Ok (signed neg (value 16 ds), s + zlen (ws ++ minus neg ++ 48 :: 120 :: ds), false).
Proof.
  intros HW D HB He Re Ne V Hf. rewrite !app_assoc in *.
  apply bytes_at_app in HB as [HB1 [HB2 [HB4 HB3]]]. revert Hf He. rewrite app_length, !zlen_app, (zlen_cons 48), (zlen_cons 120). cbn [length]. intros Hf He.
  set (p := ws ++ minus neg) in *. assert (LW : (length ws <= length p)%nat) by (unfold p; rewrite app_length; lia).
  rewrite (strtoimax_front strict m s 0 ws neg 48 f); auto; try lia; [|reflexivity || (cbn; lia)]. fold p. cbn [Z.eqb Pos.eqb]. cbv zeta.
  unfold ldc, load. rewrite HB4, !bind_Ok. change (schar 120 =? 120) with true. cbv iota. rewrite bind_Ok.
  rewrite (strtoimax_run strict 16 neg ds m (s + zlen p + 2) e f); auto; try lia.
  - do 3 f_equal. unfold p. zl. lia.
  - now replace (s + zlen p + 2) with (s + zlen p + 1 + 1) by lia.
  - unfold p in *. rewrite <- He. f_equal. zl. lia.
Qed.

(* ---- term_width ---- *)
Lemma width_digit : forall b, 0 <= digval b < 10 -> 48 <= b <= 57 /\ digval b = b - 48.
Proof.
  intros b. unfold digval. destruct ((48 <=? b) && (b <=? 57)) eqn:A; [lia|].
  destruct ((65 <=? b) && (b <=? 90)) eqn:B; [lia|]. destruct ((97 <=? b) && (b <=? 122)) eqn:C; lia.
Qed.
Lemma width_ok : forall strict ds fuel m p v, str_at m p ds -> digits 10 ds -> 0 <= v ->
  v * 10 ^ zlen ds + value 10 ds + 48 <= INT_MAX -> (length ds < fuel)%nat ->
  width_loop strict fuel m p v = Ok (v * 10 ^ zlen ds + value 10 ds).
Proof.
  induction ds as [|b ds IH]; intros fuel m p v S D Hv HV F; (destruct fuel as [|fuel]; [cbn in F; lia|]); cbn [width_loop]; unfold ldc, load.
  - cbn [str_at] in S. rewrite S, !bind_Ok. change (schar 0 =? 0) with true. cbv iota. f_equal. unfold value. cbn. zl. lia.
  - cbn [str_at] in S. destruct S as (E & R & S). rewrite E, !bind_Ok. apply Forall_cons_iff in D as [Db D].
    pose proof (width_digit b Db) as [W1 W2]. rewrite schar_low by lia. destruct (Z.eqb_spec b 0); [lia|].
    revert HV. rewrite value_cons. zl. intros HV. nneg ds. rewrite Z.pow_add_r in HV by lia. rewrite Z.pow_1_r in HV.
    assert (P : 1 <= 10 ^ zlen ds) by (assert (0 < 10 ^ zlen ds) by (apply Z.pow_pos_nonneg; lia); lia).
    pose proof (value_range 10 ds ltac:(lia) D) as VR.
    assert (B : 0 <= v * 10 + digval b /\ v * 10 + digval b + 48 <= INT_MAX) by nia.
    rewrite iar_small by (unfold INT_MIN, INT_MAX in *; lia). rewrite bind_Ok.
    rewrite iar_small by (unfold INT_MIN, INT_MAX in *; lia). rewrite bind_Ok.
    rewrite iar_small by (unfold INT_MIN, INT_MAX in *; lia). rewrite bind_Ok.
    cbn [length] in F. rewrite IH; auto; try lia.
    + f_equal. rewrite W2. rewrite Z.pow_add_r by lia. ring.
Qed.
