(* The exactness of the operations of SpecFloat as far as dtodec needs it, in rational numbers. *)
From Coq Require Import Floats.SpecFloat QArith Qpower Qabs Lqa.
From Verif Require Import Base DtoModel DtoSpec.
Local Open Scope Z_scope.

Notation "'p2' e" := (Qpower (2 # 1) e) (at level 10, e at level 9).
Lemma p2_pos e : (0 < p2 e)%Q.
Proof. apply Qpower_0_lt. reflexivity. Qed.
Lemma p2_add a b : (p2 (a + b) == p2 a * p2 b)%Q.
Proof. apply Qpower_plus. discriminate. Qed.
Lemma p2_Z n : 0 <= n -> (inject_Z (2 ^ n) == p2 n)%Q.
Proof. intros H. now rewrite Zpower_Qpower. Qed.
Lemma p2_le a b : a <= b -> (p2 a <= p2 b)%Q.
Proof. intros H. apply Qpower_le_compat_l; [exact H|discriminate]. Qed.
Lemma p2_lt_inv a b : (p2 a < p2 b)%Q -> a < b.
Proof. intros H. apply (Qpower_lt_compat_l_inv (2 # 1)); [exact H|reflexivity]. Qed.

Lemma digits_bounds m : 2 ^ (Z.pos (digits2_pos m) - 1) <= Z.pos m < 2 ^ Z.pos (digits2_pos m).
Proof.
  induction m as [m IH|m IH|]; cbn [digits2_pos]; [| |cbn; lia]; rewrite Pos2Z.inj_succ;
    replace (Z.succ (Z.pos (digits2_pos m)) - 1) with (Z.pos (digits2_pos m)) by lia; rewrite Z.pow_succ_r by lia;
    replace (Z.pos (digits2_pos m)) with (Z.succ (Z.pos (digits2_pos m) - 1)) at 1 by lia; rewrite Z.pow_succ_r by lia; lia.
Qed.
Lemma shr_1_m r : 0 <= shr_m r -> shr_m (shr_1 r) = shr_m r / 2.
Proof.
  destruct r as [m a b]. cbn [shr_m]. intros H. destruct m as [|[p|p|]|p]; try lia; cbn [shr_1 shr_m]; [reflexivity| | |reflexivity].
  - apply Z.div_unique with 1; lia.
  - apply Z.div_unique with 0; lia.
Qed.
Lemma iter_shr p : forall r, 0 <= shr_m r -> shr_m (SpecFloat.iter_pos shr_1 p r) = shr_m r / 2 ^ Z.pos p.
Proof.
  assert (N : forall a k, 0 <= a -> 0 <= a / 2 ^ Z.pos k) by (intros; apply Z.div_pos; lia).
  assert (D : forall a x y, 0 <= x -> 0 <= y -> a / 2 ^ x / 2 ^ y = a / 2 ^ (x + y)).
  { intros a x y Hx Hy. rewrite Z.pow_add_r by lia. apply Z.div_div; try lia. }
  induction p as [p IH|p IH|]; intros r H; cbn [SpecFloat.iter_pos].
  - rewrite IH by (rewrite IH; [apply N|]; rewrite shr_1_m by lia; apply Z.div_pos; lia).
    rewrite IH by (rewrite shr_1_m by lia; apply Z.div_pos; lia). rewrite shr_1_m by lia.
    change (shr_m r / 2) with (shr_m r / 2 ^ 1). rewrite !D by lia. f_equal. f_equal. lia.
  - rewrite IH by (rewrite IH; [apply N|]; lia). rewrite IH by lia. rewrite D by lia. f_equal. f_equal. lia.
  - apply shr_1_m; lia.
Qed.
Notation fx := (fexp 53 1024).
Lemma fx_eq e : fx e = Z.max (e - 53) (-1074).
Proof. reflexivity. Qed.
Lemma shr_fexp_ok m e l : 0 <= m ->
  let n := Z.max 0 (fx (Zdigits2 m + e) - e) in
  exists r, shr_fexp 53 1024 m e l = (r, e + n) /\ shr_m r = m / 2 ^ n /\ (n = 0 -> r = shr_record_of_loc m l).
Proof.
  intros H n. unfold shr_fexp, shr. assert (M : shr_m (shr_record_of_loc m l) = m) by (destruct l as [|[]]; reflexivity).
  destruct (fx (Zdigits2 m + e) - e) as [|p|p] eqn:E.
  - eexists. split; [f_equal; unfold n; lia|]. split; [|reflexivity]. replace n with 0 by (unfold n; lia). now rewrite M, Z.div_1_r.
  - eexists. split; [f_equal; unfold n; lia|]. split; [|unfold n; lia]. rewrite iter_shr by (rewrite M; lia). rewrite M. reflexivity.
  - eexists. split; [f_equal; unfold n; lia|]. split; [|reflexivity]. replace n with 0 by (unfold n; lia). now rewrite M, Z.div_1_r.
Qed.
Definition fin (d : spec_float) : Prop := match d with S754_zero _ | S754_finite _ _ _ => True | _ => False end.
Definition sgn (s : bool) (q : Q) : Q := if s then (- q)%Q else q.
Lemma rat_finite s m e : (rat (S754_finite s m e) == sgn s (inject_Z (Z.pos m) * p2 e))%Q.
Proof. unfold rat, sgn. destruct s; [|reflexivity]. change (Z.neg m) with (- Z.pos m). rewrite inject_Z_opp. ring. Qed.
Lemma digits_le m k : 0 <= m -> m < 2 ^ k -> 0 <= k -> Zdigits2 m <= k.
Proof.
  intros H L K. destruct m as [|p|p]; cbn [Zdigits2]; [lia| |lia]. pose proof (digits_bounds p) as [B _].
  assert (Z.pos (digits2_pos p) - 1 < k); [|lia]. apply (Z.pow_lt_mono_r_iff 2); lia.
Qed.
Lemma digits_val m e D : 0 < m -> (inject_Z m * p2 e < p2 D)%Q -> Zdigits2 m + e <= D.
Proof.
  intros H L. destruct m as [|p|p]; try lia. cbn [Zdigits2]. pose proof (digits_bounds p) as [B _].
  assert (Z.pos (digits2_pos p) - 1 + e < D); [|lia]. apply p2_lt_inv. eapply Qle_lt_trans; [|exact L].
  rewrite p2_add. apply Qmult_le_r; [apply p2_pos|]. rewrite <- p2_Z by lia. rewrite <- Zle_Qle. exact B.
Qed.
(* the last step of binary_round_aux: the mantissa has at most 53 digits, or it is 2^53 *)
Lemma second sx m e : 0 <= m <= 2 ^ 53 -> -1074 <= e <= 900 ->
  exists r, (let '(mrs, e') := shr_fexp 53 1024 m e loc_Exact in
    match shr_m mrs with Z0 => S754_zero sx | Zpos k => if Zle_bool e' (1024 - 53) then S754_finite sx k e' else S754_infinity sx | _ => S754_nan end) = r /\
    fin r /\ (rat r == sgn sx (inject_Z m * p2 e))%Q.
Proof.
  intros Hm He. destruct (shr_fexp_ok m e loc_Exact) as (r & E & M & _); [lia|]. rewrite E, M. clear E M r. eexists. split; [reflexivity|].
  rewrite fx_eq. destruct (Z.eq_dec m (2 ^ 53)) as [->|Ne].
  - change (Zdigits2 (2 ^ 53)) with 54. replace (Z.max 0 (Z.max (54 + e - 53) (-1074) - e)) with 1 by lia. change (2 ^ 53 / 2 ^ 1) with 4503599627370496.
    rewrite (proj2 (Z.leb_le _ _)) by lia. split; [exact I|]. rewrite rat_finite. change (inject_Z (2 ^ 53)) with (inject_Z 4503599627370496 * (2 # 1))%Q.
    destruct sx; cbn [sgn]; rewrite p2_add; change (p2 1)%Q with (2 # 1)%Q; ring.
  - pose proof (digits_le m 53 ltac:(lia) ltac:(lia) ltac:(lia)). replace (Z.max 0 (Z.max (Zdigits2 m + e - 53) (-1074) - e)) with 0 by lia.
    rewrite Z.div_1_r, Z.add_0_r. destruct m as [|k|k]; [| |lia].
    + split; [exact I|]. cbn [rat]. destruct sx; cbn [sgn]; ring.
    + rewrite (proj2 (Z.leb_le _ _)) by lia. split; [exact I|apply rat_finite].
Qed.
(* the result is exact, or the error is less than the last place *)
Lemma round_aux sx m e D : 0 < m -> (inject_Z m * p2 e < p2 D)%Q -> -1021 <= D <= 100 ->
  exists r, binary_round_aux 53 1024 sx m e loc_Exact = r /\ fin r /\
    (Qabs (rat r - sgn sx (inject_Z m * p2 e)) <= p2 (D - 53))%Q /\
    (fx (Zdigits2 m + e) <= e -> (rat r == sgn sx (inject_Z m * p2 e))%Q).
Proof.
  intros Hm L HD. pose proof (digits_val _ _ _ Hm L) as Dg. unfold binary_round_aux.
  destruct (shr_fexp_ok m e loc_Exact) as (r1 & E & M & X); [lia|]. rewrite E. clear E.
  assert (G1 : 1 <= Zdigits2 m) by (destruct m; cbn [Zdigits2]; lia). rewrite fx_eq in *.
  destruct (Z.leb_spec (Z.max (Zdigits2 m + e - 53) (-1074)) e) as [Le|Gt].
  - replace (Z.max 0 (Z.max (Zdigits2 m + e - 53) (-1074) - e)) with 0 in * by lia. rewrite X by reflexivity. cbn [shr_m shr_record_of_loc loc_of_shr_record round_nearest_even].
    rewrite Z.add_0_r. assert (m < 2 ^ 53).
    { destruct m as [|p|p]; try lia. cbn [Zdigits2] in *. pose proof (digits_bounds p) as [_ B]. eapply Z.lt_le_trans; [exact B|]. apply Z.pow_le_mono_r; lia. }
    destruct (second sx m e) as (r & E & F & R); [lia|lia|]. exists r. split; [exact E|]. split; [exact F|]. split; [|intros _; exact R].
    rewrite R. setoid_replace (sgn sx (inject_Z m * p2 e) - sgn sx (inject_Z m * p2 e))%Q with 0%Q by ring. apply Qlt_le_weak, p2_pos.
  - set (n := Z.max 0 (Z.max (Zdigits2 m + e - 53) (-1074) - e)) in *. assert (Hn : 0 < n) by (unfold n; lia).
    set (k := round_nearest_even (shr_m r1) (loc_of_shr_record r1)).
    assert (K : k = m / 2 ^ n \/ k = m / 2 ^ n + 1). { unfold k. rewrite M. destruct (loc_of_shr_record r1) as [|[]]; cbn [round_nearest_even]; auto. destruct (Z.even _); auto. }
    assert (P : 0 < 2 ^ n) by (apply Z.pow_pos_nonneg; lia).
    assert (U : m / 2 ^ n < 2 ^ 53).
    { apply Z.div_lt_upper_bound; [lia|]. rewrite <- Z.pow_add_r by lia. destruct m as [|p|p]; try lia. cbn [Zdigits2] in *. pose proof (digits_bounds p) as [_ B].
      eapply Z.lt_le_trans; [exact B|]. apply Z.pow_le_mono_r; [lia|]. unfold n. lia. }
    assert (0 <= m / 2 ^ n) by (apply Z.div_pos; lia).
    assert (En : -1074 <= e + n /\ e + n <= D - 53) by (unfold n; lia).
    destruct (second sx k (e + n)) as (r & E & F & R); [lia|lia|]. exists r. split; [exact E|]. split; [exact F|]. split; [|lia].
    rewrite R. apply Qle_trans with (p2 (e + n))%Q; [|apply p2_le; lia].
    assert (B1 : (inject_Z m * p2 e - p2 (e + n) <= inject_Z k * p2 (e + n) <= inject_Z m * p2 e + p2 (e + n))%Q).
    { assert (PN : (p2 (e + n) == inject_Z (2 ^ n) * p2 e)%Q) by (rewrite (Z.add_comm e n), p2_add, (p2_Z n) by lia; reflexivity). rewrite !PN. pose proof (p2_pos e) as Pe. pose proof (Z.div_mod m (2 ^ n)) as DM. pose proof (Z.mod_pos_bound m (2 ^ n) P) as MB.
      assert (Q1 : m - 2 ^ n <= k * 2 ^ n) by (destruct K as [-> | ->]; lia). assert (Q2 : k * 2 ^ n <= m + 2 ^ n) by (destruct K as [-> | ->]; lia).
      rewrite Zle_Qle in Q1, Q2. unfold Z.sub in Q1. rewrite inject_Z_plus, inject_Z_opp, inject_Z_mult in Q1. rewrite inject_Z_mult, inject_Z_plus in Q2.
      apply (Qmult_le_compat_r _ _ (p2 e)) in Q1; [|apply Qlt_le_weak, Pe]. apply (Qmult_le_compat_r _ _ (p2 e)) in Q2; [|apply Qlt_le_weak, Pe].
      split; [eapply Qle_trans; [|eapply Qle_trans; [exact Q1|]]|eapply Qle_trans; [|eapply Qle_trans; [exact Q2|]]]; apply Qle_lteq; right; ring. }
    apply Qabs_Qle_condition. destruct B1 as [B1 B2]. destruct sx; cbn [sgn]; split; lra.
Qed.

Lemma align m e e' : let ez := Z.min e e' in exists mz, shl_align m e e' = (mz, ez) /\ Z.pos mz = Z.pos m * 2 ^ (e - ez) /\
  (inject_Z (Z.pos mz) * p2 ez == inject_Z (Z.pos m) * p2 e)%Q.
Proof.
  intros ez. assert (A : exists mz, shl_align m e e' = (mz, ez) /\ Z.pos mz = Z.pos m * 2 ^ (e - ez)).
  { unfold shl_align. destruct (e' - e) as [|p|p] eqn:E.
    - exists m. split; [f_equal; unfold ez; lia|]. replace (e - ez) with 0 by (unfold ez; lia). cbn. lia.
    - exists m. split; [f_equal; unfold ez; lia|]. replace (e - ez) with 0 by (unfold ez; lia). cbn. lia.
    - exists (shift_pos p m). split; [f_equal; unfold ez; lia|]. rewrite shift_pos_correct. replace (e - ez) with (Z.pos p) by (unfold ez; lia). apply Z.mul_comm. }
  destruct A as (mz & E & V). exists mz. split; [exact E|]. split; [exact V|]. rewrite V, inject_Z_mult, p2_Z by (unfold ez; lia). rewrite <- Qmult_assoc, <- p2_add.
  replace (e - ez + ez) with e by lia. reflexivity.
Qed.
Lemma round_ok sx m e D : (inject_Z (Z.pos m) * p2 e < p2 D)%Q -> -1021 <= D <= 100 ->
  exists r, binary_round 53 1024 sx m e = r /\ fin r /\
    (Qabs (rat r - sgn sx (inject_Z (Z.pos m) * p2 e)) <= p2 (D - 53))%Q /\
    (Z.pos m < 2 ^ 53 -> -1074 <= e -> (rat r == sgn sx (inject_Z (Z.pos m) * p2 e))%Q).
Proof.
  intros L HD. unfold binary_round. destruct (align m e (fx (Z.pos (digits2_pos m) + e))) as (mz & E & V & W). rewrite E.
  set (ez := Z.min e (fx (Z.pos (digits2_pos m) + e))) in *.
  assert (S : (sgn sx (inject_Z (Z.pos mz) * p2 ez) == sgn sx (inject_Z (Z.pos m) * p2 e))%Q) by (destruct sx; cbn [sgn]; rewrite W; reflexivity).
  destruct (round_aux sx (Z.pos mz) ez D) as (r & Er & F & B & X); [lia|rewrite W; exact L|exact HD|]. exists r. split; [exact Er|]. split; [exact F|]. split; [rewrite <- S; exact B|].
  intros M1 M2. rewrite <- S. apply X. pose proof (digits_le (Z.pos m) 53 ltac:(lia) M1 ltac:(lia)) as Dg. cbn [Zdigits2] in Dg.
  assert (Zdigits2 (Z.pos mz) + ez <= Z.pos (digits2_pos m) + e).
  { apply digits_val; [lia|]. rewrite W. rewrite p2_add. apply Qmult_lt_r; [apply p2_pos|]. rewrite <- p2_Z by lia. rewrite <- Zlt_Qlt. apply digits_bounds. }
  unfold ez in *. rewrite !fx_eq in *. lia.
Qed.
Lemma normalize_ok z e D : (Qabs (inject_Z z * p2 e) < p2 D)%Q -> -1021 <= D <= 100 ->
  exists r, binary_normalize 53 1024 z e false = r /\ fin r /\ (Qabs (rat r - inject_Z z * p2 e) <= p2 (D - 53))%Q /\
    (Z.abs z < 2 ^ 53 -> -1074 <= e -> (rat r == inject_Z z * p2 e)%Q).
Proof.
  intros L HD. destruct z as [|m|m]; cbn [binary_normalize].
  - eexists. split; [reflexivity|]. split; [exact I|]. cbn [rat]. setoid_replace (inject_Z 0 * p2 e)%Q with 0%Q by (change (inject_Z 0) with 0%Q; ring).
    split; [|reflexivity]. apply Qlt_le_weak, p2_pos.
  - apply Qabs_Qlt_condition in L. destruct (round_ok false m e D) as (r & E & F & B & X); [apply L|exact HD|]. exists r. repeat split; auto.
  - change (Z.neg m) with (- Z.pos m) in *. rewrite inject_Z_opp in *. apply Qabs_Qlt_condition in L.
    destruct (round_ok true m e D) as (r & E & F & B & X); [lra|exact HD|]. exists r. cbn [sgn] in *.
    assert (S : (- inject_Z (Z.pos m) * p2 e == - (inject_Z (Z.pos m) * p2 e))%Q) by ring. split; [exact E|]. split; [exact F|]. split; [rewrite S; exact B|]. intros; rewrite S; apply X; lia.
Qed.
Lemma rat_cond s m e : (rat (S754_finite s m e) == inject_Z (cond_Zopp s (Z.pos m)) * p2 e)%Q.
Proof. destruct s; reflexivity. Qed.
Lemma cond_align s m e e' : e' <= e -> (inject_Z (cond_Zopp s (Z.pos (fst (shl_align m e e')))) * p2 e' == rat (S754_finite s m e))%Q.
Proof.
  intros H. destruct (align m e e') as (mz & E & _ & W). rewrite E. cbn [fst]. replace (Z.min e e') with e' in W by lia. rewrite rat_cond.
  destruct s; cbn [cond_Zopp]; [|exact W]. rewrite !inject_Z_opp. setoid_replace (- inject_Z (Z.pos mz) * p2 e')%Q with (- (inject_Z (Z.pos mz) * p2 e'))%Q by ring. rewrite W. ring.
Qed.
Lemma add_ok x y D : fin x -> fin y -> (Qabs (rat x + rat y) < p2 D)%Q -> -1021 <= D <= 100 ->
  fin (fadd x y) /\ (Qabs (rat (fadd x y) - (rat x + rat y)) <= p2 (D - 53))%Q.
Proof.
  intros Fx Fy L HD. assert (Z0 : forall a b, (a == b)%Q -> (Qabs (a - b) <= p2 (D - 53))%Q).
  { intros a b ->. setoid_replace (b - b)%Q with 0%Q by ring. apply Qlt_le_weak, p2_pos. }
  unfold fadd. destruct x as [sx| | |sx mx ex]; try contradiction; destruct y as [sy| | |sy my ey]; try contradiction; cbn [SFadd].
  - destruct (Bool.eqb sx sy); (split; [exact I|apply Z0; reflexivity]).
  - split; [exact I|]. apply Z0. change (rat (S754_zero sx)) with 0%Q. ring.
  - split; [exact I|]. apply Z0. change (rat (S754_zero sy)) with 0%Q. ring.
  - set (ez := Z.min ex ey). set (z := _ + _).
    assert (V : (inject_Z z * p2 ez == rat (S754_finite sx mx ex) + rat (S754_finite sy my ey))%Q).
    { unfold z. rewrite inject_Z_plus, Qmult_plus_distr_l. rewrite !cond_align by (unfold ez; lia). reflexivity. }
    rewrite <- V in L |- *. destruct (normalize_ok z ez D L HD) as (r & E & F & B & _). rewrite E. split; assumption.
Qed.
Lemma sub_add x y : fsub x y = fadd x (SFopp y).
Proof.
  unfold fsub, fadd. destruct x as [sx|sx| |sx mx ex]; destruct y as [sy|sy| |sy my ey]; cbn [SFsub SFadd SFopp]; try reflexivity.
  f_equal. destruct sy; cbn [cond_Zopp negb]; lia.
Qed.
Lemma rat_opp x : (rat (SFopp x) == - rat x)%Q.
Proof. destruct x as [| | |s m e]; try reflexivity. cbn [SFopp]. rewrite !rat_finite. destruct s; cbn [sgn negb]; ring. Qed.
Lemma fin_opp x : fin x -> fin (SFopp x).
Proof. destruct x; intros H; exact H. Qed.
Lemma mul_ok x y D : fin x -> fin y -> (Qabs (rat x * rat y) < p2 D)%Q -> -1021 <= D <= 100 ->
  fin (fmul x y) /\ (Qabs (rat (fmul x y) - rat x * rat y) <= p2 (D - 53))%Q.
Proof.
  intros Fx Fy L HD. assert (Z0 : forall a b, (a == b)%Q -> (Qabs (a - b) <= p2 (D - 53))%Q).
  { intros a b ->. setoid_replace (b - b)%Q with 0%Q by ring. apply Qlt_le_weak, p2_pos. }
  unfold fmul. destruct x as [sx| | |sx mx ex]; try contradiction; destruct y as [sy| | |sy my ey]; try contradiction; cbn [SFmul].
  - split; [exact I|]. apply Z0. reflexivity.
  - split; [exact I|]. apply Z0. change (rat (S754_zero _)) with 0%Q. ring.
  - split; [exact I|]. apply Z0. change (rat (S754_zero _)) with 0%Q. ring.
  - assert (V : (sgn (xorb sx sy) (inject_Z (Z.pos (mx * my)) * p2 (ex + ey)) == rat (S754_finite sx mx ex) * rat (S754_finite sy my ey))%Q).
    { rewrite Pos2Z.inj_mul. rewrite !rat_finite. destruct sx, sy; cbn [sgn xorb]; rewrite inject_Z_mult, p2_add; ring. }
    rewrite <- V in L |- *. assert (L' : (inject_Z (Z.pos (mx * my)) * p2 (ex + ey) < p2 D)%Q) by (apply Qabs_Qlt_condition in L; destruct (xorb sx sy); cbn [sgn] in L; lra).
    destruct (round_aux (xorb sx sy) (Z.pos (mx * my)) (ex + ey) D ltac:(lia) L' HD) as (r & E & F & B & _). rewrite E. split; assumption.
Qed.
Lemma of_int_ok i : -2147483648 <= i <= 2147483647 -> fin (of_int i) /\ (rat (of_int i) == inject_Z i)%Q.
Proof.
  intros H. assert (E : (inject_Z i * p2 0 == inject_Z i)%Q) by (change (p2 0)%Q with 1%Q; ring).
  destruct (normalize_ok i 0 32) as (r & Er & F & _ & X).
  - rewrite E. change (p2 32)%Q with (inject_Z 4294967296). apply Qabs_Qlt_condition. rewrite <- inject_Z_opp, <- !Zlt_Qlt. lia.
  - lia.
  - unfold of_int. rewrite Er. split; [exact F|]. rewrite X, E; [reflexivity|lia|lia].
Qed.
Lemma trunc_ok d : fin d -> exists v, trunc d = Some v /\ (inject_Z (Z.abs v) <= Qabs (rat d) < inject_Z (Z.abs v) + 1)%Q /\
  ((0 <= rat d)%Q -> 0 <= v) /\ ((rat d <= 0)%Q -> v <= 0).
Proof.
  destruct d as [s| | |s m e]; intros F; try contradiction.
  - exists 0. split; [reflexivity|]. cbn [rat]. split; [split; [discriminate|reflexivity]|]. split; lia.
  - unfold trunc. set (v := if 0 <=? e then _ else _).
    assert (V : 0 <= v /\ (inject_Z v <= inject_Z (Z.pos m) * p2 e < inject_Z v + 1)%Q).
    { unfold v. destruct (Z.leb_spec 0 e) as [H|H].
      - split; [apply Z.mul_nonneg_nonneg; [lia|apply Z.pow_nonneg; lia]|]. rewrite inject_Z_mult, p2_Z by lia. split; lra.
      - assert (P : 0 < 2 ^ (- e)) by (apply Z.pow_pos_nonneg; lia). split; [apply Z.div_pos; lia|].
        pose proof (Z.div_mod (Z.pos m) (2 ^ (- e))) as DM. pose proof (Z.mod_pos_bound (Z.pos m) (2 ^ (- e)) P) as MB. set (q := Z.pos m / 2 ^ (- e)) in *.
        assert (One : (inject_Z (2 ^ (- e)) * p2 e == 1)%Q) by (rewrite p2_Z by lia; rewrite <- p2_add; replace (- e + e) with 0 by lia; reflexivity). pose proof (p2_pos e) as Pe.
        assert (Q1 : q * 2 ^ (- e) <= Z.pos m) by lia. assert (Q2 : Z.pos m < (q + 1) * 2 ^ (- e)) by lia. rewrite Zle_Qle in Q1. rewrite Zlt_Qlt in Q2. rewrite inject_Z_mult in Q1, Q2. rewrite inject_Z_plus in Q2.
        apply (Qmult_le_compat_r _ _ (p2 e)) in Q1; [|apply Qlt_le_weak, Pe]. apply (Qmult_lt_compat_r _ _ (p2 e) Pe) in Q2. rewrite <- Qmult_assoc, One in Q1, Q2. change (inject_Z 1) with 1%Q in Q2. split; lra. }
    destruct V as [V0 V]. assert (P : (0 < inject_Z (Z.pos m) * p2 e)%Q) by (apply Qmult_lt_0_compat; [reflexivity|apply p2_pos]).
    exists (if s then - v else v). split; [reflexivity|]. rewrite rat_finite. destruct s; cbn [sgn].
    + rewrite Z.abs_opp, Z.abs_eq by lia. rewrite Qabs_opp, Qabs_pos by lra. split; [exact V|]. split; [intros; exfalso; lra|lia].
    + rewrite Z.abs_eq by lia. rewrite Qabs_pos by lra. split; [exact V|]. split; [lia|intros; exfalso; lra].
Qed.

Lemma to_int_fin d i : to_int d = Ok i -> fin d /\ -2147483648 <= i <= 2147483647 /\ trunc d = Some i.
Proof.
  unfold to_int. destruct (trunc d) as [v|] eqn:E; [|discriminate]. destruct (_ && _) eqn:B; [|discriminate]. intros [= <-].
  apply andb_prop in B as [B1 B2]. apply Z.leb_le in B1, B2. unfold INT_MIN, INT_MAX in *. destruct d; try discriminate E; cbn [fin]; repeat split; lia.
Qed.
Lemma rat_sign d : fin d -> fle (S754_zero false) d = true /\ (0 <= rat d)%Q \/ fle (S754_zero false) d = false /\ (rat d < 0)%Q.
Proof.
  destruct d as [s| | |s m e]; intros F; try contradiction; [left; split; [reflexivity|discriminate]|].
  assert (P : (0 < inject_Z (Z.pos m) * p2 e)%Q) by (apply Qmult_lt_0_compat; [reflexivity|apply p2_pos]).
  rewrite rat_finite. destruct s; cbn [sgn]; [right|left]; (split; [reflexivity|lra]).
Qed.
(* the billionths are computed almost exactly *)
Lemma billionths a x : fin a -> (Qabs (rat a - x) <= p2 (-53))%Q -> (0 <= x < 1)%Q ->
  exists i2, to_uint (fadd (fmul a (of_int 1000000000)) tenth) = Ok i2 /\ (inject_Z i2 - (11 # 100) < 1000000000 * x < inject_Z i2 + (91 # 100))%Q.
Proof.
  intros Fa A X. change (p2 (-53))%Q with (1 # 9007199254740992)%Q in A. apply Qabs_Qle_condition in A.
  destruct (of_int_ok 1000000000) as [Fb Rb]; [lia|]. change (inject_Z 1000000000) with 1000000000%Q in Rb.
  assert (T : (rat tenth == 7205759403792794 # 72057594037927936)%Q) by reflexivity.
  destruct (mul_ok a (of_int 1000000000) 30) as [Fm Em]; auto; [|lia|].
  { rewrite Rb. change (p2 30)%Q with 1073741824%Q. apply Qabs_Qlt_condition. split; lra. }
  change (p2 (30 - 53))%Q with (1 # 8388608)%Q in Em. rewrite Rb in Em. apply Qabs_Qle_condition in Em.
  set (b := fmul a (of_int 1000000000)) in *.
  destruct (add_ok b tenth 30) as [Fs Es]; [exact Fm|exact I| |lia|].
  { change (p2 30)%Q with 1073741824%Q. rewrite T. apply Qabs_Qlt_condition. split; lra. }
  change (p2 (30 - 53))%Q with (1 # 8388608)%Q in Es. rewrite T in Es. apply Qabs_Qle_condition in Es. set (c := fadd b tenth) in *.
  destruct (trunc_ok c Fs) as (v & E & V & Vp & _). assert (0 <= v) by (apply Vp; lra). rewrite Z.abs_eq in V by lia. rewrite Qabs_pos in V by lra.
  exists v. unfold to_uint. rewrite E.
  assert (U : (inject_Z v < inject_Z 4294967296)%Q) by (change (inject_Z 4294967296) with 4294967296%Q; lra). rewrite <- Zlt_Qlt in U.
  rewrite (proj2 (Z.leb_le 0 v)), (proj2 (Z.ltb_lt v 4294967296)) by lia. split; [reflexivity|]. split; lra.
Qed.
Lemma fraction_ok d i : to_int d = Ok i -> (inject_Z (Z.abs i) <= Qabs (rat d) < inject_Z (Z.abs i) + 1)%Q /\
  exists i2, fraction d i = Ok i2 /\ (inject_Z i2 - (11 # 100) < 1000000000 * (Qabs (rat d) - inject_Z (Z.abs i)) < inject_Z i2 + (91 # 100))%Q.
Proof.
  intros H. destruct (to_int_fin _ _ H) as (Fd & Hi & E). destruct (trunc_ok d Fd) as (v & E' & V & Vp & Vn). rewrite E in E'. injection E' as <-.
  split; [exact V|]. destruct (of_int_ok i Hi) as [Fi Ri]. unfold fraction. destruct (rat_sign d Fd) as [[-> S]|[-> S]].
  - rewrite Z.abs_eq in * by (apply Vp; exact S). rewrite Qabs_pos in * by exact S.
    assert (R : (rat d + rat (SFopp (of_int i)) == rat d - inject_Z i)%Q) by (rewrite rat_opp, Ri; ring).
    destruct (add_ok d (SFopp (of_int i)) 0) as [Fa Ea]; [exact Fd|apply fin_opp, Fi| |lia|].
    { rewrite R. change (p2 0)%Q with 1%Q. apply Qabs_Qlt_condition. split; lra. }
    rewrite R in Ea. change (0 - 53) with (-53) in Ea. rewrite sub_add.
    destruct (billionths _ _ Fa Ea) as (i2 & E2 & B); [split; lra|]. exists i2. split; [exact E2|]. rewrite Qabs_pos by exact S. exact B.
  - assert (N : i <= 0) by (apply Vn; lra). rewrite Z.abs_neq in * by exact N. rewrite inject_Z_opp in *. rewrite Qabs_neg in * by lra.
    assert (R : (rat (SFopp d) + rat (of_int i) == - rat d - - inject_Z i)%Q) by (rewrite rat_opp, Ri; ring).
    destruct (add_ok (SFopp d) (of_int i) 0) as [Fa Ea]; [apply fin_opp, Fd|exact Fi| |lia|].
    { rewrite R. change (p2 0)%Q with 1%Q. apply Qabs_Qlt_condition. split; lra. }
    rewrite R in Ea. change (0 - 53) with (-53) in Ea.
    destruct (billionths _ _ Fa Ea) as (i2 & E2 & B); [split; lra|]. exists i2. split; [exact E2|]. rewrite Qabs_neg by lra. exact B.
Qed.
(* the comparison with -1; d is a double *)
Lemma fle_minus_one d : fin d -> valid_binary 53 1024 d = true -> (fle d (of_int (-1)) = true <-> (rat d <= -1)%Q).
Proof.
  intros F V. assert (M1 : of_int (-1) = S754_finite true 4503599627370496 (-52)) by (vm_compute; reflexivity). rewrite M1. clear M1. destruct d as [s| | |[|] m e]; try contradiction.
  - split; [intros H; destruct s; discriminate H|]. intros H. exfalso. cbn [rat] in H. lra.
  - rewrite rat_finite. cbn [sgn]. unfold valid_binary, bounded, canonical_mantissa in V. apply andb_prop in V as [C _]. apply Zeq_bool_eq in C. rewrite fx_eq in C.
    assert (L : (inject_Z (Z.pos m) * p2 e == inject_Z (Z.pos m) * p2 (e + 52) * (1 # 4503599627370496))%Q) by (rewrite p2_add; change (p2 52)%Q with (4503599627370496 # 1)%Q; field).
    pose proof (digits_bounds m) as [B1 B2]. unfold fle. cbn [SFcompare].
    destruct (Z.compare_spec e (-52)) as [-> |Lt|Gt].
    + change (p2 (-52))%Q with (1 # 4503599627370496)%Q in *. assert (PC : forall k, Pos.compare_cont Eq m k = (m ?= k)%positive) by reflexivity. rewrite PC. clear PC.
      assert (K : (- (inject_Z (Z.pos m) * (1 # 4503599627370496)) <= -1)%Q <-> 4503599627370496 <= Z.pos m).
      { split; intros H.
        - assert (Q : (inject_Z 4503599627370496 <= inject_Z (Z.pos m))%Q) by (change (inject_Z 4503599627370496) with 4503599627370496%Q; lra). rewrite <- Zle_Qle in Q. exact Q.
        - rewrite Zle_Qle in H. change (inject_Z 4503599627370496) with 4503599627370496%Q in H. lra. }
      rewrite K. clear. assert (PZ : forall k, (m ?= k)%positive = (Z.pos m ?= Z.pos k)) by reflexivity. rewrite PZ. clear PZ.
      destruct (Z.compare_spec (Z.pos m) 4503599627370496) as [P|P|P]; cbn [CompOpp].
      * split; intros H; [lia|reflexivity].
      * split; intros H; [discriminate H|lia].
      * split; intros H; [lia|reflexivity].
    + split; [discriminate|]. intros H. exfalso.
      assert (Q : Z.pos m < 2 ^ 53) by (eapply Z.lt_le_trans; [exact B2|]; apply Z.pow_le_mono_r; lia). rewrite Zlt_Qlt in Q. change (inject_Z (2 ^ 53)) with 9007199254740992%Q in Q.
      assert (P : (p2 e <= p2 (-53))%Q) by (apply p2_le; lia). change (p2 (-53))%Q with (1 # 9007199254740992)%Q in P. pose proof (p2_pos e) as Pe.
      assert (inject_Z (Z.pos m) * p2 e < 9007199254740992 * p2 e)%Q by (apply Qmult_lt_r; assumption). lra.
    + split; [|reflexivity]. intros _.
      assert (Q : 2 ^ 52 <= Z.pos m) by (eapply Z.le_trans; [|exact B1]; apply Z.pow_le_mono_r; lia). rewrite Zle_Qle in Q. change (inject_Z (2 ^ 52)) with 4503599627370496%Q in Q.
      assert (P : (p2 (-52) <= p2 e)%Q) by (apply p2_le; lia). change (p2 (-52))%Q with (1 # 4503599627370496)%Q in P. pose proof (p2_pos e) as Pe.
      assert (4503599627370496 * p2 e <= inject_Z (Z.pos m) * p2 e)%Q by (apply Qmult_le_r; assumption). lra.
  - rewrite rat_finite. cbn [sgn]. split; [discriminate|]. intros H. exfalso.
    assert (P : (0 < inject_Z (Z.pos m) * p2 e)%Q) by (apply Qmult_lt_0_compat; [reflexivity|apply p2_pos]). lra.
Qed.
Lemma flt_pos d : fin d -> (flt (S754_zero false) d = true <-> (0 < rat d)%Q).
Proof.
  destruct d as [s| | |s m e]; intros F; try contradiction; [split; [discriminate|intros H; exfalso; cbn [rat] in H; lra]|].
  assert (P : (0 < inject_Z (Z.pos m) * p2 e)%Q) by (apply Qmult_lt_0_compat; [reflexivity|apply p2_pos]).
  rewrite rat_finite. destruct s; cbn [sgn]; (split; [intros H; first [discriminate H|exact P]|intros H; first [reflexivity|exfalso; lra]]).
Qed.
