From Coq Require Znumtheory.
From Verif Require Import Base BaseLemmas MathModel MathSpec.

Lemma s32_mul_l a b : s32 (s32 a * b) = s32 (a * b).
Proof.
  unfold s32. f_equal. 
  rewrite <- Z.add_mod_idemp_l with (a := _ * b) by lia.
  rewrite <- Z.add_mod_idemp_l with (a := a * b) by lia. f_equal. f_equal.
  rewrite <- Z.mul_mod_idemp_l by lia. rewrite Zminus_mod_idemp_l.
  rewrite Z.mul_mod_idemp_l by lia. f_equal. lia.
Qed.
Lemma s32_mul_r a b : s32 (a * s32 b) = s32 (a * b).
Proof. rewrite Z.mul_comm, s32_mul_l. f_equal. lia. Qed.

Lemma abs_pow x k : Z.abs (x ^ k) = Z.abs x ^ k.
Proof. apply Z.abs_pow. Qed.

Lemma int_pow_sub x k : 0 <= k -> INT_MIN <= x ^ (k + 1) <= INT_MAX -> INT_MIN <= x ^ k <= INT_MAX.
Proof.
  intros Hk H. unfold INT_MIN, INT_MAX in *.
  destruct (Z.eq_dec x 0) as [->|Hx].
  { destruct (Z.eq_dec k 0) as [->|]; [cbn; lia|]. rewrite Z.pow_0_l by lia. lia. }
  rewrite Z.pow_add_r, Z.pow_1_r in H by lia.
  destruct (Z.eq_dec (Z.abs x) 1) as [E|E].
  - assert (x = 1 \/ x = -1) by lia. assert (Z.abs (x ^ k) = 1) by (rewrite Z.abs_pow, E; apply Z.pow_1_l; lia). lia.
  - assert (Z.abs (x ^ k) * Z.abs x = Z.abs (x ^ k * x)) by (now rewrite Z.abs_mul). nia.
Qed.
Lemma int_pow_le x k j : 0 <= k -> (k <= j) -> INT_MIN <= x ^ j <= INT_MAX -> INT_MIN <= x ^ k <= INT_MAX.
Proof.
  intros Hk Hj. replace j with (k + Z.of_nat (Z.to_nat (j - k))) by lia. clear Hj.
  induction (Z.to_nat (j - k)) as [|i IH]; intro H.
  - now rewrite Z.add_0_r in H.
  - apply IH. apply int_pow_sub; [lia|]. replace (k + Z.of_nat i + 1) with (k + Z.of_nat (S i)) by lia. auto.
Qed.

Lemma pow_double x k : 0 <= k -> x ^ (2 * k) = x ^ k * x ^ k.
Proof. intro. replace (2 * k) with (k + k) by lia. now apply Z.pow_add_r. Qed.

Lemma ipow_S strict k x n : ipoweriui strict (S k) x n =
      if n =? 0 then Ok (1, 0)
      else if n =? 1 then Ok (x, 0)
      else if Z.odd n then
        let* (t, c) := ipoweriui strict k x ((n - 1) / 2) in
        let* tsq := imul strict t t in
        let* r := imul strict tsq x in
        Ok (r, c + 2)
      else
        let* (t, c) := ipoweriui strict k x (n / 2) in
        let* r := imul strict t t in
        Ok (r, c + 1).
Proof. reflexivity. Qed.

Lemma ipow_ok (strict : bool) x k : INT_MIN <= x <= INT_MAX -> forall n, 0 <= n < 2 ^ Z.of_nat (S k) ->
  (strict = true -> INT_MIN <= x ^ n <= INT_MAX) ->
  exists c, ipoweriui strict (S k) x n = Ok (s32 (x ^ n), c) /\ 0 <= c <= 2 * Z.log2 n.
Proof.
  intros Hx. induction k as [|k IH]; intros n Hn Hs; rewrite ipow_S.
  { change (2 ^ Z.of_nat 1) with 2 in Hn. assert (n = 0 \/ n = 1) as [-> | ->] by lia.
    - exists 0. split; [reflexivity|]. cbn. lia.
    - exists 0. split; [|cbn; lia]. cbn [Z.eqb Pos.eqb]. rewrite Z.pow_1_r, s32_small; auto. }
  destruct (Z.eqb_spec n 0) as [->|H0]. { exists 0. split; [reflexivity|cbn; lia]. }
  destruct (Z.eqb_spec n 1) as [->|H1]. { exists 0. split; [|cbn; lia]. rewrite Z.pow_1_r, s32_small; auto. }
  replace (2 ^ Z.of_nat (S (S k))) with (2 * 2 ^ Z.of_nat (S k)) in Hn
    by (rewrite (Nat2Z.inj_succ (S k)), Z.pow_succ_r; lia).
  destruct (Z.odd n) eqn:Ho.
  - assert (E : n = 2 * ((n - 1) / 2) + 1).
    { rewrite Zodd_mod in Ho. apply Zeq_bool_eq in Ho. lia. }
    set (h := (n - 1) / 2) in *. clearbody h.
    destruct (IH h) as (c & Hc & Hb); [lia| |].
    { intro Ht. apply int_pow_le with n; auto; lia. }
    exists (c + 2). assert (Hl : Z.log2 n = Z.succ (Z.log2 h)).
    { subst n. rewrite Z.log2_succ_double by lia. lia. }
    split; [|lia].
    rewrite Hc, bind_Ok. unfold imul.
    assert (En : x ^ n = x ^ h * x ^ h * x). { rewrite E, Z.pow_add_r, pow_double, Z.pow_1_r by lia. auto. }
    destruct strict.
    + specialize (Hs eq_refl). rewrite (s32_small (x ^ h)) by (apply int_pow_le with n; auto; lia).
      rewrite iop_ok, bind_Ok.
      2:{ rewrite <- pow_double by lia. apply int_pow_le with n; auto; lia. }
      rewrite <- En, iop_ok by auto. rewrite bind_Ok, s32_small by auto. auto.
    + rewrite !bind_Ok, (s32_mul_l (x ^ h)), (s32_mul_r (x ^ h)), s32_mul_l, En. auto.
  - assert (E : n = 2 * (n / 2)).
    { assert (Z.even n = true) by (rewrite <- Z.negb_odd, Ho; auto). rewrite Zeven_mod in H. apply Zeq_bool_eq in H. lia. }
    set (h := n / 2) in *. clearbody h.
    destruct (IH h) as (c & Hc & Hb); [lia| |].
    { intro Ht. apply int_pow_le with n; auto; lia. }
    exists (c + 1). assert (Hl : Z.log2 n = Z.succ (Z.log2 h)).
    { subst n. rewrite Z.log2_double by lia. lia. }
    split; [|lia].
    rewrite Hc, bind_Ok. unfold imul.
    assert (En : x ^ n = x ^ h * x ^ h). { rewrite E, pow_double by lia. auto. }
    destruct strict.
    + specialize (Hs eq_refl). rewrite (s32_small (x ^ h)) by (apply int_pow_le with n; auto; lia).
      rewrite <- En, iop_ok by auto. rewrite bind_Ok, s32_small by auto. auto.
    + rewrite !bind_Ok, s32_mul_l, s32_mul_r, En. auto.
Qed.

(* ---- hashes ---- *)
Lemma poly_app w a h l r : poly w a h (l ++ r) = poly w a (poly w a h l) r.
Proof. apply fold_left_app. Qed.

Lemma djb2_loop_ok m l : forall p h fuel, str_at m p l -> (length l < fuel)%nat ->
  djb2_loop fuel m p h = Ok (poly 64 33 h l).
Proof.
  induction l as [|b l IH]; intros p h [|k] H Hf; try (cbn in Hf; lia); cbn [djb2_loop].
  - cbn in H. rewrite (load_some _ _ _ H), bind_Ok. reflexivity.
  - destruct H as (H1 & H2 & H3). rewrite (load_some _ _ _ H1), bind_Ok.
    destruct (Z.eqb_spec b 0); [lia|]. rewrite IH; auto; [|cbn in Hf; lia].
    f_equal. unfold poly. cbn [fold_left]. f_equal.
    unfold u64. rewrite Z.shiftl_mul_pow2 by lia. replace (2 ^ 64) with 18446744073709551616 by reflexivity.
    replace (2 ^ 5) with 32 by reflexivity.
    rewrite Z.add_mod_idemp_l by lia. rewrite <- Z.add_assoc, Z.add_mod_idemp_l by lia. f_equal. lia.
Qed.
Lemma sdbm_loop_ok m l : forall p h fuel, str_at m p l -> (length l < fuel)%nat ->
  sdbm_loop fuel m p h = Ok (poly 64 65599 h l).
Proof.
  induction l as [|b l IH]; intros p h [|k] H Hf; try (cbn in Hf; lia); cbn [sdbm_loop].
  - cbn in H. rewrite (load_some _ _ _ H), bind_Ok. reflexivity.
  - destruct H as (H1 & H2 & H3). rewrite (load_some _ _ _ H1), bind_Ok.
    destruct (Z.eqb_spec b 0); [lia|]. rewrite IH; auto; [|cbn in Hf; lia].
    f_equal. unfold poly. cbn [fold_left]. f_equal.
    unfold u64. rewrite !Z.shiftl_mul_pow2 by lia. replace (2 ^ 64) with 18446744073709551616 by reflexivity.
    replace (2 ^ 6) with 64 by reflexivity. replace (2 ^ 16) with 65536 by reflexivity.
    set (M := 18446744073709551616). assert (HM : M <> 0) by (unfold M; lia). clearbody M.
    rewrite Zminus_mod_idemp_l. 
    replace (((b + (h * 64) mod M) mod M + (h * 65536) mod M - h))
      with ((b + (h * 64) mod M) mod M - h + (h * 65536) mod M) by lia.
    rewrite Z.add_mod_idemp_r by auto.
    replace ((b + (h * 64) mod M) mod M - h + h * 65536)
      with ((b + (h * 64) mod M) mod M + h * 65535) by lia.
    rewrite Z.add_mod_idemp_l by auto.
    replace (b + (h * 64) mod M + h * 65535) with ((h * 64) mod M + (b + h * 65535)) by lia.
    rewrite Z.add_mod_idemp_l by auto. f_equal. lia.
Qed.

(* ---- checksums ---- *)
Lemma djb_cksum_loop_ok m l : forall p h, bytes_at m p l ->
  djb_cksum_loop (length l) m p h = Ok (poly 32 33 h (map schar l)).
Proof.
  induction l as [|b l IH]; intros p h H; cbn [djb_cksum_loop length]; auto.
  destruct H as (H1 & H2). rewrite (load_some _ _ _ H1), bind_Ok. rewrite IH; auto.
  f_equal. unfold poly. cbn [fold_left map]. f_equal.
  unfold u32. rewrite Z.shiftl_mul_pow2 by lia. replace (2 ^ 32) with 4294967296 by reflexivity.
  replace (2 ^ 5) with 32 by reflexivity.
  rewrite Z.add_mod_idemp_l by lia. rewrite <- Z.add_assoc, Z.add_mod_idemp_l by lia. f_equal. lia.
Qed.

Lemma land_ffff z : Z.land z 65535 = z mod 65536.
Proof. change 65535 with (Z.ones 16). rewrite Z.land_ones by lia. reflexivity. Qed.
Lemma mod_mod32 z : (z mod 4294967296) mod 65536 = z mod 65536.
Proof. symmetry. apply Znumtheory.Zmod_div_mod; try lia. exists 65536. lia. Qed.

Lemma bsd_loop_ok m l : forall p h, 0 <= h < 4294967296 -> bytes_at m p l ->
  bsd_cksumblock_loop (length l) m h p = Ok (bsd_sum h (map schar l)).
Proof.
  induction l as [|b l IH]; intros p h Hh H; cbn [bsd_cksumblock_loop length]; auto.
  destruct H as (H1 & H2). rewrite (load_some _ _ _ H1), bind_Ok, land_ffff. rewrite IH; auto.
  2:{ pose proof (Z.mod_pos_bound (u32 (u32 (Z.shiftr h 1 + u32 (Z.shiftl (Z.land h 1) 15)) + schar b)) 65536). lia. }
  f_equal. unfold bsd_sum. cbn [fold_left map]. f_equal.
  unfold u32 at 1. rewrite mod_mod32. change (Z.land h 1) with (Z.land h (Z.ones 1)).
  rewrite Z.land_ones, Z.shiftl_mul_pow2, Z.shiftr_div_pow2 by lia.
  change (2 ^ 1) with 2. replace (2 ^ 15) with 32768 by reflexivity.
  rewrite (u32_small (_ * _)) by lia. unfold u32.
  rewrite <- Z.add_mod_idemp_l, mod_mod32, Z.add_mod_idemp_l by lia. unfold ror16. f_equal. lia.
Qed.
Lemma bsd_sum_app h l r : bsd_sum h (l ++ r) = bsd_sum (bsd_sum h l) r.
Proof. apply fold_left_app. Qed.
Lemma bsd_sum_range h l : 0 <= h < 4294967296 -> 0 <= bsd_sum h l < 4294967296.
Proof.
  revert h. induction l as [|b l IH]; intros h H; auto. apply IH.
  pose proof (Z.mod_pos_bound (ror16 h + b) 65536). lia.
Qed.
Lemma bsd_sum_range16 h l : 0 <= h < 65536 \/ l <> [] -> 0 <= bsd_sum h l < 65536.
Proof.
  destruct l as [|b l]; [intros [H|H]; [auto|congruence]|]. intros _.
  cbn [bsd_sum fold_left]. unfold bsd_sum. cbn [fold_left].
  pose proof (Z.mod_pos_bound (ror16 h + b) 65536). 
  assert (G : 0 <= (ror16 h + b) mod 65536 < 65536) by lia. revert G.
  generalize ((ror16 h + b) mod 65536). clear.
  induction l as [|c l IH]; intros h G; auto. cbn [fold_left]. apply IH. apply Z.mod_pos_bound. lia.
Qed.

Lemma feed_bsd m bs : forall p h, 0 <= h < 4294967296 -> bytes_at m p (concat bs) ->
  feed (bsd_cksumblock m) h p bs = Ok (bsd_sum h (map schar (concat bs))).
Proof.
  induction bs as [|b bs IH]; intros p h Hh H; cbn [feed concat] in *; auto.
  apply bytes_at_app in H as [H1 H2]. unfold bsd_cksumblock at 1. rewrite zlen_nat, bsd_loop_ok, bind_Ok by auto.
  rewrite IH; auto; [|now apply bsd_sum_range]. rewrite map_app, bsd_sum_app. auto.
Qed.
