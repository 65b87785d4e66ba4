From Verif Require Import Base BaseLemmas SysModel SysSpec.
From Coq Require Import Lia.
Ltac Zify.zify_post_hook ::= Z.div_mod_to_equations.

(* ---- atexit ---- *)
Definition tstate (max : Z) (t : table) (fs : list Z) : Prop :=
  (forall i, (i < length fs)%nat -> t (Z.of_nat i) = Some (nth i fs 0)) /\
  (zlen fs < max -> t (zlen fs) = Some 0).
Lemma tget_ok : forall max t p v, 0 <= p < max -> t p = Some v -> tget max t p = Ok v.
Proof. intros. unfold tget. replace ((0 <=? p) && (p <? max)) with true by lia. now rewrite H0. Qed.
Lemma tset_ok : forall max t p v, 0 <= p < max -> tset max t p v = Ok (fun x => if x =? p then Some v else t x).
Proof. intros. unfold tset. now replace ((0 <=? p) && (p <? max)) with true by lia. Qed.
Lemma nth_nz : forall fs i, Forall (fun f => f <> 0) fs -> (i < length fs)%nat -> nth i fs 0 <> 0.
Proof. intros fs i H Hi. rewrite Forall_forall in H. apply H. now apply nth_In. Qed.

Lemma atexit_scan_ok : forall max t fs k p, tstate max t fs -> Forall (fun f => f <> 0) fs ->
  zlen fs <= max -> (p <= length fs)%nat -> Z.of_nat p < max -> (length fs - p < k)%nat ->
  atexit_scan k max t (Z.of_nat p) = Ok (if zlen fs <? max then inl (zlen fs) else inr 12).
Proof.
  intros max t fs k. induction k; intros p [H1 H2] Hnz Hl Hp Hpm Hk; [lia|]. cbn [atexit_scan].
  destruct (Nat.eq_dec p (length fs)) as [->|E].
  - unfold zlen in *. rewrite (tget_ok _ _ _ 0) by (try apply H2; lia). cbn [bind].
    cbn. replace (Z.of_nat (length fs) <? max) with true by lia. reflexivity.
  - rewrite (tget_ok _ _ _ (nth p fs 0)) by (try apply H1; lia). cbn [bind].
    pose proof (nth_nz fs p Hnz ltac:(lia)). replace (nth p fs 0 =? 0) with false by lia.
    unfold zlen in *. destruct (Z.leb_spec max (Z.of_nat p + 1)).
    + replace (Z.of_nat (length fs) <? max) with false by lia. reflexivity.
    + replace (Z.of_nat p + 1) with (Z.of_nat (S p)) by lia. apply IHk; auto; try lia. now split.
Qed.
Lemma atexit_add : forall k max t fs f, tstate max t fs -> Forall (fun f => f <> 0) fs -> zlen fs < max ->
  (length fs < k)%nat -> exists t', atexit k max t f = Ok (t', 0) /\ tstate max t' (fs ++ [f]).
Proof.
  intros k max t fs f H Hnz Hl Hk. unfold atexit.
  nneg fs.
  change 0 with (Z.of_nat 0) at 1. rewrite (atexit_scan_ok max t fs k 0) by (auto; lia). replace (zlen fs <? max) with true by lia. cbn [bind].
  rewrite tset_ok by lia. cbn [bind].
  destruct H as [H1 H2].
  assert (N : forall i, (i < length (fs ++ [f]))%nat ->
    (if Z.of_nat i =? zlen fs then Some f else t (Z.of_nat i)) = Some (nth i (fs ++ [f]) 0)).
  { intros i Hi. rewrite app_length in Hi. cbn [length] in Hi. unfold zlen. destruct (Z.eqb_spec (Z.of_nat i) (Z.of_nat (length fs))).
    - replace i with (length fs) by lia. now rewrite nth_middle.
    - rewrite app_nth1 by lia. apply H1. lia. }
  destruct (Z.ltb_spec (zlen fs) (max - 1)).
  - rewrite tset_ok by lia. cbn [bind]. eexists. split; [reflexivity|]. split.
    + intros i Hi. pose proof Hi as Hi'. rewrite app_length in Hi. cbn [length] in Hi.
      replace (Z.of_nat i =? zlen fs + 1) with false by (unfold zlen; lia). now apply N.
    + intros _. rewrite zlen_app. change (zlen [f]) with 1. now rewrite Z.eqb_refl.
  - cbn [bind]. eexists. split; [reflexivity|]. split; [exact N|].
    rewrite zlen_app. change (zlen [f]) with 1. lia.
Qed.
Lemma atexit_full : forall k max t fs f, tstate max t fs -> Forall (fun f => f <> 0) fs -> zlen fs = max -> 0 < max ->
  (length fs < k)%nat -> atexit k max t f = Ok (t, 12).
Proof.
  intros. unfold atexit. change 0 with (Z.of_nat 0) at 1. rewrite (atexit_scan_ok max t fs k 0) by (auto; lia).
  replace (zlen fs <? max) with false by lia. reflexivity.
Qed.
Lemma init_ok : forall max, 0 < max -> exists t, atexit_init max = Ok t /\ tstate max t [].
Proof.
  intros. unfold atexit_init. rewrite tset_ok by lia. eexists. split; [reflexivity|]. split.
  - cbn [length]. lia.
  - reflexivity.
Qed.
Lemma atexits_ok : forall k max gs t fs, tstate max t fs -> Forall (fun f => f <> 0) (fs ++ gs) -> 0 < max ->
  zlen fs <= max -> max < Z.of_nat k ->
  let n := Z.to_nat (max - zlen fs) in
  exists t', atexits k max t gs = Ok (t', map (fun _ => 0) (firstn n gs) ++ map (fun _ => 12) (skipn n gs))
    /\ tstate max t' (fs ++ firstn n gs).
Proof.
  intros k max gs. induction gs as [|g gs IH]; intros t fs H Hnz Hm Hl Hk n.
  - exists t. unfold n. rewrite firstn_nil, skipn_nil. split; [reflexivity|]. now rewrite app_nil_r.
  - cbn [atexits]. assert (Hfs : Forall (fun f => f <> 0) fs) by (apply Forall_app in Hnz; tauto).
    destruct (Z.eq_dec (zlen fs) max) as [E|E].
    + rewrite (atexit_full k max t fs g) by (auto; unfold zlen in *; lia). cbn [bind].
      destruct (IH t fs) as (t' & H1 & H2); auto.
      { apply Forall_app in Hnz as [? Hg]. apply Forall_cons_iff in Hg as [_ Hg]. now apply Forall_app. }
      rewrite H1. cbn [bind]. exists t'. replace n with 0%nat in * by lia.
      replace (Z.to_nat (max - zlen fs)) with 0%nat in * by lia. cbn [firstn skipn map app] in *. auto.
    + destruct (atexit_add k max t fs g) as (t1 & H1 & H2); auto; try (unfold zlen in *; lia).
      rewrite H1. cbn [bind].
      destruct (IH t1 (fs ++ [g])) as (t' & H3 & H4); auto.
      { now rewrite <- app_assoc. }
      { rewrite zlen_app. change (zlen [g]) with 1. lia. }
      rewrite H3. cbn [bind]. exists t'.
      assert (n = S (Z.to_nat (max - zlen (fs ++ [g])))) as ->.
      { rewrite zlen_app. change (zlen [g]) with 1. unfold n. lia. }
      cbn [firstn skipn map app]. split; [reflexivity|].
      rewrite <- app_assoc in H4. exact H4.
Qed.
Lemma exit_scan_ok : forall max t fs k p, tstate max t fs -> Forall (fun f => f <> 0) fs ->
  zlen fs < max -> (p <= length fs)%nat -> (length fs - p < k)%nat ->
  exit_scan k max t (Z.of_nat p) = Ok (zlen fs).
Proof.
  intros max t fs k. induction k; intros p [H1 H2] Hnz Hl Hp Hk; [lia|]. cbn [exit_scan].
  unfold zlen in *. destruct (Nat.eq_dec p (length fs)) as [->|E].
  - rewrite (tget_ok _ _ _ 0) by (try apply H2; lia). reflexivity.
  - rewrite (tget_ok _ _ _ (nth p fs 0)) by (try apply H1; lia). cbn [bind].
    pose proof (nth_nz fs p Hnz ltac:(lia)).
    replace (negb (nth p fs 0 =? 0) && (Z.of_nat p <=? max)) with true by lia.
    replace (Z.of_nat p + 1) with (Z.of_nat (S p)) by lia. apply IHk; auto; try lia. now split.
Qed.
Lemma exit_calls_ok : forall max t fs n, tstate max t fs -> zlen fs <= max -> (n <= length fs)%nat ->
  exit_calls n max t = Ok (rev (firstn n fs)).
Proof.
  intros max t fs n [H1 _] Hl. unfold zlen in Hl. induction n; intros Hn; [reflexivity|]. cbn [exit_calls].
  rewrite (tget_ok _ _ _ (nth n fs 0)) by (try apply H1; lia). cbn [bind]. rewrite IHn by lia. cbn [bind].
  f_equal. replace (firstn (S n) fs) with (firstn n fs ++ [nth n fs 0]).
  - now rewrite rev_app_distr.
  - clear - Hn. revert n Hn. induction fs; intros n Hn; cbn [length] in Hn; [lia|].
    destruct n; [reflexivity|]. cbn [firstn nth app]. f_equal. apply IHfs. lia.
Qed.
Lemma run_ok : forall k max t fs, tstate max t fs -> Forall (fun f => f <> 0) fs -> zlen fs < max -> (length fs < k)%nat ->
  run_atexit k max t = Ok (rev fs).
Proof.
  intros k max t fs H Hnz Hl Hk. unfold run_atexit. nneg fs.
  destruct fs as [|f fs].
  - destruct H as [_ H]. rewrite (tget_ok _ _ _ 0) by (try apply H; lia). reflexivity.
  - rewrite (tget_ok _ _ _ f).
    3:{ destruct H as [H _]. apply (H 0%nat). cbn [length]. lia. }
    2:{ lia. }
    cbn [bind]. apply Forall_cons_iff in Hnz as Hf. replace (f =? 0) with false by lia.
    change 0 with (Z.of_nat 0) at 1. rewrite (exit_scan_ok max t (f :: fs)) by (auto; lia). cbn [bind].
    rewrite (exit_calls_ok max t (f :: fs)) by (auto; try lia; unfold zlen; lia).
    unfold zlen. rewrite Nat2Z.id. now rewrite firstn_all.
Qed.

(* ---- bits ---- *)
Lemma bit_land1 : forall w b, 0 <= b -> (Z.land w (Z.shiftl 1 b) =? 0) = negb (Z.testbit w b).
Proof.
  intros w b Hb. rewrite Z.shiftl_1_l. destruct (Z.testbit w b) eqn:E; cbn [negb].
  - apply Z.eqb_neq. intros H. assert (Z.testbit (Z.land w (2 ^ b)) b = false) by now rewrite H, Z.bits_0.
    rewrite Z.land_spec, E, Z.pow2_bits_true in H0 by lia. discriminate.
  - apply Z.eqb_eq. apply Z.bits_inj'. intros n Hn. rewrite Z.land_spec, Z.bits_0, Z.pow2_bits_eqb by lia.
    destruct (Z.eqb_spec b n); [subst; now rewrite E | apply andb_false_r].
Qed.
Lemma u64_lnot : forall b w n, 0 <= b < 64 -> 0 <= n < 64 ->
  Z.testbit (Z.land w (u64 (Z.lnot (Z.shiftl 1 b)))) n = negb (n =? b) && Z.testbit w n.
Proof.
  intros b w n Hb Hn. unfold u64. change 18446744073709551616 with (2 ^ 64).
  rewrite Z.land_spec, Z.mod_pow2_bits_low by lia. rewrite Z.lnot_spec, Z.shiftl_1_l, Z.pow2_bits_eqb by lia.
  rewrite (Z.eqb_sym b n). apply andb_comm.
Qed.
Lemma lor_bit : forall b w n, 0 <= b -> 0 <= n ->
  Z.testbit (Z.lor w (Z.shiftl 1 b)) n = (n =? b) || Z.testbit w n.
Proof.
  intros. rewrite Z.lor_spec, Z.shiftl_1_l, Z.pow2_bits_eqb by lia. rewrite (Z.eqb_sym b n). apply orb_comm.
Qed.

Lemma land_pow2 : forall w b, 0 <= b -> Z.land w (Z.shiftl 1 b) = if Z.testbit w b then Z.shiftl 1 b else 0.
Proof.
  intros w b Hb. apply Z.bits_inj'. intros n Hn. rewrite Z.land_spec, Z.shiftl_1_l, Z.pow2_bits_eqb by lia.
  destruct (Z.eqb_spec b n).
  - subst. destruct (Z.testbit w n); [now rewrite Z.pow2_bits_true by lia | now rewrite Z.bits_0].
  - rewrite andb_false_r. destruct (Z.testbit w b); [now rewrite Z.pow2_bits_false by lia | now rewrite Z.bits_0].
Qed.

(* ---- signal sets ---- *)
Lemma shift1_ok : forall n, 1 <= n <= 30 -> shift1 (u32 (n - 1)) = Ok (Z.shiftl 1 (n - 1)).
Proof. intros. rewrite u32_small by lia. unfold shift1. now replace (n - 1 <=? 30) with true by lia. Qed.
Lemma shiftl1_range : forall n b, 0 <= n < b -> 0 < Z.shiftl 1 n < 2 ^ b.
Proof. intros. rewrite Z.shiftl_1_l. split; [apply Z.pow_pos_nonneg|apply Z.pow_lt_mono_r]; lia. Qed.
Definition sigrep (w : Z) (s : Z -> bool) : Prop := forall n, 1 <= n <= 30 -> Z.testbit w (n - 1) = s n.
Lemma sig_step : forall o w s, sigrep w s -> op_in 1 30 o ->
  exists w', sig_op o w = Ok (w', 0) /\ sigrep w' (set_op s o).
Proof.
  intros o w s H Ho. destruct o; cbn [sig_op op_in set_op] in *.
  - unfold sigaddset. replace (sig_bad n) with false by (unfold sig_bad; lia).
    rewrite shift1_ok by lia. cbn [bind]. eexists. split; [reflexivity|].
    pose proof (shiftl1_range (n - 1) 30 ltac:(lia)).
    rewrite u64_small by lia. intros x Hx. rewrite lor_bit by lia. rewrite H by lia.
    f_equal. lia.
  - unfold sigdelset. replace (sig_bad n) with false by (unfold sig_bad; lia).
    rewrite shift1_ok by lia. cbn [bind]. eexists. split; [reflexivity|].
    intros x Hx. rewrite u64_lnot by lia. rewrite H by lia. f_equal. lia.
  - eexists. split; [reflexivity|]. intros x Hx. apply Z.bits_0.
  - eexists. split; [reflexivity|]. intros x Hx.
    change 0x7FFFFFFF with (Z.ones 31). apply Z.ones_spec_low. lia.
Qed.
Lemma sig_run : forall l w s, sigrep w s -> Forall (op_in 1 30) l ->
  exists w', run_ops sig_op l w = Ok w' /\ sigrep w' (set_after s l).
Proof.
  induction l as [|o l IH]; intros w s H Hl.
  - exists w. auto.
  - apply Forall_cons_iff in Hl as [Ho Hl]. destruct (sig_step o w s H Ho) as (w1 & H1 & H2).
    cbn [run_ops]. rewrite H1. cbn [bind]. cbn. apply IH; auto.
Qed.
Lemma sig_member : forall w s n, sigrep w s -> 1 <= n <= 30 ->
  exists r, sigismember w n = Ok r /\ negb (r =? 0) = s n /\ r <> -1.
Proof.
  intros w s n H Hn. unfold sigismember. replace (sig_bad n) with false by (unfold sig_bad; lia).
  rewrite shift1_ok by lia. cbn [bind]. eexists. split; [reflexivity|].
  pose proof (shiftl1_range (n - 1) 30 ltac:(lia)).
  rewrite u64_small by lia.
  assert (0 <= Z.land w (Z.shiftl 1 (n - 1)) < 2 ^ 30) by (rewrite land_pow2 by lia; destruct (Z.testbit _ _); lia).
  rewrite s32_small by (unfold INT_MIN, INT_MAX; lia). rewrite bit_land1 by lia. rewrite negb_involutive.
  split; [now apply H | lia].
Qed.

(* ---- fd_set ---- *)
Definition fdrep (w : fdset) (s : Z -> bool) : Prop :=
  forall d, 0 <= d < 1024 -> Z.testbit (w (d / 64)) (d mod 64) = s d.
Lemma fd_word_ok : forall d, 0 <= d < 1024 -> fd_word d = d / 64 /\ fd_bit d = Z.shiftl 1 (d mod 64) /\ fd_in d = true.
Proof. intros. unfold fd_in, fd_word, fd_bit. rewrite u64_small by lia. repeat split; lia. Qed.
Lemma fd_zero_ok : forall n b s x, fd_zero_loop n b s x = if (b <=? x) && (x <? b + Z.of_nat n) then 0 else s x.
Proof.
  induction n; intros b s x; cbn [fd_zero_loop].
  - now replace ((b <=? x) && (x <? b + Z.of_nat 0)) with false by lia.
  - rewrite IHn. destruct (Z.eqb_spec x b).
    + subst. replace ((b + 1 <=? b) && (b <? b + 1 + Z.of_nat n)) with false by lia.
      replace ((b <=? b) && (b <? b + Z.of_nat (S n))) with true by lia. reflexivity.
    + now replace ((b + 1 <=? x) && (x <? b + 1 + Z.of_nat n)) with ((b <=? x) && (x <? b + Z.of_nat (S n))) by lia.
Qed.
Lemma fd_step : forall o w s, fdrep w s -> op_in 0 1023 o -> o <> SFill ->
  exists w', fd_op o w = Ok (w', 0) /\ fdrep w' (set_op s o).
Proof.
  intros o w s H Ho Hf. destruct o; cbn [fd_op op_in set_op] in *; [| | |congruence].
  - unfold FD_SET. destruct (fd_word_ok n) as (-> & -> & ->); [lia|]. cbn [bind]. eexists. split; [reflexivity|].
    intros d Hd. cbv beta. destruct (Z.eqb_spec (d / 64) (n / 64)).
    + rewrite lor_bit by lia. rewrite H by lia. f_equal. lia.
    + rewrite H by lia. replace (d =? n) with false; [reflexivity|]. symmetry. apply Z.eqb_neq. congruence.
  - unfold FD_CLR. destruct (fd_word_ok n) as (-> & -> & ->); [lia|]. cbn [bind]. eexists. split; [reflexivity|].
    intros d Hd. cbv beta. destruct (Z.eqb_spec (d / 64) (n / 64)).
    + rewrite u64_lnot by lia. rewrite H by lia. f_equal. lia.
    + rewrite H by lia. replace (d =? n) with false; [reflexivity|]. symmetry. apply Z.eqb_neq. congruence.
  - eexists. split; [reflexivity|]. intros d Hd. rewrite fd_zero_ok.
    replace ((0 <=? d / 64) && (d / 64 <? 0 + Z.of_nat 16)) with true by lia. apply Z.bits_0.
Qed.
Lemma fd_run : forall l w s, fdrep w s -> Forall (op_in 0 1023) l -> ~ In SFill l ->
  exists w', run_ops fd_op l w = Ok w' /\ fdrep w' (set_after s l).
Proof.
  induction l as [|o l IH]; intros w s H Hl Hn.
  - exists w. auto.
  - apply Forall_cons_iff in Hl as [Ho Hl]. destruct (fd_step o w s H Ho) as (w1 & H1 & H2).
    { intros ->. apply Hn. now left. }
    cbn [run_ops]. rewrite H1. cbn [bind]. cbn. apply IH; auto. intros K. apply Hn. now right.
Qed.
Lemma fd_member : forall w s d, fdrep w s -> 0 <= d < 1024 -> FD_ISSET d w = Ok (s d).
Proof.
  intros w s d H Hd. unfold FD_ISSET. destruct (fd_word_ok d) as (-> & -> & ->); [lia|].
  rewrite bit_land1 by lia. now rewrite negb_involutive, H by lia.
Qed.

(* ---- ctype ---- *)
Definition all128 : list Z := map Z.of_nat (seq 0 128).
Lemma all128_in : forall c, 0 <= c < 128 -> In c all128.
Proof. intros. apply in_map_iff. exists (Z.to_nat c). split; [lia|]. apply in_seq. lia. Qed.
Lemma u32_sub : forall a k n, INT_MIN <= a <= INT_MAX -> 0 <= k -> 0 <= n -> k + n < 2 ^ 31 ->
  (u32 (u32 a - k) <? n) = (k <=? a) && (a <? k + n).
Proof. intros a k n Ha Hk Hn Hs. unfold u32, INT_MIN, INT_MAX in *. lia. Qed.
Lemma lor32_big : forall x, 128 <= x -> 128 <= Z.lor x 32.
Proof.
  intros. assert (0 <= Z.lor x 32) by (apply Z.lor_nonneg; lia).
  assert (Z.lor x 32 <> 0) by (rewrite Z.lor_eq_0_iff; lia).
  change 128 with (2 ^ 7). apply Z.log2_le_pow2; [lia|]. rewrite Z.log2_lor by lia.
  assert (7 <= Z.log2 x) by (apply Z.log2_le_pow2; lia). lia.
Qed.
Lemma letters : forall a, INT_MIN <= a <= INT_MAX ->
  forall n, 0 <= n <= 26 ->
  (u32 (Z.lor (u32 a) 32 - 97) <? n) = ((65 <=? a) && (a <? 65 + n)) || ((97 <=? a) && (a <? 97 + n)).
Proof.
  intros a Ha n Hn. destruct (Z_lt_ge_dec (u32 a) 128) as [L|G].
  - assert (0 <= a < 128) by (unfold u32, INT_MIN, INT_MAX in *; lia). rewrite (u32_small a) by lia.
    assert (E : forallb (fun a => forallb (fun n => Bool.eqb (u32 (Z.lor a 32 - 97) <? n)
      (((65 <=? a) && (a <? 65 + n)) || ((97 <=? a) && (a <? 97 + n)))) (map Z.of_nat (seq 0 27))) all128 = true) by (vm_compute; reflexivity).
    rewrite forallb_forall in E. specialize (E a (all128_in a H)). rewrite forallb_forall in E.
    apply Bool.eqb_prop. apply (E n). apply in_map_iff. exists (Z.to_nat n). split; [lia|]. apply in_seq. lia.
  - pose proof (lor32_big (u32 a) ltac:(lia)).
    assert (Z.lor (u32 a) 32 < 2 ^ 32).
    { assert (0 <= u32 a < 2 ^ 32) by (unfold u32; lia).
      apply Z.log2_lt_pow2; [lia|]. rewrite Z.log2_lor by lia. apply Z.max_lub_lt; [|reflexivity].
      apply Z.log2_lt_pow2; lia. }
    rewrite u32_small by lia. unfold u32, INT_MIN, INT_MAX in *. lia.
Qed.

(* ---- division ---- *)
Ltac Zify.zify_post_hook ::= idtac.
Lemma quot_facts : forall n d, d <> 0 ->
  n = Z.quot n d * d + Z.rem n d /\ Z.abs (Z.rem n d) < Z.abs d
  /\ (0 <= n -> 0 <= Z.rem n d /\ 0 <= Z.quot n d * d) /\ (n <= 0 -> Z.rem n d <= 0 /\ Z.quot n d * d <= 0).
Proof.
  intros n d Hd. pose proof (Z.quot_rem n d Hd). pose proof (Z.rem_bound_abs n d Hd).
  split; [lia|]. split; [lia|]. split; intros Hn; split.
  - apply Z.rem_nonneg; auto.
  - pose proof (Z.quot_abs n d Hd). pose proof (Z.mul_quot_le n (Z.abs d) Hn ltac:(lia)).
    destruct (Z_lt_ge_dec 0 d).
    + apply Z.mul_nonneg_nonneg; [apply Z.quot_pos|]; lia.
    + apply Z.mul_nonpos_nonpos; [|lia]. rewrite <- (Z.opp_involutive d), Z.quot_opp_r by lia.
      pose proof (Z.quot_pos n (- d) ltac:(lia) ltac:(lia)). lia.
  - apply Z.rem_nonpos; auto.
  - destruct (Z_lt_ge_dec 0 d).
    + apply Z.mul_nonpos_nonneg; [|lia]. rewrite <- (Z.opp_involutive n), Z.quot_opp_l by lia.
      pose proof (Z.quot_pos (- n) d ltac:(lia) ltac:(lia)). lia.
    + apply Z.mul_nonneg_nonpos; [|lia]. rewrite <- (Z.opp_involutive n), <- (Z.opp_involutive d).
      rewrite Z.quot_opp_opp by lia. apply Z.quot_pos; lia.
Qed.
Lemma quot_range : forall n d M, d <> 0 -> 0 < M -> - M <= n < M -> ~ (n = - M /\ d = -1) -> - M <= Z.quot n d < M.
Proof.
  intros n d M Hd HM Hn Hx.
  destruct (Z.eq_dec d (-1)) as [->|].
  { change (-1) with (- (1)). rewrite Z.quot_opp_r, Z.quot_1_r by lia. lia. }
  destruct (Z.eq_dec d 1) as [->|]; [rewrite Z.quot_1_r; lia|].
  destruct (Z.eq_dec n 0) as [->|]; [rewrite Z.quot_0_l by lia; lia|].
  assert (H1 : 0 < Z.abs n) by lia. assert (H2 : 1 < Z.abs d) by lia.
  pose proof (Z.quot_lt (Z.abs n) (Z.abs d) H1 H2) as H3. rewrite (Z.quot_abs n d Hd) in H3.
  generalize dependent (Z.quot n d). intros q H3. lia.
Qed.
Lemma div_ok : forall n d, d <> 0 -> INT_MIN <= n <= INT_MAX -> INT_MIN <= d <= INT_MAX -> ~ (n = INT_MIN /\ d = -1) ->
  div n d = Ok (Z.quot n d, Z.rem n d).
Proof.
  intros n d Hd Hn Hd2 Hx. destruct (quot_facts n d Hd) as (H1 & H2 & H3 & H4).
  pose proof (quot_range n d 2147483648 Hd ltac:(lia)) as H5. unfold div, INT_MIN, INT_MAX in *.
  replace (d =? 0) with false by lia.
  set (q := Z.quot n d) in *. set (r := Z.rem n d) in *. remember (q * d) as qd eqn:Eqd. clearbody q r.
  assert (H6 : - 2147483648 <= q < 2147483648) by (apply H5; lia). clear H5.
  rewrite iop_ok by (unfold INT_MIN, INT_MAX; lia). cbn [bind]. rewrite <- Eqd. clear Eqd.
  rewrite iop_ok by (unfold INT_MIN, INT_MAX; lia). cbn [bind].
  rewrite iop_ok by (unfold INT_MIN, INT_MAX; lia). cbn [bind]. do 2 f_equal. lia.
Qed.
Lemma ldiv_ok : forall n d, d <> 0 -> LONG_MIN <= n <= LONG_MAX -> LONG_MIN <= d <= LONG_MAX -> ~ (n = LONG_MIN /\ d = -1) ->
  ldiv n d = Ok (Z.quot n d, Z.rem n d).
Proof.
  intros n d Hd Hn Hd2 Hx. destruct (quot_facts n d Hd) as (H1 & H2 & H3 & H4).
  pose proof (quot_range n d 9223372036854775808 Hd ltac:(lia)) as H5. unfold ldiv, LONG_MIN, LONG_MAX in *.
  replace (d =? 0) with false by lia.
  set (q := Z.quot n d) in *. set (r := Z.rem n d) in *. remember (q * d) as qd eqn:Eqd. clearbody q r.
  assert (H6 : - 9223372036854775808 <= q < 9223372036854775808) by (apply H5; lia). clear H5.
  rewrite lop_ok by (unfold LONG_MIN, LONG_MAX; lia). cbn [bind]. rewrite <- Eqd. clear Eqd.
  rewrite lop_ok by (unfold LONG_MIN, LONG_MAX; lia). cbn [bind].
  rewrite lop_ok by (unfold LONG_MIN, LONG_MAX; lia). cbn [bind]. do 2 f_equal. lia.
Qed.

(* ---- alignment ---- *)
Lemma align_ok : forall k p, 0 <= k < 64 -> 0 <= p <= 2 ^ 64 - 2 ^ k ->
  least_multiple (2 ^ k) p (ALIGN_pow2 k p).
Proof.
  intros k p Hk Hp. unfold ALIGN_pow2, ALIGN_raw.
  assert (Hpos : 0 < 2 ^ k) by (apply Z.pow_pos_nonneg; lia).
  assert (Hsplit : 2 ^ 64 = 2 ^ k * 2 ^ (64 - k)) by (rewrite <- Z.pow_add_r by lia; f_equal; lia).
  assert (Hpos2 : 0 < 2 ^ (64 - k)) by (apply Z.pow_pos_nonneg; lia).
  assert (H1k : 1 <= 2 ^ k) by lia.
  rewrite Z.shiftl_mul_pow2, Z.shiftr_div_pow2 by lia.
  destruct (Z.eq_dec p 0) as [->|E].
  - replace (u64 (0 - 1)) with (2 ^ 64 - 1) by reflexivity.
    assert ((2 ^ 64 - 1) / 2 ^ k = 2 ^ (64 - k) - 1) as ->.
    { symmetry. apply Z.div_unique with (2 ^ k - 1); [lia|]. rewrite Hsplit. ring. }
    replace ((2 ^ (64 - k) - 1) * 2 ^ k) with (2 ^ 64 - 2 ^ k) by (rewrite Hsplit; ring).
    assert (2 ^ 64 = 18446744073709551616) by reflexivity. rewrite (u64_small (2 ^ 64 - 2 ^ k)) by lia. replace (2 ^ 64 - 2 ^ k + 2 ^ k) with (2 ^ 64) by ring.
    change (u64 (2 ^ 64)) with 0. split; [apply Z.divide_0_r|]. split; [lia|]. intros; lia.
  - rewrite (u64_small (p - 1)) by lia.
    pose proof (Z.div_mod (p - 1) (2 ^ k) ltac:(lia)). pose proof (Z.mod_pos_bound (p - 1) (2 ^ k) Hpos).
    set (q := (p - 1) / 2 ^ k) in *. set (r := (p - 1) mod 2 ^ k) in *.
    assert (0 <= q) by (apply Z.div_pos; lia).
    assert (q * 2 ^ k + 2 ^ k < 2 ^ 64).
    { assert (q < 2 ^ (64 - k) - 1); [|nia].
      assert (2 ^ k * q < 2 ^ 64 - 2 ^ k) by lia. nia. }
    rewrite (u64_small (q * 2 ^ k)) by nia. rewrite u64_small by nia.
    split; [exists (q + 1); ring|]. split; [nia|].
    intros z [y ->] Hz. assert (q < y); [|nia]. nia.
Qed.

(* ---- wait statuses: all 16 bit words ---- *)
Definition wdecode_ok (w : wstat) : bool :=
  let s := encode w in
  match w, WIFSTOPPED false s with
  | Exited c, Ok st => WIFEXITED s && negb (WIFSIGNALED s) && negb st && negb (WIFCONTINUED s) && (WEXITSTATUS s =? c mod 256)
  | Signaled g core, Ok st => negb (WIFEXITED s) && WIFSIGNALED s && negb st && negb (WIFCONTINUED s) && (WTERMSIG s =? g)
      && Bool.eqb (WCOREDUMP s) core
  | Stopped g, Ok st => negb (WIFEXITED s) && negb (WIFSIGNALED s) && st && negb (WIFCONTINUED s) && (WSTOPSIG s =? g)
  | Continued, Ok st => negb (WIFEXITED s) && negb (WIFSIGNALED s) && negb st && WIFCONTINUED s
  | _, _ => false
  end.
Definition upto (n : nat) : list Z := map Z.of_nat (seq 0 n).
Lemma upto_in : forall n z, 0 <= z < Z.of_nat n -> In z (upto n).
Proof. intros. apply in_map_iff. exists (Z.to_nat z). split; [lia|]. apply in_seq. lia. Qed.
Lemma wdecode_all : forall w, wstat_ok w -> wdecode_ok w = true.
Proof.
  destruct w; cbn [wstat_ok]; intros H.
  - assert (E : forallb (fun c => wdecode_ok (Exited c)) (upto 256) = true) by (vm_compute; reflexivity).
    rewrite forallb_forall in E. pose proof (Z.mod_pos_bound code 256 ltac:(lia)).
    specialize (E (code mod 256) (upto_in 256 (code mod 256) ltac:(lia))).
    unfold wdecode_ok, encode in *. rewrite Z.mod_mod in E by lia. exact E.
  - assert (E : forallb (fun c => forallb (fun b => (c =? 0) || wdecode_ok (Signaled c b)) [true; false]) (upto 65) = true) by (vm_compute; reflexivity).
    rewrite forallb_forall in E. specialize (E sig (upto_in 65 sig ltac:(lia))). rewrite forallb_forall in E.
    specialize (E core). replace (sig =? 0) with false in E by lia. apply E. destruct core; cbn; auto.
  - assert (E : forallb (fun c => (c =? 0) || wdecode_ok (Stopped c)) (upto 65) = true) by (vm_compute; reflexivity).
    rewrite forallb_forall in E. specialize (E sig (upto_in 65 sig ltac:(lia))).
    replace (sig =? 0) with false in E by lia. exact E.
  - reflexivity.
Qed.
