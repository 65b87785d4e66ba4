From Verif Require Import Base BaseLemmas OptmModel OptmSpec.

Lemma enum_val_bit c k : small_letter c -> 0 <= k -> Z.testbit (enum_val c) k = (k =? c - 97).
Proof.
  unfold small_letter, enum_val. intros H K. rewrite Z.pow2_bits_eqb by lia.
  rewrite Z.eqb_sym. reflexivity.
Qed.
Lemma isin_In c l : isin c l = true <-> In c l.
Proof.
  unfold isin. rewrite existsb_exists. split; [intros [x [H E]]; apply Z.eqb_eq in E; now subst|].
  intro H. exists c. split; auto. apply Z.eqb_refl.
Qed.
Lemma isin_cons c d l : isin c (d :: l) = (c =? d) || isin c l.
Proof. reflexivity. Qed.
Lemma isin_app c l l' : isin c (l ++ l') = isin c l || isin c l'.
Proof. unfold isin. apply existsb_app. Qed.

(* the plain sum of distinct flags *)
Definition sum_val (l : list Z) : Z := fold_right (fun c s => enum_val c + s) 0 l.
Lemma add_disjoint x y : Z.land x y = 0 -> x + y = Z.lor x y.
Proof. intro H. rewrite <- Z.lxor_lor by assumption. now apply Z.add_nocarry_lxor. Qed.
Lemma sum_bits l : option_set l -> forall k, 0 <= k -> Z.testbit (sum_val l) k = isin (k + 97) l.
Proof.
  intros [F N]. induction l as [|c l IH]; intros k K; cbn [sum_val fold_right].
  - apply Z.testbit_0_l.
  - apply Forall_cons_iff in F as [Fc F]. inversion N; subst. fold (sum_val l).
    rewrite add_disjoint.
    + rewrite Z.lor_spec, enum_val_bit, IH by auto. rewrite isin_cons. f_equal.
      destruct (Z.eqb_spec k (c - 97)), (Z.eqb_spec (k + 97) c); try reflexivity; lia.
    + apply Z.bits_inj'. intros n Hn. rewrite Z.land_spec, Z.bits_0, enum_val_bit, IH by auto.
      destruct (Z.eqb_spec n (c - 97)); [|reflexivity]. subst n.
      destruct (isin (c - 97 + 97) l) eqn:E; [|reflexivity]. exfalso. apply isin_In in E.
      replace (c - 97 + 97) with c in E by lia. contradiction.
Qed.
Lemma bounded_bits z n : 0 <= z -> 0 <= n -> (forall k, n <= k -> Z.testbit z k = false) -> z < 2 ^ n.
Proof.
  intros Z0 N H. destruct (Z.eq_dec z 0) as [->|Hz]; [apply Z.pow_pos_nonneg; lia|].
  apply Z.log2_lt_pow2; [lia|]. destruct (Z.lt_ge_cases (Z.log2 z) n); auto. exfalso.
  pose proof (H (Z.log2 z) H0) as E. rewrite Z.bit_log2 in E by lia. discriminate.
Qed.
Lemma sum_nonneg l : Forall small_letter l -> 0 <= sum_val l.
Proof.
  induction 1; cbn [sum_val fold_right]; [lia|]. fold (sum_val l). unfold enum_val. pose proof (Z.pow_nonneg 2 (x - 97)). lia.
Qed.
Lemma sum_small l : option_set l -> 0 <= sum_val l < 2 ^ 26.
Proof.
  intro H. pose proof (sum_nonneg l (proj1 H)). split; auto. apply bounded_bits; auto; try lia. intros k K.
  rewrite sum_bits by (auto; lia). destruct (isin (k + 97) l) eqn:E; auto. apply isin_In in E.
  destruct H as [F _]. rewrite Forall_forall in F. specialize (F _ E). unfold small_letter in F. lia.
Qed.
Lemma flags_val_sum l : option_set l -> flags_val l = sum_val l.
Proof. intro H. apply sum_small in H. unfold flags_val. fold (sum_val l). apply s32_small. change (2 ^ 26) with 67108864 in H. unfold INT_MIN, INT_MAX. lia. Qed.
Lemma options_val_sum l b : option_set l -> ~ In 98 l -> options_val l b = sum_val l.
Proof.
  intros H N. rewrite <- flags_val_sum by auto. unfold options_val, flags_val. f_equal.
  clear H. induction l as [|c l IH]; [reflexivity|]. cbn [fold_right]. destruct (Z.eqb_spec c 98).
  - subst. exfalso. apply N. now left.
  - rewrite IH; auto. intro. apply N. now right.
Qed.
Lemma land_enum z c : small_letter c -> (Z.land z (enum_val c) =? 0) = negb (Z.testbit z (c - 97)).
Proof.
  intro H. assert (C : 0 <= c - 97) by (unfold small_letter in H; lia). destruct (Z.eqb_spec (Z.land z (enum_val c)) 0) as [E|E].
  - assert (B : Z.testbit (Z.land z (enum_val c)) (c - 97) = false) by (rewrite E; apply Z.bits_0).
    rewrite Z.land_spec, enum_val_bit, Z.eqb_refl, andb_true_r in B by auto. now rewrite B.
  - destruct (Z.testbit z (c - 97)) eqn:B; [reflexivity|]. exfalso. apply E. apply Z.bits_inj'. intros n Hn.
    rewrite Z.land_spec, enum_val_bit, Z.bits_0 by auto. destruct (Z.eqb_spec n (c - 97)); [subst; now rewrite B|apply andb_false_r].
Qed.
Lemma shl1_ok strict c : small_letter c -> shl1 strict (c - 97) = Ok (enum_val c).
Proof. unfold small_letter, shl1. intro. destruct (Z.leb_spec 0 (c - 97)); [|lia]. destruct (Z.ltb_spec (c - 97) 31); [|lia]. reflexivity. Qed.

Definition all_val (cs : list Z) (opts : Z) : Z := fold_left (fun o c => Z.lor o (enum_val c)) cs opts.
Lemma all_bits cs : Forall small_letter cs -> forall opts k, 0 <= k ->
  Z.testbit (all_val cs opts) k = Z.testbit opts k || isin (k + 97) cs.
Proof.
  induction 1; intros opts k K; cbn [all_val fold_left].
  - now rewrite orb_false_r.
  - fold (all_val l (Z.lor opts (enum_val x))). rewrite IHForall, Z.lor_spec, enum_val_bit, isin_cons, orb_assoc by auto.
    f_equal. f_equal. destruct (Z.eqb_spec k (x - 97)), (Z.eqb_spec (k + 97) x); try reflexivity; lia.
Qed.
Lemma chars_ok strict l s : option_set l -> ~ In 98 l -> Forall small_letter s -> forall b opts,
  optm_chars strict l s b opts = Ok (all_val s opts, filter (fun c => negb (isin c l)) s).
Proof.
  intros HL NB F. induction F as [|c s Hc F IH]; intros b opts; cbn [optm_chars all_val fold_left filter]; [reflexivity|].
  rewrite shl1_ok by auto. rewrite bind_Ok, IH, bind_Ok. fold (all_val s (Z.lor opts (enum_val c))).
  rewrite options_val_sum, land_enum, sum_bits by (auto; unfold small_letter in Hc; lia).
  replace (c - 97 + 97) with c by lia. destruct (isin c l); reflexivity.
Qed.
Lemma option_chars_dash s args : option_chars ((45 :: s) :: args) = s ++ option_chars args.
Proof. reflexivity. Qed.
Lemma option_chars_other a args : dashed a = false -> option_chars (a :: args) = option_chars args.
Proof. intro H. unfold option_chars. cbn [filter]. now rewrite H. Qed.
Lemma optm_args_other strict l a args ap argp opts : dashed a = false ->
  optm_args strict l (a :: args) ap argp opts = optm_args strict l args (ap + 1) argp opts.
Proof.
  intro H. cbn [optm_args]. destruct a as [|c s]; [reflexivity|]. cbn [dashed] in H. apply Z.eqb_neq in H.
  repeat (match goal with |- context [match ?x with _ => _ end] => is_var x; destruct x end; try reflexivity; try lia).
Qed.
(* the position behind the last argument with '-' *)
Fixpoint last_pos (args : list (list Z)) (ap argp : Z) : Z :=
  match args with
  | [] => argp
  | a :: args => last_pos args (ap + 1) (if dashed a then ap + 1 else argp)
  end.
Lemma args_ok strict l args : option_set l -> ~ In 98 l -> Forall small_letter (option_chars args) -> forall ap argp opts,
  optm_args strict l args ap argp opts =
    Ok (last_pos args ap argp, all_val (option_chars args) opts, filter (fun c => negb (isin c l)) (option_chars args)).
Proof.
  intros HL NB. induction args as [|a args IH]; intros F ap argp opts; [reflexivity|].
  destruct (dashed a) eqn:D.
  - destruct a as [|c s]; [discriminate|]. cbn [dashed] in D. apply Z.eqb_eq in D. subst c.
    rewrite option_chars_dash in *. apply Forall_app in F as [Fs F]. cbn [optm_args]. rewrite chars_ok, bind_Ok, IH, bind_Ok by auto.
    cbn [last_pos dashed]. change (45 =? 45) with true. cbv iota. unfold all_val. rewrite fold_left_app, filter_app. reflexivity.
  - rewrite optm_args_other by auto. rewrite option_chars_other in * by auto. rewrite IH by auto. cbn [last_pos]. now rewrite D.
Qed.
Lemma last_pos_plain args : forall ap argp, Forall (fun a => dashed a = false) args -> last_pos args ap argp = argp.
Proof. induction args; intros ap argp F; cbn [last_pos]; [reflexivity|]. apply Forall_cons_iff in F as [D F]. rewrite D. now apply IHargs. Qed.
Lemma last_pos_app a1 a2 : forall ap argp, last_pos (a1 ++ a2) ap argp = last_pos a2 (ap + zlen a1) (last_pos a1 ap argp).
Proof.
  induction a1; intros ap argp; cbn [last_pos app]; [now rewrite Z.add_0_r|]. rewrite IHa1. f_equal. rewrite zlen_cons. lia.
Qed.
Lemma last_pos_after opts rest : Forall (fun a => dashed a = false) rest -> (opts = [] \/ dashed (last opts []) = true) ->
  last_pos (opts ++ rest) 1 1 = 1 + zlen opts.
Proof.
  intros F H. rewrite last_pos_app, last_pos_plain by auto. destruct (destruct_list opts) as [[x [t E]]|E].
  - destruct H as [H|H]; [congruence|]. assert (N : opts <> []) by congruence.
    rewrite (app_removelast_last [] N) at 1. rewrite last_pos_app. cbn [last_pos]. rewrite H.
    rewrite (app_removelast_last [] N) at 2. rewrite zlen_app, zlen_cons. change (zlen (@nil (list Z))) with 0. lia.
  - rewrite E. reflexivity.
Qed.
