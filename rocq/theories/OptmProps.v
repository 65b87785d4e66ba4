(* C130: PARSEOPTS_short, GETOPT_short and SETOPT_short. *)
From Verif Require Import Base BaseLemmas OptmModel OptmSpec OptmProofs.

(* Partial: the option b is not among the allowed ones, and the characters behind '-' are
   small letters *)
Theorem C130_parse_partial : forall strict allowed args opts,
  option_set allowed -> ~ In 98 allowed -> Forall small_letter (option_chars args) ->
  exists argp opts' unknown, parseopts_short strict allowed args opts = Ok (argp, opts', unknown) /\
    (forall c, small_letter c -> (flag opts' c = true <-> flag opts c = true \/ In c (option_chars args))) /\
    (forall k, 26 <= k -> Z.testbit opts' k = Z.testbit opts k) /\
    unknown = filter (fun c => negb (isin c allowed)) (option_chars args).
Proof.
  intros strict l args opts HL NB F. unfold parseopts_short. rewrite args_ok by auto. do 3 eexists. split; [reflexivity|]. split; [|split; [|reflexivity]].
  - intros c Hc. unfold flag. rewrite all_bits by (auto; unfold small_letter in Hc; lia). replace (c - 97 + 97) with c by lia.
    rewrite orb_true_iff, isin_In. reflexivity.
  - intros k K. rewrite all_bits by (auto; lia). destruct (isin (k + 97) (option_chars args)) eqn:E; [|apply orb_false_r].
    apply isin_In in E. rewrite Forall_forall in F. apply F in E. unfold small_letter in E. lia.
Qed.
Print Assumptions C130_parse_partial.
(* Partial: no option behind a regular argument *)
Theorem C130_first_argument_partial : forall strict allowed options rest opts argp opts' unknown,
  option_set allowed -> ~ In 98 allowed -> Forall small_letter (option_chars (options ++ rest)) ->
  Forall (fun a => dashed a = true) options -> Forall (fun a => dashed a = false) rest ->
  parseopts_short strict allowed (options ++ rest) opts = Ok (argp, opts', unknown) -> argp = 1 + zlen options.
Proof.
  intros strict l o rest opts argp opts' un HL NB F D R H. unfold parseopts_short in H. rewrite args_ok in H by auto.
  assert (E : argp = last_pos (o ++ rest) 1 1) by congruence. rewrite E. apply last_pos_after; auto.
  destruct o as [|a o]; [now left|]. right. rewrite Forall_forall in D. apply D.
  assert (N : a :: o <> []) by discriminate. rewrite (app_removelast_last [] N) at 2. apply in_or_app. right. now left.
Qed.
Print Assumptions C130_first_argument_partial.
(* GETOPT_short tells whether one of the named flags is set, SETOPT_short sets exactly these *)
Theorem C130_getopt : forall opts letters, option_set letters ->
  (getopt_short opts letters <> 0 <-> exists c, In c letters /\ flag opts c = true).
Proof.
  intros opts l H. unfold getopt_short, flag. rewrite flags_val_sum by auto. split.
  - intro N. destruct (existsb (fun c => Z.testbit opts (c - 97)) l) eqn:E.
    + apply existsb_exists in E. exact E.
    + exfalso. apply N. apply Z.bits_inj'. intros n Hn. rewrite Z.land_spec, sum_bits, Z.bits_0 by auto.
      destruct (isin (n + 97) l) eqn:I; [|apply andb_false_r]. apply isin_In in I. rewrite andb_true_r.
      destruct (Z.testbit opts n) eqn:B; auto. rewrite <- E. symmetry. apply existsb_exists. exists (n + 97). split; auto.
      now replace (n + 97 - 97) with n by lia.
  - intros [c [I B]] Z0. assert (C : small_letter c) by (destruct H as [F _]; rewrite Forall_forall in F; auto).
    assert (T : Z.testbit (Z.land opts (sum_val l)) (c - 97) = true).
    { rewrite Z.land_spec, sum_bits, B by (auto; unfold small_letter in C; lia). replace (c - 97 + 97) with c by lia. apply isin_In in I. now rewrite I. }
    rewrite Z0, Z.bits_0 in T. discriminate.
Qed.
Print Assumptions C130_getopt.
Theorem C130_setopt : forall opts letters, option_set letters ->
  (forall c, small_letter c -> (flag (setopt_short opts letters) c = true <-> flag opts c = true \/ In c letters)) /\
  (forall k, 26 <= k -> Z.testbit (setopt_short opts letters) k = Z.testbit opts k).
Proof.
  intros opts l H. unfold setopt_short, flag. rewrite flags_val_sum by auto. split.
  - intros c C. rewrite Z.lor_spec, sum_bits by (auto; unfold small_letter in C; lia). replace (c - 97 + 97) with c by lia.
    rewrite orb_true_iff, isin_In. reflexivity.
  - intros k K. rewrite Z.lor_spec, sum_bits by (auto; lia). destruct (isin (k + 97) l) eqn:E; [|apply orb_false_r].
    apply isin_In in E. destruct H as [F _]. rewrite Forall_forall in F. apply F in E. unfold small_letter in E. lia.
Qed.
Print Assumptions C130_setopt.
(* prog -la -x file, with (a+h+l) *)
Example C130_case : option_set [97; 104; 108] /\ ~ In 98 [97; 104; 108] /\
  Forall small_letter (option_chars [[45; 108; 97]; [45; 120]; [102]]) /\
  parseopts_short true [97; 104; 108] [[45; 108; 97]; [45; 120]; [102]] 0 = Ok (3, 1 + 2048 + 8388608, [120]) /\
  getopt_short (1 + 2048 + 8388608) [97] = 1 /\ getopt_short (1 + 2048 + 8388608) [104] = 0.
Proof.
  split; [split; [repeat (apply Forall_cons; [unfold small_letter; lia|]); constructor|repeat constructor; cbn; lia]|].
  split; [cbn; lia|]. split; [vm_compute; repeat (apply Forall_cons; [split; discriminate|]); constructor|]. repeat split; reflexivity.
Qed.
(* with (a+b) allowed, "prog -a" executes "unrecognized" for a, and "prog -xb"-like strings
   are treated by their position: the index b hides the option b *)
Theorem C130_option_b_refuted : exists allowed args, option_set allowed /\
  (forall c, In c (option_chars args) -> In c allowed) /\
  forall strict opts, exists argp opts' unknown,
    parseopts_short strict allowed args opts = Ok (argp, opts', unknown) /\ unknown <> [].
Proof.
  exists [97; 98], [[45; 97]]. split; [split; [repeat (apply Forall_cons; [unfold small_letter; lia|]); constructor|repeat constructor; cbn; lia]|].
  split; [intros c [E|[]]; subst; now left|]. intros strict opts. exists 2, (Z.lor opts 1), [97]. split; [|discriminate].
  destruct strict; reflexivity.
Qed.
Print Assumptions C130_option_b_refuted.
(* and an option that is not allowed is accepted: -c with (b) at the fourth place *)
Theorem C130_unknown_accepted_refuted : exists allowed c args, option_set allowed /\ ~ In c allowed /\ small_letter c /\
  In c (option_chars args) /\ forall strict opts, exists argp opts' unknown,
    parseopts_short strict allowed args opts = Ok (argp, opts', unknown) /\ ~ In c unknown.
Proof.
  exists [98], 99, [[45; 120; 120; 120; 99]].
  split; [split; [repeat (apply Forall_cons; [unfold small_letter; lia|]); constructor|repeat constructor; cbn; lia]|].
  split; [cbn; lia|]. split; [unfold small_letter; lia|]. split; [cbn; tauto|]. intros strict opts.
  exists 2, (Z.lor (Z.lor (Z.lor (Z.lor opts 8388608) 8388608) 8388608) 4), [120; 120; 120]. split; [destruct strict; reflexivity|]. cbn. lia.
Qed.
Print Assumptions C130_unknown_accepted_refuted.
(* capital letters: undefined behaviour; on x86 -A is the option a *)
Theorem C130_capital_refuted : exists allowed args, option_set allowed /\ ~ In 98 allowed /\ option_chars args = [65] /\ ~ In 65 allowed /\
  forall opts, parseopts_short true allowed args opts = Fault /\
    exists opts', parseopts_short false allowed args opts = Ok (2, opts', []) /\ flag opts' 97 = true.
Proof.
  exists [97], [[45; 65]]. split; [split; [repeat (apply Forall_cons; [unfold small_letter; lia|]); constructor|repeat constructor; cbn; lia]|].
  split; [cbn; lia|]. split; [reflexivity|]. split; [cbn; lia|]. intro opts. split; [reflexivity|]. exists (Z.lor opts 1). split; [reflexivity|].
  unfold flag. rewrite Z.lor_spec. apply orb_true_r.
Qed.
Print Assumptions C130_capital_refuted.
(* "prog file -a": the result points behind -a, not to the first regular argument *)
Theorem C130_first_argument_refuted : exists allowed args i, option_set allowed /\ ~ In 98 allowed /\ Forall small_letter (option_chars args) /\
  dashed (nth i args []) = false /\ forall strict opts, exists argp opts' unknown,
    parseopts_short strict allowed args opts = Ok (argp, opts', unknown) /\ 1 + Z.of_nat i < argp.
Proof.
  exists [97], [[102]; [45; 97]], 0%nat. split; [split; [repeat (apply Forall_cons; [unfold small_letter; lia|]); constructor|repeat constructor; cbn; lia]|].
  split; [cbn; lia|]. split; [vm_compute; repeat (apply Forall_cons; [split; discriminate|]); constructor|]. split; [reflexivity|].
  intros strict opts. exists 3, (Z.lor opts 1), []. split; [destruct strict; reflexivity|lia].
Qed.
Print Assumptions C130_first_argument_refuted.
