(* C166: sigprocmask. *)
From Verif Require Import Base BaseLemmas SysModel SysSpec SysProofs MaskModel.
Ltac Zify.zify_post_hook ::= idtac.

(* is signal n blocked; SIGKILL and SIGSTOP cannot be *)
Definition blocked (mask n : Z) : bool := Z.testbit mask (n - 1).
Definition can (n : Z) : bool := negb (n =? 9) && negb (n =? 19).
Definition a_mask (m : Z) := 0 <= m < 2 ^ 64 /\ blocked m 9 = false /\ blocked m 19 = false.
(* a set of signals as a program builds it: sigemptyset, then sigaddset and sigdelset *)
Definition builds (ops : list setop) : Prop := Forall (op_in 1 30) ops /\ ~ In SFill ops.
Definition members (ops : list setop) (n : Z) : bool := set_after (fun _ => false) ops n.

Definition rep (w : Z) (s : Z -> bool) : Prop := 0 <= w < 2 ^ 64 /\ forall n, 1 <= n <= 64 -> Z.testbit w (n - 1) = s n.
Lemma land_range w x : 0 <= w < 2 ^ 64 -> 0 <= Z.land w x < 2 ^ 64.
Proof.
  intros H. assert (0 <= Z.land w x) by (apply Z.land_nonneg; lia). split; [exact H0|].
  destruct (Z.eq_dec (Z.land w x) 0) as [->|N]; [lia|]. 
  destruct (Z_lt_le_dec (Z.land w x) (2 ^ 64)) as [L|L]; [exact L|exfalso].
  pose proof (Z.bit_log2 (Z.land w x) ltac:(lia)) as B. rewrite Z.land_spec in B. apply andb_prop in B as [B _].
  pose proof (Z.log2_le_mono _ _ L) as L2. rewrite Z.log2_pow2 in L2 by lia.
  rewrite Z.bits_above_log2 in B; [discriminate|lia|]. destruct (Z.eq_dec w 0) as [->|]; [rewrite Z.land_0_l in N; lia|].
  apply Z.lt_le_trans with 64; [apply Z.log2_lt_pow2; lia|exact L2].
Qed.
Lemma lor_range w x : 0 <= w < 2 ^ 64 -> 0 <= x < 2 ^ 64 -> 0 <= Z.lor w x < 2 ^ 64.
Proof.
  intros [H1 H2] [H3 H4]. assert (H : 0 <= Z.lor w x) by (apply Z.lor_nonneg; lia). split; [exact H|].
  destruct (Z.eq_dec (Z.lor w x) 0) as [->|N]; [lia|]. apply Z.log2_lt_pow2; [lia|]. rewrite Z.log2_lor by lia.
  assert (forall y, 0 <= y < 2 ^ 64 -> Z.log2 y < 64) as B; [|apply Z.max_lub_lt; apply B; lia].
  intros y Hy. destruct (Z.eq_dec y 0) as [->|]; [cbn; lia|]. apply Z.log2_lt_pow2; lia.
Qed.
Lemma rep_step o w s : rep w s -> op_in 1 30 o -> o <> SFill -> exists w', sig_op o w = Ok (w', 0) /\ rep w' (set_op s o).
Proof.
  intros [R H] Ho Nf. destruct o; cbn [sig_op op_in set_op] in *; [| | |congruence].
  - unfold sigaddset. replace (sig_bad n) with false by (unfold sig_bad; lia). rewrite shift1_ok by lia. cbn [bind]. eexists. split; [reflexivity|].
    pose proof (shiftl1_range (n - 1) 30 ltac:(lia)). rewrite u64_small by lia. split; [apply lor_range; lia|].
    intros x Hx. rewrite lor_bit by lia. rewrite H by lia. f_equal. lia.
  - unfold sigdelset. replace (sig_bad n) with false by (unfold sig_bad; lia). rewrite shift1_ok by lia. cbn [bind]. eexists. split; [reflexivity|].
    split; [now apply land_range|]. intros x Hx. rewrite u64_lnot by lia. rewrite H by lia. f_equal. lia.
  - eexists. split; [reflexivity|]. split; [lia|]. intros x Hx. apply Z.bits_0.
Qed.
Lemma rep_run l : forall w s, rep w s -> builds l -> exists w', run_ops sig_op l w = Ok w' /\ rep w' (set_after s l).
Proof.
  induction l as [|o l IH]; intros w s H [H1 H2]; [exists w; auto|]. apply Forall_cons_iff in H1 as [Ho Hl]. cbn [In] in H2.
  destruct (rep_step o w s H Ho) as (w1 & E & R); [tauto|]. cbn [run_ops]. rewrite E. cbn [bind]. cbn. apply IH; [exact R|split; [exact Hl|tauto]].
Qed.
Lemma built w ops : builds ops -> exists set, run_ops sig_op (SEmpty :: ops) w = Ok set /\ rep set (members ops).
Proof. intros B. cbn [run_ops]. change (sig_op SEmpty w) with (Ok (0, 0)). rewrite bind_Ok. cbn [Z.eqb]. apply rep_run; [|exact B]. split; [lia|]. intros n _. apply Z.bits_0. Qed.
Lemma kill_stop_bit n : 1 <= n <= 64 -> Z.testbit kill_stop (n - 1) = negb (can n).
Proof.
  intros H. assert (A : forallb (fun k => Bool.eqb (Z.testbit kill_stop (Z.of_nat k)) (negb (can (Z.of_nat k + 1)))) (seq 0 64) = true) by (vm_compute; reflexivity).
  rewrite forallb_forall in A. specialize (A (Z.to_nat (n - 1))). rewrite in_seq, Z2Nat.id in A by lia. specialize (A ltac:(lia)). apply Bool.eqb_prop in A.
  replace (n - 1 + 1) with n in A by lia. exact A.
Qed.

(* With a set that a program has built: SIG_BLOCK adds it to the blocked signals, SIG_UNBLOCK takes it away,
   SIG_SETMASK makes it the set of the blocked signals; the old mask is stored, and SIG_SETMASK with it
   restores the mask.  Partial: sigaddset refuses 31 to 64 (C54), sigfillset has only 1 to 31. *)
Theorem C166_sets_partial : forall e ops w mask, builds ops -> a_mask mask ->
  exists set, run_ops sig_op (SEmpty :: ops) w = Ok set /\
  forall how want, In how [SIG_BLOCK; SIG_UNBLOCK; SIG_SETMASK] ->
  exists mask', sigprocmask e mask how (Some set) want = (mask', if want then Some mask else None, 0) /\ a_mask mask' /\
    (forall n, 1 <= n <= 64 -> blocked mask' n =
       if how =? SIG_BLOCK then blocked mask n || members ops n && can n
       else if how =? SIG_UNBLOCK then blocked mask n && negb (members ops n && can n) else members ops n && can n) /\
    sigprocmask e mask' SIG_SETMASK (Some mask) false = (mask, None, 0).
Proof.
  intros e ops w mask B (M1 & M9 & M19). destruct (built w ops B) as (set & E & R1 & R2). exists set. split; [exact E|]. intros how want Hh.
  assert (Bit : forall n, 1 <= n <= 64 -> Z.testbit (Z.ldiff set kill_stop) (n - 1) = members ops n && can n).
  { intros n Hn. rewrite Z.ldiff_spec, kill_stop_bit, negb_involutive, R2 by lia. reflexivity. }
  assert (Rg : 0 <= Z.ldiff set kill_stop < 2 ^ 64) by (rewrite Z.ldiff_land; now apply land_range).
  assert (Restore : forall m, sigprocmask e m SIG_SETMASK (Some mask) false = (mask, None, 0)).
  { intros m. unfold sigprocmask, rt_sigprocmask. change (negb (SIZEOF_SIGSET =? 8)) with false. cbn [Z.eqb SIG_SETMASK Pos.eqb].
    replace (Z.ldiff mask kill_stop) with mask; [reflexivity|]. apply Z.bits_inj'. intros n Hn. rewrite Z.ldiff_spec.
    destruct (Z_lt_dec n 64) as [L|L].
    - replace n with (n + 1 - 1) by lia. rewrite kill_stop_bit, negb_involutive by lia. fold (blocked mask (n + 1)). unfold can.
      destruct (Z.eqb_spec (n + 1) 9) as [->|]; [now rewrite M9|]. destruct (Z.eqb_spec (n + 1) 19) as [->|]; [now rewrite M19|]. cbn. now rewrite andb_true_r.
    - replace (Z.testbit mask n) with false; [reflexivity|]. symmetry. destruct (Z.eq_dec mask 0) as [->|]; [apply Z.bits_0|]. apply Z.bits_above_log2; [lia|].
      apply Z.lt_le_trans with 64; [apply Z.log2_lt_pow2; lia|lia]. }
  destruct Hh as [<-|[<-|[<-|[]]]]; eexists; (split; [reflexivity|]); cbv [SIG_BLOCK SIG_UNBLOCK SIG_SETMASK] in *; cbn [Z.eqb Pos.eqb]; (split; [|split; [|apply Restore]]); unfold a_mask, blocked in *.
  - split; [now apply lor_range|]. rewrite !Z.lor_spec, M9, M19, !Bit by lia. unfold can. cbn. now rewrite !andb_false_r.
  - intros n Hn. now rewrite Z.lor_spec, Bit by lia.
  - split; [rewrite Z.ldiff_land; now apply land_range|]. now rewrite (Z.ldiff_spec mask), (Z.ldiff_spec mask), M9, M19.
  - intros n Hn. now rewrite Z.ldiff_spec, Bit by lia.
  - split; [exact Rg|]. rewrite !Bit by lia. unfold can. cbn. now rewrite !andb_false_r.
  - intros n Hn. now rewrite Bit by lia.
Qed.
Print Assumptions C166_sets_partial.
(* without a set the mask is only read; an unknown how is refused and changes nothing *)
Theorem C166_unchanged : forall e mask how want,
  sigprocmask e mask how None want = (mask, if want then Some mask else None, 0) /\
  (forall set, ~ In how [SIG_BLOCK; SIG_UNBLOCK; SIG_SETMASK] -> exists r, sigprocmask e mask how (Some set) want = (mask, None, r) /\ r < 0).
Proof.
  intros e mask how want. split; [reflexivity|]. intros set H. unfold sigprocmask, rt_sigprocmask. change (negb (SIZEOF_SIGSET =? 8)) with false.
  cbn [In] in H. cbv [SIG_BLOCK SIG_UNBLOCK SIG_SETMASK] in H.
  destruct (Z.eqb_spec how 0); [lia|]. destruct (Z.eqb_spec how 1); [lia|]. destruct (Z.eqb_spec how 2); [lia|]. eexists. split; [reflexivity|]. destruct e; lia.
Qed.
Print Assumptions C166_unchanged.

(* critical sections in one another: each blocks a set, keeps the old mask and restores it *)
Fixpoint enter (e : bool) (mask : Z) (l : list (list setop)) : res (Z * list Z) :=
  match l with
  | [] => Ok (mask, [])
  | ops :: l =>
      let* set := run_ops sig_op (SEmpty :: ops) 0 in
      match sigprocmask e mask SIG_BLOCK (Some set) true with
      | (mask, Some old, 0) => let* (mask, olds) := enter e mask l in Ok (mask, old :: olds)
      | _ => Fault
      end
  end.
Definition leave (e : bool) (mask : Z) (olds : list Z) : Z := fold_right (fun old m => fst (fst (sigprocmask e m SIG_SETMASK (Some old) false))) mask olds.
Theorem C166_nested_partial : forall e l mask, Forall builds l -> a_mask mask ->
  exists mask' olds, enter e mask l = Ok (mask', olds) /\
    (forall n, 1 <= n <= 64 -> blocked mask' n = blocked mask n || existsb (fun ops => members ops n) l && can n) /\
    leave e mask' olds = mask.
Proof.
  intros e l. induction l as [|ops l IH]; intros mask B M.
  - exists mask, []. split; [reflexivity|]. split; [intros n _; cbn; now rewrite orb_false_r|reflexivity].
  - apply Forall_cons_iff in B as [B1 B2]. destruct (C166_sets_partial e ops 0 mask B1 M) as (set & E & H).
    destruct (H SIG_BLOCK true) as (m1 & E1 & M1 & Bl & Rs); [now left|].
    destruct (IH m1 B2 M1) as (m2 & olds & E2 & Bl2 & Lv). exists m2, (mask :: olds). cbn [enter]. rewrite E, bind_Ok, E1, E2, bind_Ok. split; [reflexivity|]. split.
    + intros n Hn. rewrite Bl2, Bl by lia. cbn [existsb Z.eqb SIG_BLOCK]. destruct (blocked mask n), (members ops n), (existsb _ l), (can n); reflexivity.
    + unfold leave in *. cbn [fold_right]. rewrite Lv, Rs. reflexivity.
Qed.
Print Assumptions C166_nested_partial.

Example C166_case : builds [SAdd 15; SAdd 2; SAdd 9; SDel 15] /\ a_mask 1 /\ run_ops sig_op [SEmpty; SAdd 15; SAdd 2; SAdd 9; SDel 15] 77 = Ok 258 /\
  sigprocmask true 1 SIG_BLOCK (Some 258) true = (3, Some 1, 0) /\ sigprocmask true 3 SIG_SETMASK (Some 1) false = (1, None, 0).
Proof. repeat split; repeat constructor; cbn; try discriminate; try lia. intuition discriminate. Qed.
(* sigfillset, SIG_SETMASK: 32 is not blocked *)
Theorem C166_fill_refuted : exists n set mask' old, 1 <= n <= 64 /\ can n = true /\ run_ops sig_op [SFill] 0 = Ok set /\
  sigprocmask true 0 SIG_SETMASK (Some set) true = (mask', old, 0) /\ blocked mask' n = false.
Proof. exists 32. do 3 eexists. split; [lia|]. repeat split. Qed.
Print Assumptions C166_fill_refuted.
