(* C131: the error texts. *)
From Coq Require Import String.
From Verif Require Import Base BaseLemmas ProcSpec ErrstrModel ErrstrSpec ErrstrProofs.
Local Open Scope list_scope.

(* every number gives a text: no access outside of the tables *)
Theorem C131_total : forall n, (exists s, verbose_errstr n = Ok s /\ s <> []) /\ (exists s, short_errstr n = Ok s /\ s <> []).
Proof.
  intro n. unfold verbose_errstr, short_errstr, ERRNO_MAX. destruct ((133 <? n) || (n <? 0)) eqn:R; [split; eexists; split; try reflexivity; discriminate|].
  assert (H : 0 <= n <= 133) by lia. split.
  - destruct (entry_ok errstr_table n eq_refl H) as [s [E N]]. exists s. split; auto. apply nth_error_In in N.
    assert (A : forallb (fun s => negb (eqbl s [])) errstr_table = true) by (vm_compute; reflexivity). rewrite forallb_forall in A. apply A in N. intros ->. discriminate.
  - destruct (entry_ok short_table n eq_refl H) as [s [E N]]. exists s. split; auto. apply nth_error_In in N.
    assert (A : forallb (fun s => negb (eqbl s [])) short_table = true) by (vm_compute; reflexivity). rewrite forallb_forall in A. apply A in N. intros ->. discriminate.
Qed.
Print Assumptions C131_total.
(* the name of an error number is the one that stands for it in the header *)
Theorem C131_names : forall name n, In (name, n) errno_names -> short_errstr n = Ok name.
Proof.
  intros name n I. pose proof short_ok as H. rewrite forallb_forall in H. specialize (H _ I). cbn [fst snd] in H.
  destruct (short_errstr n) as [s| |]; try discriminate. apply eqbl_ok in H. now subst.
Qed.
Print Assumptions C131_names.
(* and tells the numbers 0..133 apart *)
Theorem C131_distinct : forall i j, 0 <= i <= 133 -> 0 <= j <= 133 -> short_errstr i = short_errstr j -> i = j.
Proof.
  intros i j Hi Hj E. unfold short_errstr, ERRNO_MAX in E.
  replace ((133 <? i) || (i <? 0)) with false in E by lia. replace ((133 <? j) || (j <? 0)) with false in E by lia.
  destruct (entry_ok short_table i eq_refl Hi) as [s [Es Ns]]. destruct (entry_ok short_table j eq_refl Hj) as [t [Et Nt]].
  rewrite Es, Et in E. injection E as ->.
  apply (nth_error_nth _ _ []) in Ns. apply (nth_error_nth _ _ []) in Nt.
  pose proof (distinct_ok short_table (Z.to_nat i) (Z.to_nat j) short_distinct ltac:(lia) ltac:(lia) ltac:(congruence)). lia.
Qed.
Print Assumptions C131_distinct.
(* the small version returns the same texts.  Partial: except for number 0 *)
Theorem C131_small_version_partial : forall m lit unk n g, n <> 0 ->
  bytes_at m lit errstr2_bytes -> bytes_at m unk (txt "Errno unknown" ++ [0]) -> (64 <= g)%nat ->
  exists s p, verbose_errstr n = Ok s /\ verbose_errstr2 g m lit unk n = Ok p /\ bytes_at m p (s ++ [0]).
Proof.
  intros m lit unk n g N B U G. unfold verbose_errstr, verbose_errstr2, ERRNO_MAX. destruct ((133 <? n) || (n <? 0)) eqn:R; [do 2 eexists; eauto|].
  assert (H : 0 <= n <= 133) by lia. destruct (entry_ok errstr_table n eq_refl H) as [s [E Ns]]. exists s.
  pose proof longest2 as L.
  rewrite <- tables_same in Ns. replace (Z.to_nat n) with (S (Z.to_nat n - 1)) in * by lia.
  destruct (walk_ok m g errstr2_table (Z.to_nat n - 1) s lit) as [c [W P]]; auto.
  - apply table2_nonul.
  - discriminate.
  - lia.
  - rewrite W, bind_Ok. exists (c + 1). split; auto.
Qed.
Print Assumptions C131_small_version_partial.
Definition m131 : mem := mem_of [(5000, errstr2_bytes); (100, txt "Errno unknown" ++ [0])].
Lemma m131_lit : bytes_at m131 5000 errstr2_bytes.
Proof. apply bytesb_ok. vm_cast_no_check (eq_refl true). Qed.
Lemma m131_unk : bytes_at m131 100 (txt "Errno unknown" ++ [0]).
Proof. apply bytesb_ok. vm_cast_no_check (eq_refl true). Qed.
Example C131_case : bytes_at m131 5000 errstr2_bytes /\ bytes_at m131 100 (txt "Errno unknown" ++ [0]) /\
  verbose_errstr2 64 m131 5000 100 2 = Ok 5049 /\ verbose_errstr 2 = Ok (txt "No such file or directory") /\
  short_errstr 2 = Ok (txt "ENOENT") /\ nth_error errno_names 1 = Some (txt "ENOENT", 2).
Proof.
  split; [exact m131_lit|]. split; [exact m131_unk|].
  split; [vm_cast_no_check (eq_refl (@Ok Z 5049))|]. repeat split; vm_compute; reflexivity.
Qed.
(* number 0: the first character is missing *)
Theorem C131_small_version_refuted : exists (m : mem) (lit unk : Z), bytes_at m lit errstr2_bytes /\ bytes_at m unk (txt "Errno unknown" ++ [0]) /\
  verbose_errstr 0 = Ok (txt "Internal error (errno=0)") /\
  forall g, exists p, verbose_errstr2 g m lit unk 0 = Ok p /\ bytes_at m p (txt "nternal error (errno=0)" ++ [0]).
Proof.
  exists m131, 5000, 100. split; [exact m131_lit|]. split; [exact m131_unk|]. split; [vm_compute; reflexivity|].
  intro g. exists 5001. split; [reflexivity|]. apply bytesb_ok. vm_cast_no_check (eq_refl true).
Qed.
Print Assumptions C131_small_version_refuted.
