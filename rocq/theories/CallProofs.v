(* Proofs about the passing of arguments to the kernel. *)
From Verif Require Import Base BaseLemmas CallModel CallSpec.
From Coq Require Import Lia ZifyBool.
Local Open Scope list_scope.
Local Open Scope Z_scope.
Ltac Zify.zify_post_hook ::= Z.div_mod_to_equations.

(* parameter [i] arrives: it is an operand and is not cut to 32 bits if the kernel wants 64 *)
Definition wide (p : param) (t : cty) : bool :=
  match p, t with P64, Long => true | P64, _ => false | _, _ => true end.
Definition at_ok (w : wrapper) (x : param * reg) : bool :=
  match operand (w_form w) (snd x) with
  | Some i => (i =? pos (snd x))%nat && wide (fst x) (nth i (w_types w) Long)
  | None => false
  end.
Definition good (w : wrapper) (ps : list param) : bool := forallb (at_ok w) (combine ps kregs).

Lemma u64_cval p t v : wide p t = true -> u64 (cval t v) mod 2 ^ bits p = v mod 2 ^ bits p.
Proof.
  destruct p, t; cbn [wide bits cval]; try discriminate; intros _; unfold u64, s64, s32, u32;
  change (2 ^ 16) with 65536; change (2 ^ 32) with 4294967296; change (2 ^ 64) with 18446744073709551616; lia.
Qed.
Lemma content_cval p t v j : wide p t = true -> content t (cval t v) j mod 2 ^ bits p = v mod 2 ^ bits p.
Proof.
  destruct p, t; cbn [wide bits cval content]; try discriminate; intros _; unfold u64, s64, s32, u32;
  change (2 ^ 16) with 65536; change (2 ^ 32) with 4294967296; change (2 ^ 64) with 18446744073709551616; lia.
Qed.
Lemma at_ok_sees w c args p r : at_ok w (p, r) = true ->
  enter c w args r mod 2 ^ bits p = nth (pos r) args 0 mod 2 ^ bits p.
Proof.
  unfold at_ok, enter; cbn [fst snd]. destruct (operand (w_form w) r) as [i|]; [|discriminate].
  intros H. apply andb_prop in H. destruct H as [H1 H2]. apply Nat.eqb_eq in H1; subst i.
  destruct (variable (w_form w) r); [apply u64_cval|apply content_cval]; exact H2.
Qed.

Lemma meant_nth ps args : (length ps <= length args)%nat -> (length ps <= 6)%nat ->
  meant ps args = map (fun x => nth (pos (snd x)) args 0 mod 2 ^ bits (fst x)) (combine ps kregs).
Proof.
  intros H H6. unfold meant, kregs.
  destruct ps as [|p0 [|p1 [|p2 [|p3 [|p4 [|p5 [|]]]]]]]; cbn [length] in *; try lia;
  destruct args as [|a0 [|a1 [|a2 [|a3 [|a4 [|a5 args]]]]]]; cbn [length] in *; try lia; reflexivity.
Qed.

Lemma good_passes w nr ps : good w ps = true -> w_nr w = nr -> (length ps <= length (w_types w))%nat ->
  (length ps <= 6)%nat -> passes w nr ps.
Proof.
  intros G E L L6. split; [exact E|]. split; [exact L|]. intros c args H.
  rewrite meant_nth by lia. unfold sees. apply map_ext_in. intros [p r] Hin. cbn [fst snd].
  apply at_ok_sees. unfold good in G. rewrite forallb_forall in G. apply (G _ Hin).
Qed.

(* the counterexamples *)
Definition pick (i : nat) (ps : list param) : param * reg := nth i (combine ps kregs) (P16, RDI).
Lemma map_pick {A} (f : A -> Z) l i d : (i < length l)%nat -> nth i (map f l) 0 = f (nth i l d).
Proof.
  intros H. rewrite (nth_indep _ 0 (f d)) by (rewrite map_length; exact H). apply map_nth.
Qed.
Lemma sees_pick i ps rs : (i < length (combine ps kregs))%nat ->
  nth i (sees ps rs) 0 = rs (snd (pick i ps)) mod 2 ^ bits (fst (pick i ps)).
Proof.
  intros H. unfold sees, pick. exact (map_pick (fun x => rs (snd x) mod 2 ^ bits (fst x)) _ i (P16, RDI) H).
Qed.
(* a register the kernel reads is left to the compiler *)
Definition loose (w : wrapper) (ps : list param) : bool :=
  existsb (fun x => match operand (w_form w) (snd x) with None => true | _ => false end) (combine ps kregs).
Lemma loose_differs w ps : loose w ps = true -> forall args, exists c c', sees ps (enter c w args) <> sees ps (enter c' w args).
Proof.
  unfold loose. rewrite existsb_exists. intros [[p r] [Hin Ho]] args. cbn [snd] in Ho.
  destruct (operand (w_form w) r) eqn:E; [discriminate|].
  exists (mkc (fun _ => 0) (fun _ => 0)), (mkc (fun _ => 0) (fun _ => 1)). intros X.
  destruct (In_nth _ _ (P16, RDI) Hin) as (i & Hi & Hn).
  assert (Y := f_equal (fun l => nth i l 0) X). cbv beta in Y. rewrite !sees_pick in Y by exact Hi.
  unfold pick in Y. rewrite Hn in Y. cbn [fst snd] in Y. unfold enter in Y. rewrite E in Y. cbn [rest] in Y.
  destruct p; vm_compute in Y; discriminate.
Qed.
(* a parameter of 64 bits is cut *)
Definition cut (w : wrapper) (x : param * reg) : bool :=
  match operand (w_form w) (snd x) with
  | Some i => (i =? pos (snd x))%nat && negb (wide (fst x) (nth i (w_types w) Long))
  | None => false
  end.
Definition cuts (w : wrapper) (ps : list param) : bool := existsb (cut w) (combine ps kregs).
Lemma nth_repeat_in {A} (a d : A) n i : (i < n)%nat -> nth i (repeat a n) d = a.
Proof. revert i; induction n as [|n IH]; intros [|i] H; cbn; try lia; auto. apply IH; lia. Qed.
Lemma cuts_differs w ps : cuts w ps = true -> (length ps <= length (w_types w))%nat -> (length ps <= 6)%nat ->
  exists args c, length args = length (w_types w) /\ (forall a, In a args -> a = 2 ^ 32) /\ usual c w args /\
    sees ps (enter c w args) <> meant ps args.
Proof.
  unfold cuts. rewrite existsb_exists. intros [[p r] [Hin Ho]] L L6. unfold cut in Ho. cbn [fst snd] in Ho.
  destruct (operand (w_form w) r) as [j|] eqn:E; [|discriminate].
  apply andb_prop in Ho. destruct Ho as [Hj Hw]. apply Nat.eqb_eq in Hj; subst j.
  set (n := length (w_types w)). set (args := repeat (2 ^ 32) n).
  set (c := mkc (fun _ => 0) (fun r => cval (nth (pos r) (w_types w) Long) (nth (pos r) args 0))).
  exists args, c. split; [apply repeat_length|]. split; [intros a Ha; apply (repeat_spec n _ a Ha)|].
  split.
  { split; [reflexivity|]. intros q i Hv. cbn [rest c].
    assert (i = pos q); [|subst; reflexivity].
    unfold variable in Hv. destruct q; try discriminate; destruct (_ <? _)%nat; now inversion Hv. }
  rewrite meant_nth; [|unfold args; rewrite repeat_length; exact L|exact L6]. intros X.
  destruct (In_nth _ _ (P16, RDI) Hin) as (i & Hi & Hn).
  assert (Y := f_equal (fun l => nth i l 0) X). cbv beta in Y. rewrite sees_pick in Y by exact Hi.
  unfold pick in Y. rewrite Hn in Y. cbn [fst snd] in Y.
  rewrite (map_pick (fun x => nth (pos (snd x)) args 0 mod 2 ^ bits (fst x)) _ i (P16, RDI) Hi), Hn in Y. cbn [fst snd] in Y.
  assert (pos r < length ps)%nat as Hr.
  { unfold kregs in Hin. clear -Hin L6.
    destruct ps as [|p0 [|p1 [|p2 [|p3 [|p4 [|p5 [|]]]]]]]; cbn [length combine In] in *; try lia;
    repeat (destruct Hin as [Hin|Hin]; [inversion Hin; subst; cbn; lia|]); contradiction. }
  unfold enter in Y. rewrite E in Y. unfold args in Y. rewrite nth_repeat_in in Y by (unfold n; lia).
  cbn [upper c] in Y.
  destruct p; cbn [wide negb] in Hw; try discriminate.
  destruct (nth (pos r) (w_types w) Long); try discriminate;
  destruct (variable (w_form w) r); vm_compute in Y; discriminate.
Qed.

(* the usual compiler *)
Definition at_var (w : wrapper) (x : param * reg) : bool :=
  match operand (w_form w) (snd x) with
  | Some i => (i =? pos (snd x))%nat
  | None => match variable (w_form w) (snd x) with Some i => (i =? pos (snd x))%nat | None => false end
  end.
Definition reached (w : wrapper) (ps : list param) : bool := forallb (at_var w) (combine ps kregs).
Lemma cval_small t v : 0 <= v <= INT_MAX -> cval t v = v.
Proof. intros H. destruct t; cbn; [apply s32_small|apply u32_small|apply s64_small]; unfold INT_MAX, INT_MIN, LONG_MAX, LONG_MIN in *; lia. Qed.
Lemma reached_sees w ps c args : reached w ps = true -> usual c w args -> (length ps <= length args)%nat -> (length ps <= 6)%nat ->
  (forall a, In a args -> 0 <= a <= INT_MAX) -> sees ps (enter c w args) = meant ps args.
Proof.
  intros R [U V] L L6 A. rewrite meant_nth by lia. unfold sees. apply map_ext_in. intros [p r] Hin. cbn [fst snd].
  unfold reached in R. rewrite forallb_forall in R. specialize (R _ Hin). unfold at_var in R. cbn [snd] in R.
  assert (N : 0 <= nth (pos r) args 0 <= INT_MAX).
  { destruct (Nat.lt_ge_cases (pos r) (length args)).
    - apply A, nth_In; lia.
    - rewrite nth_overflow by lia. unfold INT_MAX; lia. }
  f_equal. unfold enter. destruct (operand (w_form w) r) as [i|] eqn:E.
  - apply Nat.eqb_eq in R; subst i. rewrite cval_small by exact N. destruct (variable _ _).
    + apply u64_small. unfold INT_MAX in N. lia.
    + rewrite U. unfold content. change (2 ^ 32 * u32 0) with 0. destruct (nth (pos r) (w_types w) Long); rewrite ?u32_small, ?u64_small; unfold INT_MAX in N; lia.
  - destruct (variable (w_form w) r) as [i|] eqn:F; [|discriminate]. apply Nat.eqb_eq in R; subst i.
    rewrite (V _ _ F), cval_small by exact N. apply u64_small. unfold INT_MAX in N. lia.
Qed.
