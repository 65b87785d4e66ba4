(* C149: the system call wrappers pass their arguments to the kernel. *)
From Verif Require Import Base BaseLemmas CallModel CallSpec CallProofs.
From Coq Require Import Lia ZifyBool.
Local Open Scope string_scope.
Local Open Scope list_scope.
Local Open Scope Z_scope.

(* what is checked of each wrapper of the tables *)
Definition mem (n : String.string) (l : list String.string) : bool := existsb (String.eqb n) l.
Lemma mem_In n l : mem n l = true <-> In n l.
Proof.
  unfold mem. rewrite existsb_exists. split.
  - intros (x & Hx & E). apply String.eqb_eq in E. now subst.
  - intros H. exists n. split; [exact H|apply String.eqb_refl].
Qed.
Definition small (w : wrapper) (ps : list param) : bool :=
  (length ps <=? length (w_types w))%nat && (length ps <=? 6)%nat.
Definition check (w : wrapper) : bool :=
  match lookup (w_sys w) linux with
  | None => false
  | Some (nr, ps) =>
      let bad := mem (w_name w) (narrowed ++ unlisted ++ short ++ wrong) in
      (bad || ((w_nr w =? nr) && small w ps && good w ps)) &&
      (negb (mem (w_name w) narrowed) || (small w ps && cuts w ps)) &&
      (negb (mem (w_name w) unlisted) || loose w ps) &&
      (negb (mem (w_name w) short) || ((length (w_types w) <? length ps)%nat && loose w ps)) &&
      (negb (mem (w_name w) wrong) || negb (w_nr w =? nr)) &&
      (mem (w_name w) (short ++ wrong) || (small w ps && (w_nr w =? nr) && reached w ps))
  end.
Lemma all_checked w : In w wrappers -> check w = true.
Proof. revert w. apply forallb_forall. vm_compute. reflexivity. Qed.

Ltac checked H := apply all_checked in H; unfold check in H;
  destruct (lookup _ linux) as [[nr ps]|] eqn:L; [|discriminate];
  repeat match type of H with (_ && _ = true) => apply andb_prop in H; let X := fresh "K" in destruct H as [H X] end.
Ltac sm H := unfold small in H; rewrite andb_true_iff, !Nat.leb_le in H; destruct H.

(* every wrapper but 58 passes every argument, whatever the compiler does *)
Theorem C149_arguments_partial : forall w, In w wrappers ->
  ~ In (w_name w) (narrowed ++ unlisted ++ short ++ wrong) ->
  exists nr ps, lookup (w_sys w) linux = Some (nr, ps) /\ passes w nr ps.
Proof.
  intros w H N. checked H. exists nr, ps. split; [reflexivity|].
  rewrite <- mem_In in N. apply not_true_is_false in N. cbv zeta in H. rewrite N in H. cbn [orb] in H.
  rewrite !andb_true_iff in H. destruct H as [[E S] G]. apply Z.eqb_eq in E. sm S. apply good_passes; assumption.
Qed.
Print Assumptions C149_arguments_partial.
Example C149_arguments_case : exists w, In w wrappers /\ w_name w = "rt_sigaction" /\ length (w_types w) = 4%nat /\
  ~ In (w_name w) (narrowed ++ unlisted ++ short ++ wrong).
Proof.
  exists (mkw "rt_sigaction" "rt_sigaction" 13 [Int;Long;Long;Long] (Ret 4)).
  split; [|split; [reflexivity|split; [reflexivity|]]].
  - unfold wrappers. apply in_or_app. left. unfold stubs. repeat first [left; reflexivity | right].
  - rewrite <- mem_In. vm_compute. discriminate.
Qed.

(* with a compiler that keeps the register variables and clears the upper halves all
   wrappers but clone, add_key, io_getevents and mremap do so for small arguments *)
Theorem C149_usual : forall w, In w wrappers -> ~ In (w_name w) (short ++ wrong) ->
  exists nr ps, lookup (w_sys w) linux = Some (nr, ps) /\ w_nr w = nr /\
  forall c args, length args = length (w_types w) -> (forall a, In a args -> 0 <= a <= INT_MAX) -> usual c w args ->
    sees ps (enter c w args) = meant ps args.
Proof.
  intros w H N. checked H. exists nr, ps. split; [reflexivity|].
  rewrite <- mem_In in N. apply not_true_is_false in N. rewrite N in K. cbn [orb] in K.
  rewrite !andb_true_iff in K. destruct K as [[S E] R]. apply Z.eqb_eq in E. sm S. split; [exact E|].
  intros c args La A U. apply reached_sees; try assumption. rewrite La. assumption.
Qed.
Print Assumptions C149_usual.
(* mount with five arguments *)
Example C149_usual_case : let w := mkw "mount" "mount" 165 [Long;Long;Long;Long;Long] (Ret 5) in
  In w wrappers /\ ~ In (w_name w) (short ++ wrong) /\
  usual (mkc (fun _ => 0) (fun r => nth (pos r) [1000;2000;3000;4;5000] 0)) w [1000;2000;3000;4;5000].
Proof.
  cbv zeta. split; [|split].
  - unfold wrappers. apply in_or_app. left. unfold stubs. repeat first [left; reflexivity | right].
  - rewrite <- mem_In. vm_compute. discriminate.
  - split; [reflexivity|]. intros r i Hv. destruct r; inversion Hv; reflexivity.
Qed.

(* lseek, ftruncate, read, write, mprotect and sys_arch_prctl cut an argument: 2^32
   becomes 0 even with the usual compiler *)
Theorem C149_narrowed_refuted : forall w, In w wrappers -> In (w_name w) narrowed ->
  exists nr ps args c, lookup (w_sys w) linux = Some (nr, ps) /\ length args = length (w_types w) /\
    (forall a, In a args -> a = 2 ^ 32) /\ usual c w args /\ sees ps (enter c w args) <> meant ps args.
Proof.
  intros w H N. checked H. rewrite <- mem_In in N. rewrite N in K3. cbn [negb orb] in K3.
  apply andb_prop in K3. destruct K3 as [S C]. sm S. destruct (cuts_differs w ps C) as (args & c & X); try assumption.
  exists nr, ps, args, c. split; [reflexivity|exact X].
Qed.
Print Assumptions C149_narrowed_refuted.
Example C149_narrowed_case : exists w, In w wrappers /\ w_name w = "lseek" /\ In (w_name w) narrowed.
Proof.
  exists (mkw "lseek" "lseek" 8 [Uint;Int;Int] (Ret 3)). split; [|split; [reflexivity|rewrite <- mem_In; reflexivity]].
  unfold wrappers. apply in_or_app. left. unfold stubs. repeat first [left; reflexivity | right].
Qed.

(* the wrappers with five or six arguments do not tell the compiler which registers they
   need: what the kernel gets is up to the compiler *)
Theorem C149_unlisted_refuted : forall w, In w wrappers -> In (w_name w) unlisted ->
  exists nr ps, lookup (w_sys w) linux = Some (nr, ps) /\
    forall args, exists c c', sees ps (enter c w args) <> sees ps (enter c' w args).
Proof.
  intros w H N. checked H. rewrite <- mem_In in N. rewrite N in K2. cbn [negb orb] in K2.
  exists nr, ps. split; [reflexivity|]. apply loose_differs. exact K2.
Qed.
Print Assumptions C149_unlisted_refuted.
Example C149_unlisted_case : exists w, In w wrappers /\ w_name w = "setsockopt" /\ In (w_name w) unlisted.
Proof.
  exists (mkw "setsockopt" "setsockopt" 54 [Int;Int;Int;Long;Int] (Ret 5)). split; [|split; [reflexivity|rewrite <- mem_In; reflexivity]].
  unfold wrappers. apply in_or_app. left. unfold stubs. repeat first [left; reflexivity | right].
Qed.

(* clone, sys_clone, sys_add_key, sys_io_getevents: the last argument of the kernel can't
   be given, what is in its register counts *)
Theorem C149_short_refuted : forall w, In w wrappers -> In (w_name w) short ->
  exists nr ps, lookup (w_sys w) linux = Some (nr, ps) /\ (length (w_types w) < length ps)%nat /\
    forall args, exists c c', sees ps (enter c w args) <> sees ps (enter c' w args).
Proof.
  intros w H N. checked H. rewrite <- mem_In in N. rewrite N in K1. cbn [negb orb] in K1.
  apply andb_prop in K1. destruct K1 as [K1 K5]. apply Nat.ltb_lt in K1.
  exists nr, ps. split; [reflexivity|]. split; [exact K1|]. apply loose_differs. exact K5.
Qed.
Print Assumptions C149_short_refuted.
Example C149_short_case : exists w, In w wrappers /\ w_name w = "clone" /\ In (w_name w) short.
Proof.
  exists (mkw "clone" "clone" 56 [Int;Long;Long;Long] (Ret 4)). split; [|split; [reflexivity|rewrite <- mem_In; reflexivity]].
  unfold wrappers. apply in_or_app. left. unfold stubs. repeat first [left; reflexivity | right].
Qed.

(* mremap calls select *)
Theorem C149_mremap_refuted : exists w, In w wrappers /\ w_name w = "mremap" /\
  option_map fst (lookup "mremap" linux) <> Some (w_nr w) /\ option_map fst (lookup "select" linux) = Some (w_nr w).
Proof.
  exists (mkw "mremap" "mremap" 23 [Long;Long;Long;Int;Long] (Full 5)). split; [|split; [reflexivity|split; [vm_compute; discriminate|reflexivity]]].
  unfold wrappers. apply in_or_app. right. apply in_or_app. right. right. left. reflexivity.
Qed.
Print Assumptions C149_mremap_refuted.

(* mmap: a descriptor of -1 becomes 0, the standard input is mapped instead of an error *)
Theorem C149_mmap_usual : forall c addr len prot flags fd off,
  LONG_MIN <= addr <= LONG_MAX -> LONG_MIN <= len <= LONG_MAX -> LONG_MIN <= off <= LONG_MAX ->
  0 <= prot <= INT_MAX -> 0 <= flags <= INT_MAX -> 0 <= fd <= INT_MAX -> (forall r, upper c r = 0) ->
  exists nr ps, lookup "mmap" linux = Some (nr, ps) /\ w_nr mmap_wrapper = nr /\
    sees ps (enter c mmap_wrapper (mmap_args addr len prot flags fd off)) = meant ps [addr; len; prot; flags; fd; off].
Proof.
  intros c addr len prot flags fd off Ha Hl Ho Hp Hf Hd U.
  exists 9, [P64;P64;P64;P64;P64;P64]. split; [reflexivity|]. split; [reflexivity|].
  unfold mmap_args. replace (s32 fd <? 0) with false by (rewrite s32_small; unfold INT_MAX, INT_MIN in *; lia).
  unfold sees, meant, kregs, enter, mmap_wrapper. cbn [combine map fst snd bits w_form w_types operand variable pos nth Nat.ltb Nat.leb].
  rewrite !U. cbn [cval content]. change (2 ^ 32 * u32 0) with 0. change (2 ^ 64) with 18446744073709551616.
  unfold u64, u32, s32, s64, INT_MAX, INT_MIN, LONG_MAX, LONG_MIN in *.
  repeat (apply f_equal2; [Z.div_mod_to_equations; lia|]). reflexivity.
Qed.
Print Assumptions C149_mmap_usual.
Theorem C149_mmap_refuted : exists c nr ps, lookup "mmap" linux = Some (nr, ps) /\ usual c mmap_wrapper (mmap_args 0 4096 1 2 (-1) 0) /\
  nth 4 (sees ps (enter c mmap_wrapper (mmap_args 0 4096 1 2 (-1) 0))) 7 = 0.
Proof.
  exists (mkc (fun _ => 0) (fun r => nth (pos r) [0;4096;1;2;0;0] 0)), 9, [P64;P64;P64;P64;P64;P64].
  split; [reflexivity|]. split; [|vm_compute; reflexivity].
  split; [reflexivity|]. intros r i Hv. destruct r; inversion Hv; reflexivity.
Qed.
Print Assumptions C149_mmap_refuted.
