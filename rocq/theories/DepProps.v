(* C180: minilib.h selects everything that the selected functions need.  C181: the generator of it. *)
From Coq Require Import String Permutation.
From Verif Require Import Base BaseLemmas DepModel.
Local Open Scope string_scope.
Local Open Scope list_scope.

(* what a selection needs: itself and, again and again, what the table lists for something needed *)
Inductive needs (table : list block) (s : list string) : string -> Prop :=
| given n : In n s -> needs table s n
| dependency a ds n : needs table s a -> In (a, ds) table -> In n ds -> needs table s n.

Lemma defined_In n s : defined n s = true <-> In n s.
Proof.
  unfold defined. rewrite existsb_exists. split; [intros (x & I & E)|intros I; exists n; split; [exact I|apply String.eqb_refl]].
  apply String.eqb_eq in E. now subst.
Qed.
Lemma define_In n s x : In x (define s n) <-> x = n \/ In x s.
Proof.
  unfold define. destruct (defined n s) eqn:D; [|cbn [In]; intuition congruence]. apply defined_In in D. split; [auto|]. intros [->|]; assumption.
Qed.
Lemma defines_In ds : forall s x, In x (fold_left define ds s) <-> In x s \/ In x ds.
Proof.
  induction ds as [|d ds IH]; intros s x; cbn [fold_left In]; [tauto|]. rewrite IH, define_In. intuition congruence.
Qed.
Lemma read_In b s x : In x (read_block s b) <-> In x s \/ (In (fst b) s /\ In x (snd b)).
Proof.
  unfold read_block. destruct (defined (fst b) s) eqn:D; [apply defined_In in D; rewrite defines_In; tauto|].
  split; [tauto|]. intros [|[I _]]; [assumption|]. apply defined_In in I. congruence.
Qed.
(* from one name: what the blocks give, in their order *)
Fixpoint reach (bs : list block) (a x : string) : Prop :=
  match bs with
  | [] => a = x
  | b :: bs => reach bs a x \/ (a = fst b /\ exists c, In c (snd b) /\ reach bs c x)
  end.
Lemma run_In bs : forall s x, In x (fold_left read_block bs s) <-> exists a, In a s /\ reach bs a x.
Proof.
  induction bs as [|b bs IH]; intros s x; cbn [fold_left reach].
  - split; [intros I; exists x; auto|intros (a & I & ->); exact I].
  - rewrite IH. split.
    + intros (a & I & R). apply read_In in I as [I|[I J]]; [exists a; auto|]. exists (fst b). split; [exact I|]. right. split; [reflexivity|]. exists a. auto.
    + intros (a & I & [R|[-> (c & J & R)]]); [exists a|exists c]; (split; [apply read_In|exact R]); auto.
Qed.
Lemma run_needs table bs : incl bs table -> forall s x, In x (fold_left read_block bs s) -> needs table s x.
Proof.
  intros H s. assert (G : forall bs, incl bs table -> forall t, (forall y, In y t -> needs table s y) -> forall x, In x (fold_left read_block bs t) -> needs table s x).
  { clear. induction bs as [|[b ds] bs IH]; intros Hi t Ht x I; cbn [fold_left] in I; [auto|].
    apply (IH (fun y Hy => Hi y (or_intror Hy)) _ ) in I; [exact I|]. intros y Hy. apply read_In in Hy as [Hy|[Ha Hy]]; [auto|]. cbn [fst snd] in *.
    eapply dependency; [apply Ht; exact Ha|apply Hi; left; reflexivity|exact Hy]. }
  intros x. apply (G bs H s). intros y Hy. constructor. exact Hy.
Qed.

Lemma reach_self bs a : reach bs a a.
Proof. induction bs as [|b bs IH]; cbn [reach]; auto. Qed.
Lemma twice_incl (A B : list block) : incl (A ++ B ++ B) (A ++ B).
Proof. intros x H. rewrite !in_app_iff in *. tauto. Qed.
Lemma twice_incl' (A B : list block) : incl (A ++ B) (A ++ B ++ B).
Proof. intros x H. rewrite !in_app_iff in *. tauto. Qed.
Definition closedb (table : list block) (s : switches) : bool :=
  forallb (fun b : block => negb (defined (fst b) s) || forallb (fun d => defined d s) (snd b)) table.
Lemma closedb_ok table s a ds n : closedb table s = true -> In a s -> In (a, ds) table -> In n ds -> In n s.
Proof.
  intros C A T N. unfold closedb in C. pose proof (proj1 (forallb_forall _ _) C _ T) as B. cbn [fst snd] in B. apply defined_In in A. rewrite A in B. cbn [negb orb] in B.
  apply defined_In. exact (proj1 (forallb_forall _ _) B _ N).
Qed.
Lemma reach_other bs a x : (forall b, In b bs -> fst b <> a) -> reach bs a x -> x = a.
Proof.
  induction bs as [|b bs IH]; cbn [reach]; intros H R; [auto|]. destruct R as [R|[E _]]; [apply IH; [intros c I; apply H; right; exact I|exact R]|].
  destruct (H b (or_introl eq_refl)). auto.
Qed.
(* if the selection of every single name of the table is closed, every selection is complete *)
Lemma complete table bs bad : incl bs table ->
  forallb (fun b : block => defined (fst b) bad || closedb table (fold_left read_block bs [fst b])) table = true ->
  forall s, (forall x, In x s -> ~ In x bad) -> forall n, needs table s n -> In n (fold_left read_block bs s).
Proof.
  intros Hi Hc s F n N. induction N as [n I|a ds n N IH T D].
  - apply run_In. exists n. split; [exact I|apply reach_self].
  - apply run_In in IH as (x & X & R). apply run_In. exists x. split; [exact X|].
    assert (A : In a (fold_left read_block bs [x])) by (apply run_In; exists x; split; [left; reflexivity|exact R]).
    assert (C : In n (fold_left read_block bs [x])); [|apply run_In in C as (y & [<-|[]] & C); exact C].
    destruct (existsb (fun b : block => String.eqb (fst b) x) table) eqn:E.
    + apply existsb_exists in E as (b & B & E). apply String.eqb_eq in E. subst x. pose proof (proj1 (forallb_forall _ _) Hc b B) as K. cbv beta in K.
      apply orb_prop in K as [K|K]; [apply defined_In in K; destruct (F _ X K)|]. eapply closedb_ok; eauto.
    + exfalso. assert (a = x).
      { apply reach_other in R; [exact R|]. intros b B Eb. assert (existsb (fun b : block => String.eqb (fst b) x) table = true); [|congruence].
        apply existsb_exists. exists b. split; [apply Hi; exact B|]. subst x. apply String.eqb_refl. }
      subst a. assert (existsb (fun b : block => String.eqb (fst b) x) table = true); [|congruence].
      apply existsb_exists. exists (x, ds). split; [exact T|apply String.eqb_refl].
Qed.
(* a way of dependencies through the table *)
Fixpoint way (table : list block) (a : string) (p : list string) (n : string) : bool :=
  match p with
  | [] => String.eqb a n
  | b :: p => existsb (fun r : block => String.eqb (fst r) a && defined b (snd r)) table && way table b p n
  end.
Lemma way_needs table s n : forall p a, needs table s a -> way table a p n = true -> needs table s n.
Proof.
  induction p as [|b p IH]; intros a A K; cbn [way] in K; [apply String.eqb_eq in K; subst; exact A|].
  apply andb_prop in K as [K L]. apply (IH b); [|exact L]. apply existsb_exists in K as ([r ds] & R & K). cbn [fst snd] in K. apply andb_prop in K as [Ka Kb].
  apply String.eqb_eq in Ka. subst r. apply defined_In in Kb. eapply dependency; eauto.
Qed.
Lemma missing table bs x p n : way table x p n && negb (defined n (fold_left read_block bs [x])) = true ->
  needs table [x] n /\ ~ In n (fold_left read_block bs [x]).
Proof.
  intros H. apply andb_prop in H as [H K]. split.
  - eapply way_needs; [|exact H]. constructor. left. reflexivity.
  - intros I. apply defined_In in I. rewrite I in K. discriminate.
Qed.

(* the selection stays, and nothing is selected that is not needed *)
Theorem C180_only : forall s n, (In n s -> In n (minilib_h s)) /\ (In n (minilib_h s) -> needs (top ++ deps) s n).
Proof.
  intros s n. split.
  - intros I. apply run_In. exists n. split; [exact I|apply reach_self].
  - unfold minilib_h. apply run_needs. apply twice_incl.
Qed.
Print Assumptions C180_only.

(* the five switches for which the two passes are not enough *)
Definition five : list string := ["opendir"; "closedir"; "getgrouplist"; "getgroups"; "group_print"].
Lemma table_closed : forallb (fun b : block => defined (fst b) five || closedb (top ++ deps) (fold_left read_block (top ++ deps ++ deps) [fst b])) (top ++ deps) = true.
Proof. vm_compute. reflexivity. Qed.
(* every set of selected functions without those five: everything that is needed is selected *)
Theorem C180_all_partial : forall s, (forall x, In x s -> ~ In x five) -> forall n, needs (top ++ deps) s n -> In n (minilib_h s).
Proof. exact (complete (top ++ deps) (top ++ deps ++ deps) five (twice_incl top deps) table_closed). Qed.
Print Assumptions C180_all_partial.
(* The full claim is false: each of the five alone needs something that is not selected.  opendir and
   closedir: sys_brk, the system call under malloc; getgrouplist and getgroups: userdb, the variables of
   the databases; group_print: globals *)
Theorem C180_all_refuted : forall x, In x five -> exists n, needs (top ++ deps) [x] n /\ ~ In n (minilib_h [x]).
Proof.
  intros x [<-|[<-|[<-|[<-|[<-|[]]]]]].
  - exists "sys_brk". refine (missing (top ++ deps) (top ++ deps ++ deps) _ ["free"; "brk"; "sys_brk"] _ _). vm_compute. reflexivity.
  - exists "sys_brk". refine (missing (top ++ deps) (top ++ deps ++ deps) _ ["free"; "brk"; "sys_brk"] _ _). vm_compute. reflexivity.
  - exists "userdb". refine (missing (top ++ deps) (top ++ deps ++ deps) _ ["getusergroups"; "getgrent"; "userdb"] _ _). vm_compute. reflexivity.
  - exists "userdb". refine (missing (top ++ deps) (top ++ deps ++ deps) _ ["getusergroups"; "getgrent"; "userdb"] _ _). vm_compute. reflexivity.
  - exists "globals". refine (missing (top ++ deps) (top ++ deps ++ deps) _ ["puts"; "printf"; "fprintf"; "globals"] _ _). vm_compute. reflexivity.
Qed.
Print Assumptions C180_all_refuted.
Example C180_case : (forall x, In x ["setenv"; "puts"] -> ~ In x five) /\ needs (top ++ deps) ["setenv"; "puts"] "globals" /\
  defined "globals" (minilib_h ["setenv"; "puts"]) = true /\ defined "strtok" (minilib_h ["setenv"; "puts"]) = false.
Proof.
  split; [intros x [<-|[<-|[]]]; vm_compute; intuition discriminate|]. split; [|vm_compute; split; reflexivity].
  apply (way_needs _ _ "globals" ["printf"; "fprintf"; "globals"] "puts"); [constructor; right; left; reflexivity|vm_compute; reflexivity].
Qed.

(* C181: the headers that the generator writes for any table in any order *)
(* n is needed through at most k dependencies *)
Inductive needs_in (table : list block) (s : list string) : nat -> string -> Prop :=
| in_given k n : In n s -> needs_in table s k n
| in_dependency k a ds n : needs_in table s k a -> In (a, ds) table -> In n ds -> needs_in table s (S k) n.
Lemma run_mono bs : forall s t, incl s t -> incl (fold_left read_block bs s) (fold_left read_block bs t).
Proof. intros s t H x I. apply run_In in I as (a & A & R). apply run_In. exists a. auto. Qed.
Lemma one_pass table s a ds n : In a s -> In (a, ds) table -> In n ds -> In n (fold_left read_block table s).
Proof.
  intros A T N. apply run_In. exists a. split; [exact A|]. clear A. induction table as [|b bs IH]; [destruct T|]. cbn [reach]. destruct T as [->|T]; [|left; auto].
  right. split; [reflexivity|]. exists n. split; [exact N|apply reach_self].
Qed.
Lemma keep bs s : incl s (fold_left read_block bs s).
Proof. intros n I. apply run_In. exists n. split; [exact I|apply reach_self]. Qed.
(* whatever the order: what is needed through one or two dependencies is selected, and nothing that is
   not needed *)
Theorem C181_two_partial : forall order s n,
  (needs_in order s 2 n -> In n (read_header (generated order) s)) /\ (In n (read_header (generated order) s) -> needs order s n).
Proof.
  intros order s n. unfold read_header, generated. split.
  - assert (One : forall s n, needs_in order s 1 n -> In n (fold_left read_block order s)).
    { intros t m H. inversion H as [|k a ds x N T I]; subst; [apply keep; assumption|]. inversion N; subst. eapply one_pass; eauto. }
    intros H. rewrite fold_left_app. inversion H as [k x I|k a ds x N T I]; subst; [apply keep, keep; exact I|].
    eapply one_pass; [apply One; exact N|exact T|exact I].
  - apply run_needs. intros x. rewrite in_app_iff. tauto.
Qed.
Print Assumptions C181_two_partial.
(* everything is selected if no block stands behind the block of a switch that it defines *)
Definition forward (order : list block) : Prop :=
  NoDup (map fst order) /\
  forall l a ds r b es, order = l ++ (a, ds) :: r -> In b ds -> In (b, es) order -> In (b, es) r.
Lemma unique (order : list block) a ds es : NoDup (map fst order) -> In (a, ds) order -> In (a, es) order -> ds = es.
Proof.
  induction order as [|[b fs] o IH]; cbn [map fst In]; intros N D E; [destruct D|]. inversion N as [|x y Nb No]; subst.
  destruct D as [D|D], E as [E|E]; [congruence| | |auto].
  - injection D as -> _. destruct Nb. apply in_map_iff. exists (a, es). auto.
  - injection E as -> _. destruct Nb. apply in_map_iff. exists (a, ds). auto.
Qed.
Lemma needs_from table s n : needs table s n -> exists a, In a s /\ needs table [a] n.
Proof.
  intros N. induction N as [n I|a ds n N (c & C & IH) T I]; [exists n; split; [exact I|constructor; left; reflexivity]|]. exists c. split; [exact C|]. eapply dependency; eauto.
Qed.
Lemma needs_first table a x : needs table [a] x -> x = a \/ exists c ds, In (a, ds) table /\ In c ds /\ needs table [c] x.
Proof.
  intros R. induction R as [x [<-|[]]|c ds x R IH T I]; [left; reflexivity|]. right. destruct IH as [->|(d & fs & D & Id & Nd)].
  - exists x, ds. split; [exact T|]. split; [exact I|]. constructor. left. reflexivity.
  - exists d, fs. split; [exact D|]. split; [exact Id|]. eapply dependency; eauto.
Qed.
Theorem C181_forward : forall order s n, forward order -> needs order s n -> In n (read_header (generated order) s).
Proof.
  intros order s n [ND F] N. unfold read_header, generated. rewrite fold_left_app. apply keep.
  assert (G : forall r l, order = l ++ r -> forall a x, (forall ds, In (a, ds) order -> In (a, ds) r) -> needs order [a] x -> reach r a x).
  { induction r as [|[b es] r IH]; intros l E a x H R.
    - cbn [reach]. destruct (needs_first _ _ _ R) as [->|(c & ds & T & _)]; [reflexivity|destruct (H ds T)].
    - cbn [reach]. destruct (string_dec a b) as [->|Ne].
      + destruct (needs_first _ _ _ R) as [->|(c & ds & T & Ic & Nc)]; [left; apply reach_self|].
        assert (ds = es) as ->. { eapply unique; [exact ND|exact T|]. rewrite E. apply in_app_iff. right. left. reflexivity. }
        right. split; [reflexivity|]. exists c. split; [exact Ic|]. apply (IH (l ++ [(b, es)])); [rewrite E, <- app_assoc; reflexivity| |exact Nc].
        intros fs Hf. eapply F; eauto.
      + left. apply (IH (l ++ [(b, es)])); [rewrite E, <- app_assoc; reflexivity| |exact R]. intros ds T. destruct (H ds T) as [K|K]; [injection K as -> _; congruence|exact K]. }
  destruct (needs_from _ _ _ N) as (a & A & R). apply run_In. exists a. split; [exact A|]. apply (G order [] eq_refl); auto.
Qed.
Print Assumptions C181_forward.
(* the claim for all tables and orders is false: a chain of three dependencies in the reverse order *)
Theorem C181_order_refuted : exists order s n, NoDup (map fst order) /\ needs order s n /\ ~ In n (read_header (generated order) s).
Proof.
  exists [("c", ["d"]); ("b", ["c"]); ("a", ["b"])], ["a"], "d". split; [repeat constructor; cbn; intuition discriminate|].
  apply (missing _ (generated [("c", ["d"]); ("b", ["c"]); ("a", ["b"])]) "a" ["b"; "c"; "d"] "d"). vm_compute. reflexivity.
Qed.
Print Assumptions C181_order_refuted.
Example C181_case : forward [("a", ["b"; "c"]); ("b", ["c"]); ("c", ["d"])] /\ needs_in [("b", ["c"]); ("a", ["b"])] ["a"] 2 "c".
Proof.
  split.
  - split; [repeat constructor; cbn; intuition discriminate|]. intros l a ds r b es E D I.
    destruct l as [|x [|y [|z l]]]; cbn [app] in E; injection E; intros; subst; cbn [In] in *;
      repeat match goal with H : _ \/ _ |- _ => destruct H end; try congruence; try tauto.
    all: try (destruct l; discriminate). all: auto.
  - apply (in_dependency _ _ 1 "b" ["c"]); [|left; reflexivity|left; reflexivity]. apply (in_dependency _ _ 0 "a" ["b"]); [|right; left; reflexivity|left; reflexivity].
    constructor. left. reflexivity.
Qed.
