(* C165: endpwent and endgrent give back what the database functions took. *)
From Verif Require Import Base BaseLemmas PageModel UdbModel.
Ltac Zify.zify_post_hook ::= Z.div_mod_to_equations.

(* the kernel opens a descriptor that is free and not 0, the file has between 1 and max bytes, the mapping
   is placed at pages that are free; or mmap fails *)
Definition sane (max : Z) (p : proc) (r : option answer) : Prop :=
  match r with
  | None => True
  | Some r => 0 < r_fd r /\ ~ In (r_fd r) (p_fds p) /\ 0 < r_size r <= max /\
      match r_addr r with
      | inl a => 0 < a /\ a mod 4096 = 0 /\ forall x, a / 4096 <= x < a / 4096 + page_count (r_size r * 2) -> p_pages p x = None
      | inr e => 0 < e < 4096
      end
  end.
Fixpoint sane_calls (max : Z) (e : bool) close (l : list call) (p : proc) : Prop :=
  match l with
  | [] => True
  | Get r :: l => sane max p r /\ sane_calls max e close l (snd (userdb_open e r p))
  | End :: l => match close e p with Ok p => sane_calls max e close l p | _ => True end
  end.

(* before: pages pg and descriptors fds.  The database is closed and everything is as before, or it
   holds one mapping at free pages, or mmap had failed *)
Definition inv (max : Z) (pg : pages) (fds : list Z) (p : proc) : Prop :=
  p_fds p = fds /\ 0 <= p_size p <= max /\
  (p_file p = 0 /\ (forall x, p_pages p x = pg x) \/
   p_file p mod 4096 <> 0 /\ (forall x, p_pages p x = pg x) \/
   0 < p_file p /\ p_file p mod 4096 = 0 /\ 0 < p_size p /\ let a := p_file p / 4096 in let n := page_count (p_size p * 2) in
     (forall x, a <= x < a + n -> pg x = None) /\ (forall x, x < a \/ a + n <= x -> p_pages p x = pg x)).
Lemma remove_fresh (x : Z) l : ~ In x l -> remove Z.eq_dec x l = l.
Proof. induction l as [|y l IH]; intros H; [reflexivity|]. cbn [remove]. cbn [In] in H. destruct (Z.eq_dec x y) as [->|]; [tauto|]. f_equal. tauto. Qed.
Lemma bad_unaligned e c : 0 < c < 4096 -> bad e c mod 4096 <> 0.
Proof. intros H. unfold bad, u64. destruct e; [vm_compute; discriminate|]. lia. Qed.
Lemma open_inv max e pg fds p r : max <= INT_MAX -> inv max pg fds p -> sane max p r -> inv max pg fds (snd (userdb_open e r p)).
Proof.
  intros HM (I1 & I2 & I3) S. unfold userdb_open. destruct (Z.eqb_spec (p_file p) 0) as [F|F]; cbn [negb]; [|split; [|split]; auto].
  destruct r as [r|]; [|split; [|split]; auto]. destruct S as (S1 & S2 & S3 & S4). cbn [p_pages p_fds p_file p_size].
  destruct (Z.leb_spec (r_fd r) 0); [lia|]. unfold mmap. destruct (Z.leb_spec (r_size r * 2) 0); [lia|].
  assert (P : forall x, p_pages p x = pg x) by (destruct I3 as [[_ I]|[[_ I]|(J & _)]]; [exact I|exact I|lia]).
  assert (Rm : remove Z.eq_dec (r_fd r) (r_fd r :: p_fds p) = fds).
  { cbn [remove]. destruct (Z.eq_dec (r_fd r) (r_fd r)); [|contradiction]. rewrite I1 in *. now apply remove_fresh. }
  destruct (r_addr r) as [a|c]; cbn [snd]; unfold inv; cbn [p_pages p_fds p_file p_size]; rewrite Rm, s32_small by (unfold INT_MIN; lia).
  - split; [reflexivity|]. split; [lia|]. right. right. destruct S4 as (A1 & A2 & A3). split; [exact A1|]. split; [exact A2|]. split; [lia|]. cbv zeta.
    split; [intros x Hx; rewrite <- P; now apply A3|]. intros x Hx. unfold set_pages. destruct (Z.leb_spec (a / 4096) x), (Z.ltb_spec x (a / 4096 + page_count (r_size r * 2))); cbn [andb]; try apply P. lia.
  - split; [reflexivity|]. split; [lia|]. right. left. split; [now apply bad_unaligned|exact P].
Qed.
(* munmap of len bytes at the address of the database: everything is as before if len covers the mapping exactly *)
Lemma close_inv max e pg fds p len : inv max pg fds p -> 0 <= len -> page_count len = page_count (p_size p * 2) ->
  (forall x, 0 <= x < page_count (max * 2) -> pg x = None) -> forall x, fst (munmap e (p_pages p) (p_file p) len) x = pg x.
Proof.
  intros (I1 & I2 & I3) Hl Hp Low x. unfold munmap. destruct (Z.eqb_spec (p_file p mod 4096) 0) as [M|M]; cbn [negb orb]; [|destruct I3 as [[F _]|[[_ I]|(_ & M' & _)]]; [rewrite F in M; now destruct M|apply I|contradiction]].
  destruct (Z.leb_spec len 0) as [L|L]; cbn [fst].
  - destruct I3 as [[_ I]|[[_ I]|(_ & _ & Sz & _)]]; [apply I|apply I|]. exfalso. unfold page_count in Hp. lia.
  - unfold set_pages. rewrite Hp. destruct I3 as [[F I]|[[M' _]|(_ & _ & _ & I4 & I5)]]; [|contradiction|].
    + rewrite F. change (0 / 4096) with 0. destruct (Z.leb_spec 0 x), (Z.ltb_spec x (0 + page_count (p_size p * 2))); cbn [andb]; try apply I.
      symmetry. apply Low. unfold page_count in *. lia.
    + cbv zeta in *. destruct (Z.leb_spec (p_file p / 4096) x), (Z.ltb_spec x (p_file p / 4096 + page_count (p_size p * 2))); cbn [andb]; [symmetry; apply I4; lia|apply I5; lia..].
Qed.

Section Any.
Variables (max : Z) (e : bool) (pg : pages) (fds : list Z) (close : bool -> proc -> res proc).
Hypothesis (HM : max <= INT_MAX)
  (C : forall p, inv max pg fds p -> exists p', close e p = Ok p' /\ inv max pg fds p' /\ forall x, p_pages p' x = pg x).
Lemma calls_inv l : forall p, inv max pg fds p -> sane_calls max e close l p -> exists p', calls e close l p = Ok p' /\ inv max pg fds p'.
Proof.
  induction l as [|[r|] l IH]; intros p I S; cbn [calls sane_calls] in *.
  - exists p. auto.
  - destruct S as [S1 S2]. apply IH; [now apply open_inv|exact S2].
  - destruct (C p I) as (p' & E & I' & _). rewrite E, bind_Ok in *. apply IH; [exact I'|exact S].
Qed.
Lemma calls_end l p : inv max pg fds p -> sane_calls max e close (l ++ [End]) p ->
  exists p', calls e close (l ++ [End]) p = Ok p' /\ p_fds p' = fds /\ forall x, p_pages p' x = pg x.
Proof.
  revert p. induction l as [|[r|] l IH]; intros p I S; cbn [calls sane_calls app] in *.
  - destruct (C p I) as (p' & -> & (I1 & _) & E). rewrite bind_Ok. exists p'. auto.
  - destruct S as [S1 S2]. apply IH; [now apply open_inv|exact S2].
  - destruct (C p I) as (p' & E & I' & _). rewrite E, bind_Ok in *. apply IH; [exact I'|exact S].
Qed.
End Any.

(* a process that has not used the database; its pages at 0 .. 2*max are not mapped *)
Definition fresh (max : Z) (pg : pages) (fds : list Z) (p : proc) : Prop :=
  p = mkproc pg fds 0 0 /\ forall x, 0 <= x < page_count (max * 2) -> pg x = None.
(* However the group functions and endgrent have been called, behind a last endgrent all pages and
   descriptors are as they were in the beginning.  Partial: a descriptor that is not 0, files smaller
   than 1 GB and than the unmapped area at 0; see the refutations. *)
Theorem C165_group_partial : forall max e pg fds p l, 0 <= max -> max * 2 <= INT_MAX -> fresh max pg fds p -> sane_calls max e endgrent (l ++ [End]) p ->
  exists p', calls e endgrent (l ++ [End]) p = Ok p' /\ p_fds p' = fds /\ forall x, p_pages p' x = pg x.
Proof.
  intros max e pg fds p l H0 HM (-> & Low) S. apply (calls_end max); [unfold INT_MAX in *; lia| |split; [reflexivity|split; [cbn [p_size]; lia|left; split; reflexivity]]|exact S].
  intros q I. unfold endgrent. rewrite iop_ok by (destruct I as (_ & I & _); unfold INT_MIN, INT_MAX in *; lia). rewrite bind_Ok. eexists. split; [reflexivity|].
  assert (Ep : forall x, fst (munmap e (p_pages q) (p_file q) (p_size q * 2)) x = pg x) by (eapply close_inv; eauto; destruct I as (_ & I & _); lia).
  split; [|exact Ep]. destruct I as (I1 & I2 & _). split; [exact I1|]. split; [exact I2|]. left. split; [reflexivity|exact Ep].
Qed.
Print Assumptions C165_group_partial.
(* the same for the passwd functions and endpwent if the file has at most 2048 bytes *)
Theorem C165_passwd_partial : forall e pg fds p l, fresh 2048 pg fds p -> sane_calls 2048 e endpwent (l ++ [End]) p ->
  exists p', calls e endpwent (l ++ [End]) p = Ok p' /\ p_fds p' = fds /\ forall x, p_pages p' x = pg x.
Proof.
  intros e pg fds p l (-> & Low) S. apply (calls_end 2048); [unfold INT_MAX; lia| |split; [reflexivity|split; [cbn [p_size]; lia|left; split; reflexivity]]|exact S].
  intros q I. unfold endpwent. eexists. split; [reflexivity|].
  assert (Ep : forall x, fst (munmap e (p_pages q) (p_file q) (p_size q)) x = pg x) by (eapply close_inv; eauto; destruct I as (_ & I & _); unfold page_count; lia).
  split; [|exact Ep]. destruct I as (I1 & I2 & _). split; [exact I1|]. split; [exact I2|]. left. split; [reflexivity|exact Ep].
Qed.
Print Assumptions C165_passwd_partial.

Definition pg165 : pages := fun x => if (1024 <=? x) && (x <? 1040) then Some 5 else None.
Definition file_of (n : Z) : option answer := Some {| r_fd := 3; r_size := n; r_addr := inl 409600 |}.
Example C165_case : fresh 2048 pg165 [0; 1; 2] (mkproc pg165 [0; 1; 2] 0 0) /\
  sane_calls 2048 true endpwent ([Get (file_of 1500); Get None; End; End; Get (file_of 1500)] ++ [End]) (mkproc pg165 [0; 1; 2] 0 0) /\
  p_pages (snd (userdb_open true (file_of 1500) (mkproc pg165 [0; 1; 2] 0 0))) 100 = Some PROT_RW.
Proof.
  assert (A : forall x, 100 <= x < 101 -> pg165 x = None) by (intros x Hx; assert (x = 100) as -> by lia; reflexivity).
  split; [split; [reflexivity|]|split; [|reflexivity]].
  - intros x Hx. change (page_count (2048 * 2)) with 1 in Hx. assert (x = 0) as -> by lia. reflexivity.
  - cbn [app sane_calls]. split; [|split; [exact I|]].
    + repeat split; try (cbn; lia); exact A.
    + cbn [endpwent]. split; [|exact I]. unfold sane at 1. unfold file_of at 1. cbn [r_fd r_size r_addr]. split; [lia|]. split; [vm_compute; intuition discriminate|]. split; [lia|].
      split; [lia|]. split; [reflexivity|]. intros x Hx. change (409600 / 4096) with 100 in Hx. change (page_count _) with 1 in Hx. assert (x = 100) as -> by lia. reflexivity.
Qed.
(* a passwd file of 3000 bytes: endpwent leaves a page behind, in every cycle *)
Theorem C165_leak_refuted : exists pg fds l p', fresh 3000 pg fds (mkproc pg fds 0 0) /\ sane_calls 3000 true endpwent (l ++ [End]) (mkproc pg fds 0 0) /\
  calls true endpwent (l ++ [End]) (mkproc pg fds 0 0) = Ok p' /\ exists x, p_pages p' x <> None /\ pg x = None.
Proof.
  exists pg165, [0; 1; 2], [Get (file_of 3000)]. eexists. split; [split; [reflexivity|]|split; [|split; [reflexivity|]]].
  - intros x Hx. change (page_count (3000 * 2)) with 2 in Hx. assert (x = 0 \/ x = 1) as [-> | ->] by lia; reflexivity.
  - cbn [app sane_calls]. split; [|exact I]. repeat split; try (cbn; lia). intros x Hx. change (409600 / 4096) with 100 in Hx. change (page_count _) with 2 in Hx.
    assert (x = 100 \/ x = 101) as [-> | ->] by lia; reflexivity.
  - exists 101. split; [vm_compute; discriminate|reflexivity].
Qed.
Print Assumptions C165_leak_refuted.
(* a second endgrent unmaps the pages from 0 on, twice the size of the last file: the program itself (at
   4 MB) if the group file has more than 2 MB *)
Theorem C165_twice_refuted : exists pg fds l p', p_pages (mkproc pg fds 0 0) 1024 = Some 5 /\ sane_calls 3000000 true endgrent (l ++ [End; End]) (mkproc pg fds 0 0) /\
  calls true endgrent (l ++ [End; End]) (mkproc pg fds 0 0) = Ok p' /\ p_pages p' 1024 = None.
Proof.
  set (r := Some {| r_fd := 3; r_size := 3000000; r_addr := inl 40960000 |}).
  exists pg165, [0; 1; 2], [Get r]. eexists. split; [reflexivity|split; [|split; [reflexivity|reflexivity]]].
  cbn [app sane_calls]. split; [|exact I]. repeat split; try (cbn; lia). intros x Hx. change (40960000 / 4096) with 10000 in Hx.
  cbn [p_pages]. unfold pg165. destruct (Z.leb_spec 1024 x), (Z.ltb_spec x 1040); cbn [andb]; try reflexivity. lia.
Qed.
Print Assumptions C165_twice_refuted.
(* with descriptor 0 free, open returns 0: this is taken for an error and the file remains open *)
Theorem C165_fd_refuted : exists r p p', p_file p = 0 /\ ~ In 0 (p_fds p) /\ userdb_open true (Some r) p = (false, p') /\ r_fd r = 0 /\ In 0 (p_fds p').
Proof.
  exists {| r_fd := 0; r_size := 100; r_addr := inl 409600 |}, (mkproc pg165 [1; 2] 0 0). eexists. split; [reflexivity|]. split; [cbn; intuition discriminate|].
  split; [reflexivity|]. split; [reflexivity|]. now left.
Qed.
Print Assumptions C165_fd_refuted.
