(* C139, C140: getgroups and initgroups. *)
From Coq Require Import ZifyBool.
From Verif Require Import Base BaseLemmas StrModel ConvSpec UserModel UserSpec UserProofs UserProofs2 UserProofs3 UserProofs4 UserProofs5 UserProofs6 UserProofs7 UserProps GrpModel.

(* the databases: a passwd file with the entries es that gets mapped at a, a group file with the
   groups xs that gets mapped at b, to addresses that are not in use *)
Definition databases (fuel : nat) (m : mem) (a b : Z) (es : list entry) (xs : list gentry) : Prop :=
  let n := zlen (passwd_file es) in let k := zlen (group_file xs) in
  Forall well_formed es /\ es <> [] /\ n <= INT_MAX /\ 0 < a /\ n < Z.of_nat fuel /\ NoDup (map e_name es) /\ NoDup (map uid_of es) /\
  Forall well_formed_group xs /\ Forall (fun x => zlen (x_members x) < 64) xs /\ k + 8 * zlen xs <= page_end k /\
  0 < b /\ b + k < 2 ^ 64 /\ k <= INT_MAX /\ k + 2 < Z.of_nat fuel /\
  m 0 = None /\ apart a (page_end n) b (page_end k) /\ forall x, b <= x < b + page_end k -> m x = None.

Lemma str_apart m p l b k : str_at m p l -> (forall x, b <= x < b + k -> m x = None) -> 0 < k -> apart p (zlen l + 1) b k.
Proof.
  intros S N K. nneg l. assert (A : forall x, p <= x < p + zlen l + 1 -> m x <> None).
  { intros x Hx. apply str_at_iff in S as (B & _ & E). destruct (Z.eq_dec x (p + zlen l)) as [->|]; [congruence|].
    destruct (nth_error l (Z.to_nat (x - p))) as [c|] eqn:En.
    - pose proof (bytes_at_nth _ _ _ _ _ B En) as B1. replace (p + Z.of_nat (Z.to_nat (x - p))) with x in B1 by lia. congruence.
    - apply nth_error_None in En. unfold zlen in *. lia. }
  unfold apart. destruct (Z.le_gt_cases (p + (zlen l + 1)) b); [auto|]. destruct (Z.le_gt_cases (b + k) p); [auto|]. exfalso.
  apply (A (Z.max p b)); [lia|]. apply N. lia.
Qed.
Lemma page_end_pos n : 0 < n -> 0 < page_end n. Proof. intro. unfold page_end. lia. Qed.
Lemma inv0 m a es : inv m a es (pws0 m) false es None.
Proof. split; [reflexivity|]. cbn. auto. Qed.

(* ---- C139: getgroups ---- *)
(* The groups that have the user with the uid of the process as member, in the order of the
   group file.  Partial: less than maxgroups groups; and see the refutations *)
Theorem C139_getgroups_partial : forall fuel m a b es xs me e maxgroups gr, databases fuel m a b es xs -> In e es -> uid_of e = p_uid me ->
  let gs := groups_of xs (e_name e) in xs <> [] -> zlen gs < maxgroups ->
  getgroups fuel (Some (a, passwd_file es)) (Some (b, group_file xs)) (pws0 m) (mkudb 0 0 0 0) gr me maxgroups = Ok (gs, zlen gs).
Proof.
  intros fuel m a b es xs me e maxg gr (W & Hne & Hmax & Ha & Hf & Hn & Hu & Wg & Fg & Hp & Hb & H64 & Hk & Hfk & M0 & Ap & Fr) In1 Eu gs Hx Hg.
  destruct (getpwuid_ok m a es fuel Ha Hne W Hmax Hf Hu (pws0 m) false es None (p_uid me) (inv0 m a es)) as ([sp ok] & E & An & I).
  assert (Fe : find (fun e => uid_of e =? p_uid me) es = Some e).
  { clear - In1 Eu Hu. induction es as [|x l IH]; [destruct In1|]. cbn [find]. cbn [map] in Hu. inversion Hu as [|? ? N1 N2]; subst.
    destruct In1 as [->|In1]; [rewrite Eu, Z.eqb_refl; reflexivity|]. destruct (Z.eqb_spec (uid_of x) (p_uid me)) as [C|_]; [|now apply IH].
    exfalso. apply N1. rewrite C, <- Eu. now apply in_map. }
  rewrite Fe in An, I. destruct An as [Ok1 (Hnm & _)]. cbn [fst snd] in *. destruct I as (_ & _ & _ & _ & _ & Out).
  assert (Fr' : forall x, b <= x < b + page_end (zlen (group_file xs)) -> s_m sp x = None).
  { intros x Xx. rewrite Out; [now apply Fr|]. unfold apart in Ap. lia. }
  assert (We : well_formed e) by (rewrite Forall_forall in W; auto).
  assert (Kp : 0 < page_end (zlen (group_file xs))).
  { apply page_end_pos. destruct xs as [|x r]; [contradiction|]. cbn [group_file flat_map]. rewrite zlen_app. unfold gline. rewrite zlen_app. cbn [app]. rewrite zlen_cons.
    match goal with |- 0 < _ + (zlen ?l + 1) + zlen ?r => pose proof (zlen_nonneg l); pose proof (zlen_nonneg r) end. nneg (x_name x). lia. }
  assert (Ln : zlen (e_name e) <= zlen (passwd_file es)).
  { clear - In1. induction es as [|x l IH]; [destruct In1|]. rewrite pf_cons, zlen_app. nneg (passwd_file l). nneg (line x).
    destruct In1 as [->|In1]; [|specialize (IH In1); lia]. unfold line. rewrite zlen_app.
    match goal with |- _ <= _ + zlen ?l + _ => pose proof (zlen_nonneg l) end. lia. }
  unfold getgroups. rewrite E, bind_Ok, Ok1. cbn [negb].
  destruct (getusergroups_ok (s_m sp) b xs fuel Hb Wg Fg Hk Hfk Hp H64) with (s := mkgrs (s_m sp) (mkudb 0 0 0 0) gr) (pos := @None (list gentry)) (p := pw_name (s_pw sp)) (l := e_name e) (max := maxg) as (s' & E2).
  - rewrite Out; [exact M0|]. lia.
  - left. auto.
  - exact Hnm.
  - lia.
  - apply (str_apart (s_m sp)); auto.
  - apply We.
  - nneg (groups_of xs (e_name e)). unfold gs in Hg. lia.
  - fold gs in E2. rewrite E2, bind_Ok. replace (zlen gs <? maxg) with true by lia. rewrite firstn_all2 by (unfold zlen in *; lia). reflexivity.
Qed.
Print Assumptions C139_getgroups_partial.
(* a uid without an entry *)
Theorem C139_unknown : forall fuel m a es fsg me maxgroups gr db,
  let n := zlen (passwd_file es) in
  Forall well_formed es -> es <> [] -> n <= INT_MAX -> 0 < a -> n < Z.of_nat fuel ->
  NoDup (map uid_of es) -> ~ In (p_uid me) (map uid_of es) ->
  getgroups fuel (Some (a, passwd_file es)) fsg (pws0 m) db gr me maxgroups = Ok ([], -1).
Proof.
  intros fuel m a es fsg me maxg gr db n W Hne Hmax Ha Hf Hu N.
  destruct (getpwuid_ok m a es fuel Ha Hne W Hmax Hf Hu (pws0 m) false es None (p_uid me) (inv0 m a es)) as ([sp ok] & E & An & I).
  destruct (find (fun e => uid_of e =? p_uid me) es) as [e|] eqn:Fe.
  - apply find_some in Fe as [I1 I2]. exfalso. apply N. apply Z.eqb_eq in I2. rewrite <- I2. now apply in_map.
  - cbn [answered snd] in An. unfold getgroups. rewrite E, bind_Ok, An. reflexivity.
Qed.
Print Assumptions C139_unknown.
Definition m139 : mem := fun x => if (x =? 100) || (x =? 101) then Some 98 else if x =? 102 then Some 0 else None.
(* the groups 3:a,bb and 70:bb *)
Definition xs139 : list gentry := [mkgentry [103] [] [51] [[97]; [98; 98]]; mkgentry [104] [] [55; 48] [[98; 98]]].
Lemma db139 : databases 60 m139 5000 50000 ex_es xs139.
Proof.
  unfold databases. cbv zeta. split; [exact ex_wf|]. split; [discriminate|]. split; [vm_compute; discriminate|]. split; [lia|]. split; [reflexivity|].
  split; [repeat constructor; cbn; intuition discriminate|]. split; [repeat constructor; vm_compute; intuition discriminate|].
  split; [repeat (apply Forall_cons; [unfold well_formed_group; cbn [x_name x_passwd x_gid x_members]; split; [discriminate|];
    repeat split; repeat (apply Forall_cons; [vm_compute; intuition (congruence || discriminate)|]); try apply Forall_nil; try (vm_compute; congruence)|]); apply Forall_nil|].
  split; [repeat (apply Forall_cons; [reflexivity|]); apply Forall_nil|]. split; [vm_compute; discriminate|]. split; [lia|]. split; [reflexivity|]. split; [vm_compute; discriminate|].
  split; [reflexivity|]. split; [reflexivity|]. split; [vm_compute; intuition discriminate|].
  change (page_end (zlen (group_file xs139))) with 4096. intros x X. unfold m139. do 2 (rewrite (proj2 (Z.eqb_neq x _)) by lia). cbn [orb]. rewrite (proj2 (Z.eqb_neq x _)) by lia. reflexivity.
Qed.
Definition me139 : proc := {| p_uid := 70; p_gid := 9; p_groups := [5]; p_privileged := true |}.
Example C139_case : databases 60 m139 5000 50000 ex_es xs139 /\ groups_of xs139 [98; 98] = [3; 70] /\
  getgroups 60 (Some (5000, passwd_file ex_es)) (Some (50000, group_file xs139)) (pws0 m139) (mkudb 0 0 0 0) (mkgr 0 0 0 []) me139 3 = Ok ([3; 70], 2).
Proof. split; [exact db139|]. split; [reflexivity|]. vm_compute. reflexivity. Qed.
(* The groups of the process are something else: they are not asked for. *)
Theorem C139_process_refuted : exists fuel m a b es xs me maxgroups gr, databases fuel m a b es xs /\ In (p_uid me) (map uid_of es) /\ zlen (p_groups me) < maxgroups /\
  exists l, getgroups fuel (Some (a, passwd_file es)) (Some (b, group_file xs)) (pws0 m) (mkudb 0 0 0 0) gr me maxgroups = Ok (l, zlen l) /\ l <> p_groups me.
Proof.
  exists 60%nat, m139, 5000, 50000, ex_es, xs139, me139, 3, (mkgr 0 0 0 []). split; [exact db139|]. split; [vm_compute; auto|]. split; [reflexivity|].
  exists [3; 70]. split; [vm_compute; reflexivity|discriminate].
Qed.
Print Assumptions C139_process_refuted.
(* getgroups(0, ...) does not return the number of groups *)
Theorem C139_count_refuted : exists fuel m a b es xs me e gr, databases fuel m a b es xs /\ In e es /\ uid_of e = p_uid me /\
  0 < zlen (groups_of xs (e_name e)) /\
  getgroups fuel (Some (a, passwd_file es)) (Some (b, group_file xs)) (pws0 m) (mkudb 0 0 0 0) gr me 0 = Ok ([], -1).
Proof.
  exists 60%nat, m139, 5000, 50000, ex_es, xs139, me139, (mkentry [98; 98] [120] [55; 48] [51] [] [47] [115]), (mkgr 0 0 0 []). split; [exact db139|].
  split; [right; left; reflexivity|]. split; [reflexivity|]. split; [reflexivity|]. vm_compute. reflexivity.
Qed.
Print Assumptions C139_count_refuted.

(* ---- C140: initgroups ---- *)
(* The supplementary groups become those that have the user as member.  Partial: the argument
   group is not among them and the primary group is changed, see the refutation. *)
Theorem C140_initgroups_partial : forall fuel m a b es xs me e user group gr, databases fuel m a b es xs -> In e es -> xs <> [] ->
  str_at m user (e_name e) -> (length (e_name e) < fuel)%nat -> apart user (zlen (e_name e) + 1) a (page_end (zlen (passwd_file es))) ->
  p_privileged me = true -> let gs := groups_of xs (e_name e) in zlen gs < 128 ->
  exists me', initgroups fuel (Some (a, passwd_file es)) (Some (b, group_file xs)) (pws0 m) (mkudb 0 0 0 0) gr me user group = Ok (me', 0) /\
    p_groups me' = gs /\ p_gid me' = value 10 (e_gid e) /\ p_uid me' = p_uid me.
Proof.
  intros fuel m a b es xs me e user group gr (W & Hne & Hmax & Ha & Hf & Hn & Hu & Wg & Fg & Hp & Hb & H64 & Hk & Hfk & M0 & Ap & Fr) In1 Hx S Lf Au Pr gs Hg.
  assert (Ln : zlen (e_name e) <= zlen (passwd_file es)).
  { clear - In1. induction es as [|x l IH]; [destruct In1|]. rewrite pf_cons, zlen_app. nneg (passwd_file l). nneg (line x).
    destruct In1 as [->|In1]; [|specialize (IH In1); lia]. unfold line. rewrite zlen_app.
    match goal with |- _ <= _ + zlen ?l + _ => pose proof (zlen_nonneg l) end. lia. }
  destruct (getpwnam_ok m a es fuel Ha Hne W Hmax Hf Hn (pws0 m) false es None user (e_name e) (inv0 m a es)) as ([sp ok] & E & An & I); auto; [discriminate|lia|].
  assert (Fe : find (fun x => same (e_name x) (e_name e)) es = Some e).
  { clear - In1 Hn. induction es as [|x l IH]; [destruct In1|]. cbn [find]. cbn [map] in Hn. inversion Hn as [|? ? N1 N2]; subst. unfold same.
    destruct In1 as [->|In1]; [destruct (list_eq_dec Z.eq_dec (e_name e) (e_name e)); [reflexivity|contradiction]|].
    destruct (list_eq_dec Z.eq_dec (e_name x) (e_name e)) as [C|_]; [|now apply IH]. exfalso. apply N1. rewrite C. now apply in_map. }
  rewrite Fe in An, I. destruct An as [Ok1 (Hnm & _ & _ & Hgid & _)]. cbn [fst snd] in *. destruct I as (_ & _ & _ & _ & _ & Out).
  assert (Fr' : forall x, b <= x < b + page_end (zlen (group_file xs)) -> s_m sp x = None).
  { intros x Xx. rewrite Out; [now apply Fr|]. unfold apart in Ap. lia. }
  assert (We : well_formed e) by (rewrite Forall_forall in W; auto).
  assert (Kp : 0 < page_end (zlen (group_file xs))).
  { apply page_end_pos. destruct xs as [|x r]; [contradiction|]. cbn [group_file flat_map]. rewrite zlen_app. unfold gline. rewrite zlen_app. cbn [app]. rewrite zlen_cons.
    match goal with |- 0 < _ + (zlen ?l + 1) + zlen ?r => pose proof (zlen_nonneg l); pose proof (zlen_nonneg r) end. nneg (x_name x). lia. }
  assert (S' : str_at (s_m sp) user (e_name e)) by (apply (str_at_ext m); [exact S|]; intros x Xx; apply Out; unfold apart in Au; lia).
  unfold initgroups. rewrite E, bind_Ok, Ok1. cbn [negb]. nneg gs.
  destruct (getusergroups_ok (s_m sp) b xs fuel Hb Wg Fg Hk Hfk Hp H64) with (s := mkgrs (s_m sp) (mkudb 0 0 0 0) gr) (pos := @None (list gentry)) (p := user) (l := e_name e) (max := MAXGROUPS) as (s' & E2).
  - rewrite Out; [exact M0|]. lia.
  - left. auto.
  - exact S'.
  - lia.
  - apply (str_apart (s_m sp)); auto.
  - apply We.
  - unfold MAXGROUPS. lia.
  - fold gs in E2. rewrite E2, bind_Ok. unfold MAXGROUPS. replace (zlen gs <? 128) with true by lia. rewrite firstn_all2 by (unfold zlen in *; lia).
    unfold sys_setgroups, sys_setgid. rewrite Pr. cbn [negb]. replace ((zlen gs <? 0) || (65536 <? zlen gs)) with false by lia. cbn [p_privileged Z.ltb Z.compare].
    eexists. split; [reflexivity|]. cbn [p_groups p_gid p_uid]. split; [rewrite firstn_all2 by (unfold zlen; lia); reflexivity|]. split; [exact Hgid|reflexivity].
Qed.
Print Assumptions C140_initgroups_partial.
(* without privilege, or for a user that is not in the passwd file, nothing changes *)
Theorem C140_refused : forall fuel m a es fsg me user l group gr db,
  let n := zlen (passwd_file es) in
  Forall well_formed es -> es <> [] -> n <= INT_MAX -> 0 < a -> n < Z.of_nat fuel -> NoDup (map e_name es) ->
  str_at m user l -> zlen l <= INT_MAX -> (length l < fuel)%nat -> apart user (zlen l + 1) a (page_end n) -> ~ In l (map e_name es) ->
  initgroups fuel (Some (a, passwd_file es)) fsg (pws0 m) db gr me user group = Ok (me, -1).
Proof.
  intros fuel m a es fsg me user l group gr db n W Hne Hmax Ha Hf Hn S Ll Lf Au N.
  destruct (getpwnam_ok m a es fuel Ha Hne W Hmax Hf Hn (pws0 m) false es None user l (inv0 m a es)) as ([sp ok] & E & An & I); auto; [discriminate|].
  destruct (find (fun x => same (e_name x) l) es) as [e|] eqn:Fe.
  - apply find_some in Fe as [I1 I2]. exfalso. apply N. unfold same in I2. destruct (list_eq_dec Z.eq_dec (e_name e) l) as [<-|]; [|discriminate]. now apply in_map.
  - cbn [answered snd] in An. unfold initgroups. rewrite E, bind_Ok, An. reflexivity.
Qed.
Print Assumptions C140_refused.
Theorem C140_unprivileged : forall fuel fsp fsg sp db gr me user group me' r, p_privileged me = false ->
  initgroups fuel fsp fsg sp db gr me user group = Ok (me', r) -> me' = me /\ r = -1.
Proof.
  intros fuel fsp fsg sp db gr me user group me' r Pr H. unfold initgroups in H. destruct (getpwnam fuel fsp sp user) as [[s ok]| |]; try discriminate H. rewrite bind_Ok in H.
  destruct ok; cbn [negb] in H; [|injection H as <- <-; auto]. destruct (getusergroups _ _ _ _ _) as [[[s' l] c]| |]; try discriminate H. rewrite bind_Ok in H.
  unfold sys_setgroups in H. rewrite Pr in H. cbn [negb Z.ltb Z.compare] in H. injection H as <- <-. auto.
Qed.
Print Assumptions C140_unprivileged.
Example C140_case : initgroups 60 (Some (5000, passwd_file ex_es)) (Some (50000, group_file xs139)) (pws0 m139) (mkudb 0 0 0 0) (mkgr 0 0 0 []) me139 100 44 =
  Ok ({| p_uid := 70; p_gid := 3; p_groups := [3; 70]; p_privileged := true |}, 0) /\ str_at m139 100 [98; 98].
Proof. split; [vm_compute; reflexivity|strn]. Qed.
(* initgroups("bb", 44): 44 is not among the groups, and the group id of the process is changed *)
Theorem C140_group_refuted : exists fuel m a b es xs me user group gr, databases fuel m a b es xs /\
  exists me', initgroups fuel (Some (a, passwd_file es)) (Some (b, group_file xs)) (pws0 m) (mkudb 0 0 0 0) gr me user group = Ok (me', 0) /\
    ~ In group (p_groups me') /\ p_gid me' <> p_gid me.
Proof.
  exists 60%nat, m139, 5000, 50000, ex_es, xs139, me139, 100, 44, (mkgr 0 0 0 []). split; [exact db139|]. eexists. split; [apply C140_case|].
  cbn. split; [intuition discriminate|discriminate].
Qed.
Print Assumptions C140_group_refuted.
