(* C43, C44: the environment. *)
From Verif Require Import Base BaseLemmas StrModel StrProofs EnvModel EnvSpec EnvProofs.
Ltac Zify.zify_post_hook ::= idtac.

(* ---- C43: getenv ---- *)
(* Missing: arguments that contain '='. *)
Theorem C43_getenv_partial : forall m env cap ps vs q n efuel fuel,
  env_at m env cap ps vs -> str_at m q n -> n <> [] -> ~ In 61 n ->
  Forall (fun v => (length (text v) < fuel)%nat) vs -> (length ps < efuel)%nat ->
  exists r, getenv efuel fuel m env q = Ok r /\
    match lookup n vs with Some v => str_at m r v | None => r = 0 end.
Proof.
  intros m env cap ps vs q n efuel fuel (H1 & H2 & H3 & H4) Hq Hne Hn Hf Hef. exists (value_ptr n ps vs). split.
  - apply getenv_loop_ok; auto; lia.
  - now apply value_ptr_ok.
Qed.
Print Assumptions C43_getenv_partial.
(* the name "A=1" and the entry "A=1": both strings are read past their ends *)
Theorem C43_getenv_refuted : exists m env ps vs q n,
  env_at m env 9 ps vs /\ str_at m q n /\ lookup n vs = None /\
  forall efuel fuel, (9 < efuel)%nat -> (9 < fuel)%nat -> getenv efuel fuel m env q = Fault.
Proof.
  exists (mem_of [(100, [65; 61; 49; 0]); (200, [65; 61; 49; 0])]), (mem_of [(0, [100; 0; 0; 0; 0; 0; 0; 0; 0])]),
    [100], [([65], [49])], 200, [65; 61; 49].
  split; [|split; [|split; [reflexivity|]]].
  - split; [|split; [|split]].
    + constructor; [|constructor]. split; [discriminate|]. split; [vm_compute; repeat split; discriminate|].
      split; [|split].
      * split; [repeat constructor; cbn; lia|]. split; [|discriminate]. cbn. intros [K|[]]. discriminate.
      * repeat constructor; cbn; lia.
      * vm_compute. reflexivity.
    + vm_compute. auto.
    + apply room_check. reflexivity.
    + reflexivity.
  - vm_compute. repeat split; discriminate.
  - intros efuel fuel H1 H2. do 10 (destruct efuel as [|efuel]; [exfalso; lia|]). do 10 (destruct fuel as [|fuel]; [exfalso; lia|]).
    reflexivity.
Qed.
Print Assumptions C43_getenv_refuted.
Ltac envok :=
  split; [|split; [|split]];
  [ repeat constructor; try discriminate; try (cbn; lia); try (vm_compute; intuition discriminate)
  | vm_compute; auto 10 | apply room_check; reflexivity | reflexivity ].
Definition m_ex : mem := mem_of [(100, [65; 66; 61; 49; 0]); (110, [65; 61; 50; 61; 0]); (120, [65; 61; 51; 0]); (200, [65; 0])].
Definition env_ex : mem := mem_of [(0, [100; 110; 120; 0; 0; 0; 0; 0; 0])].
Definition vs_ex : list var := [([65; 66], [49]); ([65], [50; 61]); ([65], [51])].
(* AB=1, A=2=, A=3: getenv("A") is "2=" *)
Example C43_case : env_at m_ex env_ex 9 [100; 110; 120] vs_ex /\ str_at m_ex 200 [65]
  /\ getenv 9 9 m_ex env_ex 200 = Ok 112 /\ lookup [65] vs_ex = Some [50; 61].
Proof. split; [envok|]. split; [vm_compute; repeat split; discriminate|]. split; reflexivity. Qed.

(* ---- C44: putenv, setenv, unsetenv ---- *)
Lemma fresh_weaken : forall ops m m', (forall x, m x = None -> m' x = None) -> fresh m ops -> fresh m' ops.
Proof.
  induction ops as [|o ops IH]; intros m m' H Hf; cbn [fresh] in *; auto.
  destruct o; try (eapply IH; eauto; fail). destruct Hf as (H1 & H2 & H3). split; auto. split; auto.
  eapply IH; [|exact H3]. intros x. cbn. destruct (_ && _); auto.
Qed.
Lemma hist : forall efuel fuel m0 cap (P : str -> Prop) ops m env f,
  (forall a b, P a -> P b -> prefix a b -> a = b) ->
  inv efuel fuel m0 cap P (zlen ops) (m, env) f -> Forall (fun o => P (op_name o)) ops ->
  Forall (op_args m0) ops -> Forall (fun o => (op_size o < fuel)%nat) ops -> fresh m ops ->
  exists m' env', run_env efuel fuel ops m env = Ok (m', env') /\ inv efuel fuel m0 cap P 0 (m', env') (map_after f ops).
Proof.
  intros efuel fuel m0 cap P ops. induction ops as [|o ops IH]; intros m env f HP HI HN HA HS HF.
  - exists m, env. auto.
  - apply Forall_cons_iff in HN as [HN HN']. apply Forall_cons_iff in HA as [HA HA']. apply Forall_cons_iff in HS as [HS HS'].
    rewrite zlen_cons in HI. nneg ops. unfold map_after. cbn [fold_left run_env]. fold (map_after (map_op f o) ops).
    destruct o as [p n v|np n vp v ow d|np n]; cbn [op_name op_args op_size fresh] in *.
    + destruct HA as (A1 & A2 & A3). destruct (step_put efuel fuel m0 cap P HP (zlen ops) (m, env) f p n v) as (env' & E1 & E2); auto.
      cbn [fst snd] in *. rewrite E1. cbn [bind]. cbn [Z.eqb]. apply IH; auto.
    + destruct HA as (A1 & A2 & A3 & A4 & A5). destruct HF as (F1 & F2 & F3). nneg n. nneg v.
      destruct (step_set efuel fuel m0 cap P HP (zlen ops) (m, env) f (malloc_at d) np n vp v ow) as (m' & env' & E1 & E2 & E3); auto.
      { unfold malloc_at. cbn [fst]. split; auto. split; [|split; auto].
        - intros x Hx. replace ((d <=? x) && (x <? d + (zlen n + 1 + zlen v) + 1)) with true by lia. discriminate.
        - intros x Hx. destruct ((d <=? x) && (x <? d + (zlen n + 1 + zlen v) + 1)) eqn:K; auto. exfalso. apply Hx. apply F2. lia. }
      cbn [fst snd] in *. rewrite E1. cbn [bind]. cbn [Z.eqb]. apply IH; auto.
      destruct E2 as [->|E2].
      * eapply fresh_weaken; [|exact F3]. intros x. cbn. destruct (_ && _); [discriminate|auto].
      * eapply fresh_weaken; [|exact F3]. intros x Hx. cbn in E2, Hx. rewrite E2; auto.
        intros K. replace ((d <=? x) && (x <? d + (zlen n + 1 + zlen v) + 1)) with true in Hx by lia. discriminate.
    + destruct HA as (A1 & A2 & A3 & A4).
      assert (HI' : inv efuel fuel m0 cap P (zlen ops) (m, env) f).
      { destruct HI as (ps & vs & H1 & H2 & H3 & H4 & H5 & H6 & H7 & H8 & H9). exists ps, vs. repeat split; auto; try apply H1; lia. }
      destruct (step_unset efuel fuel m0 cap P HP (zlen ops) (m, env) f np n) as (env' & E1 & E2); auto.
      cbn [fst snd] in *. rewrite E1. cbn [bind]. cbn [Z.eqb]. apply IH; auto.
Qed.
(* Any history of putenv, setenv and unsetenv on an environment with distinct names: all
   calls succeed and getenv of every name then gives the value of the map.  Missing:
   names that are prefixes of other names, and a malloc that returns no more than the
   requested size to setenv: see the refutations. *)
Theorem C44_history_partial : forall ops m env cap ps vs efuel fuel,
  env_at m env cap ps vs -> NoDup (map fst vs) -> prefix_free (map fst vs ++ map op_name ops) ->
  Forall (op_args m) ops -> fresh m ops ->
  zlen ps + zlen ops + 2 <= cap -> zlen ps + zlen ops + 1 < INT_MAX ->
  Forall (fun v => (length (text v) < fuel)%nat) vs -> Forall (fun o => (op_size o < fuel)%nat) ops ->
  zlen ps + zlen ops < Z.of_nat efuel ->
  exists m' env', run_env efuel fuel ops m env = Ok (m', env') /\
    (forall x, m x <> None -> m' x = m x) /\
    forall q n, str_at m' q n -> n <> [] -> ~ In 61 n ->
      exists r, getenv efuel fuel m' env' q = Ok r /\
        match map_after (fun x => lookup x vs) ops n with Some v => str_at m' r v | None => r = 0 end.
Proof.
  intros ops m env cap ps vs efuel fuel H1 H2 H3 H4 H5 H6 H7 H8 H9 H10.
  set (P := fun a => In a (map fst vs ++ map op_name ops)).
  assert (HI : inv efuel fuel m cap P (zlen ops) (m, env) (fun x => lookup x vs)).
  { exists ps, vs. repeat split; auto; try apply H1; try lia.
    - apply Forall_forall. intros x Hx. apply in_or_app. left. now apply in_map. }
  destruct (hist efuel fuel m cap P ops m env (fun x => lookup x vs)) as (m' & env' & E1 & E2); auto.
  { apply Forall_forall. intros x Hx. apply in_or_app. right. now apply in_map. }
  exists m', env'. split; auto. split.
  - destruct E2 as (ps' & vs' & _ & X & _). exact X.
  - intros q n Hq Hne Hn. apply (inv_getenv efuel fuel m cap P H3 0 (m', env') _ q n E2); auto; lia.
Qed.
Print Assumptions C44_history_partial.
(* a string without '=' or with an empty name is refused and changes nothing *)
Theorem C44_putenv_invalid : forall efuel fuel m env s t,
  str_at m s t -> (forall n v, t = n ++ 61 :: v -> n = []) -> zlen t <= INT_MAX -> (length t < fuel)%nat ->
  putenv efuel fuel m env s = Ok (env, -1).
Proof.
  intros efuel fuel m env s t Hs Ht Hl Hf. unfold putenv.
  destruct (in_dec Z.eq_dec 61 t) as [Hi|Hi].
  - destruct (in_split _ _ Hi) as (n & v & E). specialize (Ht n v E). subst n t. cbn [app str_at] in Hs. destruct Hs as [Hs _].
    destruct fuel as [|fuel]; [lia|]. cbn [putenv_pos]. rewrite Z.add_0_r, (load_some _ _ _ Hs), bind_Ok. cbn.
    rewrite Z.add_0_r, (load_some _ _ _ Hs), bind_Ok. reflexivity.
  - rewrite (putenv_pos_none t) by (rewrite ?Z.add_0_r; auto; lia). rewrite bind_Ok.
    replace (s + (0 + zlen t)) with (s + zlen t) by lia. rewrite (load_some _ _ _ (str_at_end _ _ _ Hs)), bind_Ok.
    replace ((0 + zlen t =? 0) || (0 =? 0)) with true by (rewrite orb_true_r; reflexivity). reflexivity.
Qed.
Print Assumptions C44_putenv_invalid.
(* "=1" and "A" *)
Example C44_invalid_case : let m := mem_of [(100, [61; 49; 0]); (110, [65; 0])] in
  str_at m 100 [61; 49] /\ str_at m 110 [65] /\ (forall n v, [61; 49] = n ++ 61 :: v -> n = []) /\ (forall n v, [65] = n ++ 61 :: v -> n = []).
Proof.
  cbv zeta. split; [vm_compute; repeat split; discriminate|]. split; [vm_compute; repeat split; discriminate|].
  split; intros [|a [|b [|c n]]] v E; try reflexivity; discriminate E.
Qed.
(* putenv("A=2") overwrites AB=1: AB is gone *)
Theorem C44_putenv_refuted : exists m env ps vs s n v q x,
  env_at m env 9 ps vs /\ str_at m s (text (n, v)) /\ var_ok (n, v) /\ str_at m q x /\ x <> n /\ lookup x vs <> None /\
  exists env', putenv 9 9 m env s = Ok (env', 0) /\ getenv 9 9 m env' q = Ok 0.
Proof.
  exists (mem_of [(100, [65; 66; 61; 49; 0]); (120, [65; 61; 50; 0]); (200, [65; 66; 0])]), (mem_of [(0, [100; 0; 0; 0; 0; 0; 0; 0; 0])]),
    [100], [([65; 66], [49])], 120, [65], [50], 200, [65; 66].
  split; [envok|]. split; [vm_compute; repeat split; discriminate|].
  split; [repeat split; try discriminate; try (repeat constructor; cbn; lia); vm_compute; intuition discriminate|].
  split; [vm_compute; repeat split; discriminate|]. split; [discriminate|]. split; [discriminate|].
  eexists. split; reflexivity.
Qed.
Print Assumptions C44_putenv_refuted.
(* unsetenv("AB") removes A=1 *)
Theorem C44_unsetenv_refuted : exists m env ps vs s n q x,
  env_at m env 9 ps vs /\ str_at m s n /\ name_ok n /\ str_at m q x /\ x <> n /\ lookup x vs <> None /\
  exists env', unsetenv 9 9 m env s = Ok (env', 0) /\ getenv 9 9 m env' q = Ok 0.
Proof.
  exists (mem_of [(100, [65; 61; 49; 0]); (120, [65; 66; 0]); (200, [65; 0])]), (mem_of [(0, [100; 0; 0; 0; 0; 0; 0; 0; 0])]),
    [100], [([65], [49])], 120, [65; 66], 200, [65].
  split; [envok|]. split; [vm_compute; repeat split; discriminate|].
  split; [repeat split; try discriminate; try (repeat constructor; cbn; lia); vm_compute; intuition discriminate|].
  split; [vm_compute; repeat split; discriminate|]. split; [discriminate|]. split; [discriminate|].
  eexists. split; reflexivity.
Qed.
Print Assumptions C44_unsetenv_refuted.
(* setenv requests one byte too few and writes behind the block *)
Theorem C44_setenv_refuted : exists m env ps vs np n vp v,
  env_at m env 9 ps vs /\ str_at m np n /\ str_at m vp v /\ var_ok (n, v) /\ prefix_free (n :: map fst vs) /\
  forall ow, setenv 9 9 (malloc_exact 300) m env np vp ow = Fault.
Proof.
  exists (mem_of [(120, [65; 0]); (200, [49; 0])]), (mem_of [(0, [0; 0; 0; 0; 0; 0; 0; 0; 0])]),
    [], [], 120, [65], 200, [49].
  split; [envok|]. split; [vm_compute; repeat split; discriminate|]. split; [vm_compute; repeat split; discriminate|].
  split; [repeat split; try discriminate; try (repeat constructor; cbn; lia); vm_compute; intuition discriminate|].
  split; [intros a b [<-|[]] [<-|[]] _; reflexivity|].
  intros ow. reflexivity.
Qed.
Print Assumptions C44_setenv_refuted.
(* PATH=a X=1; setenv("X","2",0); putenv("Y=3"); setenv("X","4",1); unsetenv("PATH") *)
Definition m_h : mem := mem_of [(100, [80; 61; 97; 0]); (110, [88; 61; 49; 0]); (120, [88; 0]); (130, [50; 0]); (140, [89; 61; 51; 0]);
  (150, [52; 0]); (160, [80; 0]); (170, [89; 0])].
Definition env_h : mem := mem_of [(0, [100; 110; 0; 0; 0; 0; 0; 0; 0])].
Definition ops_h : list eop := [SetE 120 [88] 130 [50] 0 300; Put 140 [89] [51]; SetE 120 [88] 150 [52] 1 400; Unset 160 [80]].
Example C44_case : env_at m_h env_h 9 [100; 110] [([80], [97]); ([88], [49])]
  /\ Forall (op_args m_h) ops_h /\ fresh m_h ops_h /\ prefix_free ([[80]; [88]] ++ map op_name ops_h)
  /\ (let* (m, env) := run_env 9 9 ops_h m_h env_h in
      let* a := getenv 9 9 m env 120 in let* b := getenv 9 9 m env 160 in let* c := getenv 9 9 m env 170 in
      Ok (a, m a, b, c)) = Ok (402, Some 52, 0, 142)
  /\ map (map_after (fun x => lookup x [([80], [97]); ([88], [49])]) ops_h) [[80]; [88]; [89]] = [None; Some [52]; Some [51]].
Proof.
  split; [envok|]. split; [|split; [|split; [|split; reflexivity]]].
  - repeat constructor; try discriminate; try (cbn; lia); vm_compute; intuition discriminate.
  - assert (D : forall x, 300 <= x -> m_h x = None).
    { intros x Hx. unfold m_h, mem_of.
      repeat match goal with |- context [zlen ?l] => let n := eval vm_compute in (zlen l) in change (zlen l) with n end.
      repeat match goal with |- context [(?a <=? x) && (x <? ?b)] => replace ((a <=? x) && (x <? b)) with false by lia end. reflexivity. }
    cbn [fresh ops_h]. change (zlen [88]) with 1. change (zlen [50]) with 1. change (zlen [52]) with 1.
    split; [discriminate|]. split; [intros x Hx; apply D; lia|]. split; [discriminate|]. split; [|exact I].
    intros x Hx. cbn [malloc_at fst]. replace ((300 <=? x) && (x <? 300 + (1 + 1 + 1) + 1)) with false by lia. apply D. lia.
  - intros a b Ha Hb (t & E). cbn in Ha, Hb. 
    repeat match goal with H : _ \/ _ |- _ => destruct H end; subst; try contradiction; try discriminate; auto;
    match goal with H : _ = _ |- _ => cbn in H; try discriminate H end.
Qed.
