From Coq Require Import ZifyBool.
From Verif Require Import Base BaseLemmas StrModel StrSpec StrProofs StrProofs2 GetoptModel GetoptSpec GetoptProofs RegetModel RegetSpec RegetProofs.

Lemma F2_len {A B} (P : A -> B -> Prop) l1 l2 : Forall2 P l1 l2 -> zlen l1 = zlen l2.
Proof. induction 1 as [|a b l1 l2 H F IH]; [reflexivity|]. rewrite !zlen_cons. lia. Qed.

Section G.
Variables (m : mem) (fuel : nat) (argc q : Z) (os : list (Z * bool)) (colon : bool) (ls : list lopt) (ns : list str) (li : bool) (p0 : Z).
Hypothesis Fos : Forall (fun o => alnum (fst o)) os.
Hypothesis Hq : q <> 0.
Hypothesis Sq : str_at m q (optstring_of colon os).
Hypothesis Lq : zlen (optstring_of colon os) <= INT_MAX.
Hypothesis Hf : (length (optstring_of colon os) < fuel)%nat.
Hypothesis Tls : table m ls ns.
Hypothesis Fns : Forall (fun n => (length n < fuel)%nat) ns.
Hypothesis Lls : zlen ls <= INT_MAX.
Hypothesis Hargc : argc < INT_MAX - 1.
Hypothesis Hfa : argc < Z.of_nat fuel.

Definition pstr (p : Z) (a : str) : Prop := string_at m p a /\ (length a < fuel)%nat.
Record here (st : rst) (dn rest ops : list str) : Prop := mkhere {
  h_argv : exists pd pr po, roargv st = (p0 :: pd) ++ pr ++ po ++ [0] /\
             Forall2 pstr pd dn /\ Forall2 pstr pr rest /\ Forall2 pstr po ops;
  h_ind : roind st = 1 + zlen dn;
  h_cnt : rocnt st = roind st + zlen rest;
  h_argc : argc = rocnt st + zlen ops }.

Definition begins (st : rst) (v : Z * rst) : Prop :=
  forall k, rocnt st - roind st < Z.of_nat k -> begin_parse k fuel m argc q (Some ls) li st = Ok v.

Lemma here_end st dn ops : here st dn [] ops -> begins st (-1, st).
Proof.
  intros H [|k] Hk; pose proof (h_cnt _ _ _ _ H) as C; rewrite zlen_nil in C; [lia|]. cbn [begin_parse].
  replace (rocnt st <=? roind st) with true by lia. reflexivity.
Qed.
Lemma here_cur st dn a r ops : here st dn (a :: r) ops -> exists p, aget (roargv st) (roind st) = Ok p /\ pstr p a.
Proof.
  intros H. destruct (h_argv _ _ _ _ H) as (pd & pr & po & E & F1 & F2 & F3). inversion F2 as [|p b pr' r' P F2']; subst.
  exists p. split; [|exact P]. rewrite E, (h_ind _ _ _ _ H). apply (aget_ok (p0 :: pd)). rewrite zlen_cons, (F2_len _ _ _ F1). lia.
Qed.
(* the argument behind the current one *)
Lemma here_next st dn a x r ops : here st dn (a :: x :: r) ops -> exists p, aget (roargv st) (roind st + 1) = Ok p /\ pstr p x.
Proof.
  intros H. destruct (h_argv _ _ _ _ H) as (pd & pr & po & E & F1 & F2 & F3). inversion F2 as [|p b pr' r' P F2']; subst.
  inversion F2' as [|p' b pr2 r2 P' F2'']; subst. exists p'. split; [|exact P']. rewrite E, (h_ind _ _ _ _ H).
  replace ((p0 :: pd) ++ (p :: p' :: pr2) ++ po ++ [0]) with ((p0 :: pd ++ [p]) ++ p' :: pr2 ++ po ++ [0]) by (cbn; rewrite <- app_assoc; reflexivity).
  apply aget_ok. rewrite zlen_cons, zlen_app, (F2_len _ _ _ F1). change (zlen [p]) with 1. lia.
Qed.
(* one or two words are done *)
Lemma here_word st st' dn a r ops : here st dn (a :: r) ops -> roind st' = roind st + 1 -> rocnt st' = rocnt st -> roargv st' = roargv st ->
  here st' (dn ++ [a]) r ops.
Proof.
  intros H E1 E2 E3. pose proof (h_ind _ _ _ _ H). pose proof (h_cnt _ _ _ _ H) as C. pose proof (h_argc _ _ _ _ H). rewrite zlen_cons in C.
  destruct (h_argv _ _ _ _ H) as (pd & pr & po & E & F1 & F2 & F3). inversion F2 as [|p b pr' r' P F2']; subst.
  constructor; [|rewrite zlen_app; change (zlen [a]) with 1; lia|lia|lia].
  exists (pd ++ [p]), pr', po. split; [rewrite E3, E; cbn; rewrite <- app_assoc; reflexivity|]. split; [|auto]. apply Forall2_app; auto.
Qed.

Definition moved1 (st : rst) (i cix n : Z) (l : list Z) : rst :=
  mkrst i (roopt st) (roarg st) cix n l (rolong st) (roflag st).
Lemma step_eq st k p a : rocnt st > roind st -> aget (roargv st) (roind st) = Ok p -> pstr p a ->
  begin_parse (S k) fuel m argc q (Some ls) li st =
  match shape_of a with
  | SEnd => let* i1 := iop (roind st + 1) in Ok (-1, moved1 st i1 (rocix st) (rocnt st) (roargv st))
  | SOperand =>
      let* l := reorder_option fuel argc (roargv st) (roind st) in
      let* n := iop (rocnt st - 1) in
      begin_parse k fuel m argc q (Some ls) li (moved1 st (roind st) (rocix st) n l)
  | SShort _ =>
      if zlen a <=? rocix st then
        let* i1 := iop (roind st + 1) in
        begin_parse k fuel m argc q (Some ls) li (moved1 st i1 1 (rocnt st) (roargv st))
      else regetopt_short fuel m (rocnt st) q st
  | SLong _ => regetopt_long fuel m (rocnt st) (Some ls) li st
  end.
Proof.
  intros Hc G ((P0 & P1 & P2) & P3). cbn [begin_parse]. replace (rocnt st <=? roind st) with false by lia. rewrite G, bind_Ok.
  rewrite (strlen_ok a), bind_Ok by (auto; lia). unfold is_dashdash, load. clear Fos Sq Lq Hf Tls Fns Lls.
  destruct a as [|x a].
  - cbn [str_at] in P1. rewrite P1, bind_Ok. reflexivity.
  - cbn [str_at] in P1. destruct P1 as (M1 & B1 & P1). rewrite M1, bind_Ok. destruct a as [|y w].
    + cbn [str_at] in P1. rewrite P1. destruct (x =? 45); reflexivity.
    + cbn [str_at] in P1. destruct P1 as (M2 & B2 & P1). rewrite M2. nneg w. cbn [shape_of].
      assert (L : zlen (x :: y :: w) = zlen w + 2) by (rewrite !zlen_cons; lia). rewrite L in *.
      replace (2 <=? zlen w + 2) with true by lia. destruct (x =? 45) eqn:Ex; cbn [negb andb].
      * repeat rewrite bind_Ok. destruct (y =? 45) eqn:Ey; cbn [negb andb].
        -- destruct w as [|z w].
           ++ cbn [str_at] in P1. replace (p + 2) with (p + 1 + 1) by lia. rewrite P1. repeat rewrite bind_Ok. reflexivity.
           ++ cbn [str_at] in P1. destruct P1 as (M3 & B3 & P1). replace (p + 2) with (p + 1 + 1) by lia. rewrite M3. repeat rewrite bind_Ok.
              replace (z =? 0) with false by lia. repeat rewrite bind_Ok. rewrite ?Ex. cbn [andb]. repeat rewrite bind_Ok. rewrite ?Ey. nneg w. rewrite zlen_cons.
              replace (2 <? zlen w + 1 + 2) with true by lia. reflexivity.
        -- repeat rewrite bind_Ok. rewrite ?Ex. cbn [andb]. repeat rewrite bind_Ok. rewrite ?Ey. cbn [negb]. rewrite !Bool.andb_true_r.
           rewrite Bool.andb_false_r. cbn [negb]. destruct (Z.ltb_spec 2 (zlen w + 2)), (Z.eqb_spec (zlen w + 2) 2); try lia; reflexivity.
      * repeat rewrite bind_Ok. rewrite ?Ex. cbn [andb]. repeat rewrite bind_Ok. rewrite !Bool.andb_false_r. reflexivity.
Qed.

Lemma bounds st dn a r ops : here st dn (a :: r) ops -> 0 < roind st /\ roind st < rocnt st /\ rocnt st <= argc.
Proof.
  intros H. pose proof (h_ind _ _ _ _ H). pose proof (h_cnt _ _ _ _ H) as C. pose proof (h_argc _ _ _ _ H). rewrite zlen_cons in C.
  nneg r. nneg dn. nneg ops. lia.
Qed.
Lemma step_end st dn a r ops : here st dn (a :: r) ops -> shape_of a = SEnd ->
  begins st (-1, moved1 st (roind st + 1) (rocix st) (rocnt st) (roargv st)).
Proof.
  intros H E. destruct (here_cur _ _ _ _ _ H) as (p & G & P). pose proof (bounds _ _ _ _ _ H). intros [|k] Hk; [lia|].
  rewrite (step_eq st k p a), E by (auto; lia). rewrite iop_ok by (unfold INT_MIN; lia). reflexivity.
Qed.
Lemma step_oper st dn a r ops : here st dn (a :: r) ops -> shape_of a = SOperand -> exists st', here st' dn r (ops ++ [a]) /\
  rocix st' = rocix st /\ forall v, begins st' v -> begins st v.
Proof.
  intros H E. destruct (here_cur _ _ _ _ _ H) as (p & G & P). pose proof (bounds _ _ _ _ _ H) as B.
  pose proof (h_ind _ _ _ _ H) as HI. pose proof (h_cnt _ _ _ _ H) as HC. pose proof (h_argc _ _ _ _ H) as HA. rewrite zlen_cons in HC.
  destruct (h_argv _ _ _ _ H) as (pd & pr & po & EA & F1 & F2 & F3). inversion F2 as [|p' b pr' r' P' F2']; subst.
  pose proof (F2_len _ _ _ F1) as L1. pose proof (F2_len _ _ _ F2') as L2. pose proof (F2_len _ _ _ F3) as L3.
  assert (R : reorder_option fuel (rocnt st + zlen ops) (roargv st) (roind st) = Ok ((p0 :: pd) ++ (pr' ++ po) ++ p' :: [0])).
  { replace (roargv st) with ((p0 :: pd) ++ p' :: (pr' ++ po) ++ [0]) by (rewrite EA; cbn; rewrite <- app_assoc; reflexivity).
    replace (roind st) with (zlen (p0 :: pd)) by (rewrite zlen_cons; lia). apply reorder_ok; [lia|rewrite zlen_cons, zlen_app; lia|].
    rewrite app_length. unfold zlen in *. lia. }
  exists (moved1 st (roind st) (rocix st) (rocnt st - 1) ((p0 :: pd) ++ (pr' ++ po) ++ p' :: [0])). split; [|split; [reflexivity|]].
  - constructor; cbn [moved1 roargv roind rocnt]; [|lia|lia|rewrite zlen_app; change (zlen [a]) with 1; lia].
    exists pd, pr', (po ++ [p']). split; [rewrite <- !app_assoc; reflexivity|]. split; [auto|]. split; [auto|]. apply Forall2_app; auto.
  - intros v V [|k] Hk; [lia|]. rewrite (step_eq st k p a), E by (auto; lia). rewrite HA, R, bind_Ok.
    rewrite iop_ok, bind_Ok by (unfold INT_MIN; lia). rewrite <- HA. apply V. cbn [moved1 rocnt roind]. lia.
Qed.
Lemma step_fin st dn a cs r ops : here st dn (a :: r) ops -> shape_of a = SShort cs -> zlen a <= rocix st -> exists st',
  here st' (dn ++ [a]) r ops /\ rocix st' = 1 /\ forall v, begins st' v -> begins st v.
Proof.
  intros H E L. destruct (here_cur _ _ _ _ _ H) as (p & G & P). pose proof (bounds _ _ _ _ _ H) as B.
  exists (moved1 st (roind st + 1) 1 (rocnt st) (roargv st)). split; [apply here_word with (st := st); auto|]. split; [reflexivity|].
  intros v V [|k] Hk; [lia|]. rewrite (step_eq st k p a), E by (auto; lia). replace (zlen a <=? rocix st) with true by lia.
  rewrite iop_ok, bind_Ok by (unfold INT_MIN; lia). apply V. cbn [moved1 rocnt roind]. lia.
Qed.
Lemma step_short st dn a cs r ops v : here st dn (a :: r) ops -> shape_of a = SShort cs -> rocix st < zlen a ->
  regetopt_short fuel m (rocnt st) q st = Ok v -> begins st v.
Proof.
  intros H E L V. destruct (here_cur _ _ _ _ _ H) as (p & G & P). pose proof (bounds _ _ _ _ _ H) as B.
  intros [|k] Hk; [lia|]. rewrite (step_eq st k p a), E by (auto; lia). replace (zlen a <=? rocix st) with false by lia. exact V.
Qed.
Lemma step_long st dn a w r ops v : here st dn (a :: r) ops -> shape_of a = SLong w ->
  regetopt_long fuel m (rocnt st) (Some ls) li st = Ok v -> begins st v.
Proof.
  intros H E V. destruct (here_cur _ _ _ _ _ H) as (p & G & P). pose proof (bounds _ _ _ _ _ H) as B.
  intros [|k] Hk; [lia|]. rewrite (step_eq st k p a), E by (auto; lia). exact V.
Qed.

(* ---- one short option: the word is pre ++ c :: l, the character c is next -------- *)
Section S.
Variables (st : rst) (dn r ops : list str) (a pre l : str) (c : Z).
Hypothesis H : here st dn (a :: r) ops.
Hypothesis Ea : a = pre ++ c :: l.
Hypothesis Ei : rocix st = zlen pre.
Hypothesis Hc : 1 <= c < 128.
Hypothesis Hc2 : c <> 58.

Lemma at_char : exists p, aget (roargv st) (roind st) = Ok p /\ pstr p a /\ m (p + rocix st) = Some c /\ str_at m (p + rocix st + 1) l.
Proof.
  destruct (here_cur _ _ _ _ _ H) as (p & G & P). exists p. split; [exact G|]. split; [exact P|]. destruct P as ((_ & P & _) & _).
  rewrite Ea in P. apply str_at_app in P; [|pose proof (str_at_range _ _ _ P) as R; apply Forall_app in R; exact (proj1 R)].
  destruct P as [_ P]. cbn [str_at] in P. rewrite Ei. tauto.
Qed.
Lemma short_len : zlen a = rocix st + 1 + zlen l.
Proof. rewrite Ea, Ei, zlen_app, zlen_cons. lia. Qed.
Lemma schar_c : schar c = c.
Proof. unfold schar. replace (c <? 128) with true by lia. reflexivity. Qed.
Ltac start :=
  destruct at_char as (p & G & ((P0 & P1 & P2) & P3) & Mc & Sl); pose proof (bounds _ _ _ _ _ H) as B; pose proof short_len as SL;
  unfold regetopt_short; rewrite G, bind_Ok, (strlen_ok a), bind_Ok by (auto; lia); unfold load at 1; rewrite Mc, bind_Ok, schar_c;
  cbv zeta; rewrite (strlen_ok (optstring_of colon os)), bind_Ok by (auto; lia); rewrite (short_opt m q c os colon fuel), bind_Ok by auto.

Lemma short_unknown : kind os c = None -> exists st', regetopt_short fuel m (rocnt st) q st = Ok (63, st') /\ roopt st' = c.
Proof. intros K. start. rewrite K. eexists. split; [reflexivity|reflexivity]. Qed.
Lemma short_flag : kind os c = Some false -> exists st', regetopt_short fuel m (rocnt st) q st = Ok (c, st') /\
  here st' dn (a :: r) ops /\ rocix st' = zlen pre + 1.
Proof.
  intros K. start. rewrite K. eexists. split; [reflexivity|]. split; [|cbn [rocix]; lia].
  destruct H as [H1 H2 H3 H4]. constructor; auto.
Qed.
Lemma short_arg y l' : kind os c = Some true -> l = y :: l' -> exists st', regetopt_short fuel m (rocnt st) q st = Ok (c, st') /\
  str_at m (roarg st') l /\ here st' (dn ++ [a]) r ops /\ rocix st' = 1.
Proof.
  intros K El. start. rewrite K. rewrite El, zlen_cons in SL. nneg l'. replace (rocix st + 1 <? zlen a) with true by lia.
  rewrite iop_ok, bind_Ok by (unfold INT_MIN; lia). eexists. split; [reflexivity|]. cbn [roarg rocix]. split; [exact Sl|]. split; [|reflexivity].
  apply here_word with (st := st); auto.
Qed.
Lemma short_next x r' : kind os c = Some true -> l = [] -> r = x :: r' -> exists st', regetopt_short fuel m (rocnt st) q st = Ok (c, st') /\
  str_at m (roarg st') x /\ here st' ((dn ++ [a]) ++ [x]) r' ops /\ rocix st' = 1.
Proof.
  intros K El Er. start. rewrite K. rewrite El, zlen_nil in SL. replace (rocix st + 1 <? zlen a) with false by lia.
  pose proof (h_cnt _ _ _ _ H) as HC. rewrite Er, !zlen_cons in HC. nneg r'.
  rewrite iop_ok, bind_Ok by (unfold INT_MIN; lia). replace (roind st + 1 <? rocnt st) with true by lia.
  pose proof H as HH. rewrite Er in HH. destruct (here_next _ _ _ _ _ _ HH) as (p' & G' & ((_ & P' & _) & _)). rewrite G', bind_Ok.
  rewrite iop_ok, bind_Ok by (unfold INT_MIN; lia). eexists. split; [reflexivity|]. cbn [roarg rocix]. split; [exact P'|]. split; [|reflexivity].
  pose proof (here_word st (moved1 st (roind st + 1) 1 (rocnt st) (roargv st)) dn a (x :: r') ops HH eq_refl eq_refl eq_refl) as H2.
  apply (here_word _ _ _ _ _ _ H2); cbn [moved1 roind rocnt roargv]; auto; lia.
Qed.
Lemma short_missing : kind os c = Some true -> l = [] -> r = [] -> exists st', regetopt_short fuel m (rocnt st) q st = Ok (58, st') /\ roopt st' = c.
Proof.
  intros K El Er. start. rewrite K. rewrite El, zlen_nil in SL. replace (rocix st + 1 <? zlen a) with false by lia.
  pose proof (h_cnt _ _ _ _ H) as HC. rewrite Er, zlen_cons, zlen_nil in HC.
  rewrite iop_ok, bind_Ok by (unfold INT_MIN; lia). replace (roind st + 1 <? rocnt st) with false by lia.
  eexists. split; reflexivity.
Qed.
End S.

(* ---- one long option -------------------------------------------------------------- *)
Section L.
Variables (st : rst) (dn r ops : list str) (a w name : str) (value : option str).
Hypothesis H : here st dn (a :: r) ops.
Hypothesis Ea : shape_of a = SLong w.
Hypothesis Es : split_eq w = (name, value).

Lemma long_word : a = 45 :: 45 :: w.
Proof.
  unfold shape_of in Ea. destruct a as [|x [|y v]]; try discriminate. destruct (Z.eqb_spec x 45) as [->|]; [|discriminate].
  destruct (Z.eqb_spec y 45) as [->|]; [|discriminate]. destruct v; [discriminate|]. injection Ea as <-. reflexivity.
Qed.
(* what the search for = and the loop over the names give *)
Lemma long_start : exists p eq v, aget (roargv st) (roind st) = Ok p /\ pstr p a /\ strchr fuel m p 61 = Ok eq /\
  match value with None => eq = 0 /\ v = [] | Some x => eq <> 0 /\ str_at m (eq + 1) x /\ v = 61 :: x end /\
  (if eq =? 0 then let* n := strlen fuel m p in iop (n - 2) else lop (eq - p - 2)) = Ok (zlen name) /\
  w = name ++ v /\
  long_loop fuel m p (zlen name) ls 0 (-1) = Ok (scan ns name 0 (-1)).
Proof.
  destruct (here_cur _ _ _ _ _ H) as (p & G & P). exists p. pose proof P as ((P0 & P1 & P2) & P3). pose proof long_word as E.
  destruct (split_spec _ _ _ Es) as [NI EV]. destruct (strchr_ok a fuel m p 61 P1 ltac:(lia) P3) as (_ & C2 & C3).
  assert (NI2 : ~ In 61 (45 :: 45 :: name)) by (intros [K|[K|K]]; [lia|lia|auto]). nneg name.
  assert (LL : forall v, w = name ++ v -> zlen name <= INT_MAX -> long_loop fuel m p (zlen name) ls 0 (-1) = Ok (scan ns name 0 (-1))).
  { intros v Ev Ln. apply (long_ok m fuel p name v); auto; try lia.
    - rewrite <- Ev. rewrite E in P1. cbn [str_at] in P1. replace (p + 2) with (p + 1 + 1) by lia. tauto.
    - rewrite <- Ev. rewrite E in P3. cbn [length] in P3. lia. }
  destruct value as [x|].
  - assert (SP : str_at m (p + (zlen name + 2)) (61 :: x)).
    { rewrite E, EV in P1. replace (45 :: 45 :: name ++ 61 :: x) with ((45 :: 45 :: name) ++ 61 :: x) in P1 by reflexivity.
      apply str_at_app in P1; [|pose proof (str_at_range _ _ _ P1) as R; apply Forall_app in R; exact (proj1 R)].
      destruct P1 as [_ P1]. rewrite !zlen_cons in P1. replace (zlen name + 2) with (zlen name + 1 + 1) by lia. exact P1. }
    assert (C : strchr fuel m p 61 = Ok (p + (zlen name + 2))).
    { replace (zlen name + 2) with (Z.of_nat (S (S (length name)))) by (unfold zlen; lia). apply C2. rewrite E, EV. split.
      - exists 61. split; [|reflexivity]. cbn [nth_error]. rewrite nth_error_app2, Nat.sub_diag by lia. reflexivity.
      - intros j b Hj N Eb. subst b. apply NI2. replace (45 :: 45 :: name ++ 61 :: x) with ((45 :: 45 :: name) ++ 61 :: x) in N by reflexivity.
        rewrite nth_error_app1 in N by (cbn [length]; lia). apply nth_error_In in N. exact N. }
    assert (NZ : p + (zlen name + 2) <> 0) by lia.
    exists (p + (zlen name + 2)), (61 :: x). split; [exact G|]. split; [exact P|]. split; [exact C|].
    split; [split; [exact NZ|]; split; [cbn [str_at] in SP; tauto|reflexivity]|].
    replace (p + (zlen name + 2) =? 0) with false by lia.
    assert (LN : zlen a = zlen name + zlen x + 3) by (rewrite E, EV, !zlen_cons, zlen_app, zlen_cons; lia). nneg x.
    unfold INT_MAX in *. rewrite lop_ok by (unfold LONG_MIN, LONG_MAX; lia). split; [f_equal; lia|]. split; [exact EV|]. eapply LL; eauto; lia.
  - assert (LN : zlen a = zlen name + 2) by (rewrite E, EV, !zlen_cons; lia). unfold INT_MAX in *.
    exists 0, []. split; [exact G|]. split; [exact P|]. split; [apply C3; [lia|rewrite E, EV; exact NI2]|]. split; [auto|].
    cbn [Z.eqb]. rewrite (strlen_ok a), bind_Ok by (auto; unfold INT_MAX; lia). rewrite iop_ok by (unfold INT_MIN, INT_MAX; lia). split; [f_equal; lia|].
    rewrite app_nil_r. split; [exact EV|]. apply LL with (v := []); [rewrite app_nil_r; exact EV|lia].
Qed.

Hypothesis Ord : In name ns -> (length (filter (prefix name) (early ns name)) <= 1)%nat.
Lemma long_unknown : resolve ns name = None -> regetopt_long fuel m (rocnt st) (Some ls) li st = Ok (63, st).
Proof.
  intros R. destruct long_start as (p & eq & v & G & P & C & V & N & W & LL). unfold regetopt_long.
  rewrite G, bind_Ok, C, bind_Ok, N, bind_Ok, LL, bind_Ok. pose proof (scan_resolve ns name Ord) as S. rewrite R in S.
  destruct S as [-> | ->]; reflexivity.
Qed.
Section K.
Variable k : Z.
Hypothesis R : resolve ns name = Some k.
Lemma entry : exists o, nth_error ls (Z.to_nat k) = Some o /\ 0 <= lhas o <= 2 /\ kinds ls k = lhas o /\ 0 <= k.
Proof.
  pose proof (resolve_range _ _ _ R) as K. rewrite <- (F2_len _ _ _ Tls) in K. destruct (nth_error ls (Z.to_nat k)) as [o|] eqn:E.
  - exists o. split; [reflexivity|]. split; [|split; [unfold kinds; now rewrite E|lia]]. clear - Tls E. revert E. generalize (Z.to_nat k) as j.
    induction Tls as [|a b l1 l2 [_ P] F IH]; intros [|j] E; try discriminate; cbn in E; [injection E as <-; exact P|eauto].
  - apply nth_error_None in E. unfold zlen in K. lia.
Qed.
(* the state behind a long option *)
Definition done_long (o : lopt) (v : Z * rst) : Prop :=
  (if lflag o =? 0 then fst v = lval o else fst v = 1 /\ roflag (snd v) (lflag o) = lval o) /\ (li = true -> rolong (snd v) = k) /\
  rocix (snd v) = rocix st.
Ltac start o E :=
  destruct long_start as (p & eq & v & G & P & C & V & N & W & LL); pose proof (bounds _ _ _ _ _ H) as B; unfold regetopt_long;
  rewrite G, bind_Ok, C, bind_Ok, N, bind_Ok, LL, bind_Ok; pose proof (scan_resolve ns name Ord) as S; rewrite R in S; rewrite S;
  replace (k <? 0) with false by (pose proof (resolve_range _ _ _ R); lia); rewrite E; cbv zeta.
Ltac stop_ :=
  rewrite ?iop_ok, ?bind_Ok by (unfold INT_MIN; lia);
  let EF := fresh in
  match goal with |- context [lflag ?o =? 0] => destruct (lflag o =? 0) eqn:EF end;
  eexists; (split; [reflexivity|]); unfold done_long; cbn [fst snd roflag rolong roarg rocix]; rewrite EF, ?Z.eqb_refl.
Ltac fin := repeat match goal with |- _ /\ _ => split end; auto; try (let e := fresh in intros e; rewrite e; reflexivity).

Lemma long_value o x : nth_error ls (Z.to_nat k) = Some o -> lhas o = 1 \/ lhas o = 2 -> value = Some x ->
  exists w, regetopt_long fuel m (rocnt st) (Some ls) li st = Ok w /\ done_long o w /\ str_at m (roarg (snd w)) x /\ here (snd w) (dn ++ [a]) r ops.
Proof.
  intros E K EV. start o E. rewrite EV in V. destruct V as (V1 & V2 & _). destruct (Z.eqb_spec eq 0) as [|_]; [contradiction|]. cbn [negb].
  destruct K as [-> | ->]; cbn [Z.eqb Pos.eqb]; stop_; fin; try (apply here_word with (st := st); auto).
Qed.
Lemma long_optional o : nth_error ls (Z.to_nat k) = Some o -> lhas o = 2 -> value = None ->
  exists w, regetopt_long fuel m (rocnt st) (Some ls) li st = Ok w /\ done_long o w /\ roarg (snd w) = 0 /\ here (snd w) (dn ++ [a]) r ops.
Proof.
  intros E K EV. start o E. rewrite EV in V. destruct V as (-> & _). rewrite K. cbn [Z.eqb Pos.eqb]. stop_; fin; try (apply here_word with (st := st); auto).
Qed.
Lemma long_plain o : nth_error ls (Z.to_nat k) = Some o -> lhas o = 0 ->
  exists w, regetopt_long fuel m (rocnt st) (Some ls) li st = Ok w /\ done_long o w /\ here (snd w) (dn ++ [a]) r ops.
Proof.
  intros E K. start o E. rewrite K. cbn [Z.eqb Pos.eqb]. stop_; fin; try (apply here_word with (st := st); auto).
Qed.
Lemma long_next o x r' : nth_error ls (Z.to_nat k) = Some o -> lhas o = 1 -> value = None -> r = x :: r' ->
  exists w, regetopt_long fuel m (rocnt st) (Some ls) li st = Ok w /\ done_long o w /\ str_at m (roarg (snd w)) x /\
    here (snd w) ((dn ++ [a]) ++ [x]) r' ops.
Proof.
  intros E K EV Er. start o E. rewrite EV in V. destruct V as (-> & _). rewrite K. cbn [Z.eqb Pos.eqb negb].
  pose proof (h_cnt _ _ _ _ H) as HC. rewrite Er, !zlen_cons in HC. nneg r'.
  rewrite iop_ok, bind_Ok by (unfold INT_MIN; lia). replace (roind st + 1 <? rocnt st) with true by lia.
  pose proof H as HH. rewrite Er in HH. destruct (here_next _ _ _ _ _ _ HH) as (p' & G' & ((_ & P' & _) & _)). rewrite G', bind_Ok.
  pose proof (here_word st (moved1 st (roind st + 1) 1 (rocnt st) (roargv st)) dn a (x :: r') ops HH eq_refl eq_refl eq_refl) as H2.
  stop_; fin; try (apply (here_word _ _ _ _ _ _ H2); cbn [moved1 roind rocnt roargv]; auto; lia).
Qed.
Lemma long_missing o : nth_error ls (Z.to_nat k) = Some o -> lhas o = 1 -> value = None -> r = [] ->
  regetopt_long fuel m (rocnt st) (Some ls) li st = Ok (63, st).
Proof.
  intros E K EV Er. start o E. rewrite EV in V. destruct V as (-> & _). rewrite K. cbn [Z.eqb Pos.eqb negb].
  pose proof (h_cnt _ _ _ _ H) as HC. rewrite Er, zlen_cons, zlen_nil in HC.
  rewrite iop_ok, bind_Ok by (unfold INT_MIN; lia). replace (roind st + 1 <? rocnt st) with false by lia. reflexivity.
Qed.
End K.
End L.
(* ---- sequences of calls ------------------------------------------------------------ *)
Hypothesis Ord : orderly ns.
Fixpoint calls (st : rst) (rs : list (Z * rst)) : Prop :=
  match rs with
  | [] => True
  | v :: r => begins st v /\ 0 <= rocnt st /\ rocnt st - roind st < argc /\ calls (snd v) r
  end.
Lemma calls_run T : (Z.to_nat argc <= T)%nat -> forall rs st, calls st rs -> regetopts (length rs) T fuel m argc q (Some ls) li st = Ok rs.
Proof.
  intros HT. induction rs as [|v r IH]; intros st C; [reflexivity|]. destruct C as (B & C0 & C1 & C). cbn [length regetopts].
  unfold regetopt. replace (rocnt st <? 0) with false by lia. destruct st as [i o a c n l g f]. cbn [roind rocnt] in *.
  cbn [roind roopt roarg rocix rocnt roargv rolong roflag]. rewrite B, bind_Ok by (cbn [rocnt roind]; lia). rewrite IH, bind_Ok by exact C. reflexivity.
Qed.

(* errors that are reported *)
Definition fine (e : event) : Prop :=
  match e with
  | EUnknown c => 1 <= c < 128 /\ c <> 58
  | EMissing _ => colon = true
  | ELongSurplus _ => False
  | _ => True
  end.
Definition final (dn ops : list str) (P : parsed) (st : rst) : Prop :=
  match after P with
  | None => here st (dn ++ words P) [] (ops ++ opers P)
  | Some rest => exists st0, here st0 (dn ++ words P) ([45; 45] :: rest) (ops ++ opers P) /\ roargv st = roargv st0 /\ roind st = roind st0 + 1 /\ rocnt st = rocnt st0
  end.
Definition goal (st : rst) (dn ops : list str) (P : parsed) : Prop :=
  forall pre post, evs P = pre ++ post -> Forall (fun e => ~ is_error e) pre ->
    match post with [] => True | e :: _ => is_error e /\ fine e end ->
  exists rs x, calls st (rs ++ [x]) /\ Forall2 (reports m colon ls li) rs pre /\
    match post with [] => fst x = -1 /\ rocix (snd x) = 1 /\ final dn ops P (snd x) | e :: _ => reports m colon ls li x e end.

Lemma goal_call st v dn ops P e : begins st v -> 0 <= rocnt st -> rocnt st - roind st < argc -> reports m colon ls li v e -> ~ is_error e ->
  goal (snd v) dn ops P -> goal st dn ops (opt1 e P).
Proof.
  intros B C0 C1 R NE G pre post E F O. cbn [opt1 evs] in E. destruct pre as [|e' pre].
  - destruct post as [|e' post]; [discriminate|]. cbn in E. injection E as <- _. destruct O as [O _]. contradiction.
  - cbn in E. injection E as <- E. apply Forall_cons_iff in F. destruct F as [_ F]. destruct (G pre post E F O) as (rs & x & C & R2 & K).
    exists (v :: rs), x. split; [cbn [app calls]; auto|]. split; [constructor; auto|]. destruct post; [|exact K]. exact K.
Qed.
Lemma goal_stop st v dn ops e : begins st v -> 0 <= rocnt st -> rocnt st - roind st < argc -> is_error e -> (fine e -> reports m colon ls li v e) ->
  goal st dn ops (stop e).
Proof.
  intros B C0 C1 IE R pre post E F O. cbn [stop evs] in E. destruct pre as [|e' pre].
  - cbn in E. subst post. exists [], v. destruct O as [_ O]. split; [cbn [app calls]; auto|]. split; [constructor|]. auto.
  - cbn in E. injection E as <- E. apply Forall_cons_iff in F. destruct F as [F _]. contradiction.
Qed.
Lemma goal_skip st st' dn ops P : (forall v, begins st' v -> begins st v) -> 0 <= rocnt st -> rocnt st - roind st < argc -> goal st' dn ops P -> goal st dn ops P.
Proof.
  intros S C0 C1 G pre post E F O. destruct (G pre post E F O) as (rs & x & C & R2 & K). exists rs, x. split; [|auto].
  destruct rs as [|v rs]; cbn [app calls] in *; intuition.
Qed.
Lemma goal_word st dn ops P a : goal st (dn ++ [a]) ops P -> goal st dn ops (word a P).
Proof.
  intros G pre post E F O. destruct (G pre post E F O) as (rs & x & C & R2 & K). exists rs, x. split; [auto|]. split; [auto|].
  destruct post; [|exact K]. destruct K as (K1 & K0 & K2). split; [exact K1|]. split; [exact K0|]. unfold final in *. cbn [word after words opers]. rewrite <- app_assoc in K2. exact K2.
Qed.
Lemma goal_oper st dn ops P a : goal st dn (ops ++ [a]) P -> goal st dn ops (oper a P).
Proof.
  intros G pre post E F O. destruct (G pre post E F O) as (rs & x & C & R2 & K). exists rs, x. split; [auto|]. split; [auto|].
  destruct post; [|exact K]. destruct K as (K1 & K0 & K2). split; [exact K1|]. split; [exact K0|]. unfold final in *. cbn [oper after words opers]. rewrite <- app_assoc in K2. exact K2.
Qed.

Notation pars := (parse os ns (kinds ls)).
Definition clus (a : str) (rest : list str) : str -> parsed :=
  fix cluster l :=
  match l with
  | [] => word a (pars rest)
  | c :: l' =>
      match kind os c with
      | None => stop (EUnknown c)
      | Some false => opt1 (EShort c None) (cluster l')
      | Some true =>
          match l' with
          | _ :: _ => opt1 (EShort c (Some l')) (word a (pars rest))
          | [] =>
              match rest with
              | x :: rest' => opt1 (EShort c (Some x)) (word a (word x (pars rest')))
              | [] => stop (EMissing c)
              end
          end
      end
  end.
Lemma parse_short a rest cs : shape_of a = SShort cs -> pars (a :: rest) = clus a rest cs.
Proof. intros E. cbn [parse]. rewrite E. reflexivity. Qed.
Lemma clus_nil a rest : clus a rest [] = word a (pars rest).
Proof. reflexivity. Qed.
Lemma clus_cons a rest c l' : clus a rest (c :: l') =
      match kind os c with
      | None => stop (EUnknown c)
      | Some false => opt1 (EShort c None) (clus a rest l')
      | Some true =>
          match l' with
          | _ :: _ => opt1 (EShort c (Some l')) (word a (pars rest))
          | [] =>
              match rest with
              | x :: rest' => opt1 (EShort c (Some x)) (word a (word x (pars rest')))
              | [] => stop (EMissing c)
              end
          end
      end.
Proof. reflexivity. Qed.

Lemma kind_alnum c b : kind os c = Some b -> alnum c.
Proof.
  unfold kind. intros E. destruct (find (fun o => fst o =? c) os) as [o|] eqn:F; [|discriminate]. apply find_some in F. destruct F as [I F].
  rewrite Forall_forall in Fos. specialize (Fos _ I). replace c with (fst o) by lia. exact Fos.
Qed.

Lemma goal_clus rest ops a cs : shape_of a = SShort cs ->
  (forall st dn, here st dn rest ops -> rocix st = 1 -> goal st dn ops (pars rest)) ->
  (forall x rest' st dn, rest = x :: rest' -> here st dn rest' ops -> rocix st = 1 -> goal st dn ops (pars rest')) ->
  forall l pre st dn, a = pre ++ l -> here st dn (a :: rest) ops -> rocix st = zlen pre -> Forall (fun c => 1 <= c) a -> goal st dn ops (clus a rest l).
Proof.
  intros Sh G1 G2. induction l as [|c l IH]; intros pre st dn Ea H Ei Fa; rewrite ?clus_nil, ?clus_cons; pose proof (bounds _ _ _ _ _ H) as B.
  - rewrite app_nil_r in Ea. subst pre.
    destruct (step_fin st dn a cs rest ops H Sh) as (st' & H' & E' & V); [lia|].
    apply goal_word, goal_skip with (st' := st'); auto; lia.
  - assert (C1 : 1 <= c). { rewrite Forall_forall in Fa. apply Fa. rewrite Ea. apply in_or_app. right. left. reflexivity. }
    assert (LT : rocix st < zlen a). { rewrite Ea, zlen_app, zlen_cons. nneg l. lia. }
    destruct (kind os c) as [[|]|] eqn:K.
    + pose proof (kind_alnum _ _ K) as AL. assert (AC : 1 <= c < 128 /\ c <> 58) by (unfold alnum in AL; lia). destruct AC as [AC1 AC2].
      destruct l as [|y l].
      * destruct rest as [|x rest'] eqn:Er.
        -- destruct (short_missing st dn [] ops a pre [] c H Ea Ei AC1 AC2 K eq_refl eq_refl) as (st' & R1 & R2).
           apply goal_stop with (v := (58, st')); [|lia|lia|exact I|].
           ++ apply (step_short st dn a cs [] ops); auto.
           ++ intros F. cbn [fine] in F. cbn [reports fst snd]. rewrite F. auto.
        -- destruct (short_next st dn (x :: rest') ops a pre [] c H Ea Ei AC1 AC2 x rest' K eq_refl eq_refl) as (st' & R1 & R2 & R3 & R4).
           apply goal_call with (v := (c, st')); [|lia|lia|cbn; auto|cbn; auto|].
           ++ apply (step_short st dn a cs (x :: rest') ops); auto.
           ++ apply goal_word, goal_word. cbn [snd]. apply (G2 x rest'); auto.
      * destruct (short_arg st dn rest ops a pre (y :: l) c H Ea Ei AC1 AC2 y l K eq_refl) as (st' & R1 & R2 & R3 & R4).
        apply goal_call with (v := (c, st')); [|lia|lia|cbn; auto|cbn; auto|].
        -- apply (step_short st dn a cs rest ops); auto.
        -- apply goal_word. cbn [snd]. apply G1; auto.
    + pose proof (kind_alnum _ _ K) as AL. assert (AC : 1 <= c < 128 /\ c <> 58) by (unfold alnum in AL; lia). destruct AC as [AC1 AC2].
      destruct (short_flag st dn rest ops a pre l c H Ea Ei AC1 AC2 K) as (st' & R1 & R2 & R3).
      apply goal_call with (v := (c, st')); [|lia|lia|cbn; auto|cbn; auto|].
      * apply (step_short st dn a cs rest ops); auto.
      * cbn [snd]. apply (IH (pre ++ [c])); auto; [rewrite <- app_assoc; exact Ea|rewrite zlen_app; exact R3].
    + (* an unknown character: without the condition of fine the result does not matter *)
      destruct (Z.ltb_spec c 128) as [C2|C2]; [destruct (Z.eqb_spec c 58) as [C3|C3]|].
      * intros pre' post E F O. cbn [stop evs] in E. destruct pre' as [|e' pre'].
        -- cbn in E. subst post. destruct O as [_ O]. cbn in O. lia.
        -- cbn in E. injection E as <- E. apply Forall_cons_iff in F. destruct F as [F _]. exfalso. apply F. exact I.
      * destruct (short_unknown st dn rest ops a pre l c H Ea Ei ltac:(lia) C3 K) as (st' & R1 & R2).
        apply goal_stop with (v := (63, st')); [|lia|lia|exact I|].
        -- apply (step_short st dn a cs rest ops); auto.
        -- intros _. cbn. auto.
      * intros pre' post E F O. cbn [stop evs] in E. destruct pre' as [|e' pre'].
        -- cbn in E. subst post. destruct O as [_ O]. cbn in O. lia.
        -- cbn in E. injection E as <- E. apply Forall_cons_iff in F. destruct F as [F _]. exfalso. apply F. exact I.
Qed.

Lemma done_reports k o v x : nth_error ls (Z.to_nat k) = Some o -> forall st, done_long st k o v -> str_at m (roarg (snd v)) x -> reports m colon ls li v (ELong k (Some x)).
Proof. intros E st (D1 & D2 & D3) S. exists o. auto. Qed.
Lemma goal_parse : forall n args, (length args <= n)%nat -> forall st dn ops, here st dn args ops -> rocix st = 1 -> goal st dn ops (pars args).
Proof.
  induction n as [|n IH]; intros args L st dn ops H I1.
  { destruct args; [|cbn in L; lia]. cbn [parse].
    intros pre post E F O. cbn in E. symmetry in E. apply app_eq_nil in E. destruct E as [-> ->]. exists [], (-1, st).
    pose proof (h_ind _ _ _ _ H). pose proof (h_cnt _ _ _ _ H) as C. pose proof (h_argc _ _ _ _ H). change (zlen (@nil str)) with 0 in C. nneg dn. nneg ops.
    split; [cbn [app calls snd]; split; [apply here_end with dn ops; exact H|lia]|]. split; [constructor|]. split; [reflexivity|]. split; [exact I1|].
    unfold final. cbn [after words opers snd]. rewrite !app_nil_r. exact H. }
  destruct args as [|a rest].
  { apply IH; auto. cbn; lia. }
  cbn [length] in L. pose proof (bounds _ _ _ _ _ H) as B. destruct (shape_of a) as [| |w|cs] eqn:Sh.
  - cbn [parse]. rewrite Sh. destruct (step_oper _ _ _ _ _ H Sh) as (st' & H' & E' & V). apply goal_oper, goal_skip with (st' := st'); auto; try lia.
    apply IH; auto; lia.
  - cbn [parse]. rewrite Sh. intros pre post E F O. cbn in E. symmetry in E. apply app_eq_nil in E. destruct E as [-> ->].
    exists [], (-1, moved1 st (roind st + 1) (rocix st) (rocnt st) (roargv st)).
    split; [cbn [app calls snd]; split; [apply (step_end _ _ _ _ _ H Sh)|lia]|]. split; [constructor|]. split; [reflexivity|]. split; [exact I1|].
    unfold final. cbn [after words opers snd]. rewrite !app_nil_r. exists st.
    assert (Ea : a = [45; 45]).
    { unfold shape_of in Sh. destruct a as [|x [|y v]]; try discriminate. destruct (Z.eqb_spec x 45) as [->|]; [|discriminate].
      destruct (Z.eqb_spec y 45) as [->|]; [|discriminate]. destruct v; [reflexivity|discriminate]. }
    rewrite <- Ea. auto.
  - cbn [parse]. rewrite Sh. destruct (split_eq w) as [name value] eqn:Es.
    pose proof (Ord name) as On. destruct (resolve ns name) as [k|] eqn:R.
    + destruct (entry name On k R) as (o & N & K & Ek & K0). rewrite Ek. destruct (Z.eqb_spec (lhas o) 1) as [K1|K1]; [|destruct (Z.eqb_spec (lhas o) 2) as [K2|K2]].
      * destruct value as [v|]; [|destruct rest as [|x rest']].
        -- destruct (long_value _ _ _ _ _ _ _ _ H Sh Es On k R o v N (or_introl K1) eq_refl) as (r & R1 & R2 & R3 & R4).
           apply goal_call with (v := r); [apply (step_long _ _ _ _ _ _ _ H Sh R1)|lia|lia|apply (done_reports _ _ _ _ N st); auto|cbn; auto|].
           apply goal_word, IH; [lia|exact R4|]. destruct R2 as (_ & _ & ->). exact I1.
        -- apply goal_stop with (v := (63, st)); [|lia|lia|exact I|reflexivity].
           apply (step_long _ _ _ _ _ _ _ H Sh). apply (long_missing _ _ _ _ _ _ _ _ H Sh Es On k R o N K1 eq_refl eq_refl).
        -- destruct (long_next _ _ _ _ _ _ _ _ H Sh Es On k R o x rest' N K1 eq_refl eq_refl) as (r & R1 & R2 & R3 & R4).
           apply goal_call with (v := r); [apply (step_long _ _ _ _ _ _ _ H Sh R1)|lia|lia|apply (done_reports _ _ _ _ N st); auto|cbn; auto|].
           apply goal_word, goal_word, IH; [cbn [length] in L; lia|exact R4|]. destruct R2 as (_ & _ & ->). exact I1.
      * destruct value as [v|].
        -- destruct (long_value _ _ _ _ _ _ _ _ H Sh Es On k R o v N (or_intror K2) eq_refl) as (r & R1 & R2 & R3 & R4).
           apply goal_call with (v := r); [apply (step_long _ _ _ _ _ _ _ H Sh R1)|lia|lia|apply (done_reports _ _ _ _ N st); auto|cbn; auto|].
           apply goal_word, IH; [lia|exact R4|]. destruct R2 as (_ & _ & ->). exact I1.
        -- destruct (long_optional _ _ _ _ _ _ _ _ H Sh Es On k R o N K2 eq_refl) as (r & R1 & R2 & R3 & R4).
           apply goal_call with (v := r); [apply (step_long _ _ _ _ _ _ _ H Sh R1)|lia|lia| |cbn; auto|].
           ++ exists o. destruct R2 as (D1 & D2 & D3). auto.
           ++ apply goal_word, IH; [lia|exact R4|]. destruct R2 as (_ & _ & ->). exact I1.
      * assert (K00 : lhas o = 0) by lia.
        destruct (long_plain _ _ _ _ _ _ _ _ H Sh Es On k R o N K00) as (r & R1 & R2 & R4). destruct value as [v|].
        -- apply goal_stop with (v := r); [apply (step_long _ _ _ _ _ _ _ H Sh R1)|lia|lia|exact I|]. intros [].
        -- apply goal_call with (v := r); [apply (step_long _ _ _ _ _ _ _ H Sh R1)|lia|lia| |cbn; auto|].
           ++ exists o. destruct R2 as (D1 & D2 & D3). split; [exact N|]. split; [exact D1|]. split; [exact D2|]. lia.
           ++ apply goal_word, IH; [lia|exact R4|]. destruct R2 as (_ & _ & ->). exact I1.
    + apply goal_stop with (v := (63, st)); [|lia|lia|exact I|reflexivity].
      apply (step_long _ _ _ _ _ _ _ H Sh). apply (long_unknown _ _ _ _ _ _ _ _ H Sh Es On R).
  - rewrite (parse_short _ _ _ Sh).
    assert (Ea : a = [45] ++ cs).
    { unfold shape_of in Sh. destruct a as [|x [|y v]]; try discriminate. destruct (Z.eqb_spec x 45) as [->|]; [|discriminate].
      destruct (Z.eqb_spec y 45) as [->|]; [destruct v; discriminate|]. injection Sh as <-. reflexivity. }
    apply (goal_clus rest ops a cs Sh) with (pre := [45]); auto.
    + intros st' dn' H' I'. apply IH; auto; lia.
    + intros x rest' st' dn' E H' I'. apply IH; auto. subst rest. cbn [length] in L. lia.
    + destruct (here_cur _ _ _ _ _ H) as (p & _ & ((_ & P & _) & _)). apply str_at_range in P. revert P. apply Forall_impl. intros; lia.
Qed.

(* a whole command line, from the first call on *)
Lemma regetopt_all args ptrs T : Forall2 pstr ptrs args -> argc = 1 + zlen args -> (Z.to_nat argc <= T)%nat ->
  forall st, roind st = 1 -> rocix st = 1 -> rocnt st < 0 \/ rocnt st = argc -> roargv st = p0 :: ptrs ++ [0] ->
  let P := pars args in
  forall pre post, evs P = pre ++ post -> Forall (fun e => ~ is_error e) pre ->
    match post with [] => True | e :: _ => is_error e /\ fine e end ->
  exists rs x, regetopts (S (length rs)) T fuel m argc q (Some ls) li st = Ok (rs ++ [x]) /\ Forall2 (reports m colon ls li) rs pre /\
    match post with [] => fst x = -1 /\ rocix (snd x) = 1 /\ final [] [] P (snd x) | e :: _ => reports m colon ls li x e end.
Proof.
  intros F EA HT st I1 C1 N1 A1 P pre post E FE O.
  set (st1 := mkrst (roind st) (roopt st) (roarg st) (rocix st) argc (roargv st) (rolong st) (roflag st)).
  assert (H : here st1 [] args []).
  { constructor; cbn [st1 roargv roind rocnt]; [|exact I1|lia|change (zlen (@nil str)) with 0; lia]. exists [], ptrs, []. rewrite A1. auto. }
  destruct (goal_parse _ args (le_n _) st1 [] [] H C1 pre post E FE O) as (rs & x & C & R & K). exists rs, x. split; [|auto].
  pose proof (calls_run T HT _ _ C) as G. rewrite app_length, Nat.add_comm in G. cbn [length Nat.add] in G. rewrite <- G. cbn [regetopts]. f_equal.
  unfold regetopt. nneg args. destruct N1 as [N1|N1].
  - replace (rocnt st <? 0) with true by lia. cbn [st1 rocnt roind roopt roarg rocix roargv rolong roflag]. replace (argc <? 0) with false by lia. reflexivity.
  - rewrite N1. cbn [st1 rocnt roind roopt roarg rocix roargv rolong roflag]. reflexivity.
Qed.
(* the first call, if the first word is a long option without an argument *)
Lemma first_long a w rest ptrs k T : Forall2 pstr ptrs (a :: rest) -> argc = 1 + zlen (a :: rest) -> (Z.to_nat argc <= T)%nat ->
  forall st, roind st = 1 -> rocnt st < 0 -> roargv st = p0 :: ptrs ++ [0] ->
  shape_of a = SLong w -> split_eq w = (w, None) -> resolve ns w = Some k -> kinds ls k <> 1 ->
  exists r, regetopt T fuel m argc q (Some ls) li st = Ok r /\ reports m colon ls li r (ELong k None).
Proof.
  intros F EA HT st I1 N1 A1 Sh Es R KN.
  set (st1 := mkrst (roind st) (roopt st) (roarg st) (rocix st) argc (roargv st) (rolong st) (roflag st)).
  assert (H : here st1 [] (a :: rest) []).
  { constructor; cbn [st1 roargv roind rocnt]; [|exact I1|lia|change (zlen (@nil str)) with 0; lia]. exists [], ptrs, []. rewrite A1. auto. }
  assert (G : exists r, begins st1 r /\ reports m colon ls li r (ELong k None)).
  { destruct (entry w (Ord w) k R) as (o & N & K & Ek & K0). rewrite Ek in KN. destruct (Z.eq_dec (lhas o) 2) as [K2|K2].
    - destruct (long_optional _ _ _ _ _ _ _ _ H Sh Es (Ord w) k R o N K2 eq_refl) as (r & R1 & R2 & R3 & R4). exists r.
      split; [apply (step_long _ _ _ _ _ _ _ H Sh R1)|]. exists o. destruct R2 as (D1 & D2 & D3). auto.
    - assert (K00 : lhas o = 0) by lia. destruct (long_plain _ _ _ _ _ _ _ _ H Sh Es (Ord w) k R o N K00) as (r & R1 & R2 & R4). exists r.
      split; [apply (step_long _ _ _ _ _ _ _ H Sh R1)|]. exists o. destruct R2 as (D1 & D2 & D3). split; [exact N|]. split; [exact D1|]. split; [exact D2|]. lia. }
  destruct G as (r & B & RP). exists r. split; [|exact RP]. unfold regetopt. replace (rocnt st <? 0) with true by lia. apply B. cbn [st1 rocnt roind].
  rewrite I1. lia.
Qed.
End G.
