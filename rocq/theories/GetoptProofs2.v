From Coq Require Import ZifyBool.
From Verif Require Import Base BaseLemmas StrModel SysModel GetoptModel GetoptSpec GetoptProofs.

Definition cluster (os : list (Z * bool)) (rest : list (list Z)) (i : Z) : list Z -> list event * Z :=
  fix cluster l :=
    match l with
    | [] => parse os rest (i + 1)
    | c :: l' =>
        match kind os c with
        | None => add (Unknown c) (cluster l')
        | Some false => add (Opt c None) (cluster l')
        | Some true =>
            match l' with
            | _ :: _ => add (Opt c (Some l')) (parse os rest (i + 1))
            | [] =>
                match rest with
                | x :: rest' => add (Opt c (Some x)) (parse os rest' (i + 2))
                | [] => ([Missing c], i + 1)
                end
            end
        end
    end.
Lemma z45 (x : Z) : {x = 45} + {forall (A : Type) (a b : A), match x with 45 => a | _ => b end = b}.
Proof. destruct (Z.eq_dec x 45) as [H|H]; [now left|right]. intros A a b. destruct x as [|p|p]; try reflexivity. do 6 (destruct p as [p|p|]; try reflexivity). lia. Qed.
Lemma parse_stop os a rest i d : stops a = Some d -> parse os (a :: rest) i = ([], i + d).
Proof.
  destruct a as [|x cs]; cbn [stops parse]; [intros [= <-]; now rewrite Z.add_0_r|]. destruct (z45 x) as [->|H]; [|rewrite !H; intros [= <-]; now rewrite Z.add_0_r].
  destruct cs as [|y [|z cs]].
  - intros [= <-]. now rewrite Z.add_0_r.
  - destruct (z45 y) as [->|H]; [intros [= <-]; reflexivity|rewrite !H; discriminate].
  - destruct (z45 y) as [->|H]; [discriminate|rewrite !H; discriminate].
Qed.
Lemma parse_go os a rest i : stops a = None -> exists c cs, a = 45 :: c :: cs /\ parse os (a :: rest) i = cluster os rest i (c :: cs).
Proof.
  destruct a as [|x cs]; [discriminate|]. cbn [stops]. destruct (z45 x) as [->|H]; [|rewrite !H; discriminate]. destruct cs as [|y cs]; [discriminate|]. intros E. exists y, cs. split; [reflexivity|]. cbn [parse].
  destruct cs as [|z cs].
  - destruct (z45 y) as [->|H]; [discriminate|]. now rewrite H.
  - destruct (z45 y) as [->|H]; [reflexivity|]. now rewrite H.
Qed.
Lemma kind_alnum os c b : Forall (fun o => alnum (fst o)) os -> kind os c = Some b -> alnum c.
Proof.
  intros F. unfold kind. destruct (find (fun o => fst o =? c) os) as [o|] eqn:E; [|discriminate]. intros _. apply find_some in E. destruct E as [I E]. rewrite Forall_forall in F. specialize (F o I). cbn beta in F. replace c with (fst o) by lia. exact F.
Qed.

Section G.
Variables (m argv : mem) (os : list (Z * bool)) (colon : bool) (q : Z) (fuel : nat).
Hypothesis Fos : Forall (fun o => alnum (fst o)) os.
Hypothesis Hq : 0 < q.
Hypothesis Sq : str_at m q (optstring_of colon os).
Hypothesis Hf : (length (optstring_of colon os) < fuel)%nat.

Definition okpost (post : list event) : Prop := match post with [] => True | Opt _ _ :: _ => False | Unknown c :: _ => alnum c | Missing _ :: _ => True end.
Definition final (post : list event) (j : Z) (x : Z * gost) : Prop :=
  match post with [] => fst x = -1 /\ optind (snd x) = j | e :: _ => reports m colon x e end.
Definition goal (st : gost) (evs : list event * Z) : Prop :=
  forall pre post, fst evs = pre ++ post -> Forall (fun e => ~ error e) pre -> okpost post ->
  exists rs x, getopts (S (length pre)) fuel m argv q st = Ok (rs ++ [x]) /\ Forall2 (reports m colon) rs pre /\ final post (snd evs) x.

Lemma goal_end st st' j : getopt fuel m argv q st = Ok (-1, st') -> optind st' = j -> goal st ([], j).
Proof.
  intros E Ej pre post H _ _. cbn [fst] in H. symmetry in H. apply app_eq_nil in H. destruct H as [-> ->]. exists [], (-1, st'). cbn [getopts length]. rewrite E, bind_Ok. cbn. auto.
Qed.
Lemma goal_err st r e evs : error e -> (okpost [e] -> getopt fuel m argv q st = Ok r /\ reports m colon r e) -> goal st (add e evs).
Proof.
  intros He H pre post Ee Fp Op. cbn [fst add] in Ee. destruct pre as [|e' pre].
  - cbn [app] in Ee. subst post. destruct H as [E R]; [destruct e; auto|]. exists [], r. cbn [getopts length]. rewrite E, bind_Ok. split; [reflexivity|]. split; [constructor|]. exact R.
  - injection Ee as -> _. apply Forall_cons_iff in Fp. tauto.
Qed.
Lemma goal_opt st st' c a evs : getopt fuel m argv q st = Ok (c, st') -> reports m colon (c, st') (Opt c a) -> goal st' evs -> goal st (add (Opt c a) evs).
Proof.
  intros E R G pre post Ee Fp Op. cbn [fst snd add] in *. destruct pre as [|e' pre].
  - cbn [app] in Ee. subst post. destruct Op.
  - injection Ee as <- Ee. apply Forall_cons_iff in Fp. destruct Fp as [_ Fp]. destruct (G pre post Ee Fp Op) as (rs & x & E2 & F2 & K). exists ((c, st') :: rs), x.
    change (length (Opt c a :: pre)) with (S (length pre)). remember (S (length pre)) as n. cbn [getopts]. rewrite E, bind_Ok. cbn [snd]. rewrite E2, bind_Ok. split; [reflexivity|]. split; [constructor; auto|exact K].
Qed.

Lemma goal_cluster i A rest a : 0 < i -> i + zlen rest < INT_MAX - 1 -> argv i = Some A -> A <> 0 -> str_at m A a -> zlen a < INT_MAX ->
  args_at m argv (i + 1) rest ->
  (forall st, optind st = i + 1 -> optpos st = 1 -> goal st (parse os rest (i + 1))) ->
  (forall x rest' st, rest = x :: rest' -> optind st = i + 2 -> optpos st = 1 -> goal st (parse os rest' (i + 2))) ->
  forall l don st, a = 45 :: don ++ l -> match don with [] => True | x :: _ => alnum x end ->
  (match l with [] => optind st = i + 1 /\ optpos st = 1 | _ :: _ => optind st = i /\ optpos st = zlen don + 1 end) -> goal st (cluster os rest i l).
Proof.
  intros Hi Hi2 HA HA0 Sa Ha AR IH1 IH2. nneg rest. induction l as [|c l IH]; intros don st Ea Hd P.
  - destruct P as [P1 P2]. cbn [cluster]. now apply IH1.
  - destruct P as [P1 P2]. assert (Hi3 : 0 < i < INT_MAX - 1) by lia. cbn [cluster]. rewrite Ea in Sa, Ha. destruct (kind os c) as [[|]|] eqn:K.
    + assert (Ac := kind_alnum os c true Fos K). destruct l as [|y l'].
      * destruct rest as [|x rest'].
        { apply (goal_err st (if colon then 58 else 63, mkgost i (zlen don + 1) c (optarg st)) (Missing c) ([], i + 1)); [exact I|]. intros _. cbn [args_at] in AR. split; [|split; reflexivity].
          exact (step_missing m argv os colon q fuel Fos Hq Sq Hf i A don [] c st Ac Hd HA HA0 Sa Ha Hi3 P1 P2 K eq_refl AR). }
        { cbn [args_at] in AR. destruct AR as (X & HX & HX0 & Sx & _ & _).
          destruct (step_next m argv os colon q fuel Fos Hq Sq Hf i A don [] c st Ac Hd HA HA0 Sa Ha Hi3 P1 P2 x X K eq_refl HX HX0 Sx) as (st' & E & So & O1 & O2).
          apply (goal_opt st st' c (Some x)); [exact E|split; [reflexivity|exact So]|]. now apply (IH2 x rest'). }
      * destruct (step_arg m argv os colon q fuel Fos Hq Sq Hf i A don (y :: l') c st Ac Hd HA HA0 Sa Ha Hi3 P1 P2 y l' K eq_refl) as (st' & E & So & O1 & O2).
        apply (goal_opt st st' c (Some (y :: l'))); [exact E|split; [reflexivity|exact So]|]. now apply IH1.
    + assert (Ac := kind_alnum os c false Fos K). destruct (step_flag m argv os colon q fuel Fos Hq Sq Hf i A don l c st Ac Hd HA HA0 Sa Ha Hi3 P1 P2 K) as (st' & E & O).
      apply (goal_opt st st' c None); [exact E|split; [reflexivity|exact I]|]. apply (IH (don ++ [c])).
      * rewrite <- app_assoc. exact Ea.
      * destruct don; cbn [app]; auto.
      * rewrite zlen_app. change (zlen [c]) with 1. destruct l; exact O.
    + apply (goal_err st (63, mkgost i (zlen don + 1) c (optarg st))); [exact I|]. intros Ac. cbn [okpost] in Ac. split; [|split; reflexivity].
      exact (step_unknown m argv os colon q fuel Fos Hq Sq Hf i A don l c st Ac Hd HA HA0 Sa Ha Hi3 P1 P2 K).
Qed.

Lemma goal_parse : forall n args i st, (length args <= n)%nat -> args_at m argv i args -> 0 < i -> i + zlen args < INT_MAX - 1 -> optind st = i -> optpos st = 1 -> goal st (parse os args i).
Proof.
  induction n as [|n IH]; intros args i st Hn AR Hi Hi2 Ei Ep; (destruct args as [|a rest]; [|try (cbn in Hn; lia)]).
  1,2: cbn [parse args_at] in *; eapply goal_end; [unfold getopt; rewrite Ei; replace (i =? 0) with false by lia; rewrite Ei; unfold load; rewrite AR, bind_Ok; reflexivity|reflexivity].
  cbn [args_at] in AR. destruct AR as (A & HA & HA0 & Sa & Ha & AR). rewrite zlen_cons in Hi2. nneg rest. destruct (stops a) as [d|] eqn:Es.
  - rewrite (parse_stop os a rest i d Es). eapply goal_end.
    + unfold getopt. rewrite Ei. replace (i =? 0) with false by lia. rewrite Ei. unfold load. rewrite HA, bind_Ok, (no_option_stop m A a i d HA0 Sa Es) by (unfold INT_MIN; lia). rewrite bind_Ok. reflexivity.
    + reflexivity.
  - destruct (parse_go os a rest i Es) as (c & cs & Ea & ->). apply (goal_cluster i A rest a Hi ltac:(lia) HA HA0 Sa Ha AR) with (don := []); auto.
    + intros st' E1 E2. apply IH; auto; try lia. cbn in Hn. lia.
    + intros x rest' st' Er E1 E2. subst rest. cbn [args_at] in AR. destruct AR as (X & _ & _ & _ & _ & AR). rewrite zlen_cons in Hi2. replace (i + 1 + 1) with (i + 2) in AR by lia. apply IH; auto; try lia. cbn in Hn. lia.
Qed.

End G.
