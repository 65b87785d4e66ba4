From Coq Require Import ZifyBool.
From Verif Require Import Base BaseLemmas StrModel SysModel GetoptModel GetoptSpec.

Definition ostr (os : list (Z * bool)) : list Z := flat_map (fun o : Z * bool => let (c, b) := o in c :: if b then [58] else []) os.

Lemma schar_alnum c : alnum c -> schar c = c.
Proof. unfold alnum, schar. intros. destruct (c <? 128) eqn:E; lia. Qed.
Lemma schar_inj c b : 0 <= c <= 255 -> alnum b -> schar c = b -> c = b.
Proof. unfold alnum, schar. intros. destruct (c <? 128) eqn:E; lia. Qed.
Lemma isalnum_iff c : 0 <= c <= 255 -> isalnum (schar c) = true <-> alnum c.
Proof.
  intros H. assert (F : forallb (fun n => Bool.eqb (isalnum (schar (Z.of_nat n))) (((48 <=? Z.of_nat n) && (Z.of_nat n <=? 57)) || ((65 <=? Z.of_nat n) && (Z.of_nat n <=? 90)) || ((97 <=? Z.of_nat n) && (Z.of_nat n <=? 122)))) (seq 0 256) = true) by (vm_compute; reflexivity).
  rewrite forallb_forall in F. specialize (F (Z.to_nat c)). rewrite Z2Nat.id in F by lia. apply Bool.eqb_prop in F; [|apply in_seq; lia]. rewrite F. unfold alnum. lia.
Qed.

Lemma str_first m p l : str_at m p l -> exists x, m p = Some x /\ 0 <= x <= 255 /\ (l = [] -> x = 0) /\ (forall c r, l = c :: r -> x = c).
Proof. destruct l as [|b r]; cbn [str_at]; [intros H; exists 0|intros (H & B & _); exists b]; repeat split; try lia; try congruence; auto. Qed.
Lemma ostr_first os : Forall (fun o => alnum (fst o)) os -> forall x r, ostr os = x :: r -> x <> 58.
Proof. destruct os as [|[d b] os]; intros F x r E; [discriminate|]. apply Forall_cons_iff in F. destruct F as [F _]. cbn in E, F. injection E as <- _. unfold alnum in F. lia. Qed.

Lemma chr_os m c : alnum c -> forall os fuel q, Forall (fun o => alnum (fst o)) os -> str_at m q (ostr os) -> (length (ostr os) < fuel)%nat ->
  exists r, strchrnul fuel m q c = Ok r /\ q <= r /\
  match kind os c with None => m r = Some 0 | Some b => m r = Some c /\ exists x, m (r + 1) = Some x /\ (x =? 58) = b end.
Proof.
  intros Hc. induction os as [|[d b] os IH]; intros fuel q F S Hf; (destruct fuel as [|k]; [cbn in Hf; lia|]).
  - cbn [ostr flat_map str_at] in S. exists q. cbn [strchrnul]. unfold load. rewrite S, bind_Ok. cbn. split; [reflexivity|]. split; [lia|reflexivity].
  - apply Forall_cons_iff in F. destruct F as [Fd F]. cbn [fst] in Fd. change (ostr ((d, b) :: os)) with ((d :: if b then [58] else []) ++ ostr os) in *.
    assert (Sd : m q = Some d) by (cbn in S; tauto). cbn [strchrnul]. unfold load at 1. rewrite Sd, bind_Ok, (schar_alnum d Fd).
    assert (d <> 0) by (unfold alnum in Fd; lia). replace (d =? 0) with false by lia. unfold kind. cbn [find fst]. destruct (d =? c) eqn:E.
    + cbn [option_map snd]. exists q. split; [reflexivity|]. split; [lia|]. split; [rewrite Sd; f_equal; lia|]. destruct b.
      * exists 58. split; [cbn in S; tauto|reflexivity].
      * cbn [app str_at] in S. destruct S as (_ & _ & S). destruct (str_first _ _ _ S) as (x & Ex & _ & X0 & X1). exists x. split; [exact Ex|].
        destruct (ostr os) as [|y r] eqn:Eo; [rewrite X0 by reflexivity; reflexivity|]. pose proof (ostr_first os F _ _ Eo). rewrite (X1 y r eq_refl). lia.
    + destruct b.
      * cbn [app str_at] in S. destruct S as (_ & _ & S5 & _ & S). destruct k as [|k]; [cbn in Hf; lia|]. cbn [strchrnul]. unfold load at 1. rewrite S5, bind_Ok. cbn [Z.eqb]. 
        replace (schar 58 =? c) with false by (unfold alnum in Hc; change (schar 58) with 58; lia).
        destruct (IH k (q + 1 + 1) F S) as (r & Er & Hr & K); [cbn in Hf; lia|]. exists r. split; [exact Er|]. split; [lia|exact K].
      * cbn [app str_at] in S. destruct S as (_ & _ & S). destruct (IH k (q + 1) F S) as (r & Er & Hr & K); [cbn in Hf; lia|]. exists r. split; [exact Er|]. split; [lia|exact K].
Qed.
Lemma chr_opt m c os colon fuel q : alnum c -> Forall (fun o => alnum (fst o)) os -> 0 < q -> str_at m q (optstring_of colon os) -> (length (optstring_of colon os) < fuel)%nat ->
  match kind os c with None => strchr fuel m q c = Ok 0 | Some b => exists r x, strchr fuel m q c = Ok r /\ 0 < r /\ m (r + 1) = Some x /\ (x =? 58) = b end /\
  (exists o, m q = Some o /\ (o =? 58) = colon).
Proof.
  intros Hc F Hq S Hf. unfold optstring_of in *. fold (ostr os) in *.
  assert (K : exists r, strchrnul fuel m q c = Ok r /\ q <= r /\ match kind os c with None => m r = Some 0 | Some b => m r = Some c /\ exists x, m (r + 1) = Some x /\ (x =? 58) = b end).
  { destruct colon; [|exact (chr_os m c Hc os fuel q F S Hf)]. cbn [app str_at] in S. destruct S as (S & _ & S2). destruct fuel as [|k]; [cbn in Hf; lia|]. cbn [strchrnul]. unfold load at 1. rewrite S, bind_Ok. cbn [Z.eqb].
    replace (schar 58 =? c) with false by (unfold alnum in Hc; change (schar 58) with 58; lia). destruct (chr_os m c Hc os k (q + 1) F S2) as (r & Er & Hr & K); [cbn in Hf; lia|]. exists r. split; [exact Er|]. split; [lia|exact K]. }
  split.
  - destruct K as (r & Er & Hr & K). unfold strchr. rewrite Er, bind_Ok. assert (c <> 0) by (unfold alnum in Hc; lia). replace (c =? 0) with false by lia. unfold load.
    destruct (kind os c) as [b|].
    + destruct K as (K1 & x & K2 & K3). rewrite K1, bind_Ok. replace (c =? 0) with false by lia. exists r, x. split; [reflexivity|]. split; [lia|]. split; [exact K2|exact K3].
    + rewrite K, bind_Ok. reflexivity.
  - destruct colon; [exists 58; split; [cbn in S; tauto|reflexivity]|]. cbn [app] in S. destruct (str_first _ _ _ S) as (x & Ex & _ & X0 & X1). exists x. split; [exact Ex|].
    destruct (ostr os) as [|y r] eqn:Eo; [rewrite X0 by reflexivity; reflexivity|]. pose proof (ostr_first os F _ _ Eo). rewrite (X1 y r eq_refl). lia.
Qed.

Section G.
Variables (m argv : mem) (os : list (Z * bool)) (colon : bool) (q : Z) (fuel : nat).
Hypothesis Fos : Forall (fun o => alnum (fst o)) os.
Hypothesis Hq : 0 < q.
Hypothesis Sq : str_at m q (optstring_of colon os).
Hypothesis Hf : (length (optstring_of colon os) < fuel)%nat.

(* ---- arguments that are no options ---- *)
Definition stops (a : list Z) : option Z :=
  match a with 45 :: cs => match cs with [] => Some 0 | [45] => Some 1 | _ => None end | _ => Some 0 end.
Lemma no_option_stop A a i d : A <> 0 -> str_at m A a -> stops a = Some d -> i < INT_MAX -> INT_MIN <= i -> no_option m A i = Ok (Some (i + d)).
Proof using. clear Fos Hq Sq Hf os colon q fuel.
  intros HA S E Hi Hi2. unfold no_option. replace (A =? 0) with false by lia. unfold is_dashdash, load.
  destruct a as [|x a]; [cbn [str_at] in S; rewrite S; cbn in E; injection E as <-; rewrite Z.add_0_r; reflexivity|].
  cbn [str_at] in S. destruct S as (S & Bx & S2). rewrite S, bind_Ok. destruct (x =? 45) eqn:Ex.
  - assert (x = 45) by lia. subst x. cbn [negb]. destruct a as [|y a].
    + cbn [str_at] in S2. rewrite S2. cbn in E. injection E as <-. rewrite Z.add_0_r. reflexivity.
    + cbn [str_at] in S2. destruct S2 as (S2 & By & S3). rewrite S2, bind_Ok. destruct (y =? 45) eqn:Ey.
      * assert (y = 45) by lia. subst y. destruct a as [|z a]; [|cbn in E; discriminate]. cbn [str_at] in S3. replace (A + 2) with (A + 1 + 1) by lia. rewrite S3. cbn in E. injection E as <-. cbn. rewrite iop_ok by (unfold INT_MIN, INT_MAX in *; lia). reflexivity.
      * cbn [stops] in E. assert (y <> 45) by lia. exfalso. revert E. clear - H. intros E. destruct (Z.eq_dec y 45); [lia|]. destruct y as [|p|p]; try discriminate E. do 6 (destruct p as [p|p|]; try discriminate E); lia.
  - cbn [negb]. rewrite bind_Ok. assert (stops (x :: a) = Some 0).
    { assert (x <> 45) by lia. clear - H. cbn [stops]. destruct x as [|p|p]; try reflexivity. do 6 (destruct p as [p|p|]; try reflexivity). lia. }
    rewrite E in H. injection H as ->. rewrite bind_Ok, Ex. cbn [negb]. f_equal. f_equal. lia.
Qed.
Lemma no_option_go A c cs i : A <> 0 -> str_at m A (45 :: c :: cs) -> alnum c -> no_option m A i = Ok None.
Proof using. clear Fos Hq Sq Hf os colon q fuel.
  intros HA S Hc. unfold no_option. replace (A =? 0) with false by lia. unfold is_dashdash, load. cbn [str_at] in S. destruct S as (S & _ & S2 & B & _). rewrite S, bind_Ok. cbn [Z.eqb Pos.eqb negb].
  rewrite S2, bind_Ok. replace (c =? 45) with false by (unfold alnum in Hc; lia). cbn [negb]. rewrite bind_Ok, bind_Ok. cbn [Z.eqb Pos.eqb negb]. rewrite bind_Ok. now rewrite (proj2 (isalnum_iff c ltac:(lia)) Hc).
Qed.

(* ---- one option ---- *)
Section O.
Variables (i A : Z) (pre l : list Z) (c : Z) (st : gost).
Hypothesis Hc : alnum c.
Hypothesis Hp : match pre with [] => True | x :: _ => alnum x end.
Hypothesis HA : argv i = Some A.
Hypothesis HA0 : A <> 0.
Hypothesis S : str_at m A (45 :: pre ++ c :: l).
Hypothesis Hlen : zlen (45 :: pre ++ c :: l) < INT_MAX.
Hypothesis Hi : 0 < i < INT_MAX - 1.
Hypothesis Ei : optind st = i.
Hypothesis Ep : optpos st = zlen pre + 1.
Let p := zlen pre + 1.

Lemma at_c : m (A + p) = Some c /\ str_at m (A + p + 1) l /\ p + 1 < INT_MAX /\ 0 < p.
Proof.
  clear - S Hlen p. subst p. cbn [str_at] in S. destruct S as (_ & _ & S2). apply str_at_app in S2; [|pose proof (str_at_range _ _ _ S2) as R; apply Forall_app in R; exact (proj1 R)]. destruct S2 as [_ S3]. cbn [str_at] in S3. destruct S3 as (S3 & _ & S4). nneg pre. nneg l.
  rewrite zlen_cons, zlen_app, zlen_cons in Hlen. replace (A + (zlen pre + 1)) with (A + 1 + zlen pre) by lia. split; [exact S3|]. split; [exact S4|]. lia.
Qed.
Lemma go : no_option m A i = Ok None.
Proof. destruct pre as [|x r] eqn:E; [exact (no_option_go A c l i HA0 S Hc)|exact (no_option_go A x (r ++ c :: l) i HA0 S Hp)]. Qed.

Lemma step_unknown : kind os c = None -> getopt fuel m argv q st = Ok (63, mkgost i p c (optarg st)).
Proof.
  intros K. destruct (chr_opt m c os colon fuel q Hc Fos Hq Sq Hf) as [CH _]. rewrite K in CH. destruct at_c as (Mc & Sl & P1 & P2). unfold getopt. rewrite Ei. replace (i =? 0) with false by lia. rewrite Ei, Ep. fold p.
  unfold load. rewrite HA, bind_Ok, go, bind_Ok, Mc, bind_Ok. cbv zeta. rewrite (schar_alnum c Hc), CH, bind_Ok. reflexivity.
Qed.
Lemma step_flag : kind os c = Some false -> exists st', getopt fuel m argv q st = Ok (c, st') /\
  match l with [] => optind st' = i + 1 /\ optpos st' = 1 | _ :: _ => optind st' = i /\ optpos st' = p + 1 end.
Proof.
  intros K. destruct (chr_opt m c os colon fuel q Hc Fos Hq Sq Hf) as [CH _]. rewrite K in CH. destruct CH as (r & x & E1 & Hr & E2 & E3). destruct at_c as (Mc & Sl & P1 & P2).
  unfold getopt. rewrite Ei. replace (i =? 0) with false by lia. rewrite Ei, Ep. fold p.
  unfold load. rewrite HA, bind_Ok, go, bind_Ok, Mc, bind_Ok. cbv zeta. rewrite (schar_alnum c Hc), E1, bind_Ok. replace (r =? 0) with false by lia. rewrite E2, bind_Ok, E3.
  rewrite iop_ok by (unfold INT_MIN; lia). rewrite bind_Ok. replace (A + (p + 1)) with (A + p + 1) by lia. destruct l as [|y l'].
  - cbn [str_at] in Sl. rewrite Sl, bind_Ok. cbn [Z.eqb]. rewrite iop_ok by (unfold INT_MIN; lia). rewrite bind_Ok. eexists. split; [reflexivity|]. cbn. auto.
  - cbn [str_at] in Sl. destruct Sl as (Sl & By & _). rewrite Sl, bind_Ok. replace (y =? 0) with false by lia. eexists. split; [reflexivity|]. cbn. auto.
Qed.
Lemma step_arg y l' : kind os c = Some true -> l = y :: l' -> exists st', getopt fuel m argv q st = Ok (c, st') /\ str_at m (optarg st') l /\ optind st' = i + 1 /\ optpos st' = 1.
Proof.
  intros K El. destruct (chr_opt m c os colon fuel q Hc Fos Hq Sq Hf) as [CH _]. rewrite K in CH. destruct CH as (r & x & E1 & Hr & E2 & E3). destruct at_c as (Mc & Sl & P1 & P2).
  unfold getopt. rewrite Ei. replace (i =? 0) with false by lia. rewrite Ei, Ep. fold p.
  unfold load. rewrite HA, bind_Ok, go, bind_Ok, Mc, bind_Ok. cbv zeta. rewrite (schar_alnum c Hc), E1, bind_Ok. replace (r =? 0) with false by lia. rewrite E2, bind_Ok, E3.
  rewrite iop_ok by (unfold INT_MIN; lia). rewrite bind_Ok. replace (A + (p + 1)) with (A + p + 1) by lia. pose proof Sl as Sl'. rewrite El in Sl'. cbn [str_at] in Sl'. destruct Sl' as (M1 & By & _). rewrite M1, bind_Ok. replace (y =? 0) with false by lia. cbn [negb].
  rewrite iop_ok by (unfold INT_MIN; lia). rewrite bind_Ok. eexists. split; [reflexivity|]. cbn. auto.
Qed.
Lemma step_next x X : kind os c = Some true -> l = [] -> argv (i + 1) = Some X -> X <> 0 -> str_at m X x -> exists st', getopt fuel m argv q st = Ok (c, st') /\ str_at m (optarg st') x /\ optind st' = i + 2 /\ optpos st' = 1.
Proof.
  intros K El HX HX0 Sx. destruct (chr_opt m c os colon fuel q Hc Fos Hq Sq Hf) as [CH _]. rewrite K in CH. destruct CH as (r & z & E1 & Hr & E2 & E3). destruct at_c as (Mc & Sl & P1 & P2).
  unfold getopt. rewrite Ei. replace (i =? 0) with false by lia. rewrite Ei, Ep. fold p.
  unfold load. rewrite HA, bind_Ok, go, bind_Ok, Mc, bind_Ok. cbv zeta. rewrite (schar_alnum c Hc), E1, bind_Ok. replace (r =? 0) with false by lia. rewrite E2, bind_Ok, E3.
  rewrite iop_ok by (unfold INT_MIN; lia). rewrite bind_Ok. replace (A + (p + 1)) with (A + p + 1) by lia. rewrite El in Sl. cbn [str_at] in Sl. rewrite Sl, bind_Ok. cbn [Z.eqb negb].
  rewrite iop_ok by (unfold INT_MIN; lia). rewrite bind_Ok, HX, bind_Ok. replace (X =? 0) with false by lia. cbn [negb]. rewrite iop_ok by (unfold INT_MIN; lia). rewrite bind_Ok. eexists. split; [reflexivity|]. cbn. auto.
Qed.
Lemma step_missing : kind os c = Some true -> l = [] -> argv (i + 1) = Some 0 -> getopt fuel m argv q st = Ok (if colon then 58 else 63, mkgost i p c (optarg st)).
Proof.
  intros K El HX. destruct (chr_opt m c os colon fuel q Hc Fos Hq Sq Hf) as [CH (o & Mo & Eo)]. rewrite K in CH. destruct CH as (r & z & E1 & Hr & E2 & E3). destruct at_c as (Mc & Sl & P1 & P2).
  unfold getopt. rewrite Ei. replace (i =? 0) with false by lia. rewrite Ei, Ep. fold p.
  unfold load. rewrite HA, bind_Ok, go, bind_Ok, Mc, bind_Ok. cbv zeta. rewrite (schar_alnum c Hc), E1, bind_Ok. replace (r =? 0) with false by lia. rewrite E2, bind_Ok, E3.
  rewrite iop_ok by (unfold INT_MIN; lia). rewrite bind_Ok. replace (A + (p + 1)) with (A + p + 1) by lia. rewrite El in Sl. cbn [str_at] in Sl. rewrite Sl, bind_Ok. cbn [Z.eqb negb].
  rewrite iop_ok by (unfold INT_MIN; lia). rewrite bind_Ok, HX, bind_Ok. cbn [Z.eqb negb]. rewrite Mo, bind_Ok, Eo. reflexivity.
Qed.
End O.
End G.
