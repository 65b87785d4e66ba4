From Coq Require Import ZifyBool.
From Verif Require Import Base BaseLemmas SysModel MatchModel MatchSpec MatchProofs MatchProofs2 MatchProofs3 MatchProofs4 MextModel MextSpec MextProofs MextProofs2 MextProofs3.

(* ---- the code on lists and the items of match ---- *)
Fixpoint follow_ok (p : list xitem) : Prop :=
  match p with
  | [] => True
  | x :: q => match x with XCount _ _ i => countable i = true /\ exists j, In j (xmeaning q) /\ consumes j = true | _ => True end /\ follow_ok q
  end.
Lemma meaning_ne x q : well_written (x :: q) -> exists i l, meaning x = i :: l.
Proof.
  intros [W _]. destruct x as [sep i|sep n|sep n|d sep i]; cbn [meaning]; eauto. destruct W as (_ & D & _). destruct (Z.to_nat d) as [|k] eqn:E; [lia|]. cbn [repeat]. eauto.
Qed.
Lemma xmeaning_cons x p : xmeaning (x :: p) = meaning x ++ xmeaning p.
Proof. reflexivity. Qed.
Lemma xmeaning_nil p : well_written p -> (match xmeaning p with [] => true | _ => false end) = (match p with [] => true | _ => false end).
Proof. destruct p as [|x p]; [reflexivity|]. intros W. destruct (meaning_ne x p W) as (i & l & E). rewrite xmeaning_cons, E. reflexivity. Qed.
Lemma final_eq p : well_written p -> follow_ok p -> final (xmeaning p) = finalx p.
Proof.
  intros W C. destruct p as [|x p]; [reflexivity|]. rewrite xmeaning_cons. pose proof W as [W0 W1]. pose proof (xmeaning_nil p W1) as E.
  destruct x as [sep i|sep n|sep n|d sep i]; cbn [meaning app].
  - destruct W0 as [W0 Ws]. destruct sep.
    + destruct (Ws eq_refl) as [Wc _]. destruct i; try discriminate; destruct p; try reflexivity; unfold final; destruct (xmeaning _); reflexivity.
    + destruct p; [destruct i; reflexivity|]. destruct (xmeaning (x :: p)) eqn:Ex; [discriminate|]. destruct i; reflexivity.
  - destruct (xmeaning p); destruct p; reflexivity || discriminate.
  - destruct (xmeaning p); destruct p; reflexivity || discriminate.
  - destruct W0 as (_ & D & _). destruct C as [[C _] _]. destruct (Z.to_nat d) as [|k] eqn:Ed; [lia|]. cbn [repeat app]. destruct i; try discriminate; destruct (repeat _ k ++ xmeaning p); destruct p; reflexivity.
Qed.
Lemma ends_eq p : well_written p -> follow_ok p -> ends (xmeaning p) = endsx p.
Proof.
  intros W C. assert (A : forall q, well_written q -> follow_ok q -> match xmeaning q with [] | [Star] => true | _ => false end = match q with [] | [XI false Star] => true | _ => false end).
  { clear. intros p W C. destruct p as [|x p]; [reflexivity|]. rewrite xmeaning_cons. pose proof W as [W0 W1]. pose proof (xmeaning_nil p W1) as E.
    destruct x as [sep i|sep n|sep n|d sep i]; cbn [meaning app].
    - destruct W0 as [W0 Ws]. destruct sep.
      + destruct (Ws eq_refl) as [Wc _]. destruct i; try discriminate; reflexivity.
      + destruct p; [destruct i; reflexivity|]. destruct (xmeaning (x :: p)) eqn:Ex; [discriminate|]. destruct i; reflexivity.
    - reflexivity.
    - reflexivity.
    - destruct W0 as (_ & D & _). destruct C as [[C _] _]. destruct (Z.to_nat d) as [|k] eqn:Ed; [lia|]. cbn [repeat app]. destruct i; try discriminate; reflexivity. }
  destruct p as [|x p]; [reflexivity|]. pose proof (A _ W C) as A1. pose proof W as [W0 W1]. pose proof C as [C0 C1]. specialize (A p W1 C1). unfold ends, endsx.
  rewrite xmeaning_cons in *. destruct x as [sep i|sep n|sep n|d sep i]; cbn [meaning app] in *; try exact A1.
  - destruct sep; [destruct W0 as [_ Ws]; destruct (Ws eq_refl) as [Wc _]; destruct i; try discriminate; exact A1|]. destruct i; try exact A1; exact A.
  - destruct W0 as (_ & D & _). destruct C0 as [C0 _]. destruct (Z.to_nat d) as [|k] eqn:Ed; [lia|]. cbn [repeat app] in *. destruct i; try discriminate; exact A1.
Qed.
Lemma findx_find f g last : (forall pos s, s <> [] -> option_map first_cap (f pos s) = g pos s) ->
  forall s pos, option_map (fun r => (fst r, first_cap (snd r))) (findx f last pos s) = find g last pos s.
Proof.
  intros H. induction s as [|c s IH]; intros pos; [reflexivity|]. cbn [findx find]. rewrite <- (H pos (c :: s)) by discriminate. destruct (f pos (c :: s)); [reflexivity|]. cbn [option_map].
  destruct s; [destruct last; reflexivity|]. apply IH.
Qed.
Lemma findx_ext f g last : forall s pos, (forall pos r, r <> [] -> (forall c, In c r -> In c s) -> f pos r = g pos r) -> findx f last pos s = findx g last pos s.
Proof.
  induction s as [|c s IH]; intros pos H; [reflexivity|]. cbn [findx]. rewrite H by (discriminate || auto). destruct (g pos (c :: s)); [reflexivity|]. destruct s; [reflexivity|]. apply IH. intros p r Hr Hc. apply H; auto. intros x Hx. right. auto.
Qed.
Lemma find_ext f g last : forall s pos, (forall pos r, r <> [] -> (forall c, In c r -> In c s) -> f pos r = g pos r) -> find f last pos s = find g last pos s.
Proof.
  induction s as [|c s IH]; intros pos H; [reflexivity|]. cbn [find]. rewrite H by (discriminate || auto). destruct (g pos (c :: s)); [reflexivity|]. destruct s; [reflexivity|]. apply IH. intros p r Hr Hc. apply H; auto. intros x Hx. right. auto.
Qed.
Lemma run_repeat i q : fixed i = true -> match i with Hash | Dollar => False | _ => True end -> forall d pos s, s <> [] \/ (0 < d)%nat ->
  run (repeat i d ++ q) pos s = match cnt i d s with Some r => run q (pos + Z.of_nat d) r | None => None end.
Proof.
  intros F Hi. induction d as [|d IH]; intros pos s Hs.
  - cbn [repeat app cnt]. rewrite Z.add_0_r. reflexivity.
  - cbn [repeat app cnt]. destruct s as [|c s]; [destruct i; try discriminate; try contradiction; reflexivity|]. rewrite run_fixed by exact F. destruct (hit i c); [|reflexivity].
    destruct d as [|d]; [cbn [repeat app cnt]; reflexivity|]. rewrite IH by (right; lia). destruct (cnt i (S d) s); [|reflexivity]. f_equal. lia.
Qed.
Lemma supp_sub x p s : supp (xmeaning (x :: p)) s -> supp (xmeaning p) s.
Proof. rewrite xmeaning_cons. apply supp_app. Qed.
Lemma cnt_app i : forall d s r, cnt i d s = Some r -> exists a, s = a ++ r /\ Forall (fun c => hit i c = true) a /\ length a = d.
Proof.
  induction d as [|d IH]; intros s r E; cbn [cnt] in E.
  - injection E as <-. exists []. auto.
  - destruct s as [|c s]; [discriminate|]. destruct (hit i c) eqn:Eh; [|discriminate]. destruct (IH s r E) as (a & -> & A1 & A2). exists (c :: a). split; [reflexivity|]. split; [now constructor|]. cbn [length]. lia.
Qed.
Lemma runx_run : forall p, well_written p -> follow_ok p -> forall nm pos s, Forall (fun c => 1 <= c <= 255) s -> supp (xmeaning p) s ->
  option_map first_cap (runx p nm pos s) = run (xmeaning p) pos s.
Proof.
  induction p as [|x p IH]; intros W C nm pos s R S.
  - cbn. destruct s; reflexivity.
  - pose proof (supp_sub _ _ _ S) as S'. destruct s as [|c s].
    { destruct (meaning_ne x p W) as (i & l & Em). cbn [runx]. rewrite <- (ends_eq _ W C). rewrite xmeaning_cons, Em. cbn [app run]. destruct (ends _); reflexivity. }
    pose proof W as [W0 W1]. pose proof C as [C0 C1]. pose proof R as R0. apply Forall_cons_iff in R0 as [Rc R0].
    assert (St : supp (xmeaning p) s) by (eapply supp_text; [exact S'|intros; now right]).
    assert (FE : forall pos' s', (forall c', In c' s' -> In c' (c :: s)) -> option_map (fun r => (fst r, first_cap (snd r))) (findx (runx p 0) (finalx p) pos' s') = find (run (xmeaning p)) (final (xmeaning p)) pos' s').
    { intros pos' s' Hin. rewrite (final_eq p W1 C1). etransitivity; [apply (findx_find (runx p 0) (fun pos r => option_map first_cap (runx p 0 pos r))); auto|]. apply find_ext. intros pos1 r Hr Hc. apply IH; auto.
      - apply Forall_forall. intros z Hz. rewrite Forall_forall in R. auto.
      - eapply supp_text; [exact S'|]. auto. }
    assert (NE : forall A (a b : A), match xmeaning p with [] => a | _ => b end = match p with [] => a | _ => b end).
    { intros A a b. pose proof (xmeaning_nil p W1) as E. destruct (xmeaning p), p; try reflexivity; discriminate. }
    assert (FX : forall i sep, x = XI sep i -> fixedx i = true -> option_map first_cap (if hit i c then runx p nm (pos + 1) s else None) = run (xmeaning (x :: p)) pos (c :: s)).
    { intros i sep -> Fi. rewrite xmeaning_cons. cbn [meaning app]. rewrite run_fixed by (destruct i; try discriminate; reflexivity). destruct (hit i c); [|reflexivity]. apply IH; auto. }
    destruct x as [sep i|sep n|sep n|d sep i].
    + destruct (fixedx i) eqn:Fi; [rewrite <- (FX i sep eq_refl Fi); destruct i; try discriminate; reflexivity|].
      destruct W0 as [W0 _]. rewrite xmeaning_cons. cbn [meaning app]. destruct i; try discriminate; try contradiction; cbn [runx run].
      * rewrite NE. destruct p as [|y p']; [reflexivity|]. rewrite <- FE by auto. destruct (findx _ _ pos (c :: s)) as [[z l]|]; reflexivity.
      * destruct s as [|z s']; [reflexivity|]. rewrite NE. destruct p as [|y p']; [reflexivity|]. rewrite <- FE by (intros; now right). destruct (findx _ _ (pos + 1) (z :: s')) as [[e l]|]; reflexivity.
    + rewrite xmeaning_cons. cbn [meaning app runx run]. destruct s as [|z s']; [reflexivity|]. rewrite NE. destruct p as [|y p']; [reflexivity|]. rewrite <- FE by (intros; now right). destruct (findx _ _ (pos + 1) (z :: s')) as [[e l]|]; reflexivity.
    + rewrite xmeaning_cons. cbn [meaning app runx]. rewrite run_fixed by reflexivity. cbn [hit]. apply IH; auto.
    + rewrite xmeaning_cons. cbn [meaning runx]. destruct W0 as (_ & D & _). destruct C0 as [C0 CF].
      rewrite run_repeat; [|destruct i; try discriminate; reflexivity|destruct i; try discriminate; exact I|left; discriminate]. rewrite Z2Nat.id by lia.
      destruct (cnt i (Z.to_nat d) (c :: s)) as [r|] eqn:E; [|reflexivity]. destruct (cnt_app _ _ _ _ E) as (a & Ea & _ & _).
      assert (Rr : Forall (fun c => 1 <= c <= 255) r) by (rewrite Ea in R; apply Forall_app in R; apply R).
      assert (Sr : supp (xmeaning p) r) by (eapply supp_text; [exact S'|]; intros z Hz; rewrite Ea; apply in_app_iff; auto).
      destruct r as [|c' r].
      * destruct (run (xmeaning p) (pos + d) []) eqn:E2; [|reflexivity]. exfalso. apply (consumes_ne _ CF). apply (run_iff _ (pos + d)); [exact Rr|exact Sr|congruence].
      * apply IH; auto.
Qed.
Lemma xsupported_parts p s : xsupported p s -> well_written p /\ supp (xmeaning p) s /\ follow_ok p /\ counts_ok p.
Proof.
  intros (W & (A & B & C & D) & E). split; [exact W|]. split; [split; [|split; [|split]]; assumption|].
  clear A B C D W. induction p as [|x p IH]; [cbn; auto|].
  assert (E' : forall a d sep i b, p = a ++ XCount d sep i :: b -> countable i = true /\ (exists j, In j (xmeaning b) /\ consumes j = true) /\ forall sep' s b', b <> XI sep' (One true s) :: b').
  { intros a d sep i b ->. apply (E (x :: a) d sep i b eq_refl). }
  destruct (IH E') as [I1 I2]. split; (split; [|assumption]); destruct x as [sep i|sep n|sep n|d sep i]; try exact I; destruct (E [] d sep i p eq_refl) as (E1 & E2 & E3); auto.
  split; [exact E1|]. destruct p as [|y p']; [exact I|]. destruct y as [sep' [[] s'| | | | | | | | ]| | | ]; try reflexivity. exfalso. eapply E3. reflexivity.
Qed.
Lemma runx_iff p s nm pos : Forall (fun c => 1 <= c <= 255) s -> xsupported p s -> (runx p nm pos s <> None <-> matches false (xmeaning p) s).
Proof.
  intros R S. apply xsupported_parts in S as (W & S & F & _). rewrite <- (run_iff _ pos s R S). rewrite <- (runx_run p W F nm pos s R S). destruct (runx p nm pos s); cbn [option_map]; split; congruence.
Qed.
