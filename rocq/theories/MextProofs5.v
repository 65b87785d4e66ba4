From Coq Require Import ZifyBool.
From Verif Require Import Base BaseLemmas SysModel MatchModel MatchSpec MatchProofs MatchProofs2 MatchProofs3 MatchProofs4 MextModel MextSpec MextProofs MextProofs2 MextProofs3 MextProofs4.

Lemma findx_some f : forall s pos e cp, findx f false pos s = Some (e, cp) ->
  exists a r, s = a ++ r /\ r <> [] /\ e = pos + zlen a /\ f e r = Some cp /\ forall a' r', s = a' ++ r' -> r' <> [] -> (length a' < length a)%nat -> f (pos + zlen a') r' = None.
Proof.
  induction s as [|c s IH]; intros pos e cp E; [discriminate|]. cbn [findx] in E. destruct (f pos (c :: s)) as [r|] eqn:Ef.
  - injection E as <- <-. exists [], (c :: s). split; [reflexivity|]. split; [discriminate|]. change (zlen (@nil Z)) with 0. rewrite Z.add_0_r. split; [reflexivity|]. split; [exact Ef|].
    intros a' r' _ _ H. cbn in H. lia.
  - assert (E2 : findx f false (pos + 1) s = Some (e, cp)) by (destruct s; [discriminate|exact E]). destruct (IH _ _ _ E2) as (a & r & -> & R1 & R2 & R3 & R4).
    exists (c :: a), r. split; [reflexivity|]. split; [exact R1|]. split; [zl; lia|]. split; [exact R3|].
    intros a' r' E' Hr Hl. destruct a' as [|y a']; cbn [app] in E'.
    + subst r'. change (zlen (@nil Z)) with 0. now rewrite Z.add_0_r.
    + injection E' as <- E'. zl. replace (pos + (zlen a' + 1)) with (pos + 1 + zlen a') by lia. apply R4; auto. cbn [length] in Hl. lia.
Qed.
Lemma wws_app a b : well_written (a ++ b) -> well_written b.
Proof. induction a as [|x a IH]; [auto|]. intros [_ W]. auto. Qed.
Lemma fol_app a b : follow_ok (a ++ b) -> follow_ok b.
Proof. induction a as [|x a IH]; [auto|]. intros [_ W]. auto. Qed.
Lemma supp_skip a b s : supp (xmeaning (a ++ b)) s -> supp (xmeaning b) s.
Proof. induction a as [|x a IH]; [auto|]. intros H. apply IH. now apply supp_sub in H. Qed.
Lemma runx_some p nm pos s : well_written p -> follow_ok p -> Forall (fun c => 1 <= c <= 255) s -> supp (xmeaning p) s -> (runx p nm pos s <> None <-> matches false (xmeaning p) s).
Proof. intros W F R S. rewrite <- (run_iff _ pos s R S). rewrite <- (runx_run p W F nm pos s R S). destruct (runx p nm pos s); cbn [option_map]; split; congruence. Qed.
Lemma matches_repeat i q : fixed i = true -> forall a s, Forall (fun c => sat i c = true) a -> matches false q s -> matches false (repeat i (length a) ++ q) (a ++ s).
Proof. intros F. induction a as [|c a IH]; intros s H M; [exact M|]. apply Forall_cons_iff in H as [H1 H2]. cbn [length repeat app]. apply m_one; auto. Qed.
Lemma countable_fx i : countable i = true -> fixed i = true.
Proof. destruct i as [[] []| | | | | | | | ]; try discriminate; auto. Qed.

Definition amps (p : list xitem) : Prop := Forall (fun x => match x with XAmp _ (Some _) => False | _ => True end) p.
Definition num (n : option Z) : Z := match n with Some d => d | None => 0 end.
Lemma runx_cap post sep n : forall pre nm pos s l, well_written (pre ++ XTake sep n :: post) -> follow_ok (pre ++ XTake sep n :: post) -> Forall (fun c => 1 <= c <= 255) s -> supp (xmeaning (pre ++ XTake sep n :: post)) s ->
  no_take pre -> (n = None -> nm = 0 /\ amps pre) -> runx (pre ++ XTake sep n :: post) nm pos s = Some l ->
  exists a x b l', s = a ++ x ++ b /\ matches false (xmeaning pre) a /\ taken (xmeaning post) x b /\ l = (num n, pos + zlen a, zlen x) :: l' /\ runx post 0 (pos + zlen a + zlen x) b = Some l'.
Proof.
  induction pre as [|i pre IH]; intros nm pos s l W F R S N A E.
  - cbn [app] in *. rewrite xmeaning_cons in S. cbn [meaning app] in S.
    assert (CO : exists j, In j (xmeaning post) /\ consumes j = true) by (destruct S as (_ & _ & C & _); apply (C [] Take _ eq_refl (or_intror eq_refl))).
    destruct s as [|y s]; [cbn in E; discriminate|]. cbn [runx] in E. destruct s as [|z s']; [discriminate|]. set (s := z :: s') in *.
    destruct post as [|j post'] eqn:Ep; [destruct CO as (j & [] & _)|]. rewrite <- Ep in *. destruct W as [W0 W]. destruct F as [_ F].
    rewrite <- (final_eq post W F) in E. rewrite (supp_final _ _ _ S eq_refl) in E. destruct (findx (runx post 0) false (pos + 1) s) as [[e cp]|] eqn:EF; [|discriminate].
    injection E as <-. apply findx_some in EF as (a & r & Es & Hr & -> & E2 & E3). pose proof (supp_tail _ _ _ S) as S'.
    apply Forall_cons_iff in R as [Ry R]. assert (Rr : Forall (fun c => 1 <= c <= 255) r) by (rewrite Es in R; apply Forall_app in R; apply R).
    exists [], (y :: a), r, cp. split; [cbn [app]; now rewrite Es|]. split; [constructor|]. split; [|split].
    + split; [discriminate|]. split.
      * apply (runx_some post 0 (pos + 1 + zlen a)); auto; [|congruence]. eapply supp_text; [exact S'|]. intros x Hx. right. rewrite Es. apply in_app_iff. auto.
      * intros x' b' Ex Hx' M. destruct x' as [|w x'']; [congruence|]. cbn [app] in Ex. injection Ex as <- Ex. rewrite !zlen_cons.
        destruct (Z_lt_le_dec (zlen x'') (zlen a)) as [L|L]; [|lia]. exfalso. rewrite <- Es in Ex.
        assert (Hb' : b' <> []) by (intros ->; now apply (consumes_ne _ CO) in M).
        assert (Rb : Forall (fun c => 1 <= c <= 255) b') by (rewrite Ex in R; apply Forall_app in R; apply R).
        assert (Sb : supp (xmeaning post) b') by (eapply supp_text; [exact S'|]; intros x Hx; right; rewrite Ex; apply in_app_iff; auto).
        apply (runx_some post 0 (pos + 1 + zlen x'') b' W F Rb Sb) in M. apply M. apply (E3 x'' b' Ex Hb'). unfold zlen in L. lia.
    + change (zlen (@nil Z)) with 0. rewrite zlen_cons. f_equal. f_equal; [f_equal; [|lia]|lia]. destruct n; [reflexivity|]. destruct (A eq_refl) as [-> _]. reflexivity.
    + change (zlen (@nil Z)) with 0. rewrite zlen_cons. etransitivity; [|exact E2]. f_equal. lia.
  - cbn [app] in *. set (p := pre ++ XTake sep n :: post) in *. pose proof (supp_sub _ _ _ S) as S'. apply Forall_cons_iff in N as [Ni N'].
    assert (A' : n = None -> nm = 0 /\ amps pre) by (intros En; destruct (A En) as [A1 A2]; apply Forall_cons_iff in A2 as [_ A2]; auto).
    assert (A0 : n = None -> 0 = 0 /\ amps pre) by (intros En; destruct (A' En) as [_ A2]; auto).
    destruct s as [|y s].
    { exfalso. assert (M : matches false (xmeaning (i :: p)) []) by (apply (runx_some _ nm pos); auto; congruence).
      revert M. apply consumes_ne. exists Take. split; [|reflexivity]. unfold xmeaning. apply in_flat_map. exists (XTake sep n). split; [right; apply in_app_iff; right; now left|now left]. }
    pose proof R as R0. apply Forall_cons_iff in R0 as [Ry R0]. assert (S2 : supp (xmeaning p) s) by (eapply supp_text; [exact S'|intros; now right]).
    assert (Hne : p <> []) by (unfold p; destruct pre; discriminate).
    pose proof W as [W0 W1]. pose proof F as [F0 F1].
    assert (FI : forall pos1 s1 e cp, Forall (fun c => 1 <= c <= 255) s1 -> supp (xmeaning p) s1 -> findx (runx p 0) false pos1 s1 = Some (e, cp) ->
      exists a0 a x b l', s1 = a0 ++ a ++ x ++ b /\ matches false (xmeaning pre) a /\ taken (xmeaning post) x b /\ cp = (num n, pos1 + zlen a0 + zlen a, zlen x) :: l' /\ runx post 0 (pos1 + zlen a0 + zlen a + zlen x) b = Some l').
    { intros pos1 s1 e cp R1 S1 EF. apply findx_some in EF as (a0 & r & -> & Hr & -> & E2 & _). apply Forall_app in R1 as [_ R1].
      destruct (IH 0 (pos1 + zlen a0) r cp W1 F1 R1) as (a & x & b & l' & -> & M & T & L & X); auto.
      { eapply supp_text; [exact S1|]. intros z Hz. apply in_app_iff. auto. }
      exists a0, a, x, b, l'. auto. }
    assert (FX : forall i' nm', meaning i = [i'] -> fixed i' = true -> (n = None -> nm' = 0 /\ amps pre) -> (if hit i' y then runx p nm' (pos + 1) s else None) = Some l ->
      exists a x b l', y :: s = a ++ x ++ b /\ matches false (xmeaning (i :: pre)) a /\ taken (xmeaning post) x b /\ l = (num n, pos + zlen a, zlen x) :: l' /\ runx post 0 (pos + zlen a + zlen x) b = Some l').
    { intros i' nm' Em Fi An EE. assert (Hh : hit i' y = sat i' y) by (apply hit_sat; auto; destruct S as (_ & _ & _ & D); apply D; [rewrite xmeaning_cons, Em; now left|now left]). rewrite Hh in EE.
      destruct (sat i' y) eqn:Es; [|discriminate]. destruct (IH nm' (pos + 1) s l W1 F1 R0 S2 N' An EE) as (a & x & b & l' & -> & M & T & L & X).
      exists (y :: a), x, b, l'. split; [reflexivity|]. split; [rewrite xmeaning_cons, Em; now apply m_one|]. split; [exact T|]. rewrite zlen_cons. replace (pos + (zlen a + 1)) with (pos + 1 + zlen a) by lia. auto. }
    assert (Fin : forall i', meaning i = [i'] -> fixed i' = false -> finalx p = false).
    { intros i' Em Fi. rewrite <- (final_eq p W1 F1). apply (supp_final i' _ (y :: s)); [|exact Fi]. rewrite xmeaning_cons, Em in S. exact S. }
    destruct i as [sep' i'|sep' n'|sep' n'|d sep' i'].
    + destruct (fixed i') eqn:Fi.
      * apply (FX i' nm eq_refl Fi A'). cbn [runx] in E. destruct i'; try discriminate; exact E.
      * specialize (Fin i' eq_refl Fi). destruct i'; try discriminate.
        -- cbn [runx] in E. destruct p as [|j p'] eqn:Ep; [congruence|]. rewrite <- Ep in *. rewrite Fin in E.
           destruct (findx (runx p 0) false pos (y :: s)) as [[e cp]|] eqn:EF; [|discriminate]. injection E as <-.
           apply FI in EF as (a0 & a & x & b & l' & Es & M & T & L & X); [|now constructor|exact S'].
           exists (a0 ++ a), x, b, l'. split; [now rewrite <- app_assoc|]. split; [rewrite xmeaning_cons; apply star_iff; eauto|]. split; [exact T|]. rewrite zlen_app. replace (pos + (zlen a0 + zlen a)) with (pos + zlen a0 + zlen a) by lia. auto.
        -- cbn [runx] in E. destruct s as [|z s'] eqn:Es0; [discriminate|]. rewrite <- Es0 in *. destruct p as [|j p'] eqn:Ep; [congruence|]. rewrite <- Ep in *. rewrite Fin in E.
           destruct (findx (runx p 0) false (pos + 1) s) as [[e cp]|] eqn:EF; [|discriminate]. injection E as <-.
           apply FI in EF as (a0 & a & x & b & l' & Es & M & T & L & X); [|exact R0|exact S2].
           exists (y :: a0 ++ a), x, b, l'. split; [cbn [app]; now rewrite <- app_assoc, Es|]. split; [rewrite xmeaning_cons; apply plus_iff; [auto|]; exists (y :: a0), a; split; [reflexivity|]; split; [discriminate|exact M]|].
           split; [exact T|]. rewrite zlen_cons, zlen_app. replace (pos + (zlen a0 + zlen a + 1)) with (pos + 1 + zlen a0 + zlen a) by lia. auto.
    + contradiction.
    + apply (FX Any (nmof n' nm) eq_refl eq_refl); [|exact E]. intros En. destruct (A En) as [A1 A2]. apply Forall_cons_iff in A2 as [A2 A3]. destruct n'; [contradiction|]. auto.
    + cbn [runx] in E. destruct F0 as [Ci CF]. destruct W0 as (_ & D & _). destruct (cnt i' (Z.to_nat d) (y :: s)) as [[|c' r]|] eqn:Ec; try discriminate.
      destruct (cnt_app _ _ _ _ Ec) as (a0 & Ea & Ha & La). rewrite Ea in *. apply Forall_app in R as [Ra Rr].
      destruct (IH nm (pos + d) (c' :: r) l W1 F1 Rr) as (a & x & b & l' & Eb & M & T & L & X); auto.
      { eapply supp_text; [exact S'|]. intros z Hz. apply in_app_iff. auto. }
      exists (a0 ++ a), x, b, l'. split; [rewrite <- app_assoc, Eb; reflexivity|]. split.
      * rewrite xmeaning_cons. cbn [meaning]. rewrite <- La. apply matches_repeat; [now apply countable_fx| |exact M].
        apply Forall_forall. intros z Hz. rewrite Forall_forall in Ha, Ra. rewrite <- (hit_sat i' z); auto; [now apply countable_fx|]. destruct S as (_ & _ & _ & SD). apply SD; [|apply in_app_iff; auto].
        rewrite xmeaning_cons. cbn [meaning]. apply in_app_iff. left. destruct (Z.to_nat d) eqn:E0; [lia|]. now left.
      * split; [exact T|]. rewrite zlen_app. assert (zlen a0 = d) as Ez by (unfold zlen; lia). replace (pos + (zlen a0 + zlen a)) with (pos + d + zlen a) by lia. auto.
Qed.
Lemma take_split p : (exists pre sep n post, p = pre ++ XTake sep n :: post /\ no_take pre) \/ no_take p.
Proof.
  induction p as [|x p IH]; [right; constructor|]. destruct x as [sep i|sep n|sep n|d sep i].
  - destruct IH as [(pre & sp & n & post & -> & N)|N]; [left; exists (XI sep i :: pre), sp, n, post; split; [reflexivity|now constructor]|right; now constructor].
  - left. exists [], sep, n, p. split; [reflexivity|constructor].
  - destruct IH as [(pre & sp & n' & post & -> & N)|N]; [left; exists (XAmp sep n :: pre), sp, n', post; split; [reflexivity|now constructor]|right; now constructor].
  - destruct IH as [(pre & sp & n' & post & -> & N)|N]; [left; exists (XCount d sep i :: pre), sp, n', post; split; [reflexivity|now constructor]|right; now constructor].
Qed.
Lemma runx_no_take : forall p nm pos s l, no_take p -> runx p nm pos s = Some l -> l = [].
Proof.
  induction p as [|x p IH]; intros nm pos s l N E; cbn [runx] in E.
  - destruct s; [injection E as <-; reflexivity|discriminate].
  - apply Forall_cons_iff in N as [N1 N]. destruct s as [|c s]; [destruct (endsx (x :: p)); [injection E as <-; reflexivity|discriminate]|].
    assert (FN : forall last s pos e l, findx (runx p 0) last pos s = Some (e, l) -> l = []).
    { intros last. induction s0 as [|c0 s0 IHs]; intros pos0 e l0 E0; [discriminate|]. cbn [findx] in E0. destruct (runx p 0 pos0 (c0 :: s0)) eqn:Er; [injection E0 as <- <-; eapply IH; eauto|].
      destruct s0; [destruct last; [injection E0 as <- <-; reflexivity|discriminate]|]. eapply IHs; eauto. }
    destruct x as [sep i|sep n|sep n|d sep i]; try contradiction.
    + assert (FX : (if hit i c then runx p nm (pos + 1) s else None) = Some l -> l = []) by (destruct (hit i c); [intros E2; eapply IH; eauto|discriminate]).
      destruct i; auto.
      * destruct p as [|y p']; [injection E as <-; reflexivity|]. destruct (findx _ _ pos (c :: s)) as [[e l0]|] eqn:EF; [|discriminate]. injection E as <-. eapply FN; eauto.
      * destruct s as [|z s']; [discriminate|]. destruct p as [|y p']; [injection E as <-; reflexivity|]. destruct (findx _ _ (pos + 1) (z :: s')) as [[e l0]|] eqn:EF; [|discriminate]. injection E as <-. eapply FN; eauto.
    + eapply IH; eauto.
    + destruct (cnt i (Z.to_nat d) (c :: s)) as [[|c' r]|]; try discriminate. eapply IH; eauto.
Qed.
Lemma runx_reported : forall k p nm pos s l, (length p <= k)%nat -> well_written p -> follow_ok p -> Forall (fun c => 1 <= c <= 255) s -> supp (xmeaning p) s ->
  (forall a sep b, p = a ++ XTake sep None :: b -> nm = 0 /\ amps a) -> runx p nm pos s = Some l -> reported p pos s l.
Proof.
  induction k as [|k IH]; intros p nm pos s l Hk W F R S A E.
  - destruct p; [|cbn [length] in Hk; lia]. apply runx_no_take in E; [|constructor]. subst l. constructor. constructor.
  - destruct (take_split p) as [(pre & sep & n & post & -> & N)|N].
    + destruct (runx_cap post sep n pre nm pos s l W F R S N) as (a & x & b & l' & -> & M & T & -> & X); auto.
      { intros ->. eapply A. reflexivity. }
      apply Forall_app in R as [_ R]. apply Forall_app in R as [_ R]. apply r_take; auto. apply IH with 0; auto.
      * rewrite app_length in Hk. cbn [length] in Hk. lia.
      * apply wws_app in W. apply W.
      * apply fol_app in F. apply F.
      * eapply supp_text; [|intros c Hc; apply in_app_iff; right; apply in_app_iff; right; exact Hc]. apply supp_skip in S. apply supp_sub in S. exact S.
      * intros a0 sep0 b0 ->. split; [reflexivity|]. destruct (A (pre ++ XTake sep n :: a0) sep0 b0) as [_ A2]; [rewrite <- app_assoc; reflexivity|]. apply Forall_app in A2 as [_ A2]. apply Forall_cons_iff in A2. apply A2.
    + apply runx_no_take in E; [|exact N]. subst l. now constructor.
Qed.
