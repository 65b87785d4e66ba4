From Coq Require Import ZifyBool.
From Verif Require Import Base BaseLemmas SysModel MatchModel MatchSpec MatchProofs MatchProofs2 MatchProofs3 MatchProofs4 MextModel MextSpec MextProofs MextProofs2 MextProofs3 MextProofs4 MextProofs5.

Lemma xreset_id e : xreset (xreset e) = xreset e.
Proof. destruct e as [a b c d]. unfold xreset. cbn. now rewrite reset_reset. Qed.
Lemma ext_run fuel m text re e p s : xsupported p s -> str_at m text s -> str_at m re (xpattern p) -> zlen s <= INT_MAX -> pmc e = None -> (3 * (length s + length (xpattern p)) + 3 <= fuel)%nat ->
  match_ext fuel m text re e = outx (xreset e) (runx p 0 text s).
Proof. intros S Hs Hp Hm He Hf. apply xsupported_parts in S as (W & _ & _ & C). unfold match_ext. apply x_loop_ok; auto. apply xreset_id. Qed.
Lemma hd_xp p : hd 0 (xpattern p) = hdx p.
Proof. reflexivity. Qed.

(* ---- a counted item and the item written several times ---- *)
Definition times (d : Z) (i : item) : list xitem := repeat (XI true i) (Z.to_nat d).
Lemma ww_times i b : countable i = true -> xitem_ok i -> well_written b -> forall n, well_written (repeat (XI true i) n ++ b).
Proof.
  intros C W Wb. induction n as [|n IH]; [exact Wb|]. cbn [repeat app well_written]. split; [|exact IH]. split; [exact W|]. intros _. split; [destruct i as [[] []| | | | | | | | ]; try discriminate; reflexivity|]. intros s ->. destruct s; discriminate.
Qed.
Lemma ww_replace d sep i b : countable i = true -> forall a, well_written (a ++ XCount d sep i :: b) -> well_written (a ++ times d i ++ b).
Proof.
  intros C. induction a as [|x a IH]; intros W.
  - cbn [app] in *. destruct W as [(W & D & _) Wb]. unfold times. now apply ww_times.
  - cbn [app] in *. destruct W as [W0 W]. split; [|auto].
    assert (H : is_digit (hd 0 (xpattern (a ++ XCount d sep i :: b))) = false -> is_digit (hd 0 (xpattern (a ++ times d i ++ b))) = false).
    { destruct a as [|y a].
      - intros _. cbn [app]. unfold times. apply wws_app in W. destruct W as [(_ & D & _) _]. destruct (Z.to_nat d) as [|k] eqn:E; [lia|]. reflexivity.
      - cbn [app]. unfold xpattern. cbn [flat_map]. destruct y as [[] [[] []| | | | | | | | ]|[]|[]|]; cbn; auto. }
    destruct x as [sp j|sp n|sp n|d' sp j]; auto; destruct W0 as [W1 W2]; auto.
Qed.
Lemma xm_app a b : xmeaning (a ++ b) = xmeaning a ++ xmeaning b.
Proof. unfold xmeaning. apply flat_map_app. Qed.
Lemma xm_times d i : xmeaning (times d i) = repeat i (Z.to_nat d).
Proof. unfold times. induction (Z.to_nat d) as [|n IH]; [reflexivity|]. cbn [repeat]. rewrite xmeaning_cons, IH. reflexivity. Qed.
Lemma xm_replace a d sep i b : xmeaning (a ++ times d i ++ b) = xmeaning (a ++ XCount d sep i :: b).
Proof. rewrite !xm_app, xm_times, xmeaning_cons. reflexivity. Qed.
Lemma times_no_count i : forall n b a d' sep' i' b', repeat (XI true i) n ++ b = a ++ XCount d' sep' i' :: b' -> exists a', b = a' ++ XCount d' sep' i' :: b'.
Proof.
  induction n as [|n IH]; intros b a d' sep' i' b' E; [exists a; exact E|]. cbn [repeat app] in E. destruct a as [|x a]; [discriminate|]. cbn [app] in E. injection E as <- E. eapply IH; eauto.
Qed.
Lemma xsupported_replace a d sep i b s : xsupported (a ++ XCount d sep i :: b) s -> xsupported (a ++ times d i ++ b) s.
Proof.
  intros (W & Q & C). destruct (C a d sep i b eq_refl) as (Ci & Cb & _). split; [now apply ww_replace with sep|]. split; [rewrite xm_replace with (sep := sep); exact Q|]. clear W Q.
  assert (Dpos : True) by exact I.
  intros a' d' sep' i' b' E.
  assert (K : (exists a2, b = a2 ++ XCount d' sep' i' :: b') \/ (exists b2, a = a' ++ XCount d' sep' i' :: b2 /\ b' = b2 ++ times d i ++ b)).
  { clear C. revert a' E. induction a as [|x a IH]; intros a' E.
    - cbn [app] in E. left. unfold times in E. eapply times_no_count; eauto.
    - cbn [app] in E. destruct a' as [|y a'].
      + cbn [app] in E. injection E as -> E. right. exists a. split; [reflexivity|now symmetry].
      + cbn [app] in E. injection E as <- E. destruct (IH a' E) as [H|(b2 & -> & ->)]; [auto|]. right. exists b2. auto. }
  destruct K as [(a2 & ->)|(b2 & -> & ->)].
  - apply (C (a ++ XCount d sep i :: a2) d' sep' i' b'). rewrite <- app_assoc. reflexivity.
  - destruct (C a' d' sep' i' (b2 ++ XCount d sep i :: b)) as (C1 & C2 & C3); [rewrite <- app_assoc; reflexivity|]. split; [exact C1|]. split; [rewrite (xm_replace _ _ sep); exact C2|].
    intros sp s' b'' E2. destruct b2 as [|y b2].
    + cbn [app] in E2. unfold times in E2. destruct (Z.to_nat d); cbn [repeat app] in E2.
      * destruct b as [|z b0]; [discriminate|]. destruct Cb as (j & Hj & Hc). destruct (C (a' ++ [XCount d' sep' i']) d sep i (z :: b0)) as (_ & _ & C4); [rewrite <- app_assoc; reflexivity|]. eapply C4. rewrite E2. reflexivity.
      * injection E2 as _ E3 _. subst i. discriminate.
    + cbn [app] in E2. injection E2 as -> _. eapply C3. reflexivity.
Qed.

(* ---- '&' with a callback ---- *)
Lemma amp_prefix f n rest m e : pmc e = Some f -> number_ok n -> (n = None -> is_digit (hd 0 rest) = false) -> forall a fuel text re c s, Forall xplain a -> str_at m text (a ++ c :: s) -> str_at m re (a ++ 38 :: number n ++ rest) ->
  (3 * (length a) + 3 <= fuel)%nat ->
  (f (num n) (text + zlen a) = -1 -> x_loop fuel m Outer text re 0 e = Ok (1, e)) /\ (f (num n) (text + zlen a) = 0 -> x_loop fuel m Outer text re 0 e = Ok (0, e)).
Proof.
  intros Hf Hn Hd. induction a as [|x a IH]; intros fuel text re c s F Hs Hre Hfu; (destruct fuel as [|[|k]]; [cbn [length] in Hfu; lia|cbn [length] in Hfu; lia|]).
  - cbn [app] in *. pose proof Hs as (H1 & H2 & _). pose proof Hre as (R1 & _ & R2). change (zlen (@nil Z)) with 0. rewrite Z.add_0_r.
    rewrite (outer_plain (S k) m text re 0 e c 38) by (auto; lia). cbn [x_loop]. change (0 <? 1) with true. cbv iota. rewrite (load_some _ _ _ H1), bind_Ok, (load_some _ _ _ R1), bind_Ok. closed_eqb. cbn [orb]. cbv iota zeta.
    assert (Hx : exists d, m (re + 1) = Some d /\ (if (48 <=? d) && (d <=? 57) then d - 48 else 0) = num n).
    { destruct n as [y|]; cbn [number app num number_ok] in *.
      - exists (48 + y). split; [apply R2|]. replace ((48 <=? 48 + y) && (48 + y <=? 57)) with true by lia. lia.
      - specialize (Hd eq_refl). unfold is_digit in Hd. exists (hd 0 rest). split; [destruct rest; [exact R2|apply R2]|]. now rewrite Hd. }
    destruct Hx as (d & D1 & D2). rewrite (load_some _ _ _ D1), bind_Ok, D2, Hf. split; intros ->; closed_eqb; reflexivity.
  - cbn [app length] in *. apply Forall_cons_iff in F as [Fx F]. pose proof Hs as (H1 & H2 & H3). pose proof Hre as (R1 & _ & R2). pose proof (xplain_ne _ Fx) as NE.
    rewrite (outer_plain (S k) m text re 0 e x x) by (auto; lia).
    pose proof (inner_fixed k m text re 0 e x (One false (SLit x)) 1 re H1 ltac:(lia)) as P. cbn [ibody write1 ineg xitem_ok fixedx hit hit1 length] in P. rewrite P; try (auto; lia); [|cbn; auto].
    rewrite Z.eqb_refl. cbn [xorb]. destruct k as [|k]; [lia|]. change (1 - 1) with 0. rewrite inner_zero. replace (re + zlen [x] - 1 + 1) with (re + 1) by (zl; lia). rewrite zlen_cons. replace (text + (zlen a + 1)) with (text + 1 + zlen a) by lia.
    apply (IH k (text + 1) (re + 1) c s); auto. lia.
Qed.
