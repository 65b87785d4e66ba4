From Coq Require Import ZifyBool.
From Verif Require Import Base BaseLemmas MtwoSpec MtwoProofs1 MtwoProofs3.

(* ---- the code on lists decides the patterns ---- *)
Lemma find_none f : forall s pos, find f pos s = None -> forall a r, s = a ++ r -> r <> [] -> f (pos + zlen a) r = None.
Proof.
  induction s as [|c s IH]; intros pos E a r Es Hr; [destruct a; [cbn in Es; congruence|discriminate]|]. cbn [find] in E. destruct (f pos (c :: s)) eqn:Ef; [discriminate|].
  destruct a as [|x a]; cbn [app] in Es; [subst r; change (zlen (@nil Z)) with 0; now rewrite Z.add_0_r|]. injection Es as <- Es. rewrite zlen_cons. replace (pos + (zlen a + 1)) with (pos + 1 + zlen a) by lia. now apply IH.
Qed.
Lemma find_some f : forall s pos z l, find f pos s = Some (z, l) ->
  exists a r, s = a ++ r /\ r <> [] /\ z = pos + zlen a /\ f z r = Some l /\ forall a' r', s = a' ++ r' -> r' <> [] -> (length a' < length a)%nat -> f (pos + zlen a') r' = None.
Proof.
  induction s as [|c s IH]; intros pos z l E; [discriminate|]. cbn [find] in E. destruct (f pos (c :: s)) as [r|] eqn:Ef.
  - injection E as <- <-. exists [], (c :: s). split; [reflexivity|]. split; [discriminate|]. change (zlen (@nil Z)) with 0. rewrite Z.add_0_r. split; [reflexivity|]. split; [exact Ef|]. cbn [length]. intros; lia.
  - apply IH in E as (a & r & -> & Hr & -> & Hf & Hl). exists (c :: a), r. split; [reflexivity|]. split; [exact Hr|]. rewrite zlen_cons. replace (pos + (zlen a + 1)) with (pos + 1 + zlen a) by lia. split; [reflexivity|]. split; [exact Hf|].
    intros a' r' E Hr' L. destruct a' as [|x a']; cbn [app] in E; [subst r'; change (zlen (@nil Z)) with 0; now rewrite Z.add_0_r|]. injection E as <- E. rewrite zlen_cons. replace (pos + (zlen a' + 1)) with (pos + 1 + zlen a') by lia. cbn [length] in L. apply Hl; auto; lia.
Qed.
Lemma eats_cons i q : eats (i :: q) -> consumes i = true \/ eats q.
Proof. intros (j & [<-|Hj] & Cj); [auto|]. right. exists j. auto. Qed.
Lemma eats_ne b q s : matches b q s -> b = false -> well_written q -> eats q -> s <> [].
Proof.
  induction 1 as [b|b k neg t c p s H M IH|b k n c p s M IH|b k p s M IH|b k c p s M IH|b k p a s Ha M IH|b k n p a s Ha M IH|b k d sep t p a s Hd Hf M IH|b k p s M IH|b k p s M IH|b k p M IH|b k p M IH|k p s M IH]; intros Eb W Ea E; try discriminate.
  - destruct Ea as (j & [] & _).
  - destruct W as [_ W]. apply eats_cons in Ea as [Ea|Ea]; [discriminate|]. now apply IH.
  - apply app_eq_nil in E as [E _]. congruence.
  - apply app_eq_nil in E as [E _]. congruence.
  - apply app_eq_nil in E as [-> _]. destruct W as [W _]. cbn [what] in W. change (zlen (@nil Z)) with 0 in Hd. lia.
  - destruct W as [_ W]. apply eats_cons in Ea as [Ea|Ea]; [discriminate|]. now apply IH.
  - destruct W as [_ W]. apply eats_cons in Ea as [Ea|Ea]; [discriminate|]. now apply IH.
  - destruct W as [_ W]. apply eats_cons in Ea as [Ea|Ea]; [discriminate|]. now apply IH.
  - destruct W as [_ W]. apply eats_cons in Ea as [Ea|Ea]; [discriminate|]. now apply IH.
Qed.
Lemma ends_iff : forall p, well_written p -> fits p -> (ends p = true <-> matches false p []).
Proof.
  induction p as [|[k w] q IH]; intros W F; [split; [constructor|reflexivity]|]. pose proof W as [Wi Wq]. pose proof F as [Fi Fq]. specialize (IH Wq Fq). cbn [ends what] in *. split.
  - intros E. apply orb_prop in E as [E|E].
    + destruct w as [neg t| | | | | | | ]; try discriminate. destruct Fi as [Fi _]. rewrite (Fi E). unfold ending in E. cbn [what] in E. destruct neg; [discriminate|]. destruct t; try discriminate; [apply m_hash|apply m_dollar]; constructor.
    + destruct w; try discriminate. destruct q; [|discriminate]. apply m_star. constructor.
  - intros M. inversion M; subst.
    + (* star *) match goal with H : matches false q [] |- _ => apply IH in H; destruct q as [|j r]; [apply orb_true_r|]; cbn [ends] in H; apply orb_prop in H as [H|H] end; [destruct Fi as [Fi _]; congruence|].
      destruct (what j) eqn:Ej; try discriminate. destruct r; [|discriminate]. destruct Fi as [_ Fi]. now specialize (Fi eq_refl).
    + match goal with H : _ ++ _ = [] |- _ => apply app_eq_nil in H as [-> ->]; cbn in *; congruence end.
    + match goal with H : _ ++ _ = [] |- _ => apply app_eq_nil in H as [-> ->]; cbn in *; congruence end.
    + match goal with H : _ ++ _ = [] |- _ => apply app_eq_nil in H as [-> _] end. change (zlen (@nil Z)) with 0 in *. lia.
    + exfalso. match goal with H : matches false q [] |- _ => apply (eats_ne _ _ _ H eq_refl Wq); [apply Fi|reflexivity] end.
    + exfalso. match goal with H : matches false q [] |- _ => apply (eats_ne _ _ _ H eq_refl Wq); [apply Fi|reflexivity] end.
    + reflexivity.
    + reflexivity.
Qed.
Lemma star_intro k q r : matches false q r -> forall a, matches false (It k Star :: q) (a ++ r).
Proof. intros M. induction a as [|c a IH]; [now apply m_star|]. now apply m_star_more. Qed.
Lemma star_elim b p s : matches b p s -> forall k q, p = It k Star :: q -> b = false -> exists a r, s = a ++ r /\ matches false q r.
Proof.
  induction 1 as [b|b k0 neg t c p s H M IH|b k0 n c p s M IH|b k0 p s M IH|b k0 c p s M IH|b k0 p a s Ha M IH|b k0 n p a s Ha M IH|b k0 d sep t p a s Hd Hf M IH|b k0 p s M IH|b k0 p s M IH|b k0 p M IH|b k0 p M IH|k0 p s M IH]; intros k q E Eb; try discriminate.
  - injection E as -> ->. subst b. exists [], s. auto.
  - destruct (IH k q E eq_refl) as (a & r & -> & Hr). exists (c :: a), r. auto.
Qed.
Lemma cnt_iff t : forall a r, Forall (fun c => sat t c = true) a -> cnt t (length a) (a ++ r) = Some r.
Proof. induction a as [|c a IH]; intros r F; [reflexivity|]. apply Forall_cons_iff in F as [F1 F2]. cbn [length app cnt]. rewrite F1. auto. Qed.

Theorem yrun_iff : forall p, well_written p -> fits p -> forall s nm pos, yrun p nm pos s <> None <-> matches false p s.
Proof.
  induction p as [|[k w] q IH]; intros W F s nm pos.
  - destruct s; cbn [yrun]; split; intros H; try congruence; try discriminate; try (now constructor); inversion H.
  - destruct s as [|c s].
    + rewrite <- ends_iff by assumption. cbn [yrun]. destruct (ends (It k w :: q)); split; congruence.
    + pose proof W as [Wi Wq]. pose proof F as [Fi Fq]. specialize (IH Wq Fq). cbn [yrun what] in *.
      assert (FE : forall s pos, eats q -> find (yrun q 0) pos s <> None <-> exists a r, s = a ++ r /\ matches false q r).
      { intros s1 pos1 Ee. split.
        - intros H. destruct (find (yrun q 0) pos1 s1) as [[z l]|] eqn:E; [|congruence]. apply find_some in E as (a & r & -> & _ & _ & E & _). exists a, r. split; [reflexivity|]. apply (IH r 0 z). congruence.
        - intros (a & r & -> & M) E. pose proof (eats_ne _ _ _ M eq_refl Wq Ee) as Hr. pose proof (find_none _ _ _ E a r eq_refl Hr) as E2. apply (IH r 0 (pos1 + zlen a)) in M. congruence. }
      assert (WE : forall num mp pos s, eats q -> wild (yrun q 0) (isnil q) num mp pos s <> None <-> exists a r, s = a ++ r /\ matches false q r).
      { intros num mp pos1 s1 Ee. rewrite <- (FE s1 pos1 Ee). unfold wild. destruct q as [|j q']; [destruct Ee as (j & [] & _)|]. cbn [isnil]. destruct (find _ pos1 s1) as [[z l]|]; split; congruence. }
      assert (PL : forall num mp, eats q -> (if isnil s then None else wild (yrun q 0) (isnil q) num mp (pos + 1) s) <> None <-> exists a r, a <> [] /\ c :: s = a ++ r /\ matches false q r).
      { intros num mp Ee. destruct s as [|y s'].
        - cbn [isnil]. split; [congruence|]. intros (a & r & Ha & E & M). pose proof (eats_ne _ _ _ M eq_refl Wq Ee) as Hr. destruct a as [|x a]; [congruence|]. injection E as _ E. symmetry in E. apply app_eq_nil in E as [_ E]. congruence.
        - cbn [isnil]. rewrite WE by exact Ee. split.
          + intros (a & r & E & M). exists (c :: a), r. split; [discriminate|]. split; [cbn [app]; now rewrite <- E|exact M].
          + intros (a & r & Ha & E & M). destruct a as [|x a]; [congruence|]. injection E as _ E. exists a, r. auto. }
      destruct w as [neg t|n| | |n|d sep t| | ].
      * split.
        -- intros H. destruct (xorb neg (sat t c)) eqn:E; [|congruence]. apply m_one; [exact E|]. now apply (IH s nm (pos + 1)).
        -- intros M. inversion M; subst. match goal with H : xorb _ _ = true |- _ => rewrite H end. now apply (IH s nm (pos + 1)).
      * split; [intros H; apply m_amp; now apply (IH s (nmof n nm) (pos + 1))|]. intros M. inversion M; subst. now apply (IH s (nmof n nm) (pos + 1)).
      * split.
        -- intros H. unfold wild in H. destruct q as [|j q']; [rewrite <- (app_nil_r (c :: s)); apply star_intro; constructor|]. cbn [isnil] in H. destruct (find _ pos (c :: s)) as [[z l]|] eqn:E; [|congruence].
           apply find_some in E as (a & r & -> & _ & _ & E & _). apply star_intro. apply (IH r 0 z). congruence.
        -- intros M. apply star_elim with (k := k) (q := q) in M as (a & r & E & M); auto. unfold wild. destruct q as [|j q'] eqn:Eq; [discriminate|]. rewrite <- Eq in *. replace (isnil q) with false by (subst; reflexivity).
           assert (Hr : r <> []).
           { intros ->. apply ends_iff in M; auto. rewrite Eq in M. cbn [ends] in M. apply orb_prop in M as [M|M]; [destruct Fi as [Fi _]; congruence|]. destruct (what j) eqn:Ej; try discriminate. destruct q'; [|discriminate]. destruct Fi as [_ Fi]. now specialize (Fi eq_refl). }
           destruct (find (yrun q 0) pos (c :: s)) as [[z l]|] eqn:EF; [discriminate|]. intros _. pose proof (find_none _ _ _ EF a r E Hr) as E2. apply (IH r 0 (pos + zlen a)) in M. congruence.
      * rewrite PL by exact Fi. split; [intros (a & r & Ha & -> & M); now apply m_plus|]. intros M. inversion M; subst. eauto.
      * rewrite PL by exact Fi. split; [intros (a & r & Ha & -> & M); now apply m_take|]. intros M. inversion M; subst. eauto.
      * destruct Fi as (Fe & _). destruct Wi as (_ & Wd & _). split.
        -- intros H. destruct (cnt t (Z.to_nat d) (c :: s)) as [[|y r]|] eqn:E; try congruence. apply cnt_len in E as (a & -> & L & Fa). apply m_count; [unfold zlen; lia|exact Fa|]. now apply (IH (y :: r) 0 (pos + d)).
        -- intros M. inversion M as [| | | | | | |b0 k0 d0 sep0 t0 p0 a r Hd Hf M'| | | | | ]; subst. replace (Z.to_nat (zlen a)) with (length a) by (unfold zlen; lia). rewrite cnt_iff by assumption.
           pose proof (eats_ne _ _ _ M' eq_refl Wq Fe) as Hr. destruct r as [|y r]; [congruence|]. now apply IH.
      * split; [intros H; apply m_open; now apply (IH (c :: s) 0 pos)|]. intros M. inversion M; subst. now apply IH.
      * split; [intros H; apply m_close; now apply (IH (c :: s) 0 pos)|]. intros M. inversion M; subst. now apply IH.
Qed.

(* ---- what is reported ---- *)
Lemma ww_app a b : well_written (a ++ b) -> well_written b.
Proof. induction a as [|x a IH]; [auto|]. intros [_ W]. auto. Qed.
Lemma fits_app a b : fits (a ++ b) -> fits b.
Proof. induction a as [|x a IH]; [auto|]. intros [_ W]. auto. Qed.
Definition no_num (p : list item) : Prop := forall i d, In i p -> what i <> Amp (Some d).
Definition num (n : option Z) : Z := match n with Some d => d | None => 0 end.
Lemma no_take_cons i p : no_take (i :: p) -> no_take p.
Proof. intros H j n Hj. apply H. now right. Qed.
Lemma no_num_cons i p : no_num (i :: p) -> no_num p.
Proof. intros H j n Hj. apply H. now right. Qed.
Lemma wild_no_mp f last nm pos s l : wild f last nm None pos s = Some l -> (last = true /\ l = []) \/ (last = false /\ exists z, find f pos s = Some (z, l)).
Proof. unfold wild. destruct last; [intros [= <-]; auto|]. destruct (find f pos s) as [[z l']|]; [|discriminate]. intros [= <-]. eauto. Qed.
Lemma yrun_no_take : forall p nm pos s l, no_take p -> yrun p nm pos s = Some l -> l = [].
Proof.
  induction p as [|[k w] q IH]; intros nm pos s l N E; cbn [yrun what] in E.
  - destruct s; [injection E as <-; reflexivity|discriminate].
  - pose proof (no_take_cons _ _ N) as Nq. destruct s as [|c s]; [destruct (ends _); [injection E as <-; reflexivity|discriminate]|].
    assert (WI : forall nm pos s, wild (yrun q 0) (isnil q) nm None pos s = Some l -> l = []).
    { intros nm1 pos1 s1 H. apply wild_no_mp in H as [[_ H]|[_ [z H]]]; [exact H|]. apply find_some in H as (a & r & _ & _ & _ & H & _). eapply IH; eauto. }
    destruct w as [neg t|n| | |n|d sep t| | ]; try (eapply IH; eauto; fail); try (eapply WI; eauto; fail).
    + destruct (xorb neg (sat t c)); [eapply IH; eauto|discriminate].
    + destruct (isnil s); [discriminate|]. eapply WI; eauto.
    + exfalso. now apply (N (It k (Take n)) n (or_introl eq_refl)).
    + destruct (cnt t (Z.to_nat d) (c :: s)) as [[|y r]|]; try discriminate. eapply IH; eauto.
Qed.
Lemma yrun_cap post k n : forall pre nm pos s l, well_written (pre ++ It k (Take n) :: post) -> fits (pre ++ It k (Take n) :: post) -> no_take pre -> (n = None -> nm = 0 /\ no_num pre) ->
  yrun (pre ++ It k (Take n) :: post) nm pos s = Some l ->
  exists a x b l', s = a ++ x ++ b /\ matches false pre a /\ taken post x b /\ l = (num n, pos + zlen a, zlen x) :: l' /\ yrun post 0 (pos + zlen a + zlen x) b = Some l'.
Proof.
  induction pre as [|[k0 w] pre IH]; intros nm pos s l W F N A E.
  - cbn [app yrun what] in E. destruct s as [|c s]; [discriminate|]. pose proof W as [_ Wq]. pose proof F as [Fe Fq]. cbn [what] in Fe.
    destruct s as [|y s']; [discriminate|]. cbn [isnil] in E. unfold wild in E. replace (isnil post) with false in E by (destruct post; [destruct Fe as (j & [] & _)|reflexivity]).
    destruct (find (yrun post 0) (pos + 1) (y :: s')) as [[z l']|] eqn:EF; [|discriminate]. injection E as <-. apply find_some in EF as (a & r & Es & Hr & -> & Hf & Hl).
    exists [], (c :: a), r, l'. split; [cbn [app]; now rewrite <- Es|]. split; [constructor|]. change (zlen (@nil Z)) with 0. rewrite zlen_cons. split; [|split].
    + split; [discriminate|]. split; [apply (yrun_iff post Wq Fq r 0 (pos + 1 + zlen a)); congruence|]. intros x' b' E Hx M. rewrite zlen_cons. destruct x' as [|u x']; [congruence|]. injection E as -> E. rewrite zlen_cons.
      destruct (Z_lt_le_dec (zlen x') (zlen a)) as [L|L]; [|lia]. exfalso. pose proof (eats_ne _ _ _ M eq_refl Wq Fe) as Hb.
      pose proof (Hl x' b' ltac:(congruence) Hb ltac:(unfold zlen in L; lia)) as E2. apply (yrun_iff post Wq Fq b' 0 (pos + 1 + zlen x')) in M. congruence.
    + rewrite Z.add_0_r. replace (nmof n nm) with (num n) by (destruct n as [d|]; cbn [nmof num]; [|destruct (A eq_refl) as [-> _]]; reflexivity). do 2 f_equal. lia.
    + replace (pos + 0 + (zlen a + 1)) with (pos + 1 + zlen a) by lia. exact Hf.
  - cbn [app] in *. pose proof W as [Wi Wq]. pose proof F as [Fi Fq]. pose proof (no_take_cons _ _ N) as Nq.
    assert (A0 : n = None -> 0 = 0 /\ no_num pre) by (intros Hn; destruct (A Hn) as [_ A1]; split; [reflexivity|]; now apply no_num_cons in A1).
    assert (AN : n = None -> nm = 0 /\ no_num pre) by (intros Hn; destruct (A Hn) as [A2 A1]; split; [exact A2|]; now apply no_num_cons in A1).
    cbn [yrun what] in *. destruct s as [|c s].
    { exfalso. destruct (ends _) eqn:Ee; [|discriminate]. cbn [ends] in Ee. apply orb_prop in Ee as [Ee|Ee].
      - destruct w as [neg t| | | | | | | ]; try discriminate. destruct Fi as [Fi _]. specialize (Fi Ee). destruct pre; discriminate.
      - cbn [what] in Ee. destruct w; try discriminate. destruct pre; discriminate. }
    assert (NN : isnil (pre ++ It k (Take n) :: post) = false) by (destruct pre; reflexivity).
    assert (FI : forall s pos, wild (yrun (pre ++ It k (Take n) :: post) 0) (isnil (pre ++ It k (Take n) :: post)) nm None pos s = Some l ->
      exists a0 a x b l', s = a0 ++ a ++ x ++ b /\ matches false pre a /\ taken post x b /\ l = (num n, pos + zlen (a0 ++ a), zlen x) :: l' /\ yrun post 0 (pos + zlen (a0 ++ a) + zlen x) b = Some l').
    { intros s1 pos1 H. apply wild_no_mp in H as [[H _]|[_ [z H]]]; [congruence|]. apply find_some in H as (a0 & r & -> & _ & -> & H & _).
      destruct (IH 0 _ _ _ Wq Fq Nq A0 H) as (a & x & b & l' & -> & M & T & -> & E'). exists a0, a, x, b, l'. rewrite zlen_app. replace (pos1 + (zlen a0 + zlen a)) with (pos1 + zlen a0 + zlen a) by lia. auto. }
    destruct w as [neg t|n0| | |n0|d sep t| | ].
    + destruct (xorb neg (sat t c)) eqn:Es; [|discriminate]. destruct (IH _ _ _ _ Wq Fq Nq AN E) as (a & x & b & l' & -> & M & T & -> & E'). exists (c :: a), x, b, l'. rewrite zlen_cons. replace (pos + (zlen a + 1)) with (pos + 1 + zlen a) by lia.
      split; [reflexivity|]. split; [now apply m_one|auto].
    + assert (An : n = None -> nmof n0 nm = 0 /\ no_num pre).
      { intros Hn. destruct (A Hn) as [A1 A2]. split; [|now apply no_num_cons in A2]. destruct n0 as [d|]; [|exact A1]. exfalso. now apply (A2 (It k0 (Amp (Some d))) d (or_introl eq_refl)). }
      destruct (IH _ _ _ _ Wq Fq Nq An E) as (a & x & b & l' & -> & M & T & -> & E'). exists (c :: a), x, b, l'. rewrite zlen_cons. replace (pos + (zlen a + 1)) with (pos + 1 + zlen a) by lia.
      split; [reflexivity|]. split; [now apply m_amp|auto].
    + apply FI in E as (a0 & a & x & b & l' & Es & M & T & -> & E'). exists (a0 ++ a), x, b, l'. rewrite <- app_assoc. split; [exact Es|]. split; [now apply star_intro|auto].
    + destruct (isnil s) eqn:En; [discriminate|]. apply FI in E as (a0 & a & x & b & l' & Es & M & T & -> & E'). exists ((c :: a0) ++ a), x, b, l'. rewrite <- app_assoc. cbn [app]. rewrite zlen_cons. replace (pos + (zlen (a0 ++ a) + 1)) with (pos + 1 + zlen (a0 ++ a)) by lia.
      split; [now rewrite Es|]. split; [apply (m_plus false k0 pre (c :: a0) a); [discriminate|exact M]|auto].
    + exfalso. now apply (N (It k0 (Take n0)) n0 (or_introl eq_refl)).
    + destruct (cnt t (Z.to_nat d) (c :: s)) as [[|y r]|] eqn:Ec; try discriminate. apply cnt_len in Ec as (a0 & -> & L & Fa). destruct Wi as (_ & Wd & _). assert (Hz : zlen a0 = d) by (unfold zlen; lia).
      destruct (IH _ _ _ _ Wq Fq Nq A0 E) as (a & x & b & l' & Er & M & T & -> & E'). exists (a0 ++ a), x, b, l'. rewrite zlen_app, Hz, <- app_assoc, Z.add_assoc, <- Er. split; [reflexivity|]. split; [now apply m_count|auto].
    + destruct (IH _ _ _ _ Wq Fq Nq A0 E) as (a & x & b & l' & -> & M & T & -> & E'). exists a, x, b, l'. split; [reflexivity|]. split; [now apply m_open|auto].
    + destruct (IH _ _ _ _ Wq Fq Nq A0 E) as (a & x & b & l' & -> & M & T & -> & E'). exists a, x, b, l'. split; [reflexivity|]. split; [now apply m_close|auto].
Qed.
Lemma take_split : forall p, (exists pre k n post, p = pre ++ It k (Take n) :: post /\ no_take pre) \/ no_take p.
Proof.
  induction p as [|[k w] p IH]; [right; intros i n []|]. destruct w as [neg t|n| | |n|d sep t| | ] eqn:Ew; try (destruct IH as [(pre & k1 & n1 & post & -> & N)|N];
    [left; exists (It k w :: pre), k1, n1, post; subst w; split; [reflexivity|]; intros i m [<-|Hi]; [discriminate|now apply N]|right; intros i m [<-|Hi]; [discriminate|now apply N]]).
  left. exists [], k, n, p. split; [reflexivity|]. intros i m [].
Qed.
Theorem yrun_reported : forall f p nm pos s l, (length p <= f)%nat -> well_written p -> fits p ->
  (forall a k b, p = a ++ It k (Take None) :: b -> nm = 0 /\ no_num a) -> yrun p nm pos s = Some l -> reported p pos s l.
Proof.
  induction f as [|f IH]; intros p nm pos s l L W F A E.
  - destruct p; [|cbn [length] in L; lia]. cbn [yrun] in E. destruct s; [|discriminate]. injection E as <-. apply r_none. intros i n [].
  - destruct (take_split p) as [(pre & k & n & post & -> & N)|N].
    + assert (An : n = None -> nm = 0 /\ no_num pre) by (intros ->; eapply A; reflexivity).
      destruct (yrun_cap post k n pre nm pos s l W F N An E) as (a & x & b & l' & -> & M & T & -> & E').
      apply r_take; auto. apply ww_app in W as [_ W]. apply fits_app in F as [_ F]. apply (IH post 0); auto; [rewrite app_length in L; cbn [length] in L; lia|].
      intros a' k' b' ->. split; [reflexivity|]. destruct (A (pre ++ It k (Take n) :: a') k' b') as [_ A2]; [rewrite <- app_assoc; reflexivity|].
      intros i d Hi. apply A2. apply in_app_iff. right. now right.
    + rewrite (yrun_no_take _ _ _ _ _ N E). now apply r_none.
Qed.
