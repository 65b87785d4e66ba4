From Coq Require Import ZifyBool.
From Verif Require Import Base BaseLemmas SysModel MatchModel MextModel MtwoModel MtwoSpec MtwoProofs1 MtwoProofs3 MtwoProofs4 MtwoProofs5.
From Verif Require MatchProofs MextProofs.

(* ---- the beginning of the text ---- *)
Lemma matches_begin b p s : matches b p s -> matches true p s.
Proof. induction 1; try (now constructor). Qed.
Lemma matches_nobegin b p s : matches b p s -> first_real p <> Some (One false At) -> matches false p s.
Proof.
  induction 1 as [b|b k neg t c p s H M IH|b k n c p s M IH|b k p s M IH|b k c p s M IH|b k p a s Ha M IH|b k n p a s Ha M IH|b k d sep t p a s Hd Hf M IH|b k p s M IH|b k p s M IH|b k p M IH|b k p M IH|k p s M IH]; intros F; try (now constructor); try (constructor; now apply IH).
  cbn in F. congruence.
Qed.
Lemma begin_iff p s : first_real p <> Some (One false At) -> (matches true p s <-> matches false p s).
Proof. intros F. split; [intros M; now apply matches_nobegin with true|apply matches_begin]. Qed.
(* the code of the wrapper on lists *)
Definition wrun (p : list item) (text : Z) (s : list Z) : option (list call) :=
  match begun p with
  | Some q => match yrun q 0 text s with Some l => Some l | None => yrun p 0 text s end
  | None => yrun p 0 text s
  end.
Lemma begun_cases p : start_ok p ->
  (begun p = None /\ first_real p <> Some (One false At)) \/
  exists q, begun p = Some q /\ first_real q <> Some (One false At) /\ (p = It false (One false At) :: q \/ p = It false Star :: It false (One false At) :: q).
Proof.
  unfold start_ok, begun. intros H.
  destruct p as [|[[] w] q]; [auto|auto|]. destruct w as [neg t|n| | |n|d sep t| | ]; auto.
  - destruct neg; [auto|]. destruct t; auto. right. eauto 6.
  - destruct q as [|[[] w] q]; auto. destruct w as [neg t|n| | |n|d sep t| | ]; auto. destruct neg; [auto|]. destruct t; auto. right. eauto 6.
Qed.
Lemma at_iff q s : first_real q <> Some (One false At) -> (matches true (It false (One false At) :: q) s <-> matches false q s \/ matches false (It false (One false At) :: q) s).
Proof.
  intros F. split.
  - intros M. inversion M; subst.
    + right. now constructor.
    + left. now apply matches_nobegin with true.
  - intros [M|M]; [apply m_at; now apply matches_begin with false|now apply matches_begin with false].
Qed.
Lemma star_begin_iff q s : first_real q <> Some (One false At) ->
  (matches true (It false Star :: It false (One false At) :: q) s <-> matches false q s \/ matches false (It false Star :: It false (One false At) :: q) s).
Proof.
  intros F. split.
  - intros M. inversion M; subst.
    + match goal with H : matches true (_ :: q) s |- _ => apply at_iff in H as [H|H]; [auto| |exact F] end. right. now constructor.
    + right. now constructor.
  - intros [M|M]; [|now apply matches_begin with false]. apply m_star. apply at_iff; auto.
Qed.
Lemma begun_parts p q : begun p = Some q -> exists a, p = a ++ q.
Proof.
  unfold begun. destruct p as [|[[] w] r]; try discriminate. destruct w as [neg t|n| | |n|d sep t| | ]; try discriminate.
  - destruct neg; [discriminate|]. destruct t; try discriminate. intros [= <-]. now exists [It false (One false At)].
  - destruct r as [|[[] w] r]; try discriminate. destruct w as [neg t|n| | |n|d sep t| | ]; try discriminate. destruct neg; [discriminate|]. destruct t; try discriminate. intros [= <-]. now exists [It false Star; It false (One false At)].
Qed.
Theorem wrun_iff p s text : well_written p -> fits p -> start_ok p -> wrun p text s <> None <-> matches true p s.
Proof.
  intros W F S. unfold wrun. destruct (begun_cases p S) as [[E H]|(q & E & H & C)]; rewrite E.
  - rewrite (yrun_iff p W F). symmetry. now apply begin_iff.
  - destruct (begun_parts _ _ E) as [a Ea]. rewrite Ea in W, F. pose proof (ww_app _ _ W) as Wq. pose proof (fits_app _ _ F) as Fq. rewrite <- Ea in W, F.
    assert (I : matches true p s <-> matches false q s \/ matches false p s) by (destruct C as [-> | ->]; [now apply at_iff|now apply star_begin_iff]). rewrite I, <- (yrun_iff q Wq Fq s 0 text), <- (yrun_iff p W F s 0 text).
    destruct (yrun q 0 text s).
    + split; [intros _; left; discriminate|discriminate].
    + split; [auto|]. intros [K|K]; [congruence|exact K].
Qed.
Lemma hdp_cons i p : hdp (i :: p) = hd 0 (write i).
Proof. unfold hdp. rewrite pattern_cons. pose proof (write_len i). destruct (write i); [cbn [length] in *; lia|reflexivity]. Qed.
Lemma wtest_at t : test_ok t -> hd 0 (wtest t) = 64 -> t = At.
Proof. destruct t; cbn; intros W E; try discriminate; [|reflexivity]. apply plain_ne in W. lia. Qed.
Lemma hdp_at_sign p : well_written p -> hdp p = 64 -> exists q, p = It false (One false At) :: q.
Proof.
  destruct p as [|[k w] q]; [discriminate|]. intros [W _]. rewrite hdp_cons. unfold write. cbn [comma what] in *. destruct k; [discriminate|]. cbn [wcomma app].
  destruct w as [neg t|n| | |n|d sep t| | ]; try discriminate. destruct neg; [discriminate|]. cbn [wkind app]. intros E. apply wtest_at in E; [|apply W]. subst t. eauto.
Qed.
Lemma hdp_star p : well_written p -> hdp p = 42 -> exists q, p = It false Star :: q.
Proof.
  destruct p as [|[k w] q]; [discriminate|]. intros [W _]. rewrite hdp_cons. unfold write. cbn [comma what] in *. destruct k; [discriminate|]. cbn [wcomma app].
  destruct w as [neg t|n| | |n|d sep t| | ]; try discriminate; eauto. destruct neg; [discriminate|]. cbn [wkind app]. intros E. destruct W as [W _]. pose proof (wtest_hd t W) as K. cbv zeta in K. lia.
Qed.
Lemma text_ok_app a p s : text_ok (a ++ p) s -> text_ok p s.
Proof. intros T i c Hi Hc. apply T; [apply in_app_iff; auto|exact Hc]. Qed.
Lemma pattern_app a b : pattern (a ++ b) = pattern a ++ pattern b.
Proof. apply flat_map_app. Qed.
Lemma xreset2 e : xreset (xreset e) = xreset e.
Proof. destruct e as [a b [[]|] d]; reflexivity. Qed.

Theorem wrap_ok fuel m text re e s p : str_at m text s -> str_at m re (pattern p) -> zlen s <= INT_MAX -> 0 < text -> supported p s -> pmc (base e) = None ->
  (length s + length (pattern p) + 2 <= fuel)%nat ->
  exists o, match_ext2 fuel m text re e = match wrun p text s with
    | Some l => Ok (1, mk2 (put (xreset (base e)) l) o)
    | None => Ok (0, mk2 (xreset (base e)) o)
    end.
Proof.
  intros Hs Hp Hm Ht (W & F & T) He Hf. unfold match_ext2.
  assert (SUB : forall a q re1 e1, p = a ++ q -> str_at m re1 (pattern q) -> xreset (base e1) = xreset (base e) -> pmc (base e1) = None -> exists o,
    match yrun q 0 text s with
    | Some l => exists z, 0 < z /\ match_sub fuel m text re1 e1 = Ok (z, mk2 (put (xreset (base e)) l) o)
    | None => match_sub fuel m text re1 e1 = Ok (0, mk2 (xreset (base e)) o)
    end).
  { intros a q re1 e1 Ea H Hb Hc. rewrite Ea in W, F, T. unfold match_sub. assert (St : steady (yreset e1)) by (split; [apply xreset2|exact Hc]).
    rewrite Ea, pattern_app, app_length in Hf.
    destruct (y_ok q (ww_app _ _ W) (fits_app _ _ F) s fuel m text re1 0 (yreset e1) Hs H (text_ok_app _ _ _ T) Hm Ht St ltac:(lia)) as [o G].
    exists o. cbn [yreset base] in G. rewrite Hb in G. exact G. }
  assert (MAIN : forall e1, xreset (base e1) = xreset (base e) -> pmc (base e1) = None -> exists o,
    (let* r := match_sub fuel m text re e1 in let '(r, e) := r in Ok (if r =? 0 then 0 else 1, e)) = match yrun p 0 text s with Some l => Ok (1, mk2 (put (xreset (base e)) l) o) | None => Ok (0, mk2 (xreset (base e)) o) end).
  { intros e1 H1 H2. destruct (SUB [] p re e1 eq_refl Hp H1 H2) as [o G]. exists o. destruct (yrun p 0 text s) as [l|].
    - destruct G as (z & Hz & ->). rewrite bind_Ok. replace (z =? 0) with false by lia. reflexivity.
    - rewrite G. reflexivity. }
  assert (BOTH : forall a q re1, p = a ++ q -> str_at m re1 (pattern q) -> begun p = Some q -> exists o,
    (let* r := match_sub fuel m text re1 e in let '(r, e) := r in if r =? 0 then let* r := match_sub fuel m text re e in let '(r, e) := r in Ok (if r =? 0 then 0 else 1, e) else Ok (1, e)) =
    match wrun p text s with Some l => Ok (1, mk2 (put (xreset (base e)) l) o) | None => Ok (0, mk2 (xreset (base e)) o) end).
  { intros a q re1 Ea H Eb. unfold wrun. rewrite Eb. destruct (SUB a q re1 e Ea H eq_refl He) as [o G]. destruct (yrun q 0 text s) as [l|].
    - exists o. destruct G as (z & Hz & ->). rewrite bind_Ok. replace (z =? 0) with false by lia. reflexivity.
    - rewrite G, bind_Ok. change (0 =? 0) with true. cbv iota. apply MAIN; [apply xreset2|exact He]. }
  ld (hdp_at _ _ _ Hp). destruct (hdp p =? 42) eqn:E42.
  - destruct (hdp_star p W ltac:(lia)) as [q Ep]. pose proof Hp as Hq. rewrite Ep in Hq. apply at_next in Hq. change (zlen (write (It false Star))) with 1 in Hq. ld (hdp_at _ _ _ Hq). destruct (hdp q =? 64) eqn:E64.
    + assert (Wq : well_written q) by (rewrite Ep in W; apply W). destruct (hdp_at_sign q Wq ltac:(lia)) as [q' Eq]. rewrite Eq in Hq. apply at_next in Hq. change (zlen (write (It false (One false At)))) with 1 in Hq. replace (re + 1 + 1) with (re + 2) in Hq by lia.
      apply (BOTH [It false Star; It false (One false At)] q'); auto; [now rewrite Ep, Eq|]. rewrite Ep, Eq. reflexivity.
    + assert (hdp p =? 64 = false) as -> by lia. rewrite bind_Ok. change (0 =? 0) with true. cbv iota. unfold wrun. replace (begun p) with (@None (list item)); [now apply MAIN|].
      rewrite Ep. cbn [begun]. destruct q as [|[[] w] q]; try reflexivity. destruct w as [neg t|n| | |n|d sep t| | ]; try reflexivity. destruct neg; [reflexivity|]. destruct t; try reflexivity. rewrite hdp_cons in E64. discriminate.
  - rewrite bind_Ok. change (0 =? 64) with false. cbv iota. destruct (hdp p =? 64) eqn:E64.
    + destruct (hdp_at_sign p W ltac:(lia)) as [q Ep]. pose proof Hp as Hq. rewrite Ep in Hq. apply at_next in Hq. change (zlen (write (It false (One false At)))) with 1 in Hq.
      apply (BOTH [It false (One false At)] q); auto. rewrite Ep. reflexivity.
    + rewrite bind_Ok. change (0 =? 0) with true. cbv iota. unfold wrun. replace (begun p) with (@None (list item)); [now apply MAIN|].
      destruct p as [|[[] w] q]; try reflexivity. destruct w as [neg t|n| | |n|d sep t| | ]; try reflexivity.
      * destruct neg; [reflexivity|]. destruct t; try reflexivity. rewrite hdp_cons in E64. discriminate.
      * rewrite hdp_cons in E42. discriminate.
Qed.
