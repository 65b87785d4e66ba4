From Coq Require Import ZifyBool.
From Verif Require Import Base BaseLemmas SysModel MatchModel MextModel MtwoModel MtwoSpec MtwoProofs1 MtwoProofs2 MtwoProofs3.
From Verif Require MatchProofs MextProofs MextProofs3.

Lemma number_at m pos x n q : bytes_at m pos (x :: number n) -> str_at m (pos + zlen (x :: number n)) (pattern q) -> number_ok n (pattern q) ->
  exists d, m (pos + 1) = Some d /\ forall nm, (if (48 <=? d) && (d <=? 57) then d - 48 else nm) = nmof n nm /\ (if (48 <=? d) && (d <=? 57) then pos + 1 else pos) + 1 = pos + zlen (x :: number n).
Proof.
  intros B H N. destruct n as [y|]; cbn [number nmof number_ok] in *.
  - destruct B as [_ [B _]]. exists (48 + y). split; [exact B|]. intros nm. replace ((48 <=? 48 + y) && (48 + y <=? 57)) with true by lia. zl. split; lia.
  - change (zlen [x]) with 1 in *. exists (hdp q). split; [now apply hdp_at|]. intros nm. unfold digit in N. unfold hdp. rewrite N. auto.
Qed.
Lemma char_fits p s k neg t c : text_ok (It k (One neg t) :: p) s -> fits (It k (One neg t) :: p) -> In c s -> char_ok neg t c.
Proof.
  intros T [[_ F] _] Hc. specialize (T _ c (or_introl eq_refl) Hc). cbn [what test_of] in T. destruct t; cbn [char_ok]; auto. split; [exact T|]. destruct neg; [|reflexivity]. exfalso. now apply (F eq_refl cs).
Qed.

Theorem y_ok : forall p, well_written p -> fits p -> forall s fuel m text re nm e, str_at m text s -> str_at m re (pattern p) -> text_ok p s -> zlen s <= INT_MAX -> 0 < text -> steady e ->
  (length s + length (pattern p) + 2 <= fuel)%nat -> gives e (yrun p nm text s) (y_loop fuel m text re nm e).
Proof.
  induction p as [|i q IHq]; intros W F s fuel m text re nm e Hs Hre HT Hmax Ht Hst Hf; (destruct fuel as [|k]; [lia|]); cbn [y_loop]; (destruct s as [|c s];
    [cbn [str_at] in Hs; ld Hs; closed_eqb; cbv iota; first [apply (ends_at m text re e []) | apply (ends_at m text re e (i :: q))]; auto; apply Hst|]); pose proof Hs as (H1 & H2 & H3); ld H1; replace (c =? 0) with false by lia.
  - cbn in Hre. unfold y_head. ld Hre. closed_eqb. cbn [orb]. cbv iota zeta. ld Hre. closed_eqb. cbv iota. unfold y_item. closed_eqb. cbn [orb]. cbv iota zeta. now apply gives_none.
  - destruct (at_item _ _ _ _ Hre) as [HB Hq]. set (rq := re + zlen (write i)) in *. pose proof W as [Wi Wq]. pose proof F as [Fi Fq].
    rewrite pattern_cons, app_length in Hf. pose proof (write_len i) as Hwl. cbn [length] in Hf.
    assert (IH : forall s' text nm e, str_at m text s' -> (length s' <= length (c :: s))%nat -> (forall x, In x s' -> In x (c :: s)) -> zlen s' <= INT_MAX -> 0 < text -> steady e ->
      gives e (yrun q nm text s') (y_loop k m text rq nm e)).
    { intros s' text' nm' e' A1 A2 A3 A4 A5 A6. cbn [length] in A2. apply IHq; auto; [|lia]. now apply text_ok_sub with i (c :: s). }
    assert (Inn : forall x, In x s -> In x (c :: s)) by (intros; now right). assert (Inc : forall x, In x (c :: s) -> In x (c :: s)) by auto.
    rewrite zlen_cons in Hmax. nneg s.
    destruct i as [sep w]. unfold write in *. cbn [comma what] in *. apply bytes_at_app in HB as [HB0 HB]. set (pos := re + zlen (wcomma sep)) in *.
    assert (Epos : rq = pos + zlen (wkind w)) by (unfold rq, pos; rewrite zlen_app; lia).
    rewrite app_length in Hf, Hwl.
    assert (HD : forall h, hd 0 (wkind w) = h -> h <> 33 -> h <> 44 -> y_head (y_loop k m) k m text c re nm e = y_rest (y_loop k m) k m text c pos h false nm e).
    { intros h <- N1 N2. apply head_comma; auto. apply hd_byte; [exact HB|apply wkind_ne]. }
    assert (NE : forall p', eats p' -> p' = q -> hdp q <> 35 /\ hdp q <> 36).
    { intros p' (j & Hj & Cj) ->. destruct q as [|x q']; [destruct Hj|]. apply (hdp_end m rq); auto. destruct (ending x) eqn:Ex; [|reflexivity]. exfalso. destruct Fq as [Fx _]. unfold ending in Ex. destruct x as [? [neg t| | | | | | | ]]; cbn [what] in *; try discriminate.
      destruct Fx as [Fx _]. destruct neg; [discriminate|]. assert (ending (It comma (One false t)) = true) as E by exact Ex. rewrite (Fx E) in Hj. destruct Hj as [<-|[]]. unfold consumes in Cj. cbn [what] in Cj. destruct t; discriminate. }
    destruct w as [neg t|n| | |n|d sp t| | ]; cbn [wkind yrun what] in *.
    + (* a test *)
      destruct Wi as [Wt Wc]. pose proof (wtest_hd t Wt) as Hh. cbv zeta in Hh. pose proof (char_fits _ _ _ _ _ c HT F (or_introl eq_refl)) as Hc. pose proof (wtest_len t) as Hl.
      assert (Ht0 : hd 0 (wtest t ++ []) = hd 0 (wtest t)) by (now rewrite app_nil_r).
      assert (R : y_head (y_loop k m) k m text c re nm e = if xorb neg (sat t c) then y_loop k m (text + 1) rq nm e else Ok (0, e)).
      { destruct neg; cbn [app] in *.
        - destruct sep; [specialize (Wc eq_refl); discriminate|]. cbn [wcomma] in *. change (zlen (@nil Z)) with 0 in *. unfold pos in *. rewrite Z.add_0_r in *. destruct HB as [HB1 HB2].
          rewrite (head_neg _ _ _ _ _ _ (hd 0 (wtest t))); [|exact HB1|apply hd_byte; [exact HB2|destruct (wtest t); [cbn [length] in *; lia|discriminate]]].
          rewrite rest_test; auto; [|cbn [length] in *; lia]. replace (re + 1 + zlen (wtest t)) with rq by (rewrite Epos; zl; lia). reflexivity.
        - rewrite (HD _ eq_refl) by lia. rewrite rest_test; auto; [|lia]. rewrite <- Epos. reflexivity. }
      rewrite R. destruct (xorb neg (sat t c)); [|now apply gives_none]. apply IH; auto; cbn [length]; lia.
    + (* & *)
      rewrite (HD 38 eq_refl) by lia. unfold y_rest. closed_eqb. cbv iota. unfold y_item. closed_eqb. cbn [orb]. cbv iota zeta. rewrite Epos in Hq. destruct (number_at _ _ _ _ _ HB Hq Wi) as (d & D1 & D2). ld D1. destruct (D2 nm) as [-> ->]. rewrite (proj2 Hst).
      rewrite <- Epos. apply IH; auto; cbn [length]; lia.
    + (* * *)
      rewrite (HD 42 eq_refl) by lia. unfold y_rest. closed_eqb. cbv iota. unfold y_item. closed_eqb. cbn [orb]. cbv iota zeta.
      apply (any_ok m k q (c :: s) rq Hq IH); auto; try discriminate; try (rewrite zlen_cons; lia); try (cbn [length]; lia).
      destruct q as [|x q']; [auto|right]. apply (hdp_end m rq); auto. apply Fi.
    + (* + *)
      rewrite (HD 43 eq_refl) by lia. unfold y_rest. closed_eqb. cbv iota. unfold y_item. closed_eqb. cbn [orb]. cbv iota zeta.
      destruct s as [|y s'].
      * cbn [str_at] in H3. ld H3. closed_eqb. cbv iota. cbn [isnil]. now apply gives_none.
      * assert (Hx : m (text + 1) = Some y /\ y <> 0) by (destruct H3 as (H3 & H4 & _); split; [exact H3|lia]). destruct Hx as [Hx Hx0]. ld Hx. replace (y =? 0) with false by lia. cbn [isnil].
        apply (any_ok m k q (c :: y :: s') rq Hq IH); auto; try discriminate; try lia; try (cbn [length] in *; lia); try (right; now apply (NE q)).
    + (* % *)
      rewrite (HD 37 eq_refl) by lia. unfold y_rest. closed_eqb. cbv iota. unfold y_item. closed_eqb. cbn [orb]. cbv iota zeta. rewrite Epos in Hq. destruct (number_at _ _ _ _ _ HB Hq (proj1 W)) as (d & D1 & D2). ld D1. destruct (D2 nm) as [-> D3].
      rewrite <- Epos in *.
      destruct s as [|y s'].
      * cbn [str_at] in H3. ld H3. closed_eqb. cbv iota. cbn [isnil]. now apply gives_none.
      * assert (Hx : m (text + 1) = Some y /\ y <> 0) by (destruct H3 as (H3 & H4 & _); split; [exact H3|lia]). destruct Hx as [Hx Hx0]. ld Hx. replace (y =? 0) with false by lia. cbn [isnil].
        apply (any_ok m k q (c :: y :: s') rq Hq IH); auto; try discriminate; try lia; try (cbn [length] in *; lia); try (right; now apply (NE q)); try (intros z [= <-]; lia).
    + (* counted *)
      destruct Wi as (Wt & Wd & Ws). destruct Fi as (Fe & Fh & Fd & Fb). rewrite (HD 123 eq_refl) by lia. unfold y_rest. closed_eqb. cbv iota. unfold y_count.
      cbn [app] in HB. destruct HB as (B1 & B2 & B3). replace (pos + 1 + 1) with (pos + 2) in B3 by lia.
      ld B2. replace (48 + d =? 43) with false by lia. replace (48 + d =? 42) with false by lia. cbv iota.
      cbn [app length] in Hf. rewrite !app_length in Hf. cbn [length] in Hf. pose proof (wtest_len t) as Hl. pose proof (wtest_hd t Wt) as Hh. cbv zeta in Hh.
      assert (Hd : digits k m (pos + 1) 0 = Ok (pos + 2, d)).
      { destruct k as [|[|k']]; try lia. cbn [digits]. ld B2. rewrite digit_eq by lia. replace (digit (48 + d)) with true by (unfold digit; lia). rewrite iop_ok by (unfold INT_MIN, INT_MAX; lia). rewrite bind_Ok. replace (pos + 1 + 1) with (pos + 2) by lia.
        assert (Hx : exists h, m (pos + 2) = Some h /\ 0 <= h <= 255 /\ digit h = false).
        { destruct sp; cbn [wcomma app] in B3; [exists 44; split; [apply B3|split; [lia|reflexivity]]|]. exists (hd 0 (wtest t)). split; [|split; [lia|now apply Ws]]. destruct (wtest t); [cbn [length] in *; lia|]. apply B3. }
        destruct Hx as (h & X1 & X2 & X3). ld X1. rewrite digit_eq by lia. rewrite X3. do 2 f_equal. lia. }
      rewrite Hd, !bind_Ok. cbv iota. replace (text =? 0) with false by lia.
      destruct (rep_ok m (pos + 2) sp t k Wt B3 ltac:(lia) Fh Fd (Z.to_nat d) (c :: s) text e k) as (e' & E1 & E2); auto; try discriminate; try (cbn [length]; lia); try lia; try apply Hst.
      { apply Forall_forall. intros x Hx. specialize (HT _ x (or_introl eq_refl) Hx). cbn [what test_of] in HT. destruct t; cbn [char_ok]; auto. }
      rewrite Z2Nat.id in E2 by lia. destruct (cnt t (Z.to_nat d) (c :: s)) as [[|y r]|] eqn:Ec.
      * destruct E2 as (ret' & n & Hn & ->). rewrite bind_Ok. cbv iota. replace (0 <? n) with true by lia. now apply gives_none.
      * rewrite E2, bind_Ok. cbv iota. closed_eqb. change (0 <? 0) with false. cbv iota.
        assert (E3 : seek k m 125 (pos + 2) = Ok (pos + 2 + zlen (wcomma sp ++ wtest t))).
        { apply seek_skip.
          - rewrite <- app_assoc. exact B3.
          - intros Hi. apply in_app_iff in Hi as [Hi|Hi]; [destruct sp; cbn in Hi; intuition lia|]. now apply Fb.
          - pose proof (str_at_range _ _ _ Hre) as R. rewrite pattern_cons in R. unfold write in R. cbn [comma what wkind] in R. apply Forall_app in R as [R _]. apply Forall_app in R as [_ R]. apply Forall_app in R as [_ R]. rewrite app_assoc in R. apply Forall_app in R as [R _].
            eapply Forall_impl; [|exact R]. cbv beta. intros; lia.
          - rewrite app_length. lia. }
        rewrite E3, bind_Ok. assert (E4 : m (pos + 2 + zlen (wcomma sp ++ wtest t)) = Some 125) by (rewrite app_assoc in B3; apply bytes_at_app in B3 as [_ [B3 _]]; exact B3). ld E4. closed_eqb. cbv iota.
        replace (pos + 2 + zlen (wcomma sp ++ wtest t) + 1) with rq by (rewrite Epos; cbn [app]; rewrite !zlen_cons, !zlen_app, !zlen_cons; change (zlen (@nil Z)) with 0; lia).
        destruct (cnt_len _ _ _ _ Ec) as (a & Ea & La & _). assert (Hz : zlen a = d) by (unfold zlen; lia).
        apply (gives_via e e'); [exact E1|]. unfold call2. rewrite yreset_id by (rewrite E1; apply Hst). pose proof (str_at_skip m text a (y :: r)) as Hsk. rewrite <- Ea, Hz in Hsk.
        assert (Hlen : S (length s) = (length a + length (y :: r))%nat) by (rewrite <- app_length, <- Ea; reflexivity).
        apply IH; [auto|cbn [length] in *; lia|intros x Hx; rewrite Ea; apply in_app_iff; auto|unfold zlen in *; lia|lia|destruct Hst; split; rewrite E1; assumption].
      * destruct E2 as (ret' & n & Hn & ->). rewrite bind_Ok. cbv iota. replace (0 <? n) with true by lia. now apply gives_none.
    + (* ( *)
      destruct Fi as (Fe & j & Hj & Ej). rewrite (HD 40 eq_refl) by lia. unfold y_rest. closed_eqb. cbv iota. unfold y_item. closed_eqb. cbn [orb]. cbv iota zeta.
      change (zlen [40]) with 1 in Epos. rewrite <- Epos. destruct (seek_ok m 41 (pattern q) rq k Hq) as (z & -> & Hz); [eapply pattern_in; eauto|lia|]. rewrite bind_Ok. ld Hz. closed_eqb. cbv iota.
      destruct (call_ok m k q (c :: s) rq IH (c :: s) text e) as [o G]; auto; [rewrite zlen_cons; lia|]. destruct (yrun q 0 text (c :: s)) as [l|].
      * destruct G as (v & Hv & ->). rewrite bind_Ok. cbv iota. replace (v =? 0) with false by lia. exists (o + 1 + 1 + 1 + 1), v. split; [exact Hv|reflexivity].
      * rewrite G, bind_Ok. cbv iota. closed_eqb. now apply gives_none.
    + (* ) *)
      rewrite (HD 41 eq_refl) by lia. unfold y_rest. closed_eqb. cbv iota. change (zlen [41]) with 1 in Epos. rewrite <- Epos.
      destruct (call_ok m k q (c :: s) rq IH (c :: s) text e) as [o G]; auto; [rewrite zlen_cons; lia|]. destruct (yrun q 0 text (c :: s)) as [l|].
      * destruct G as (v & Hv & ->). rewrite bind_Ok. cbv iota. replace (v =? 0) with false by lia. exists o, text. auto.
      * rewrite G, bind_Ok. cbv iota. closed_eqb. now apply gives_none.
Qed.
