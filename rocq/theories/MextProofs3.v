From Coq Require Import ZifyBool.
From Verif Require Import Base BaseLemmas SysModel MatchModel MatchSpec MatchProofs MatchProofs2 MextModel MextSpec MextProofs MextProofs2.

Definition negated (x : xitem) : bool := match x with XI _ (One true _) => true | _ => false end.
Fixpoint counts_ok (p : list xitem) : Prop :=
  match p with
  | [] => True
  | x :: q => match x with XCount _ _ i => countable i = true /\ match q with y :: _ => negated y = false | [] => True end | _ => True end /\ counts_ok q
  end.

Lemma countable_fixed i : countable i = true -> fixedx i = true /\ ineg i = false.
Proof. destruct i as [[] []| | | | | | | | ]; try discriminate; auto. Qed.
Lemma countable_end i : countable i = true -> xitem_ok i -> hit i 0 = false.
Proof.
  destruct i as [[] [x|x| | | | | | ]| |cs| | | | | | ]; try discriminate; intros _ W; cbn [hit hit1 xitem_ok] in *; try reflexivity.
  - apply xplain_ne in W. lia.
  - lia.
  - apply orb_false_intro; [|reflexivity]. induction W as [|x l [W _] _ IH]; [reflexivity|]. cbn [existsb]. rewrite IH. lia.
Qed.
Lemma count_loop m nm e i pos : countable i = true -> xitem_ok i -> bytes_at m pos (ibody i) -> forall d s text re k, str_at m text s -> (length (ibody i) + d < k)%nat ->
  x_loop (S k) m (Inner (Z.of_nat (S d)) false pos) text re nm e =
  match cnt i (S d) s with Some _ => x_loop (k - d) m (Inner 0 false pos) (text + Z.of_nat (S d)) (pos + zlen (ibody i) - 1) nm e | None => Ok (0, e) end.
Proof.
  intros C W B. destruct (countable_fixed i C) as [Fi Ni]. rewrite <- Ni. induction d as [|d IH]; intros s text re k Hs Hk.
  - destruct s as [|c s].
    + cbn [str_at] in Hs. rewrite (inner_fixed k m text re nm e 0 i) by (auto; lia). rewrite countable_end by assumption. reflexivity.
    + destruct Hs as (H1 & H2 & H3). rewrite (inner_fixed k m text re nm e c i) by (auto; lia). cbn [cnt]. destruct (hit i c); [|reflexivity]. change (Z.of_nat 1 - 1) with 0. change (Z.of_nat 1) with 1. rewrite Nat.sub_0_r. reflexivity.
  - destruct s as [|c s].
    + cbn [str_at] in Hs. rewrite (inner_fixed k m text re nm e 0 i) by (auto; lia). rewrite countable_end by assumption. reflexivity.
    + destruct Hs as (H1 & H2 & H3). rewrite (inner_fixed k m text re nm e c i) by (auto; lia). change (cnt i (S (S d)) (c :: s)) with (if hit i c then cnt i (S d) s else None). destruct (hit i c); [|reflexivity].
      destruct k as [|k]; [lia|]. replace (Z.of_nat (S (S d)) - 1) with (Z.of_nat (S d)) by lia. rewrite (IH s (text + 1) _ k H3) by lia. destruct (cnt i (S d) s); [|reflexivity]. replace (S k - S d)%nat with (k - d)%nat by lia.
      f_equal. lia.
Qed.
Lemma cnt_at m i : forall d s text r, str_at m text s -> cnt i d s = Some r -> str_at m (text + Z.of_nat d) r /\ length s = (d + length r)%nat.
Proof.
  induction d as [|d IH]; intros s text r Hs E; cbn [cnt] in E.
  - injection E as <-. rewrite Z.add_0_r. auto.
  - destruct s as [|c s]; [discriminate|]. destruct Hs as (_ & _ & Hs). destruct (hit i c); [|discriminate]. destruct (IH s (text + 1) r Hs E) as [H1 H2]. split; [|cbn [length]; lia]. replace (text + Z.of_nat (S d)) with (text + 1 + Z.of_nat d) by lia. exact H1.
Qed.

Lemma findx_range f last : forall l pos z r, findx f last pos l = Some (z, r) -> pos <= z <= pos + zlen l.
Proof.
  induction l as [|x l IHl]; intros pos z r E; [discriminate|]. cbn [findx] in E. nneg l. zl. destruct (f pos (x :: l)) as [q|]; [injection E as <- _; lia|].
  destruct l as [|y l']; [destruct last; [injection E as <- _; lia|discriminate]|]. apply IHl in E. lia.
Qed.
Lemma report_caps e n q z l : 0 <= z - q <= INT_MAX -> report (put_caps e l) n q z = put_caps e ((n, q, z - q) :: l).
Proof.
  intros H. unfold report, put_caps. cbn [pm pmc stm calls first_cap]. rewrite s32_small by (unfold INT_MIN; lia). f_equal; [|destruct (pm e); reflexivity].
  destruct (stm e) as [[]|]; cbn [put_cap capture]; [|reflexivity]. rewrite s32_small by (unfold INT_MIN; lia). reflexivity.
Qed.
Lemma xpattern_len x p : length (xpattern (x :: p)) = (length (xwrite x) + length (xpattern p))%nat.
Proof. unfold xpattern. cbn [flat_map]. apply app_length. Qed.

Theorem x_loop_ok : forall p, well_written p -> counts_ok p -> forall s fuel m text re nm e, str_at m text s -> str_at m re (xpattern p) -> zlen s <= INT_MAX -> xreset e = e -> pmc e = None ->
  (3 * (length s + length (xpattern p)) + 3 <= fuel)%nat -> x_loop fuel m Outer text re nm e = outx e (runx p nm text s).
Proof.
  induction p as [|x p IH]; intros F C s fuel m text re nm e Hs Hre Hmax Hst Hpc Hf; (destruct fuel as [|k]; [lia|]); (destruct s as [|c s]; [now apply tailx_ok|]).
  - pose proof Hs as (H1 & H2 & H3). rewrite (outer_plain k m text re nm e c 0) by (auto; lia). destruct k as [|k]; [cbn [length] in Hf; lia|]. cbn [x_loop]. change (0 <? 1) with true. cbv iota.
    rewrite (load_some _ _ _ H1), bind_Ok. cbn [str_at xpattern flat_map] in Hre. rewrite (load_some _ _ _ Hre), bind_Ok. closed_eqb. cbn [orb]. reflexivity.
  - pose proof Hs as (H1 & H2 & H3). rewrite xpattern_len in Hf. cbn [length] in Hf. pose proof (at_nextx _ _ _ _ Hre) as Hn. rewrite zlen_cons in Hmax. nneg s.
    pose proof (xw_pos x) as Hxw. assert (Hxw' : (1 <= length (xwrite x))%nat) by (unfold zlen in Hxw; lia).
    destruct (is_count x) eqn:Ec.
    { (* counted *)
      destruct x as [sep i|sep n|sep n|d sep i]; try discriminate. destruct F as [[W [D Sd]] F]. destruct C as [[Ci Cn] C].
      destruct (countable_fixed i Ci) as [Fi Ni]. assert (Eb : ibody i = write i) by (destruct i as [[] s0| | | | | | | | ]; try discriminate; reflexivity).
      cbn [xwrite] in Hre, Hn. pose proof (ibody_hd i W) as Hh. cbv zeta in Hh. rewrite Eb in Hh.
      pose proof (str_at_bytes _ _ _ Hre) as Hb. unfold xpattern in Hb. cbn [flat_map xwrite app bytes_at] in Hb. destruct Hb as (B1 & B2 & B3).
      assert (Hwl : (length (write i) <= length (xwrite (XCount d sep i)) - 3)%nat) by (cbn [xwrite]; rewrite !app_length; cbn [length]; lia).
      assert (Hwl2 : (3 <= length (xwrite (XCount d sep i)))%nat) by (cbn [xwrite]; rewrite !app_length; cbn [length]; lia).
      set (pos := if sep then re + 3 else re + 2).
      assert (HP : bytes_at m pos (write i) /\ m (pos + zlen (write i)) = Some 125 /\ exists h, m (re + 2) = Some h /\ 0 <= h <= 255 /\ is_digit h = false /\ (h =? 44) = sep).
      { replace (re + 1 + 1) with (re + 2) in B3 by lia. unfold pos. destruct sep; cbn [comma app bytes_at] in B3.
        - destruct B3 as [B3 B4]. replace (re + 2 + 1) with (re + 3) in B4 by lia. rewrite <- app_assoc in B4. apply bytes_at_app in B4 as [B4 B5]. cbn [app bytes_at] in B5. split; [exact B4|]. split; [apply B5|]. exists 44. split; [exact B3|]. repeat split; lia || reflexivity.
        - rewrite <- app_assoc in B3. apply bytes_at_app in B3 as [B4 B5]. cbn [app bytes_at] in B5. split; [exact B4|]. split; [apply B5|]. exists (hd 0 (write i)). split; [|split; [lia|split; [now apply Sd|lia]]].
          destruct (write i); [exfalso; cbn [hd] in Hh; lia|apply B4]. }
      destruct HP as (P1 & P2 & h & P3 & P4 & P5 & P6).
      rewrite (outer_count k m text re nm e c d h) by (auto; lia). cbv zeta. rewrite P6. fold pos. destruct k as [|k]; [lia|].
      replace d with (Z.of_nat (S (Z.to_nat d - 1))) at 1 by lia.
      destruct (Nat.le_gt_cases (Z.to_nat d) (S (length s))) as [Hds|Hds].
      2:{ (* more than there is *)
        assert (Hcn : forall d' s', (length s' < d')%nat -> cnt i d' s' = None).
        { clear. induction d' as [|d' IH]; intros s' L; [lia|]. cbn [cnt]. destruct s' as [|y s']; [reflexivity|]. cbn [length] in L. rewrite IH by lia. destruct (hit i y); reflexivity. }
        cbn [runx]. rewrite (Hcn (Z.to_nat d) (c :: s)) by (cbn [length]; lia).
        rewrite (count_loop m nm e i pos Ci W) with (s := c :: s); [|now rewrite Eb|exact Hs|rewrite Eb; lia].
        replace (S (Z.to_nat d - 1)) with (Z.to_nat d) by lia. rewrite (Hcn (Z.to_nat d) (c :: s)) by (cbn [length]; lia). reflexivity. }
      rewrite (count_loop m nm e i pos Ci W) with (s := c :: s); [|now rewrite Eb|exact Hs|rewrite Eb; lia].
      replace (S (Z.to_nat d - 1)) with (Z.to_nat d) by lia. cbn [runx]. destruct (cnt i (Z.to_nat d) (c :: s)) as [r|] eqn:Er; [|reflexivity].
      destruct (cnt_at m i _ _ _ _ Hs Er) as [Q1 Q2]. cbn [length] in Q2. rewrite Z2Nat.id in * by lia.
      destruct (k - (Z.to_nat d - 1))%nat as [|k1] eqn:Ek; [lia|]. rewrite inner_zero. rewrite Eb. replace (pos + zlen (write i) - 1 + 1) with (pos + zlen (write i)) by lia.
      replace (re + zlen ([123; 48 + d] ++ comma sep ++ write i ++ [125])) with (pos + zlen (write i) + 1) in Hn by (unfold pos; rewrite !zlen_app; destruct sep; cbn [comma]; zl; lia).
      destruct k1 as [|k1]; [lia|]. destruct r as [|c' r].
      + cbn [str_at] in Q1. cbn [x_loop]. rewrite (load_some _ _ _ Q1), bind_Ok. closed_eqb. cbv iota. rewrite (load_some _ _ _ P2), bind_Ok. closed_eqb. cbn [orb]. cbv iota zeta. rewrite (load_some _ _ _ P2), bind_Ok. closed_eqb. reflexivity.
      + pose proof Q1 as (Q3 & Q4 & Q5).
        assert (Hhd : hdx p <> 33 /\ hdx p <> 125).
        { destruct p as [|y p']; [unfold hdx; cbn; lia|]. destruct (hdx_cases y p' F) as (_ & K1 & _ & _ & _ & K2). split; [|exact K1]. intros E. apply K2 in E as [s0 ->]. cbn in Cn. discriminate. }
        rewrite (outer_brace k1 m (text + d) (pos + zlen (write i)) nm e c' (hdx p)); [|exact Q3|lia|exact P2|now apply hdx_at|apply Hhd|apply Hhd].
        apply IH; auto; [assert (zlen (c' :: r) + d = 1 + zlen s) by (unfold zlen; cbn [length] in *; lia); lia|cbn [length] in *; lia]. }
    destruct (outer_item k m text re nm e c x p Ec F Hre H1) as [HB HO]; [lia|]. cbv zeta in HB, HO. rewrite HO. clear HO. set (pos := re + zlen (xwrite x) - zlen (xbody x)) in *.
    assert (Hnx : re + zlen (xwrite x) = pos + zlen (xbody x)) by (unfold pos; lia). rewrite Hnx in Hn.
    destruct k as [|k]; [lia|].
    assert (Hbl : (length (xbody x) <= length (xwrite x))%nat) by (rewrite (xwrite_split x Ec), app_length; lia).
    destruct C as [_ C].
    (* the part behind the star *)
    assert (ST : forall s' text' num (mp : option Z), s' <> [] -> str_at m text' s' -> zlen s' <= INT_MAX -> (length s' <= S (length s))%nat ->
      (forall q, mp = Some q -> 0 <= text' - q /\ text' + zlen s' - q <= INT_MAX) -> forall rr, rr + 1 = pos + zlen (xbody x) ->
      (let re := rr + 1 in
              let* c := load m re in
              if c =? 0 then
                match mp with
                | Some p =>
                    if pm e || match stm e with Some _ => true | None => false end
                    then let* z := text_end k m text' in Ok (verdict false 1, report e num p z)
                    else Ok (verdict false 1, e)
                | None => Ok (verdict false 1, e)
                end
              else
                let* r := xstar_loop (fun text e => x_loop k m Outer text re 0 (xreset e)) k m text' re e in
                let '(hit, text, e) := r in
                if hit then Ok (verdict false 1, match mp with Some p => report e num p text | None => e end)
                else Ok (verdict false 0, e)) =
      outx e (match p with [] => Some (match mp with Some q => [(num, q, text' + zlen s' - q)] | None => [] end)
              | _ => match findx (runx p 0) (finalx p) text' s' with
                     | Some (z, l) => Some (match mp with Some q => (num, q, z - q) :: l | None => l end) | None => None end end)).
    { destruct F as [_ F]. intros s' text' num mp Hne Hs' Hmax' Hl' Hq rr Hrr. cbv zeta. rewrite Hrr. rewrite (load_some _ _ _ (hdx_at _ _ _ Hn)), bind_Ok. change (verdict false 1) with 1. change (verdict false 0) with 0. destruct p as [|j p'] eqn:Ep.
      - change (hdx [] =? 0) with true. cbv iota. destruct mp as [q|]; [|cbn [outx]; now rewrite put_caps_none]. specialize (Hq q eq_refl). nneg s'.
        cbn [outx]. rewrite <- report_caps, put_caps_none by (auto; lia). destruct (pm e) eqn:Epm; cbn [orb]; cbv iota; [rewrite (text_end_ok m s') by (auto; lia); reflexivity|].
        destruct (stm e) eqn:Est; [rewrite (text_end_ok m s') by (auto; lia); reflexivity|]. do 2 f_equal. unfold report. rewrite Epm, Est. destruct e; cbn in *; subst; reflexivity.
      - rewrite <- Ep in *. assert (hdx p =? 0 = false) as -> by (subst p; destruct (hdx_cases j p' F) as [K _]; lia).
        rewrite (xstar_loop_ok _ m _ p e F Hn Hst s' text' k Hne Hs').
        + replace (match p with [] => Some (match mp with Some q => [(num, q, text' + zlen s' - q)] | None => [] end)
              | _ => match findx (runx p 0) (finalx p) text' s' with
                     | Some (z, l) => Some (match mp with Some q => (num, q, z - q) :: l | None => l end) | None => None end end)
            with (match findx (runx p 0) (finalx p) text' s' with
                     | Some (z, l) => Some (match mp with Some q => (num, q, z - q) :: l | None => l end) | None => None end) by (rewrite Ep; reflexivity).
          destruct (findx (runx p 0) (finalx p) text' s') as [[z l]|] eqn:EF; rewrite bind_Ok; cbn [outx]; [|reflexivity].
          apply findx_range in EF. destruct mp as [q|]; [|reflexivity]. specialize (Hq q eq_refl). rewrite report_caps by lia. reflexivity.
        + intros t r Hr1 Hr2 Hr3. rewrite Hst. apply IH; auto; [unfold zlen in *; lia|]. lia.
        + lia. }
    assert (FX : forall i sep, x = XI sep i -> fixedx i = true -> x_loop (S k) m (Inner 1 (xneg x) pos) text pos nm e = outx e (if hit i c then runx p nm (text + 1) s else None)).
    { intros i sep -> Fi. cbn [xneg xbody] in *. destruct F as [[W _] F]. rewrite (inner_fixed k m text pos nm e c i) by (auto; lia). destruct (hit i c); [|reflexivity].
      destruct k as [|k]; [lia|]. change (1 - 1) with 0. rewrite inner_zero. replace (pos + zlen (ibody i) - 1 + 1) with (pos + zlen (ibody i)) by lia. apply IH; auto; lia. }
    destruct x as [sep i|sep n|sep n|d sep i]; try discriminate.
    + destruct (fixedx i) eqn:Fi.
      { rewrite (FX i sep eq_refl Fi). destruct i; try discriminate; reflexivity. }
      cbn [xneg xbody] in *. destruct F as [[W W2] F].
      destruct i; try discriminate; try contradiction; cbn [ibody write ineg] in *; cbn [x_loop]; change (0 <? 1) with true; cbv iota; rewrite (load_some _ _ _ H1), bind_Ok; destruct HB as [HB _]; rewrite (load_some _ _ _ HB), bind_Ok; closed_eqb; cbn [orb]; cbv iota zeta.
      * etransitivity; [apply (ST (c :: s) text nm None); [discriminate|exact Hs|rewrite zlen_cons; lia|cbn [length]; lia|discriminate|zl; lia]|]. cbn [runx]. destruct p as [|j p']; [reflexivity|].
        destruct (findx _ _ text (c :: s)) as [[e' cp]|]; reflexivity.
      * destruct s as [|y s'].
        -- cbn [str_at] in H3. rewrite (load_some _ _ _ H3), bind_Ok. reflexivity.
        -- assert (Hx : m (text + 1) = Some y /\ y <> 0) by (destruct H3 as (H3 & H4 & _); split; [exact H3|lia]). destruct Hx as [Hx Hx0].
           rewrite (load_some _ _ _ Hx), bind_Ok. assert (y =? 0 = false) as -> by lia.
           etransitivity; [apply (ST (y :: s') (text + 1) nm None); [discriminate|exact H3|lia|lia|discriminate|zl; lia]|]. cbn [runx]. destruct p as [|j p']; [reflexivity|].
           destruct (findx _ _ (text + 1) (y :: s')) as [[e' cp]|]; reflexivity.
    + cbn [xneg xbody] in *. destruct F as [[W W2] F]. cbn [x_loop]; change (0 <? 1) with true; cbv iota; rewrite (load_some _ _ _ H1), bind_Ok; destruct HB as [HB HB2]; rewrite (load_some _ _ _ HB), bind_Ok; closed_eqb; cbn [orb]; cbv iota zeta.
      assert (Hd : exists d, m (pos + 1) = Some d /\ (if (48 <=? d) && (d <=? 57) then d - 48 else nm) = nmof n nm /\ (if (48 <=? d) && (d <=? 57) then pos + 1 else pos) + 1 = pos + zlen (37 :: number n)).
      { destruct n as [y|]; cbn [number nmof number_ok] in *.
        - destruct HB2 as [HB2 _]. exists (48 + y). split; [exact HB2|]. replace ((48 <=? 48 + y) && (48 + y <=? 57)) with true by lia. zl. split; lia.
        - exists (hdx p). change (zlen [37]) with 1 in *. split; [now apply hdx_at|]. specialize (W2 eq_refl). unfold is_digit in W2. unfold hdx. rewrite W2. split; reflexivity. }
      destruct Hd as (d & D1 & D2 & D3). rewrite (load_some _ _ _ D1), bind_Ok. rewrite D2.
      destruct s as [|y s'].
      * cbn [str_at] in H3. rewrite (load_some _ _ _ H3), bind_Ok. reflexivity.
      * assert (Hx : m (text + 1) = Some y /\ y <> 0) by (destruct H3 as (H3 & H4 & _); split; [exact H3|lia]). destruct Hx as [Hx Hx0].
        rewrite (load_some _ _ _ Hx), bind_Ok. assert (y =? 0 = false) as -> by lia.
        etransitivity; [apply (ST (y :: s') (text + 1) (nmof n nm) (Some text)); [discriminate|exact H3|lia|lia|intros q [= <-]; lia|exact D3]|]. cbn [runx]. destruct p as [|j p'].
        -- do 4 f_equal. rewrite (zlen_cons c). lia.
        -- destruct (findx _ _ (text + 1) (y :: s')) as [[e' cp]|]; reflexivity.
    + cbn [xneg xbody] in *. destruct F as [[W W2] F].
      assert (Hd : exists d, m (pos + 1) = Some d /\ (n = None -> is_digit d = false)).
      { destruct n as [y|]; cbn [number] in *; [exists (48 + y); split; [apply HB|discriminate]|]. exists (hdx p). change (zlen [38]) with 1 in *. split; [now apply hdx_at|auto]. }
      destruct Hd as (d & D1 & D2). rewrite (inner_amp k m text pos nm e c n d) by auto. destruct k as [|k]; [lia|]. rewrite inner_zero. replace (pos + zlen (38 :: number n) - 1 + 1) with (pos + zlen (38 :: number n)) by lia.
      cbn [runx]. apply IH; auto; lia.
Qed.
