From Verif Require Import Base BaseLemmas SysModel MatchModel MatchSpec MatchProofs.

Lemma fixed_step k m text re st t i p : m text = Some t -> chr t -> str_at m re (pattern (i :: p)) -> item_ok i -> fixed i = true ->
  (length (write i) <= k)%nat ->
  m_loop (S k) m text re st = if hit i t then m_loop k m (text + 1) (re + zlen (write i)) st else Ok (0, st).
Proof.
  intros Ht T Hre W Fi Hk. destruct i as [neg s| |cs| | | | | | ]; try discriminate.
  - now apply single_step with p.
  - pose proof (hdb_at _ _ _ Hre) as HL. cbn [hdb write hd] in HL. cbn [m_loop hit write]. change (zlen [63]) with 1.
    unfold chr in T. rewrite (load_some _ _ _ Ht), bind_Ok. assert (t =? 0 = false) as -> by lia. rewrite (load_some _ _ _ HL), bind_Ok. closed_eqb. change (if false then re + 1 else re) with re. rewrite (load_some _ _ _ HL), bind_Ok. closed_eqb. reflexivity.
  - pose proof (hdb_at _ _ _ Hre) as HL. cbn [hdb write hd] in HL. cbn [m_loop hit].
    unfold chr in T. rewrite (load_some _ _ _ Ht), bind_Ok. assert (t =? 0 = false) as -> by lia. rewrite (load_some _ _ _ HL), bind_Ok. closed_eqb. change (if false then re + 1 else re) with re. rewrite (load_some _ _ _ HL), bind_Ok. closed_eqb.
    cbn [item_ok] in W. cbn [write length] in Hk. rewrite app_length in Hk. cbn [length] in Hk.
    assert (HB : bytes_at m (re + 1) (cs ++ [93])).
    { apply str_at_bytes in Hre. unfold pattern in Hre. cbn [flat_map write app] in Hre. destruct Hre as [_ Hre]. apply bytes_at_app in Hre as [Hre _]. exact Hre. }
    pose proof (class_for_ok m t cs (re + 1) k W HB T ltac:(lia)) as HC.
    destruct (existsb (Z.eqb t) cs || (t =? 93)).
    + destruct HC as (a & b & E1 & E2 & E3 & E4). rewrite E4, bind_Ok.
      assert (Hb : exists b', b = b' ++ [93] /\ cs = a ++ b').
      { destruct b as [|y b' _] using rev_ind; [congruence|]. rewrite app_assoc in E1. apply app_inj_tail in E1 as [E1 <-]. eauto. }
      destruct Hb as (b' & -> & ->). apply Forall_app in W as [W1 W2]. rewrite <- app_assoc in HB. apply bytes_at_app in HB as [_ HB]. rewrite app_length in Hk.
      rewrite (class_end_ok m b') by (auto; lia). rewrite bind_Ok. apply bytes_at_app in HB as [_ [HB _]]. rewrite (load_some _ _ _ HB), bind_Ok. closed_eqb.
      replace (re + 1 + zlen a + zlen b' + 1) with (re + zlen (write (Class (a ++ b')))); [reflexivity|]. cbn [write]. rewrite zlen_cons, !zlen_app. change (zlen [93]) with 1. lia.
    + rewrite HC, bind_Ok. reflexivity.
  - pose proof (hdb_at _ _ _ Hre) as HL. cbn [hdb write hd] in HL. cbn [m_loop hit write]. change (zlen [35]) with 1.
    unfold chr in T. rewrite (load_some _ _ _ Ht), bind_Ok. assert (t =? 0 = false) as -> by lia. rewrite (load_some _ _ _ HL), bind_Ok. closed_eqb. change (if false then re + 1 else re) with re. rewrite (load_some _ _ _ HL), bind_Ok. closed_eqb. cbv iota. now rewrite xorb_false_l.
  - pose proof (hdb_at _ _ _ Hre) as HL. cbn [hdb write hd] in HL. cbn [m_loop hit write]. change (zlen [36]) with 1.
    unfold chr in T. rewrite (load_some _ _ _ Ht), bind_Ok. assert (t =? 0 = false) as -> by lia. rewrite (load_some _ _ _ HL), bind_Ok. closed_eqb. change (if false then re + 1 else re) with re. rewrite (load_some _ _ _ HL), bind_Ok. closed_eqb. cbn [xorb].
    rewrite (Z.eqb_sym 36 t). now destruct (t =? 36).
  - pose proof (hdb_at _ _ _ Hre) as HL. cbn [hdb write hd] in HL. cbn [m_loop hit write]. change (zlen [64]) with 1.
    unfold chr in T. rewrite (load_some _ _ _ Ht), bind_Ok. assert (t =? 0 = false) as -> by lia. rewrite (load_some _ _ _ HL), bind_Ok. closed_eqb. change (if false then re + 1 else re) with re. rewrite (load_some _ _ _ HL), bind_Ok. closed_eqb. cbv iota. now rewrite xorb_false_l.
Qed.

Lemma run_fixed i p pos c s : fixed i = true -> run (i :: p) pos (c :: s) = if hit i c then run p (pos + 1) s else None.
Proof. destruct i; try discriminate; reflexivity. Qed.
Lemma tail_ok k m text re st p : Forall item_ok p -> str_at m text [] -> str_at m re (pattern p) -> reset st = st ->
  m_loop (S k) m text re st = out st (run p text []).
Proof.
  intros F Ht Hre Hst. cbn [m_loop str_at] in *. rewrite (load_some _ _ _ Ht), bind_Ok. change (0 =? 0) with true. cbv iota.
  rewrite (load_some _ _ _ (hdb_at _ _ _ Hre)), bind_Ok, hdb_end by exact F.
  assert (A : forall q re', Forall item_ok q -> str_at m re' (pattern q) ->
    (let* c := load m re' in if c =? 0 then Ok (1, st) else if c =? 42 then let* c := load m (re' + 1) in Ok (if c =? 0 then 1 else 0, st) else Ok (0, st)) =
    out st (if match q with [] | [Star] => true | _ => false end then Some None else None)).
  { intros q re' Fq Hq. rewrite (load_some _ _ _ (hdb_at _ _ _ Hq)), bind_Ok. destruct (hdb q =? 0) eqn:E.
    - apply Z.eqb_eq, hdb_zero in E; [|exact Fq]. subst q. cbn [out]. now rewrite put_none, Hst.
    - destruct q as [|i q]; [discriminate|]. destruct (hdb (i :: q) =? 42) eqn:E4.
      + apply Z.eqb_eq, hdb_star in E4 as [q' E4]; [|exact Fq]. injection E4 as -> ->. apply at_next in Hq. change (zlen (write Star)) with 1 in Hq.
        rewrite (load_some _ _ _ (hdb_at _ _ _ Hq)), bind_Ok. apply Forall_cons_iff in Fq as [_ Fq]. destruct q' as [|j q'].
        * cbn [out hdb]. now rewrite put_none, Hst.
        * destruct (hdb (j :: q') =? 0) eqn:Ej; [apply Z.eqb_eq, hdb_zero in Ej; [discriminate|exact Fq]|]. cbn [out]. now rewrite Hst.
      + assert (Hi : i <> Star) by (intros ->; discriminate). replace (match i :: q with [] | [Star] => true | _ => false end) with false by (destruct i; try reflexivity; congruence).
        cbn [out]. now rewrite Hst. }
  destruct p as [|i p]; [apply (A [] re); auto|]. cbn [run ends].
  pose proof F as F0. apply Forall_cons_iff in F as [_ F]. pose proof (at_next _ _ _ _ Hre) as Hn.
  destruct i as [neg s| |cs| | | | | | ]; try (apply (A p (re + 1)); assumption); apply (A _ re F0 Hre).
Qed.

Theorem m_loop_ok : forall p, Forall item_ok p -> forall s fuel m text re st, str_at m text s -> str_at m re (pattern p) -> zlen s <= INT_MAX -> reset st = st ->
  (length s + length (pattern p) < fuel)%nat -> m_loop fuel m text re st = out st (run p text s).
Proof.
  induction p as [|i p IH]; intros F s fuel m text re st Hs Hre Hmax Hst Hf; (destruct fuel as [|k]; [lia|]).
  - destruct s as [|c s]; [now apply tail_ok|]. destruct Hs as (H1 & H2 & H3). cbn [m_loop run out]. cbn in Hre.
    rewrite (load_some _ _ _ H1), bind_Ok. assert (c =? 0 = false) as -> by lia. rewrite (load_some _ _ _ Hre), bind_Ok. closed_eqb. change (if false then re + 1 else re) with re. rewrite (load_some _ _ _ Hre), bind_Ok. closed_eqb. now rewrite Hst.
  - destruct s as [|c s]; [now apply tail_ok|]. destruct Hs as (H1 & H2 & H3). pose proof F as F0. apply Forall_cons_iff in F as [W F].
    assert (Hlen : length (pattern (i :: p)) = (length (write i) + length (pattern p))%nat) by (unfold pattern; cbn [flat_map]; apply app_length). rewrite Hlen in Hf. cbn [length] in Hf.
    pose proof (at_next _ _ _ _ Hre) as Hn. rewrite zlen_cons in Hmax. nneg s.
    destruct (fixed i) eqn:Fi.
    { rewrite (fixed_step k m text re st c i p) by (auto; lia). rewrite run_fixed by exact Fi. destruct (hit i c); [|cbn [out]; now rewrite Hst].
      apply IH; auto; [lia|]. pose proof (zlen_write i). assert (1 <= length (write i))%nat by (unfold zlen in *; lia). lia. }
    assert (Hz : zlen (write i) = 1 /\ (1 <= length (write i))%nat) by (destruct i; try discriminate; split; try reflexivity; cbn; lia). destruct Hz as [Hz Hwl].
    pose proof (hdb_at _ _ _ Hre) as HL. rewrite Hz in Hn.
    (* the part behind the star *)
    assert (ST : forall s' text' (mp : option Z), s' <> [] -> str_at m text' s' -> zlen s' <= INT_MAX -> (length s' <= S (length s))%nat ->
      (forall q, mp = Some q -> 0 <= text' - q /\ text' + zlen s' - q <= INT_MAX) ->
      (let re := re + 1 in
          let* c := load m re in
          if c =? 0 then
            match mp, st with
            | Some pos, Some _ => let* e := text_end k m text' in Ok (verdict false 1, capture st pos e)
            | _, _ => Ok (verdict false 1, st)
            end
          else
            let* r := star_loop (fun text st => m_loop k m text re (reset st)) k m text' re st in
            let '(hit, text, st) := r in
            if hit then
              Ok (verdict false 1, match mp with Some pos => capture st pos text | None => st end)
            else Ok (verdict false 0, st)) =
      out st (match p with [] => Some (match mp with Some q => Some (q, text' + zlen s' - q) | None => None end)
              | _ => match find (run p) (final p) text' s' with
                     | Some (e, cp) => Some (match mp with Some q => Some (q, e - q) | None => cp end) | None => None end end)).
    { intros s' text' mp Hne Hs' Hmax' Hl' Hq. cbv zeta. rewrite (load_some _ _ _ (hdb_at _ _ _ Hn)), bind_Ok. destruct p as [|j p'] eqn:Ep.
      - change (hdb [] =? 0) with true. cbv iota. change (verdict false 1) with 1. destruct mp as [q|]; [|cbn [out]; now rewrite put_none, Hst].
        destruct st as [[sp sl]|]; [|reflexivity]. rewrite (text_end_ok m s') by (auto; lia). rewrite bind_Ok. cbn [capture out put_cap].
        rewrite s32_small; [reflexivity|]. specialize (Hq q eq_refl). unfold INT_MIN. nneg s'. lia.
      - rewrite <- Ep in *. assert (hdb p =? 0 = false) as -> by (apply Z.eqb_neq; intros E; apply hdb_zero in E; [subst; discriminate|exact F]).
        rewrite (star_loop_ok _ m (re + 1) p st F Hn Hst s' text' k Hne Hs').
        + assert (Hfe : forall l pos e cp, find (run p) (final p) pos l = Some (e, cp) -> pos <= e <= pos + zlen l).
          { clear. induction l as [|x l IHl]; intros pos e cp E; [discriminate|]. cbn [find] in E. nneg l. zl. destruct (run p pos (x :: l)) as [r|]; [injection E as <- _; lia|].
            destruct l as [|y l']; [destruct (final p); [injection E as <- _; lia|discriminate]|]. apply IHl in E. lia. }
          replace (match p with [] => Some (match mp with Some q => Some (q, text' + zlen s' - q) | None => None end)
              | _ => match find (run p) (final p) text' s' with
                     | Some (e, cp) => Some (match mp with Some q => Some (q, e - q) | None => cp end) | None => None end end)
            with (match find (run p) (final p) text' s' with
                     | Some (e, cp) => Some (match mp with Some q => Some (q, e - q) | None => cp end) | None => None end) by (rewrite Ep; reflexivity).
          destruct (find (run p) (final p) text' s') as [[e cp]|] eqn:EF; rewrite bind_Ok; cbn [out].
          * apply Hfe in EF. change (verdict false 1) with 1. destruct mp as [q|]; [|reflexivity]. destruct st as [[sp sl]|]; [|reflexivity]. cbn [capture put_cap].
            specialize (Hq q eq_refl). rewrite s32_small; [reflexivity|]. unfold INT_MIN. lia.
          * change (verdict false 0) with 0. now rewrite Hst.
        + intros t r Hr1 Hr2 Hr3. rewrite Hst. apply IH; auto; [unfold zlen in *; lia|]. lia.
        + lia. }
    cbn [m_loop]. rewrite (load_some _ _ _ H1), bind_Ok. assert (c =? 0 = false) as -> by lia.
    destruct i; try discriminate; cbn [hdb write hd] in HL; rewrite (load_some _ _ _ HL), bind_Ok; closed_eqb; change (if false then re + 1 else re) with re; rewrite (load_some _ _ _ HL), bind_Ok; closed_eqb.
    + etransitivity; [apply (ST (c :: s) text None); [discriminate|now split|rewrite zlen_cons; lia|cbn [length]; lia|discriminate]|]. cbn [run]. destruct p as [|j p']; [reflexivity|].
      destruct (find (run (j :: p')) (final (j :: p')) text (c :: s)) as [[e cp]|]; reflexivity.
    + destruct s as [|x s'].
      * cbn [str_at] in H3. rewrite (load_some _ _ _ H3), bind_Ok. cbn [run out]. change (verdict false 0) with 0. now rewrite Hst.
      * assert (Hx : m (text + 1) = Some x /\ x <> 0) by (destruct H3 as (H3 & H4 & _); split; [exact H3|lia]). destruct Hx as [Hx Hx0].
        rewrite (load_some _ _ _ Hx), bind_Ok. assert (x =? 0 = false) as -> by lia.
        etransitivity; [apply (ST (x :: s') (text + 1) None); [discriminate|exact H3|lia|lia|discriminate]|]. cbn [run]. destruct p as [|j p']; [reflexivity|].
        destruct (find (run (j :: p')) (final (j :: p')) (text + 1) (x :: s')) as [[e cp]|]; reflexivity.
    + destruct s as [|x s'].
      * cbn [str_at] in H3. rewrite (load_some _ _ _ H3), bind_Ok. cbn [run out]. change (verdict false 0) with 0. now rewrite Hst.
      * assert (Hx : m (text + 1) = Some x /\ x <> 0) by (destruct H3 as (H3 & H4 & _); split; [exact H3|lia]). destruct Hx as [Hx Hx0].
        rewrite (load_some _ _ _ Hx), bind_Ok. assert (x =? 0 = false) as -> by lia.
        etransitivity; [apply (ST (x :: s') (text + 1) (Some text)); [discriminate|exact H3|lia|lia|intros q [= <-]; lia]|]. cbn [run]. destruct p as [|j p'].
        -- do 4 f_equal. rewrite (zlen_cons c). lia.
        -- destruct (find (run (j :: p')) (final (j :: p')) (text + 1) (x :: s')) as [[e cp]|]; reflexivity.
Qed.
