From Coq Require Import ZifyBool.
From Verif Require Import Base BaseLemmas SysModel MatchModel MatchSpec MatchProofs5 MextModel MextSpec.

(* ---- patterns without '{': all accesses are inside the two strings ---- *)
Section Safe.
Variables (m : mem) (text0 : Z) (s0 : list Z) (f0 : option (Z -> Z -> Z)).
Hypothesis T0 : str_at m text0 s0.
(* what the callback may return *)
Hypothesis CB : forall f n a b, f0 = Some f -> s0 = a ++ b -> b <> [] -> f n (text0 + zlen a) = 0 \/ f n (text0 + zlen a) = -1 \/ 1 <= f n (text0 + zlen a) < zlen b.
Definition sub (t : Z) (s : list Z) : Prop := exists a, s0 = a ++ s /\ t = text0 + zlen a.
Lemma sub_at t s : sub t s -> str_at m t s.
Proof.
  intros (a & E & ->). rewrite E in T0. pose proof (str_at_range _ _ _ T0) as R. apply str_at_app in T0; [apply T0|]. apply Forall_app in R. apply R.
Qed.
Lemma sub_drop t a b : sub t (a ++ b) -> sub (t + zlen a) b.
Proof. intros (x & E & ->). exists (x ++ a). rewrite <- app_assoc. split; [exact E|]. rewrite zlen_app. lia. Qed.
Lemma sub_tl t c s : sub t (c :: s) -> sub (t + 1) s.
Proof. intros H. apply (sub_drop t [c] s H). Qed.
Definition vx (r : res (Z * ext)) : Prop := exists v e, r = Ok (v, e) /\ (v = 0 \/ v = 1) /\ pmc e = f0.
Lemma xstar_safe rec re p : str_at m re p -> hd 0 p <> 0 -> forall s text fuel e, s <> [] -> sub text s -> (length s <= fuel)%nat -> pmc e = f0 ->
  (forall t r e, sub t r -> (length r <= length s)%nat -> pmc e = f0 -> vx (rec t e)) -> exists b z e', xstar_loop rec fuel m text re e = Ok (b, z, e') /\ pmc e' = f0.
Proof.
  intros Hre Hh. induction s as [|c s IH]; intros text fuel e Hne Hs Hf Hp Hrec; [congruence|]. cbn [length] in *. destruct fuel as [|k]; [lia|]. cbn [xstar_loop].
  destruct (Hrec text (c :: s) e Hs ltac:(cbn [length]; lia) Hp) as (v & e1 & E & Hv & Hp1). rewrite E, bind_Ok. destruct (v =? 0); [|eauto 6]. apply sub_tl in Hs. pose proof (sub_at _ _ Hs) as Hs1.
  rewrite (load_some _ _ _ (hd_at _ _ _ Hs1)), bind_Ok. destruct (hd 0 s =? 0) eqn:E0.
  - rewrite (load_some _ _ _ (hd_at _ _ _ Hre)), bind_Ok. destruct (tl_at _ _ _ Hre Hh) as (x & t & -> & Ht). destruct ((hd 0 (x :: t) =? 35) || (hd 0 (x :: t) =? 36)); [|eauto 6].
    rewrite (load_some _ _ _ (hd_at _ _ _ Ht)), bind_Ok. eauto 6.
  - apply IH; [intros ->; discriminate|exact Hs|lia|exact Hp1|]. intros t r e2 H1 H2 H3. apply (Hrec t r e2 H1); [lia|exact H3].
Qed.
Lemma skip c0 re q : str_at m re q -> c0 <> 0 -> ~ In 123 q ->
  exists re' q', (if hd 0 q =? c0 then re + 1 else re) = re' /\ str_at m re' q' /\ (length q' <= length q)%nat /\ ~ In 123 q'.
Proof.
  intros H Hc N. destruct (hd 0 q =? c0) eqn:E; [|eauto 7]. destruct (tl_at _ _ _ H) as (c & r & -> & Hr); [lia|]. exists (re + 1), r. cbn [length In] in *. split; [reflexivity|]. split; [exact Hr|]. split; [lia|tauto].
Qed.
Lemma x_safe : forall fuel text re nm e s p, sub text s -> str_at m re p -> ~ In 123 p -> pmc e = f0 -> (3 * (length s + length p) + 3 <= fuel)%nat -> vx (x_loop fuel m Outer text re nm e).
Proof.
  induction fuel as [fuel IH] using lt_wf_ind. intros text re nm e s p Hs Hp N Hpc Hf.
  assert (V0 : vx (Ok (0, e))) by (exists 0, e; auto). assert (V1 : vx (Ok (1, e))) by (exists 1, e; auto).
  assert (VV : forall n r e, r = 0 \/ r = 1 -> pmc e = f0 -> vx (Ok (verdict n r, e))) by (intros n r e1 Hr He; exists (verdict n r), e1; split; [reflexivity|]; split; [now apply verdict_bit|exact He]).
  destruct fuel as [|fuel]; [lia|]. cbn [x_loop]. pose proof (sub_at _ _ Hs) as Hs1.
  rewrite (load_some _ _ _ (hd_at _ _ _ Hs1)), bind_Ok. destruct (hd 0 s =? 0) eqn:E0.
  - rewrite (load_some _ _ _ (hd_at _ _ _ Hp)), bind_Ok. cbv zeta.
    assert (Q : exists re' q, (if (hd 0 p =? 35) || (hd 0 p =? 36) then re + 1 else re) = re' /\ str_at m re' q).
    { destruct ((hd 0 p =? 35) || (hd 0 p =? 36)) eqn:E; [|eauto]. destruct (tl_at _ _ _ Hp) as (c & t & _ & H); [lia|eauto]. }
    destruct Q as (re' & q & -> & Hq). rewrite (load_some _ _ _ (hd_at _ _ _ Hq)), bind_Ok. destruct (hd 0 q =? 0) eqn:Eq; [apply V1|]. destruct (hd 0 q =? 42) eqn:E42; [|apply V0].
    destruct (tl_at _ _ _ Hq) as (c & t & _ & H); [lia|]. rewrite (load_some _ _ _ (hd_at _ _ _ H)), bind_Ok. destruct (hd 0 t =? 0); [apply V1|apply V0].
  - destruct (tl_at _ _ _ Hs1) as (t & s' & -> & Hs'); [lia|]. cbn [hd] in *. cbn [length] in Hf.
    rewrite (load_some _ _ _ (hd_at _ _ _ Hp)), bind_Ok. cbv zeta. set (neg := hd 0 p =? 33).
    destruct (skip 33 re p Hp ltac:(lia) N) as (re1 & q1 & E1 & P1 & L1 & N1). fold neg in E1. rewrite E1. rewrite (load_some _ _ _ (hd_at _ _ _ P1)), bind_Ok.
    destruct (skip 125 re1 q1 P1 ltac:(lia) N1) as (re2 & q2 & E2 & P2 & L2 & N2). rewrite E2. rewrite (load_some _ _ _ (hd_at _ _ _ P2)), bind_Ok.
    assert (hd 0 q2 =? 123 = false) as -> by (destruct q2 as [|z q2']; [reflexivity|]; cbn [hd In] in *; lia). rewrite bind_Ok. cbv iota.
    rewrite (load_some _ _ _ (hd_at _ _ _ P2)), bind_Ok. destruct (skip 44 re2 q2 P2 ltac:(lia) N2) as (re' & q & E3 & Hq & L3 & Nq). rewrite E3.
    assert (Hql : (length q <= length p)%nat) by lia. clear E1 E2 E3 P1 P2 N1 N2 L1 L2 L3 re1 q1 re2 q2.
    destruct fuel as [|k]; [lia|]. cbn [x_loop]. change (0 <? 1) with true. cbv iota.
    rewrite (load_some _ _ _ (hd_at _ _ _ Hs1)), bind_Ok. cbn [hd]. rewrite (load_some _ _ _ (hd_at _ _ _ Hq)), bind_Ok. cbv zeta. change (1 - 1) with 0.
    assert (NEXT : forall re1 q1 nm text1 s1, sub text1 s1 -> (length s1 <= length s')%nat -> str_at m re1 q1 -> (length q1 <= length q)%nat -> ~ In 123 q1 -> hd 0 q1 <> 0 -> vx (x_loop k m (Inner 0 neg re') text1 re1 nm e)).
    { intros re1 q1 nm1 text1 s1 H5 H6 H1 H2 H4 H3. destruct (tl_at _ _ _ H1 H3) as (c & r & -> & H). cbn [length In] in *. assert (Nr : ~ In 123 r) by tauto. destruct k as [|k]; [lia|]. cbn [x_loop]. change (0 <? 0) with false. cbv iota.
      apply (IH k ltac:(lia) text1 (re1 + 1) nm1 e s1 r); auto. lia. }
    pose proof (sub_tl _ _ _ Hs) as Hst.
    assert (NX : forall re1 q1 nm, str_at m re1 q1 -> (length q1 <= length q)%nat -> ~ In 123 q1 -> hd 0 q1 <> 0 -> vx (x_loop k m (Inner 0 neg re') (text + 1) re1 nm e)) by (intros; eapply NEXT; eauto).
    assert (LIT : forall re1 q1, str_at m re1 q1 -> (length q1 <= length q)%nat -> ~ In 123 q1 ->
      vx (if hd 0 q1 =? 0 then Ok (0, e) else if xorb neg (negb (hd 0 q1 =? t)) then Ok (0, e) else x_loop k m (Inner 0 neg re') (text + 1) re1 nm e)).
    { intros re1 q1 H1 H2 H3. destruct (hd 0 q1 =? 0) eqn:E; [apply V0|]. destruct (xorb _ _); [apply V0|]. apply (NX re1 q1); auto. lia. }
    assert (STAR : forall text1 s1 num mp rr qq, sub text1 s1 -> s1 <> [] -> (length s1 <= S (length s'))%nat -> str_at m rr qq -> (length qq <= length q)%nat -> ~ In 123 qq -> hd 0 qq <> 0 ->
      vx (let* c := load m (rr + 1) in
              if c =? 0 then
                match mp with
                | Some p =>
                    if pm e || match stm e with Some _ => true | None => false end
                    then let* z := text_end k m text1 in Ok (verdict neg 1, report e num p z)
                    else Ok (verdict neg 1, e)
                | None => Ok (verdict neg 1, e)
                end
              else
                let* r := xstar_loop (fun text e => x_loop k m Outer text (rr + 1) 0 (xreset e)) k m text1 (rr + 1) e in
                let '(hit, text, e) := r in
                if hit then Ok (verdict neg 1, match mp with Some p => report e num p text | None => e end)
                else Ok (verdict neg 0, e))).
    { intros text1 s1 num mp rr qq H1 H2 H3 Hqq Hql2 Nqq H4. destruct (tl_at _ _ _ Hqq H4) as (c & r & -> & Hr). cbn [length In] in *. assert (Nr : ~ In 123 r) by tauto. rewrite (load_some _ _ _ (hd_at _ _ _ Hr)), bind_Ok.
      destruct (hd 0 r =? 0) eqn:Er.
      - destruct mp as [pos|]; [|now apply VV; auto]. destruct (pm e || _); [|now apply VV; auto]. destruct (text_end_safe m s1 text1 k (sub_at _ _ H1) ltac:(lia)) as [z He]. rewrite He, bind_Ok. apply VV; auto.
      - destruct (xstar_safe (fun text e => x_loop k m Outer text (rr + 1) 0 (xreset e)) (rr + 1) r Hr ltac:(lia) s1 text1 k e H2 H1 ltac:(lia) Hpc) as (b & z & e1 & E & Hp1).
        + intros tt r1 e2 Ht1 Ht2 Ht3. apply (IH k ltac:(lia) tt (rr + 1) 0 (xreset e2) r1 r); auto. lia.
        + rewrite E, bind_Ok. destruct b; [|apply VV; auto]. apply VV; auto. destruct mp; auto. }
    assert (PLUS : forall num mp rr qq, str_at m rr qq -> (length qq <= length q)%nat -> ~ In 123 qq -> hd 0 qq <> 0 -> vx (let* c := load m (text + 1) in if c =? 0 then Ok (verdict neg 0, e) else
          (let* c := load m (rr + 1) in
              if c =? 0 then
                match mp with
                | Some p =>
                    if pm e || match stm e with Some _ => true | None => false end
                    then let* z := text_end k m (text + 1) in Ok (verdict neg 1, report e num p z)
                    else Ok (verdict neg 1, e)
                | None => Ok (verdict neg 1, e)
                end
              else
                let* r := xstar_loop (fun text e => x_loop k m Outer text (rr + 1) 0 (xreset e)) k m (text + 1) (rr + 1) e in
                let '(hit, text, e) := r in
                if hit then Ok (verdict neg 1, match mp with Some p => report e num p text | None => e end)
                else Ok (verdict neg 0, e)))).
    { intros num mp rr qq A1 A2 A3 A4. rewrite (load_some _ _ _ (hd_at _ _ _ Hs')), bind_Ok. destruct (hd 0 s' =? 0) eqn:E; [apply VV; auto|]. apply (STAR (text + 1) s' num mp rr qq); auto. intros ->. discriminate. }
    destruct (hd 0 q =? 63) eqn:C1; [destruct neg; [apply V0|apply (NX re' q); auto; lia]|].
    destruct (hd 0 q =? 91) eqn:C2.
    { destruct (tl_at _ _ _ Hq ltac:(lia)) as (c & r & -> & Hr). cbn [length In] in *.
      assert (SUF : forall a rr, r = a ++ rr -> ~ In 123 rr) by (intros a rr -> HH; apply Nq; right; apply in_app_iff; auto).
      assert (CF : class_for k m (re' + 1) t = Ok None \/ exists re2 q2, class_for k m (re' + 1) t = Ok (Some re2) /\ str_at m re2 q2 /\ (length q2 <= length r)%nat /\ exists a, r = a ++ q2).
      { clear -Hr Hf Hql. assert (L : (length r < k)%nat) by lia. clear Hf Hql. revert k re' Hr L. induction r as [|x r IHr]; intros k re' Hr L; (destruct k as [|k]; [cbn [length] in L; lia|]); cbn [class_for]; rewrite (load_some _ _ _ (hd_at _ _ _ Hr)), bind_Ok; cbn [hd].
        - right. exists (re' + 1), []. repeat split; auto. exists []. reflexivity.
        - destruct ((x =? 0) || (x =? t)); [right; exists (re' + 1), (x :: r); repeat split; auto; [apply Hr|apply Hr|apply Hr|apply Hr|]; exists []; reflexivity|]. destruct (x =? 93); [auto|]. destruct Hr as (_ & _ & Hr). cbn [length] in *.
          destruct (IHr k (re' + 1) Hr ltac:(lia)) as [R|(re2 & q2 & R & R1 & R2 & a & R3)]; [auto|]. right. exists re2, q2. repeat split; auto. exists (x :: a). cbn [app]. now rewrite R3. }
      destruct CF as [E|(re2 & q2 & E & H1 & H2 & a & H2a)]; rewrite E, bind_Ok; [apply VV; auto|].
      assert (CE : exists re3 q3, class_end k m re2 = Ok re3 /\ str_at m re3 q3 /\ (length q3 <= length q2)%nat /\ exists a, q2 = a ++ q3).
      { clear -H1 H2 Hf Hql. assert (L : (length q2 < k)%nat) by lia. clear H2 Hf Hql. revert k re2 H1 L. induction q2 as [|x r2 IHr]; intros k re2 Hr L; (destruct k as [|k]; [cbn [length] in L; lia|]); cbn [class_end]; rewrite (load_some _ _ _ (hd_at _ _ _ Hr)), bind_Ok; cbn [hd].
        - exists re2, []. repeat split; auto. exists []. reflexivity.
        - destruct ((x =? 0) || (x =? 93)); [exists re2, (x :: r2); repeat split; auto; [apply Hr|apply Hr|apply Hr|apply Hr|]; exists []; reflexivity|]. destruct Hr as (_ & _ & Hr). cbn [length] in *.
          destruct (IHr k (re2 + 1) Hr ltac:(lia)) as (re3 & q3 & R & R1 & R2 & a & R3). exists re3, q3. repeat split; auto. exists (x :: a). cbn [app]. now rewrite R3. }
      destruct CE as (re3 & q3 & E3 & H3 & H4 & a2 & H4a). rewrite E3, bind_Ok. rewrite (load_some _ _ _ (hd_at _ _ _ H3)), bind_Ok.
      destruct (hd 0 q3 =? 0) eqn:E4; [apply V0|]. destruct neg; [apply V0|]. apply (NX re3 q3); auto; try lia. apply (SUF (a ++ a2)). rewrite <- app_assoc, <- H4a. exact H2a. }
    destruct (hd 0 q =? 35) eqn:C3; [destruct (xorb _ _); [apply (NX re' q); auto; lia|apply V0]|].
    destruct ((hd 0 q =? 38) || (hd 0 q =? 37)) eqn:C4.
    { destruct (tl_at _ _ _ Hq ltac:(lia)) as (c & r & -> & Hr). cbn [hd length In] in *. assert (Nr : ~ In 123 r) by tauto. rewrite (load_some _ _ _ (hd_at _ _ _ Hr)), bind_Ok.
      assert (Q : exists rr qq, (if (48 <=? hd 0 r) && (hd 0 r <=? 57) then re' + 1 else re') = rr /\ str_at m rr qq /\ (length qq <= S (length r))%nat /\ ~ In 123 qq /\ hd 0 qq <> 0).
      { destruct ((48 <=? hd 0 r) && (hd 0 r <=? 57)) eqn:E.
        - exists (re' + 1), r. repeat split; auto. lia.
        - exists re', (c :: r). split; [reflexivity|]. split; [exact Hq|]. cbn [length In hd]. split; [lia|]. split; [exact Nq|]. lia. }
      destruct Q as (rr & qq & -> & Q1 & Q2 & Q3 & Q4). set (nm' := if (48 <=? hd 0 r) && (hd 0 r <=? 57) then hd 0 r - 48 else nm). destruct (c =? 38) eqn:C5.
      - destruct (pmc e) as [f|] eqn:Ef0; [|destruct neg; [apply V0|apply (NX rr qq); auto]].
        destruct (f nm' text =? 0) eqn:R0; [destruct neg; [apply (NX rr qq); auto|apply V0]|]. destruct (f nm' text =? -1) eqn:R1; [apply VV; auto; congruence|]. destruct neg; [apply V0|].
        assert (B : 1 <= f nm' text < zlen (t :: s')).
        { destruct Hs as (a & Ea & ->). destruct (CB f nm' a (t :: s') (eq_sym Hpc) Ea ltac:(discriminate)) as [H|[H|H]]; lia. }
        set (d := f nm' text) in *. apply (NEXT rr qq nm' (text + d + 1) (skipn (Z.to_nat d) s')); auto; [|rewrite skipn_length; lia].
        rewrite zlen_cons in B. rewrite <- (firstn_skipn (Z.to_nat d) s') in Hst. apply sub_drop in Hst. replace (text + d + 1) with (text + 1 + zlen (firstn (Z.to_nat d) s')); [exact Hst|].
        unfold zlen in *. rewrite firstn_length. lia.
      - apply (PLUS nm' (Some text) rr qq); auto. }
    destruct (hd 0 q =? 43) eqn:C6; [apply (PLUS nm None re' q); auto; lia|].
    destruct (hd 0 q =? 42) eqn:C7; [apply (STAR text (t :: s') nm None re' q); auto; [discriminate|lia]|].
    destruct (hd 0 q =? 92) eqn:C8; [|apply LIT; auto].
    destruct (tl_at _ _ _ Hq ltac:(lia)) as (c & r & -> & Hr). cbn [length In] in *. assert (Nr : ~ In 123 r) by tauto. rewrite (load_some _ _ _ (hd_at _ _ _ Hr)), bind_Ok.
    destruct (xescape (hd 0 r) t neg) as [[]|] eqn:Ee; [|apply V0|apply LIT; auto].
    apply (NX (re' + 1) r); auto. intros H0. rewrite H0 in Ee. discriminate.
Qed.
End Safe.
