(* Exactly when the additions in free overflow: proofs for C67. *)
From Verif Require Import Base BaseLemmas AllocModel AllocSpec AllocProofs AllocProofs2.

Lemma rounded_bsz n : rounded n = 4 * bsize n.
Proof. unfold rounded, bsize. lia. Qed.

Lemma iadd_same a b v : iadd true a b = Ok v -> iadd false a b = Ok v.
Proof. unfold iadd, iop. destruct (int_ok _); [auto|discriminate]. Qed.
Lemma bind_inv {A B} (e : res A) (f : A -> res B) v : bind e f = Ok v -> exists a, e = Ok a /\ f a = Ok v.
Proof. destruct e; cbn [bind]; intro H; try discriminate. eauto. Qed.

Lemma merge_prev_same N w i r : merge_prev true N w i = Ok r -> merge_prev false N w i = Ok r.
Proof.
  unfold merge_prev. intro H. apply bind_inv in H as (v & -> & H). rewrite bind_Ok.
  destruct (_ =? 0); auto. apply bind_inv in H as (f & -> & H). rewrite bind_Ok.
  apply bind_inv in H as (pv & -> & H). rewrite bind_Ok.
  apply bind_inv in H as (sm & E & H). apply iadd_same in E. now rewrite E, bind_Ok.
Qed.
Lemma merge_next_same N w i r : merge_next true N w i = Ok r -> merge_next false N w i = Ok r.
Proof.
  unfold merge_next. intro H. apply bind_inv in H as (v & -> & H). rewrite bind_Ok.
  apply bind_inv in H as (nx & -> & H). rewrite bind_Ok.
  destruct (_ =? 0); auto. apply bind_inv in H as (sm & E & H). apply iadd_same in E. now rewrite E, bind_Ok.
Qed.
Lemma free_same N s p r : free true N s p = Ok r -> free false N s p = Ok r.
Proof.
  unfold free. destruct (p =? 0); auto. destruct (negb _); auto. destruct (_ =? _); auto.
  intro H. apply bind_inv in H as ((w1 & i1) & E & H). apply merge_prev_same in E. rewrite E, bind_Ok.
  apply bind_inv in H as (w2 & E2 & H). apply merge_next_same in E2. now rewrite E2, bind_Ok.
Qed.

Lemma nodup_fst {A B} (L : list (A * B)) p l l' : NoDup (map fst L) -> In (p, l) L -> In (p, l') L -> l' = l.
Proof.
  induction L as [|[q m] L IH]; cbn [map fst In]; intros H I J; [destruct I|]. inversion H as [|x xs Hx H']. subst.
  destruct I as [I|I], J as [J|J].
  - congruence.
  - inversion I. subst. exfalso. apply Hx. apply (in_map fst) in J. exact J.
  - inversion J. subst. exfalso. apply Hx. apply (in_map fst) in I. exact I.
  - auto.
Qed.
Lemma Forall2_in_l {A B} (R : A -> B -> Prop) l1 l2 x : Forall2 R l1 l2 -> In x l1 -> exists y, In y l2 /\ R x y.
Proof.
  induction 1 as [|a b l1 l2 H _ IH]; cbn [In]; intro I; [destruct I|].
  destruct I as [->|I]; [eauto|]. destruct (IH I) as (y & ? & ?). eauto.
Qed.

Section gap.
Variable N : Z.
Hypothesis HN : N mod 4 = 0.
Hypothesis HN2 : 4 <= N < 1073741824.

(* between two free blocks the second addition overflows *)
Lemma free_pinched s l1 z l2 :
  let b := msz s / 4 + tot l1 in
  ainv N s (l1 ++ (z, false) :: l2) -> both_free l1 l2 -> free true N s (4 * (b + 1)) = Fault.
Proof.
  intros b (I1 & I2 & I3 & I4 & I5) (Hq & z1 & l3 & ->). unfold free, S0 in *.
  rewrite tot_app in I3. cbn [tot] in I3.
  apply seg_app in I4 as [A B]. fold b in B.
  cbn [seg] in B. destruct B as (B1 & (p & B2 & B3) & _ & _ & (D1 & (p1 & D2 & D3) & _ & _ & D4)).
  pose proof (seg_tot0 _ _ _ _ A) as T1. pose proof (seg_tot0 _ _ _ _ D4) as T2.
  set (t := msz s / 4) in *.
  assert (Hb : b = t + tot l1) by reflexivity. clearbody b.
  specialize (B3 _ Hq). subst p.
  destruct (lastf_true_split N HN2 _ _ _ _ A Hq ltac:(discriminate)) as (l0 & zp & -> & Hq0).
  apply seg_app in A as [A0 A1]. rewrite Hq0 in A1. cbn [seg] in A1.
  destruct A1 as (A1 & (qq & A2 & A3) & _ & A5 & _). rewrite (A3 _ eq_refl) in A2. specialize (A5 eq_refl).
  pose proof (seg_tot0 _ _ _ _ A0) as T0. rewrite tot_app in I3, T1, Hb. cbn [tot] in I3, T1, Hb.
  destruct (Z.eqb_spec (4 * (b + 1)) 0); [lia|].
  destruct (Z.eqb_spec (4 * (b + 1) mod 4) 0); [|lia]. cbn [negb].
  destruct (Z.eqb_spec (msz s) (4 * (b + 1) - 4)); [lia|].
  replace ((4 * (b + 1) - 4) / 4) with b by lia.
  assert (Eb : t + tot l0 = b - zp) by lia. rewrite Eb in A2, A5.
  rewrite (merge_prev_do N true _ b z zp); try lia; auto.
  2:{ rewrite <- A5. f_equal. lia. }
  rewrite bind_Ok. cbn [fst snd]. unfold merge_next. rewrite geti_ok by lia. rewrite bind_Ok, setw_same, enc_size by lia.
  rewrite geti_ok by lia. rewrite bind_Ok, setw_other by lia. replace (b - zp + (zp + z)) with (b + z) by lia.
  rewrite D2, enc_free by lia. cbn [negb].
  assert (E : iadd true (enc true false (zp + z)) (enc true p1 z1) = Fault).
  { unfold iadd, iop. assert (H : s32 (enc true false (zp + z)) + s32 (enc true p1 z1) < INT_MIN).
    { unfold INT_MIN, enc, b2z, s32. destruct p1; lia. }
    unfold int_ok. destruct (Z.leb_spec INT_MIN (s32 (enc true false (zp + z)) + s32 (enc true p1 z1))); [lia|reflexivity]. }
  rewrite E. reflexivity.
Qed.

Lemma lives_head s bs : ainv N s bs -> bs <> [] -> exists z, In (msz s / 4, z) (lives (msz s / 4) bs).
Proof.
  intros HA Hne. destruct bs as [|[z f] bs]; [congruence|]. pose proof (ainv_head N _ _ _ _ HA) as ->.
  exists z. cbn [lives]. left; auto.
Qed.

(* the two free neighbours, seen from the program's list of live blocks *)
Lemma both_free_gaps s l1 z l2 L p l :
  vinv N s (l1 ++ (z, false) :: l2) L -> p = 4 * (msz s / 4 + tot l1 + 1) -> z = bsize (zlen l) ->
  (both_free l1 l2 <-> gap_before L p /\ gap_behind N L p l).
Proof.
  intros (HA & _ & HC) Hp Hz. pose proof HA as (I1 & I2 & I3 & I4 & I5). unfold S0 in *.
  set (t := msz s / 4) in *.
  assert (HL : forall q m, In (q, m) L -> exists b' z', In (b', z') (lives t (l1 ++ (z, false) :: l2)) /\
                 q = 4 * (b' + 1) /\ z' = bsize (zlen m)).
  { intros q m I. destruct (Forall2_in_r _ _ _ _ HC I) as ([b' z'] & J & (K1 & _ & K3 & _)). cbn [fst snd] in *. eauto. }
  assert (HR : forall b' z', In (b', z') (lives t (l1 ++ (z, false) :: l2)) -> exists m, In (4 * (b' + 1), m) L /\ z' = bsize (zlen m)).
  { intros b' z' I. destruct (Forall2_in_l _ _ _ _ HC I) as ([q m] & J & (K1 & _ & K3 & _)). cbn [fst snd] in *. subst q. eauto. }
  rewrite tot_app in I3. cbn [tot] in I3.
  apply seg_app in I4 as [A B]. cbn [seg] in B. destruct B as (B1 & _ & _ & _ & B6).
  pose proof (seg_tot0 _ _ _ _ A) as T1. pose proof (seg_tot0 _ _ _ _ B6) as T2.
  assert (HI : forall b' z', In (b', z') (lives t (l1 ++ (z, false) :: l2)) ->
     In (b', z') (lives t l1) \/ (b' = t + tot l1 /\ z' = z) \/ In (b', z') (lives (t + tot l1 + z) l2)).
  { intros b' z' I. rewrite lives_app in I. cbn [lives] in I. apply in_app_or in I as [I|[I|I]]; auto. inversion I. auto. }
  unfold both_free, gap_before, gap_behind. rewrite !rounded_bsz. rewrite <- Hz.
  assert (X1 : lastf None l1 = Some true <->
    (exists q m, In (q, m) L /\ q < p) /\ forall q m, In (q, m) L -> q + rounded (zlen m) <> p).
  { destruct l1 as [|[z0 f0] l0 _] using rev_ind.
    - cbn [app tot] in *. split; [discriminate|]. intros ((q & m & I & J) & _). exfalso.
      destruct (HL _ _ I) as (b' & z' & I' & -> & _). apply HI in I' as [I'|[(-> & _)|I']].
      + destruct I'.
      + lia.
      + pose proof (lives_range _ _ _ _ _ _ B6 I'). lia.
    - rewrite lastf_snoc. apply seg_app in A as [A1 A2]. cbn [seg] in A2. destruct A2 as (A2 & _).
      rewrite tot_app in *. cbn [tot] in *. pose proof (seg_tot0 _ _ _ _ A1) as T0. split.
      + intro E. inversion E. subst f0. split.
        * destruct (lives_head s _ HA) as (zh & Hh); [destruct l0; discriminate|]. fold t in Hh.
          destruct (HR _ _ Hh) as (m & Im & _). exists (4 * (t + 1)), m. split; auto. lia.
        * intros q m I. destruct (HL _ _ I) as (b' & z' & I' & -> & Ez). rewrite rounded_bsz, <- Ez.
          apply HI in I' as [I'|[(-> & ->)|I']].
          -- rewrite lives_app in I'. cbn [lives] in I'. rewrite app_nil_r in I'.
             pose proof (lives_range _ _ _ _ _ _ A1 I'). lia.
          -- lia.
          -- pose proof (lives_range _ _ _ _ _ _ B6 I'). lia.
      + intros (_ & G). destruct f0; auto. exfalso.
        destruct (HR (t + tot l0) z0) as (m & Im & Ez).
        { rewrite lives_app. apply in_or_app. left. rewrite lives_app. apply in_or_app. right. left. auto. }
        apply (G _ _ Im). rewrite rounded_bsz, <- Ez. lia. }
  assert (X2 : (exists z1 l3, l2 = (z1, true) :: l3) <->
    p + 4 * z <> N /\ forall q m, In (q, m) L -> q <> p + 4 * z).
  { split.
    - intros (z1 & l3 & ->). cbn [seg tot lives] in *. destruct B6 as (B7 & _ & _ & _ & B8).
      pose proof (seg_tot0 _ _ _ _ B8) as T3. split; [lia|]. intros q m I.
      destruct (HL _ _ I) as (b' & z' & I' & -> & Ez). apply HI in I' as [I'|[(-> & ->)|I']].
      + pose proof (lives_range _ _ _ _ _ _ A I'). lia.
      + lia.
      + pose proof (lives_range _ _ _ _ _ _ B8 I'). lia.
    - intros (G1 & G2). destruct l2 as [|[z1 f1] l3]; [cbn [tot] in *; exfalso; lia|].
      destruct f1; [eauto|]. exfalso. destruct (HR (t + tot l1 + z) z1) as (m & Im & _).
      { rewrite lives_app. apply in_or_app. right. right. left. auto. }
      apply (G2 _ _ Im). lia. }
  rewrite X1, X2. tauto.
Qed.

Lemma free_exact s bs L p l : vinv N s bs L -> In (p, l) L ->
  (gap_before L p /\ gap_behind N L p l -> free true N s p = Fault) /\
  (~ (gap_before L p /\ gap_behind N L p l) -> free true N s p = free false N s p /\ free true N s p <> Fault).
Proof.
  intros HV I.
  destruct (view_split N _ _ _ _ _ HV I) as (l1 & z & l2 & La & Lb & -> & EL & Ep & Ez & El & _ & _ & _ & _ & _).
  rewrite <- (both_free_gaps s l1 z l2 L p l HV Ep Ez). destruct HV as (HA & HB & HC). split.
  - intro H. rewrite Ep. apply free_pinched with (z := z) (l2 := l2); auto.
  - intro H. assert (E : exists r, free true N s p = Ok r).
    { destruct l1 as [|e1 l1'].
      - cbn [app tot] in *. replace (4 * (msz s / 4 + 0 + 1)) with (msz s + 4) in Ep by (destruct HA; lia).
        destruct (free_bottom N HN HN2 true s z l2 HA) as (ms' & H1 & _). rewrite Ep. eauto.
      - destruct (free_mid N HN HN2 true s (e1 :: l1') z l2 HA) as (w' & bs' & H1 & _); [discriminate| |rewrite Ep; eauto].
        intros z1 l3 ->. right. destruct (lastf None (e1 :: l1')) as [[]|] eqn:Ef; auto.
        + exfalso. apply H. split; eauto.
        + exfalso. destruct e1 as [ze fe]. rewrite lastf_cons in Ef.
          destruct l1' as [|[zz ff] lr _] using rev_ind; [discriminate|]. now rewrite lastf_snoc in Ef. }
    destruct E as (r & E). rewrite (free_same _ _ _ _ E). rewrite E. split; [auto|discriminate].
Qed.

(* a whole history *)
Definition pinched (st : res (ast * view)) (ops : list aop) : Prop :=
  exists pre p post s L l, ops = pre ++ OFree p :: post /\
    fold_left (astep false N) pre st = Ok (s, L) /\ In (p, l) L /\ gap_before L p /\ gap_behind N L p l.

Lemma fold_fault ops : fold_left (astep true N) ops Fault = Fault.
Proof. induction ops; cbn [fold_left]; auto. Qed.

Lemma gaps_dec L p l : {gap_before L p /\ gap_behind N L p l} + {~ (gap_before L p /\ gap_behind N L p l)}.
Proof.
  destruct (existsb (fun e => fst e <? p) L && forallb (fun e => negb (fst e + rounded (zlen (snd e)) =? p)) L &&
            negb (p + rounded (zlen l) =? N) && forallb (fun e => negb (fst e =? p + rounded (zlen l))) L) eqn:E;
    [left|right].
  - apply andb_prop in E as [E E4]. apply andb_prop in E as [E E3]. apply andb_prop in E as [E1 E2].
    apply existsb_exists in E1 as ([q m] & I & J). rewrite forallb_forall in E2, E4. cbn [fst snd] in *. repeat split.
    + exists q, m. split; auto. lia.
    + intros q' m' I'. specialize (E2 _ I'). cbn [fst snd] in E2. lia.
    + lia.
    + intros q' m' I'. specialize (E4 _ I'). cbn [fst snd] in E4. lia.
  - intros (((q & m & I & J) & G1) & G2 & G3). enough (true = false) by discriminate. rewrite <- E at 1. symmetry.
    rewrite !andb_true_iff. repeat split.
    + apply existsb_exists. exists (q, m). cbn [fst]. split; auto. lia.
    + apply forallb_forall. intros [q' m'] I'. cbn [fst snd]. specialize (G1 _ _ I'). lia.
    + lia.
    + apply forallb_forall. intros [q' m'] I'. cbn [fst snd]. specialize (G3 _ _ I'). lia.
Qed.

Lemma run_exact ops : forall s bs L, vinv N s bs L -> good_ops ops ->
  (pinched (Ok (s, L)) ops /\ fold_left (astep true N) ops (Ok (s, L)) = Fault) \/
  (~ pinched (Ok (s, L)) ops /\ exists s' bs' L', fold_left (astep true N) ops (Ok (s, L)) = Ok (s', L') /\
     fold_left (astep false N) ops (Ok (s, L)) = Ok (s', L') /\ vinv N s' bs' L').
Proof.
  induction ops as [|o ops IH]; intros s bs L HV Hg.
  - right. split; [|cbn [fold_left]; eauto 6]. intros (pre & p & post & _ & _ & _ & E & _). destruct pre; discriminate.
  - destruct (vinv_step N HN HN2 false s bs L o HV) as (s1 & bs1 & L1 & E & HV1).
    { intros n ->. apply Hg. left; auto. } { discriminate. }
    assert (Hc : (exists p l, o = OFree p /\ In (p, l) L /\ lookup p L = Some l /\ gap_before L p /\ gap_behind N L p l) \/
                 ((forall p l, o = OFree p -> In (p, l) L -> ~ (gap_before L p /\ gap_behind N L p l)) /\
                  astep true N (Ok (s, L)) o = astep false N (Ok (s, L)) o)).
    { destruct o as [n|p|p k v]; [right; split; [discriminate|reflexivity]| |right; split; [discriminate|reflexivity]].
      destruct (lookup p L) as [l|] eqn:El.
      - pose proof (lookup_in _ _ _ El) as I. destruct (gaps_dec L p l) as [G|G]; [left; exists p, l; tauto|right]. split.
        + intros p' l' Ep I'. inversion Ep. subst p'. pose proof (vinv_nodup N _ _ _ HV) as ND.
          assert (l' = l) as -> by (eapply nodup_fst; eauto). exact G.
        + unfold astep. rewrite !bind_Ok, El. destruct (free_exact s bs L p l HV I) as [_ F].
          destruct (F G) as [-> _]. reflexivity.
      - right. split.
        + intros p' l' Ep I'. inversion Ep. subst p'. exfalso. clear - El I'.
          induction L as [|[q m] L IH]; [destruct I'|]. cbn [lookup] in El. destruct (Z.eqb_spec q p); [discriminate|].
          destruct I' as [I'|I']; [inversion I'; congruence|auto].
        + unfold astep. rewrite !bind_Ok, El. reflexivity. }
    destruct Hc as [(p & l & -> & I & El & G)|(Hno & Es)].
    + left. split.
      * exists [], p, ops, s, L, l. cbn [app fold_left]. tauto.
      * cbn [fold_left]. replace (astep true N (Ok (s, L)) (OFree p)) with (@Fault (ast * view)); [apply fold_fault|].
        unfold astep. rewrite bind_Ok, El. destruct (free_exact s bs L p l HV I) as [F _]. now rewrite F.
    + assert (Hp : pinched (Ok (s, L)) (o :: ops) <-> pinched (Ok (s1, L1)) ops).
      { split.
        - intros (pre & p & post & s' & L' & l & E1 & E2 & I & G). destruct pre as [|o' pre].
          + cbn [app fold_left] in *. inversion E1. inversion E2. subst. exfalso. apply (Hno p l); auto.
          + cbn [app fold_left] in *. inversion E1. subst o' ops. rewrite E in E2. exists pre, p, post, s', L', l. tauto.
        - intros (pre & p & post & s' & L' & l & E1 & E2 & I & G). exists (o :: pre), p, post, s', L', l.
          cbn [app fold_left]. rewrite E, E1. tauto. }
      cbn [fold_left]. rewrite Es, E, Hp. apply (IH s1 bs1 L1); auto. intros n Hn. apply Hg. right; auto.
Qed.
End gap.
