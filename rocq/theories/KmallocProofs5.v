(* Every history of a program. *)
From Coq Require Import Permutation.
From Verif Require Import Base BaseLemmas SortModel SortSpec SortProofs MemModel MemSpec MemProofs ShrinkModel DirModel DirSpec
  DirProofs KmallocModel KmallocSpec KmallocProofs KmallocProofs2 KmallocProofs3 KmallocProofs4.

Section Run.
Variables (lo hi b0 : Z) (m0 : mem) (k0 : kst).
Notation good := (good lo hi b0 m0).

(* R bytes may still be taken from the system; k0: nothing was called yet *)
Definition state (R : Z) (c : prog) (st : list cells) : Prop :=
  exists k1 U F, kinit lo hi (pk c) = Ok (k1, true) /\ good (mkp k1 (ptrs c) (ever c)) U F st /\
    sbk (kseg k1) + R <= hi /\ (k1 = pk c \/ U = [] /\ ever c = [] /\ pk c = k0).

Lemma Forall2_len {A B} (R : A -> B -> Prop) l l' : Forall2 R l l' -> length l = length l'.
Proof. induction 1; cbn [length]; auto. Qed.

Lemma state_started R c st i d : state R c st -> nth_error st i = Some d ->
  exists U F a b, good c U F st /\ nth_error U i = Some (a, b) /\ nth_error (ptrs c) i = Some (a + 8) /\
    sbk (kseg (pk c)) + R <= hi.
Proof.
  intros (k1 & U & F & H1 & H2 & H3 & H4) Hi. destruct (Forall2_nth _ _ _ (g_st _ _ _ _ _ _ _ _ H2) i d Hi) as ((a & b) & U1 & _).
  destruct H4 as [->|(-> & _)]; [|destruct i; discriminate]. destruct c as [k ps es]. cbn [pk ptrs ever] in *.
  exists U, F, a, b. split; [auto|]. split; [auto|]. split; [|auto].
  pose proof (g_ptrs _ _ _ _ _ _ _ _ H2) as P. cbn [ptrs] in P. rewrite P.
  rewrite nth_error_map, U1. reflexivity.
Qed.
Lemma good_state R k ps es U F st : good (mkp k ps es) U F st -> sbk (kseg k) + R <= hi -> state R (mkp k ps es) st.
Proof.
  intros G HS. exists k, U, F. cbn [pk ptrs ever]. split; [|auto].
  eapply kinit_done. apply (g_inv _ _ _ _ _ _ _ _ G).
Qed.
Lemma state_weaken R R' c st : state R c st -> R' <= R -> state R' c st.
Proof. intros (k1 & U & F & H1 & H2 & H3 & H4) L. exists k1, U, F. split; [auto|]. split; [auto|]. split; [lia|auto]. Qed.

Lemma step_ok fuel srch R c st o st' : state (price o + R) c st -> 0 <= R -> astep st o = Some st' ->
  moves o < Z.of_nat fuel ->
  exists c', kstep fuel srch lo hi c (kop_of o) = Ok c' /\ state R c' st'.
Proof.
  intros ST HR HA HF. destruct c as [k ps es]. destruct o as [n|x y|i n|i|i off v]; cbn [kop_of kstep astep price moves] in *.
  - (* malloc *)
    destruct (Z.ltb_spec n INT_MIN), (Z.ltb_spec INT_MAX n); cbn [orb] in HA; try discriminate.
    destruct ST as (k1 & U & F & H1 & H2 & H3 & H4). cbn [pk ptrs ever] in *.
    rewrite (kmalloc_eq lo hi _ k k1 U F n H1 (g_inv _ _ _ _ _ _ _ _ H2)).
    destruct (Z.ltb_spec LARGEST n).
    + injection HA as <-.
      rewrite (kmalloc_go_big lo hi _ k1 U F n (g_inv _ _ _ _ _ _ _ _ H2)) by lia. rewrite bind_Ok.
      unfold keep. rewrite Z.eqb_refl. eexists. split; [reflexivity|].
      eapply good_state; [exact H2|]. lia.
    + injection HA as <-.
      destruct (good_new lo hi b0 m0 k1 ps es U F st n H2) as (k' & a & b & F' & M1 & _ & M3 & M4 & _ & _ & M7 & _); [lia|lia|].
      rewrite M1, bind_Ok. unfold keep. destruct (Z.eqb_spec (a + 8) 0); [lia|]. eexists. split; [reflexivity|].
      eapply good_state; [exact M4|]. lia.
  - (* calloc *)
    destruct (Z.leb_spec 0 x) as [X1|], (Z.leb_spec 0 y) as [X2|], (Z.leb_spec (x * y) LARGEST) as [X3|];
      cbn [andb] in HA; try discriminate. injection HA as <-.
    assert (X4 : 0 <= x * y) by (apply Z.mul_nonneg_nonneg; auto). set (t := x * y) in *.
    destruct ST as (k1 & U & F & H1 & H2 & H3 & H4). cbn [pk ptrs ever] in *.
    unfold kcalloc. fold t. unfold LARGEST in X3. rewrite lop_ok, bind_Ok by (unfold LONG_MIN, LONG_MAX; lia).
    rewrite s32_small by (unfold INT_MIN, INT_MAX; lia).
    rewrite (kmalloc_eq lo hi _ k k1 U F t H1 (g_inv _ _ _ _ _ _ _ _ H2)).
    destruct (good_new lo hi b0 m0 k1 ps es U F st t H2) as (k' & a & b & F' & M1 & M2 & M3 & M4 & _ & _ & M7 & _);
      [unfold LARGEST; lia|lia|].
    rewrite M1, bind_Ok.
    pose proof (g_st _ _ _ _ _ _ _ _ M4) as FS. inversion FS as [|u1 d1 l1 l1' FS1 FS2 E1 E2]; subst. clear FS FS2.
    destruct FS1 as (_ & (RM & _)). cbn [fst snd pk] in RM. rewrite zlen_fresh in RM.
    replace (Z.max 0 t) with t in * by lia.
    destruct (memset_ok fuel (sm (kseg k')) (a + 8) 0 t) as (m' & Y1 & Y2 & Y3); auto; [unfold INT_MAX; lia|lia|].
    rewrite Y1, !bind_Ok. unfold keep. destruct (Z.eqb_spec (a + 8) 0); [lia|]. eexists. split; [reflexivity|].
    apply (good_state _ (set_mem k' m') _ _ ((a, b) :: U) F'); [|cbn [set_mem kseg sbk]; lia].
    apply (good_put lo hi b0 m0 k' (a + 8 :: ps) (a + 8 :: es) _ F' (fresh t :: st) 0 a b (fresh t) (zeroed t) m'); auto.
    + unfold zeroed. rewrite zlen_repeat, zlen_fresh. lia.
    + rewrite zlen_fresh. replace (Z.max 0 t) with t by lia. exact Y3.
    + intros z Hz. destruct (Z_lt_dec z (a + 8)); [rewrite Y3 by lia; auto|].
      destruct (Z_lt_dec z (a + 8 + t)); [|rewrite Y3 by lia; auto].
      replace z with (a + 8 + (z - (a + 8))) by lia. rewrite Y2 by lia. discriminate.
    + intros j v Hj. apply nth_repeat_some in Hj. destruct Hj as (J1 & J2). injection J1 as ->.
      rewrite Y2 by lia. reflexivity.
  - (* realloc *)
    destruct (nth_error st i) as [d|] eqn:ED; [|discriminate].
    destruct (state_started _ _ _ _ _ ST ED) as (U & F & a & b & G & U1 & U2 & HS). cbn [ptrs pk] in *.
    rewrite U2. pose proof (i_in _ _ _ _ _ _ (g_inv _ _ _ _ _ _ _ _ G) a b (or_introl (nth_error_In _ _ U1))) as A.
    pose proof (i_lo _ _ _ _ _ _ (g_inv _ _ _ _ _ _ _ _ G)) as Q0.
    destruct (Z.eqb_spec n 0) as [->|N0].
    + injection HA as <-. destruct (good_free lo hi b0 m0 k ps es U F st i a b G U1) as (k' & K1 & K2 & _ & K4).
      unfold krealloc. destruct (Z.eqb_spec (a + 8) 0); [lia|]. rewrite Z.eqb_refl. rewrite K1, !bind_Ok.
      unfold keep. rewrite Z.eqb_refl. eexists. split; [reflexivity|]. eapply good_state; [exact K2|]. lia.
    + destruct (Z.ltb_spec 0 n), (Z.leb_spec n LARGEST); cbn [andb] in HA; try discriminate. injection HA as <-.
      destruct (good_realloc lo hi b0 m0 fuel srch k ps es U F st i a b d n G U1 ED) as (k' & a' & b' & F' & K1 & K2 & K3 & K4);
        try lia.
      rewrite K1, bind_Ok. unfold keep. destruct (Z.eqb_spec (a' + 8) 0); [lia|]. eexists. split; [reflexivity|].
      eapply good_state; [exact K3|]. lia.
  - (* free *)
    destruct (nth_error st i) as [d|] eqn:ED; [|discriminate]. injection HA as <-.
    destruct (state_started _ _ _ _ _ ST ED) as (U & F & a & b & G & U1 & U2 & HS). cbn [ptrs pk ever] in *.
    rewrite U2. destruct (good_free lo hi b0 m0 k ps es U F st i a b G U1) as (k' & K1 & K2 & _ & K4).
    rewrite K1, bind_Ok. eexists. split; [reflexivity|]. eapply good_state; [exact K2|]. lia.
  - (* write *)
    destruct (nth_error st i) as [d|] eqn:ED; [|discriminate].
    destruct (Z.leb_spec 0 off), (Z.ltb_spec off (zlen d)), (Z.leb_spec 0 v), (Z.leb_spec v 255); cbn [andb] in HA; try discriminate.
    injection HA as <-.
    destruct (state_started _ _ _ _ _ ST ED) as (U & F & a & b & G & U1 & U2 & HS). cbn [ptrs pk ever] in *.
    rewrite U2. destruct (Forall2_nth _ _ _ (g_st _ _ _ _ _ _ _ _ G) i d ED) as (u & V1 & V2).
    rewrite U1 in V1. injection V1 as <-. destruct V2 as (_ & RM & V). cbn [fst pk] in *.
    rewrite (store_room _ _ _ _ _ RM) by lia. rewrite bind_Ok. eexists. split; [reflexivity|].
    apply (good_state _ (set_mem k (upd (sm (kseg k)) (a + 8 + off) v)) _ _ U F); [|cbn [set_mem kseg sbk]; lia].
    apply (good_put lo hi b0 m0 k ps es U F st i a b d); auto.
    + apply zlen_set. lia.
    + apply same_outside_upd. lia.
    + intros z Hz. unfold upd. destruct (z =? a + 8 + off); [discriminate|auto].
    + intros j w Hj. apply nth_set in Hj; [|lia]. destruct Hj as [(J1 & ->)|(J1 & J2)].
      * rewrite J1, upd_same. reflexivity.
      * rewrite upd_other by lia. auto.
Qed.

Lemma price_nonneg st o st' : astep st o = Some st' -> 0 <= price o.
Proof.
  destruct o; cbn [astep price]; intros H; try lia.
  - destruct (Z.leb_spec 0 a), (Z.leb_spec 0 b); cbn [andb] in H; try discriminate.
    pose proof (Z.mul_nonneg_nonneg a b). lia.
  - destruct (nth_error st i); [|discriminate]. destruct (Z.eqb_spec n 0); [lia|].
    destruct (Z.ltb_spec 0 n); cbn [andb] in H; [lia|discriminate].
Qed.
Lemma bill_nonneg os : forall st st', arun st os = Some st' -> 0 <= bill os.
Proof.
  induction os as [|o os IH]; intros st st' H; cbn [arun bill] in *; [lia|].
  destruct (astep st o) as [s1|] eqn:E; [|discriminate]. apply price_nonneg in E. apply IH in H. lia.
Qed.

Lemma run_ok fuel srch os : forall R c st st', state (bill os + R) c st -> 0 <= R -> arun st os = Some st' ->
  Forall (fun o => moves o < Z.of_nat fuel) os ->
  exists c', krun fuel srch lo hi c (map kop_of os) = Ok c' /\ state R c' st'.
Proof.
  induction os as [|o os IH]; intros R c st st' ST HR HA HF; cbn [arun map krun bill] in *.
  - injection HA as <-. exists c. split; [reflexivity|]. exact ST.
  - destruct (astep st o) as [s1|] eqn:E; [|discriminate]. inversion HF as [|o' l HF1 HF2]; subst.
    pose proof (bill_nonneg _ _ _ HA) as HB.
    destruct (step_ok fuel srch (bill os + R) c st o s1) as (c1 & K1 & K2); auto; try lia.
    { eapply state_weaken; [exact ST|]. lia. }
    rewrite K1, bind_Ok. eapply IH; eauto.
Qed.
End Run.
