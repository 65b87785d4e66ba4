(* Every step of a program. *)
From Coq Require Import Permutation.
From Verif Require Import Base BaseLemmas SortModel SortSpec SortProofs MemModel MemSpec MemProofs ShrinkModel DirModel DirSpec
  DirProofs KmallocModel KmallocSpec KmallocProofs KmallocProofs2 KmallocProofs3.

Definition kop_of (o : aop) : kop :=
  match o with
  | AMalloc n => KMalloc n
  | ACalloc a b => KCalloc a b
  | ARealloc i n => KRealloc i n
  | AFree i => KFree i
  | AWrite i off v => KWrite i off v
  end.

(* ---- cells ---- *)
Lemma zlen_fresh n : zlen (fresh n) = Z.max 0 n.
Proof. unfold fresh. rewrite zlen_repeat. lia. Qed.
Lemma zlen_resize c n : 0 <= n -> zlen (resize c n) = n.
Proof. intros. unfold resize, zlen. rewrite app_length, firstn_length, repeat_length. lia. Qed.
Lemma nth_resize c n i v : nth_error (resize c n) i = Some (Some v) ->
  nth_error c i = Some (Some v) /\ (i < Z.to_nat n)%nat.
Proof.
  unfold resize. intros H. destruct (lt_dec i (length (firstn (Z.to_nat n) c))) as [L|L].
  - rewrite nth_error_app1 in H by auto. rewrite firstn_length in L. split; [|lia].
    rewrite <- H. symmetry. clear H. revert c i L. generalize (Z.to_nat n) as k. induction k as [|k IH]; intros c i L; [lia|].
    destruct c as [|x c]; [cbn in L; lia|]. destruct i; cbn [firstn nth_error]; auto. apply IH. cbn in L. lia.
  - rewrite nth_error_app2 in H by lia. apply nth_error_In, repeat_spec in H. discriminate.
Qed.
Lemma nth_repeat_some {A} (x y : A) n i : nth_error (repeat x n) i = Some y -> y = x /\ (i < n)%nat.
Proof.
  intros H. split; [eapply repeat_spec, nth_error_In, H|].
  rewrite <- (repeat_length x n). apply nth_error_Some. congruence.
Qed.
Lemma zlen_set c off v : 0 <= off < zlen c -> zlen (set_cell c off v) = zlen c.
Proof.
  intros. unfold set_cell, zlen in *. rewrite app_length, firstn_length. cbn [length]. rewrite skipn_length. lia.
Qed.
Lemma nth_set c off v i w : 0 <= off < zlen c -> nth_error (set_cell c off v) i = Some (Some w) ->
  (Z.of_nat i = off /\ w = v) \/ (Z.of_nat i <> off /\ nth_error c i = Some (Some w)).
Proof.
  intros Ho. unfold set_cell. assert (L : (Z.to_nat off < length c)%nat) by (unfold zlen in *; lia).
  replace off with (Z.of_nat (Z.to_nat off)) at 3 4 by lia. clear Ho. revert i L. generalize (Z.to_nat off) as k.
  clear off. intros k. revert c. induction k as [|k IH]; intros [|x c] i L H; cbn [length] in L; try lia.
  - cbn [firstn skipn app] in H. destruct i as [|i]; cbn [nth_error] in H.
    + left. split; [lia|congruence].
    + right. split; [lia|]. exact H.
  - cbn [firstn app] in H. change (skipn (S (S k)) (x :: c)) with (skipn (S k) c) in H.
    destruct i as [|i]; cbn [nth_error] in H.
    + right. split; [lia|]. exact H.
    + destruct (IH c i ltac:(lia) H) as [(A & B)|(A & B)]; [left|right]; split; auto; lia.
Qed.

(* ---- the parts of a step ---- *)
Section Steps.
Variables (lo hi b0 : Z) (m0 : mem).
Notation good := (good lo hi b0 m0).
Implicit Types (c : prog) (k : kst) (st : list cells).

Lemma b0_start : b0 <= start_of b0.
Proof. unfold start_of. pose proof (Z.mod_pos_bound (4088 - b0) 4096). lia. Qed.

Lemma good_new k ps es U F st n : good (mkp k ps es) U F st -> n <= LARGEST ->
  sbk (kseg k) + (2 * Z.max 0 n + 8192) <= hi ->
  exists k' a b F', kmalloc_go lo hi k n = Ok (k', a + 8) /\ cls (Z.max 0 n) b /\ 0 < a /\
    good (mkp k' (a + 8 :: ps) (a + 8 :: es)) ((a, b) :: U) F' (fresh n :: st) /\
    (forall x d, blk U F x d -> blk ((a, b) :: U) F' x d) /\
    (forall x, x < sbk (kseg k) -> ~ (a <= x < a + 8) -> sm (kseg k') x = sm (kseg k) x) /\
    sbk (kseg k) <= sbk (kseg k') <= sbk (kseg k) + (2 * Z.max 0 n + 8192) /\
    (forall x r, F b = x :: r -> a = x).
Proof.
  intros G Hn HS. destruct G as [I P S E L]. cbn [pk ptrs ever] in *.
  destruct (kmalloc_go_ok lo hi (start_of b0) k U F n I Hn HS) as (k' & a & b & F' & K1 & K2 & K3 & K4 & K5 & K6 & K7).
  assert (BA : blk ((a, b) :: U) F' a b) by (left; left; auto).
  pose proof (i_in _ _ _ _ _ _ K3 a b BA) as (A1 & A2 & A3). pose proof (i_lo _ _ _ _ _ _ I) as Q0.
  exists k', a, b, F'. split; [exact K1|]. split; [exact K2|]. split; [lia|].
  split; [|split; [exact K4|split; [exact K5|split; [exact K6|]]]].
  2: { intros x r Hx. eapply K7; eauto. }
  constructor; cbn [pk ptrs ever].
  - exact K3.
  - cbn [map fst]. rewrite P. reflexivity.
  - constructor.
    + split; cbn [fst snd]; [rewrite zlen_fresh; exact K2|]. split.
      * rewrite zlen_fresh. apply (room_sub _ _ _ _ _ (i_room _ _ _ _ _ _ K3)); [lia|].
        destruct K2 as (_ & K2 & _). unfold us in K2. lia.
      * intros i v H. apply nth_repeat_some in H. destruct H as (H & _). discriminate.
    + eapply Forall2_impl2; [exact S|]. intros (a' & b') d IN H. eapply isin_ext; [exact H|]. cbn [fst snd].
      intros x Hx. pose proof (i_in _ _ _ _ _ _ I a' b' (or_introl IN)) as (B1 & B2 & B3).
      apply K5; [lia|].
      destruct (i_apart _ _ _ _ _ _ K3 a' b' a b) as [(Y1 & Y2)|Y]; auto.
      * left. right. auto.
      * exfalso. subst. pose proof (i_ndu _ _ _ _ _ _ K3) as ND. apply NoDup_cons_iff in ND. tauto.
      * pose proof (Bs_pos b ltac:(lia)). unfold apart in Y. lia.
  - cbn [In]. intros p [<-|H].
    + exists b. replace (a + 8 - 8) with a by lia. auto.
    + destruct (E p H) as (d & D). eauto.
  - intros x Hx. pose proof b0_start. pose proof (i_brk _ _ _ _ _ _ I). rewrite K5 by lia. auto.
Qed.

Lemma good_free k ps es U F st i a b : good (mkp k ps es) U F st -> nth_error U i = Some (a, b) ->
  exists k', kfree k (a + 8) = Ok k' /\
    good (mkp k' (without i ps) es) (without i U) (updf F b (a :: F b)) (drop_nth i st) /\
    same_outside (sm (kseg k)) (sm (kseg k')) a 8 /\ sbk (kseg k') = sbk (kseg k).
Proof.
  intros G Hi. destruct G as [I P S E L]. cbn [pk ptrs ever] in *.
  destruct (free_ok lo hi (start_of b0) k U F i a b I Hi) as (k' & K1 & K2 & K3 & K4).
  assert (IN : In (a, b) U) by (eapply nth_error_In; eauto).
  pose proof (i_in _ _ _ _ _ _ I a b (or_introl IN)) as (A1 & A2 & A3).
  exists k'. split; [exact K1|]. split; [|auto]. constructor; cbn [pk ptrs ever].
  - exact K2.
  - rewrite P. apply without_map.
  - eapply Forall2_impl2; [apply Forall2_without; exact S|]. intros (a' & b') d IN' H.
    eapply isin_ext; [exact H|]. cbn [fst snd]. intros x Hx. apply K3.
    destruct (without_nodup U i (a, b) (i_ndu _ _ _ _ _ _ I) Hi) as (_ & NI).
    pose proof (without_in _ _ _ IN') as IN2.
    destruct (i_apart _ _ _ _ _ _ I a' b' a b (or_introl IN2) (or_introl IN)) as [(-> & ->)|Y]; [tauto|].
    pose proof (Bs_pos b ltac:(lia)). unfold apart in Y. lia.
  - intros p H. destruct (E p H) as (d & D). exists d. eapply blk_free; eauto.
  - intros x Hx. pose proof b0_start. rewrite K3 by lia. auto.
Qed.

Lemma Forall2_put {A B} (R S : A -> B -> Prop) l l' : Forall2 R l l' -> forall i x y,
  nth_error l i = Some x -> S x y -> (forall j x' y', j <> i -> nth_error l j = Some x' -> R x' y' -> S x' y') ->
  Forall2 S l (put_nth i y l').
Proof.
  induction 1 as [|u v l l' H1 H2 IH]; intros [|i] x y E HS K; cbn [nth_error put_nth] in *; try discriminate.
  - injection E as ->. constructor; [auto|]. clear IH.
    assert (Q : forall x' y', In x' l -> R x' y' -> S x' y').
    { intros x' y' IN. destruct (In_nth_error _ _ IN) as (j & J). apply (K (Datatypes.S j)); auto. }
    eapply Forall2_impl2; eauto.
  - constructor; [apply (K O); auto|]. apply (IH i x y); auto. intros j x' y' N J. apply (K (Datatypes.S j)); auto.
Qed.

Lemma good_put k ps es U F st i a b d d' m' : good (mkp k ps es) U F st ->
  nth_error U i = Some (a, b) -> nth_error st i = Some d -> zlen d' = zlen d ->
  same_outside (sm (kseg k)) m' (a + 8) (zlen d) -> (forall x, sm (kseg k) x <> None -> m' x <> None) ->
  (forall j v, nth_error d' j = Some (Some v) -> m' (a + 8 + Z.of_nat j) = Some v) ->
  good (mkp (set_mem k m') ps es) U F (put_nth i d' st).
Proof.
  intros G Hi Hs HL HO HR HV. pose proof G as GA. destruct G as [I P S E L]. cbn [pk ptrs ever] in *.
  destruct (Forall2_nth _ _ _ S i d Hs) as (u & U1 & U2). rewrite Hi in U1. injection U1 as <-.
  destruct U2 as (C & (R & _)). cbn [fst snd] in *. destruct C as (C1 & C2 & C3).
  assert (IN : In (a, b) U) by (eapply nth_error_In; eauto). nneg d.
  pose proof (i_in _ _ _ _ _ _ I a b (or_introl IN)) as (A1 & A2 & A3).
  constructor; cbn [pk ptrs ever].
  - eapply inv_write; [exact I|left; exact IN| |exact HO|exact HR]. lia.
  - exact P.
  - cbn [set_mem kseg sm]. apply (Forall2_put (isin (sm (kseg k))) _ U st S i (a, b)); auto.
    + split; cbn [fst snd]; [rewrite HL; split; auto|]. split; [|exact HV]. rewrite HL. intros x Hx. apply HR, R. auto.
    + intros j (a' & b') y N J H0. eapply isin_ext; [exact H0|]. cbn [fst snd]. intros x Hx. apply HO.
      pose proof (good_apart _ _ _ _ _ _ _ _ j i (a', b') (a, b) GA J Hi N) as X. cbn [fst snd] in X.
      unfold apart, us in *. lia.
  - exact E.
  - cbn [set_mem kseg sm]. intros x Hx. pose proof b0_start. rewrite HO by lia. auto.
Qed.

Lemma usable_ok k b : kpg k = 4096 -> 0 <= b <= 27 -> usable k b = Ok (us b).
Proof.
  intros PG Hb. unfold usable. rewrite shl1_ok, bind_Ok by lia. rewrite PG. unfold OVER, us, Bs.
  pose proof (pow_mono (b + 3) 30). pose proof (pow_mono 3 (b + 3)).
  change (2 ^ 30) with 1073741824 in *. change (2 ^ 3) with 8 in *.
  rewrite !u64_small by lia.
  destruct (Z.ltb_spec b 9).
  - pose proof (pow_mono (b + 3) 11). change (2 ^ 11) with 2048 in *.
    destruct (Z.ltb_spec (2 ^ (b + 3)) 4096); [reflexivity|lia].
  - pose proof (pow_mono 12 (b + 3)). change (2 ^ 12) with 4096 in *.
    destruct (Z.ltb_spec (2 ^ (b + 3)) 4096); [lia|reflexivity].
Qed.

Lemma memcpy_keep m d s n m' : room m d n -> copied m m' d s n -> 
  forall x, m x <> None -> room m s n -> m' x <> None.
Proof.
  intros Hd (C1 & C2) x Hx Hs. destruct (Z_lt_dec x d); [rewrite C2 by lia; auto|].
  destruct (Z_lt_dec x (d + n)).
  - replace x with (d + (x - d)) by lia. rewrite C1 by lia. apply Hs. lia.
  - rewrite C2 by lia. auto.
Qed.

(* the new block gets the bytes of the free block a, the first one of its list *)
Lemma good_move fuel k ps es U F st a b r d n : good (mkp k ps es) U F st -> F b = a :: r ->
  (forall j v, nth_error d j = Some (Some v) -> sm (kseg k) (a + 8 + Z.of_nat j) = Some v) ->
  zlen d <= us b -> 0 < n <= LARGEST -> n < Z.of_nat fuel -> sbk (kseg k) + (2 * n + 8192) <= hi ->
  exists k' a' b' F', krealloc_move fuel lo hi k (a + 8) n (us b) = Ok (k', a' + 8) /\ 0 < a' /\
    good (mkp k' (a' + 8 :: ps) (a' + 8 :: es)) ((a', b') :: U) F' (resize d n :: st) /\
    sbk (kseg k) <= sbk (kseg k') <= sbk (kseg k) + (2 * n + 8192).
Proof.
  intros K2 EF V HD Hn Hf HS. unfold LARGEST in Hn. nneg d.
  unfold krealloc_move.
  rewrite s32_small by (unfold INT_MIN, INT_MAX; lia).
  pose proof (g_inv _ _ _ _ _ _ _ _ K2) as I2. cbn [pk] in I2.
  assert (B0 : blk U F a b) by (right; rewrite EF; left; auto).
  pose proof (i_in _ _ _ _ _ _ I2 a b B0) as (A1 & A2 & A3). pose proof (i_lo _ _ _ _ _ _ I2) as Q0.
  pose proof (Bs_max b A1) as BM.
  rewrite (kmalloc_eq lo hi _ k k _ _ n (kinit_done _ _ _ _ _ _ I2) I2).
  destruct (good_new k ps es _ _ st n K2) as (k3 & a' & b' & F' & M1 & M2 & M3 & M4 & M5 & M6 & M7 & M8);
    [unfold LARGEST; lia|lia|].
  rewrite M1, bind_Ok. replace (Z.max 0 n) with n in * by lia.
  destruct (Z.eqb_spec (a' + 8) 0); [lia|].
  pose proof (g_inv _ _ _ _ _ _ _ _ M4) as I3. cbn [pk] in I3.
  assert (B1 : blk ((a', b') :: U) F' a b) by (apply M5; auto).
  assert (B2 : blk ((a', b') :: U) F' a' b') by (left; left; auto).
  pose proof (i_in _ _ _ _ _ _ I3 a' b' B2) as (A1' & A2' & A3').
  pose proof (i_in _ _ _ _ _ _ I3 a b B1) as (_ & _ & A3'').
  pose proof (Bs_pos b' ltac:(lia)) as BP'. pose proof (Bs_pos b ltac:(lia)) as BP2.
  destruct M2 as (N1 & N2 & N3).
  destruct (i_apart _ _ _ _ _ _ I3 _ _ _ _ B1 B2) as [(X1 & X2)|AP].
  { (* the same block *)
    subst a' b'. rewrite Z.eqb_refl. exists k3, a, b, F'. split; [reflexivity|]. split; [auto|]. split; [|lia].
    destruct k3 as [[m3 bk3] pg pb kn3].
    apply (good_put (mkk (mkseg m3 bk3) pg pb kn3) (a + 8 :: ps) (a + 8 :: es) _ F' (fresh n :: st) 0 a b (fresh n)
       (resize d n) m3); auto.
    - rewrite zlen_resize, zlen_fresh by lia. lia.
    - apply same_outside_refl.
    - intros j v Hj. apply nth_resize in Hj. destruct Hj as (J1 & J2). 
      assert (j < length d)%nat by (apply nth_error_Some; congruence).
      assert (Z.of_nat j < zlen d) by (unfold zlen; lia).
      cbn [kseg sm] in M6. rewrite M6 by (unfold us in *; lia). auto. }
  destruct (Z.eqb_spec (a + 8) (a' + 8)); [unfold apart in AP; lia|].
  rewrite u64_small by lia.
  set (w := if n <? us b then n else us b).
  assert (Hw : w = Z.min n (us b)) by (unfold w; destruct (Z.ltb_spec n (us b)); lia).
  assert (Hu : 0 <= us b) by (unfold us; lia).
  rewrite s32_small by (unfold INT_MIN, INT_MAX; lia).
  assert (RS : room (sm (kseg k3)) (a + 8) w).
  { apply (room_sub _ _ _ _ _ (i_room _ _ _ _ _ _ I3)); unfold us in *; lia. }
  assert (RD : room (sm (kseg k3)) (a' + 8) w).
  { apply (room_sub _ _ _ _ _ (i_room _ _ _ _ _ _ I3)); unfold us in *; lia. }
  assert (AW : apart (a' + 8) w (a + 8) w) by (unfold apart, us in *; lia).
  destruct (memcpy_ok fuel (sm (kseg k3)) (a' + 8) (a + 8) w) as (m' & Y1 & Y2); auto; try (unfold INT_MAX; lia).
  rewrite Y1, bind_Ok. exists (set_mem k3 m'), a', b', F'. split; [reflexivity|]. split; [lia|].
  split; [|cbn [set_mem kseg sbk]; lia].
  pose proof (memcpy_keep _ _ _ _ _ RD Y2) as KP. destruct Y2 as (Y2 & Y3).
  apply (good_put k3 (a' + 8 :: ps) (a' + 8 :: es) _ F' (fresh n :: st) 0 a' b' (fresh n)
     (resize d n) m'); auto.
  - rewrite zlen_resize, zlen_fresh by lia. lia.
  - rewrite zlen_fresh. eapply same_outside_weaken; [exact Y3|lia|lia].
  - intros j v Hj. apply nth_resize in Hj. destruct Hj as (J1 & J2).
    assert (j < length d)%nat by (apply nth_error_Some; congruence).
    assert (Z.of_nat j < zlen d) by (unfold zlen; lia).
    rewrite Y2 by lia.
    rewrite M6 by (unfold apart, us in *; lia). apply V. exact J1.
Qed.

Lemma good_realloc fuel srch k ps es U F st i a b d n : good (mkp k ps es) U F st ->
  nth_error U i = Some (a, b) -> nth_error st i = Some d -> 0 < n <= LARGEST -> n < Z.of_nat fuel ->
  sbk (kseg k) + (2 * n + 8192) <= hi ->
  exists k' a' b' F', krealloc fuel srch lo hi k (a + 8) n = Ok (k', a' + 8) /\ 0 < a' /\
    good (mkp k' (a' + 8 :: without i ps) (a' + 8 :: es)) ((a', b') :: without i U) F'
      (resize d n :: drop_nth i st) /\
    sbk (kseg k) <= sbk (kseg k') <= sbk (kseg k) + (2 * n + 8192).
Proof.
  intros G Hi Hs Hn Hf HS. pose proof G as GA. destruct G as [I P S E L]. cbn [pk ptrs ever] in *.
  destruct (Forall2_nth _ _ _ S i d Hs) as (u & U1 & U2). rewrite Hi in U1. injection U1 as <-.
  destruct U2 as (C & R & V). cbn [fst snd] in *. nneg d.
  assert (IN : In (a, b) U) by (eapply nth_error_In; eauto).
  pose proof (i_in _ _ _ _ _ _ I a b (or_introl IN)) as (A1 & A2 & A3).
  pose proof (i_lo _ _ _ _ _ _ I) as Q0. pose proof (Bs_pos b ltac:(lia)) as BP.
  pose proof (Bs_max b A1) as BM. pose proof (i_brk _ _ _ _ _ _ I) as Q1. pose proof (i_hi _ _ _ _ _ _ I) as Q2.
  destruct (i_hdr _ _ _ _ _ _ I a b IN) as (D1 & D2). pose proof (i_pg _ _ _ _ _ _ I) as PG.
  unfold krealloc, OVER. destruct (Z.eqb_spec (a + 8) 0); [lia|]. destruct (Z.eqb_spec n 0); [lia|].
  replace (a + 8 - 8) with a by lia. cbv zeta. rewrite (load_some _ _ _ D1), bind_Ok, Z.eqb_refl.
  rewrite (load_some _ _ _ D2), bind_Ok, usable_ok, bind_Ok by auto.
  unfold LARGEST in Hn. rewrite u64_small by lia.
  assert (EL : (if b =? 0 then Ok 0 else usable k (b - 1)) = Ok (if b =? 0 then 0 else us (b - 1))).
  { destruct (Z.eqb_spec b 0); [reflexivity|]. apply usable_ok; [auto|lia]. }
  rewrite EL, bind_Ok. clear EL. destruct C as (C1 & C2 & C3).
  assert (MV : exists k' a' b' F',
    (let* k := kfree k (a + 8) in krealloc_move fuel lo hi k (a + 8) n (us b)) = Ok (k', a' + 8) /\ 0 < a' /\
    good (mkp k' (a' + 8 :: without i ps) (a' + 8 :: es)) ((a', b') :: without i U) F'
      (resize d n :: drop_nth i st) /\
    sbk (kseg k) <= sbk (kseg k') <= sbk (kseg k) + (2 * n + 8192)).
  { destruct (good_free k ps es U F st i a b GA Hi) as (k2 & K1 & K2 & K3 & K4).
    rewrite K1, bind_Ok. rewrite <- K4 in *.
    eapply good_move; [exact K2|rewrite updf_same; reflexivity| |lia|unfold LARGEST; lia|lia|lia].
    intros j v Hj. assert (j < length d)%nat by (apply nth_error_Some; congruence).
    rewrite K3 by lia. apply V. exact Hj. }
  destruct (Z.leb_spec n (us b)) as [L1|L1]; [destruct (Z.ltb_spec (if b =? 0 then 0 else us (b - 1)) n) as [L2|L2]|];
    cbn [andb].
  - (* in place *)
    exists k, a, b, F. split; [reflexivity|]. split; [lia|]. split; [|lia].
    assert (b <> 0). { intros ->. unfold us in L1. change (Bs 0) with 8 in L1. lia. }
    destruct (Z.eqb_spec b 0); [contradiction|].
    constructor; cbn [pk ptrs ever].
    + eapply inv_perm; [exact I|]. now apply without_perm.
    + cbn [map fst]. rewrite P, without_map. reflexivity.
    + constructor; [|apply Forall2_without; exact S]. split; cbn [fst snd]; rewrite ?zlen_resize by lia.
      * split; [auto|]. split; [auto|]. right. auto.
      * split; rewrite ?zlen_resize by lia.
        -- apply (room_sub _ _ _ _ _ (i_room _ _ _ _ _ _ I)); unfold us in *; lia.
        -- intros j v Hj. apply nth_resize in Hj. apply V. tauto.
    + cbn [In]. intros p [<-|H2].
      * exists b. replace (a + 8 - 8) with a by lia. left. left. auto.
      * destruct (E p H2) as (e & De). exists e. destruct De as [De|De]; [|right; auto]. left.
        eapply Permutation_in; [apply without_perm; exact Hi|exact De].
    + exact L.
  - apply MV.
  - apply MV.
Qed.
End Steps.
