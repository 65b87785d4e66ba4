(* kmalloc, and a program that uses the allocator. *)
From Coq Require Import Permutation.
From Verif Require Import Base BaseLemmas SortModel SortSpec SortProofs MemModel MemSpec MemProofs ShrinkModel DirModel DirSpec
  DirProofs KmallocModel KmallocSpec KmallocProofs KmallocProofs2.

Lemma grow_price n b : cls n b -> grow b <= 2 * n + 8192 \/ b <= 9.
Proof.
  intros (H1 & H2 & H3). destruct (Z_le_dec b 9) as [L|L]; [auto|]. left. destruct H3 as [->|H3]; [lia|].
  unfold us, grow, Bs in *. destruct (Z.ltb_spec b 9); [lia|]. destruct (Z.ltb_spec (b - 1) 9); [lia|].
  replace (b + 3) with (b - 1 + 3 + 1) by lia. rewrite pow_step by lia. lia.
Qed.
Lemma grow_le n b : 0 <= n -> cls n b -> grow b <= 2 * n + 8192.
Proof.
  intros Hn H. destruct (grow_price n b H) as [X|X]; auto. unfold grow, Bs.
  destruct (Z.ltb_spec b 9); [lia|]. assert (b = 9) by lia. subst b. change (2 ^ (9 + 3)) with 4096. lia.
Qed.

Lemma inv_perm lo hi base k U U' F : inv lo hi base k U F -> Permutation U U' -> inv lo hi base k U' F.
Proof.
  intros I P. assert (B : forall a b, blk U' F a b -> blk U F a b).
  { intros a b [H|H]; [left|right; auto]. eapply Permutation_in; [apply Permutation_sym; exact P|exact H]. }
  assert (B' : forall u, In u U' -> In u U) by (intros u; apply Permutation_in; now apply Permutation_sym).
  destruct I. constructor; auto. eapply Permutation_NoDup; eauto.
Qed.
Lemma without_perm {A} (l : list A) : forall i u, nth_error l i = Some u -> Permutation l (u :: without i l).
Proof.
  induction l as [|a l IH]; intros [|i] u H; cbn [nth_error without] in *; try discriminate.
  - injection H as ->. apply Permutation_refl.
  - eapply perm_trans; [apply perm_skip, (IH i u H)|apply perm_swap].
Qed.
Lemma without_map {A B} (f : A -> B) (l : list A) : forall i, without i (map f l) = map f (without i l).
Proof. induction l as [|a l IH]; intros [|i]; cbn [without map]; try reflexivity; rewrite IH; reflexivity. Qed.
Lemma without_drop {A} (l : list A) : forall i, without i l = drop_nth i l.
Proof. induction l as [|a l IH]; intros [|i]; cbn [without drop_nth]; try reflexivity; rewrite IH; reflexivity. Qed.
Lemma Forall2_without {A B} (R : A -> B -> Prop) l l' : Forall2 R l l' -> forall i,
  Forall2 R (without i l) (drop_nth i l').
Proof. induction 1; intros [|i]; cbn [without drop_nth]; auto. Qed.
Lemma Forall2_nth {A B} (R : A -> B -> Prop) l l' : Forall2 R l l' -> forall i y, nth_error l' i = Some y ->
  exists x, nth_error l i = Some x /\ R x y.
Proof.
  induction 1; intros [|i] z E; cbn [nth_error] in *; try discriminate; eauto.
  injection E as <-. eauto.
Qed.
Lemma Forall2_impl2 {A B} (R S : A -> B -> Prop) l l' : Forall2 R l l' ->
  (forall x y, In x l -> R x y -> S x y) -> Forall2 S l l'.
Proof. induction 1; intros K; constructor; auto with datatypes. Qed.

(* ---- kmalloc ---- *)
Lemma kinit_done lo hi base k U F : inv lo hi base k U F -> kinit lo hi k = Ok (k, true).
Proof. intros I. unfold kinit. rewrite (i_pg _ _ _ _ _ _ I). reflexivity. Qed.

Definition kmalloc_go (lo hi : Z) (k : kst) (nbytes : Z) : res (kst * Z) :=
  let* c := pick nbytes in
  match c with
  | None => Ok (k, 0)
  | Some bucket =>
      let* op := nextf k bucket in
      if op =? 0 then
        let* k := morecore lo hi k bucket in
        let* op := nextf k bucket in
        if op =? 0 then Ok (k, 0) else take_block k bucket op
      else take_block k bucket op
  end.
Lemma kmalloc_eq lo hi base k k1 U F n : kinit lo hi k = Ok (k1, true) -> inv lo hi base k1 U F ->
  kmalloc lo hi k n = kmalloc_go lo hi k1 n.
Proof.
  intros E I. unfold kmalloc. rewrite E, bind_Ok. cbn [negb].
  rewrite (i_pg _ _ _ _ _ _ I), (i_pb _ _ _ _ _ _ I). reflexivity.
Qed.

Lemma kmalloc_go_ok lo hi base k U F n : inv lo hi base k U F -> n <= LARGEST ->
  sbk (kseg k) + (2 * Z.max 0 n + 8192) <= hi ->
  exists k' a b F', kmalloc_go lo hi k n = Ok (k', a + 8) /\ cls (Z.max 0 n) b /\
    inv lo hi base k' ((a, b) :: U) F' /\ (forall x c, blk U F x c -> blk ((a, b) :: U) F' x c) /\
    (forall x, x < sbk (kseg k) -> ~ (a <= x < a + 8) -> sm (kseg k') x = sm (kseg k) x) /\
    sbk (kseg k) <= sbk (kseg k') <= sbk (kseg k) + (2 * Z.max 0 n + 8192) /\
    (forall c r, F b = c :: r -> a = c /\ sbk (kseg k') = sbk (kseg k)).
Proof.
  intros I Hn HG. unfold kmalloc_go. destruct (pick_ok n Hn) as (b & E & C). rewrite E, bind_Ok.
  pose proof (grow_le (Z.max 0 n) b ltac:(lia) C) as GL. destruct C as (C1 & C2).
  rewrite nextf_ok, bind_Ok by lia. pose proof (i_chain _ _ _ _ _ _ I b ltac:(lia)) as CH.
  pose proof (i_lo _ _ _ _ _ _ I) as Q0. pose proof (i_brk _ _ _ _ _ _ I) as Q1.
  destruct (F b) as [|a r] eqn:EF.
  - cbn [chain] in CH. rewrite CH. rewrite Z.eqb_refl.
    destruct (morecore_ok lo hi base k U F b I C1 EF) as (k1 & r & M1 & M2 & M3 & M4); [lia|].
    rewrite M1, bind_Ok, nextf_ok, bind_Ok by lia. pose proof (i_chain _ _ _ _ _ _ M2 b ltac:(lia)) as CH1.
    rewrite updf_same in CH1. cbn [chain] in CH1. destruct CH1 as (CH1 & _). rewrite CH1.
    destruct (Z.eqb_spec (sbk (kseg k)) 0); [lia|].
    destruct (take_ok lo hi base k1 U _ b (sbk (kseg k)) r M2 ltac:(lia) (updf_same _ _ _)) as (k2 & T1 & T2 & T3 & T4).
    exists k2, (sbk (kseg k)), b, (updf (updf F b (sbk (kseg k) :: r)) b r). split; [exact T1|].
    split; [split; auto|]. split; [exact T2|]. split; [|split; [|split]].
    + intros x c H. eapply blk_take; [apply updf_same|]. destruct H as [H|H]; [left; auto|right].
      destruct (Z.eq_dec c b) as [->|N]; [rewrite EF in H; destruct H|]. rewrite updf_other by auto. auto.
    + intros x Hx Hn2. rewrite T3 by lia. apply M3. auto.
    + pose proof (grow_pos b ltac:(lia)). lia.
    + intros c r2 X; congruence.
  - cbn [chain] in CH. destruct CH as (CH1 & CH2). rewrite CH1.
    assert (BA : blk U F a b) by (right; rewrite EF; left; auto).
    pose proof (i_in _ _ _ _ _ _ I a b BA) as G. destruct (Z.eqb_spec a 0); [lia|].
    destruct (take_ok lo hi base k U F b a r I ltac:(lia) EF) as (k2 & T1 & T2 & T3 & T4).
    exists k2, a, b, (updf F b r). split; [exact T1|]. split; [split; auto|]. split; [exact T2|].
    split; [|split; [|split]].
    + intros x c H. eapply blk_take; eauto.
    + intros x Hx Hn2. apply T3. lia.
    + lia.
    + intros c r' X. rewrite EF in X. injection X as <- <-. auto.
Qed.
Lemma kmalloc_go_big lo hi base k U F n : inv lo hi base k U F -> LARGEST < n <= INT_MAX ->
  kmalloc_go lo hi k n = Ok (k, 0).
Proof.
  intros I Hn. unfold kmalloc_go. rewrite pick_big by auto. rewrite bind_Ok, nextf_ok, bind_Ok by lia.
  pose proof (i_chain _ _ _ _ _ _ I 28 ltac:(lia)) as CH.
  assert (E : F 28 = []).
  { destruct (F 28) as [|a r] eqn:X; auto. exfalso.
    destruct (i_in _ _ _ _ _ _ I a 28) as (Y & _); [right; rewrite X; left; auto|]. lia. }
  rewrite E in CH. cbn [chain] in CH. rewrite CH. rewrite Z.eqb_refl. unfold morecore.
  change (shl1 (28 + 3)) with (Ok (-2147483648)). rewrite bind_Ok. cbn [Z.leb Z.compare]. rewrite bind_Ok.
  rewrite nextf_ok, bind_Ok by lia. rewrite CH. reflexivity.
Qed.

(* ---- the first call ---- *)
Definition start_of (b : Z) : Z := b + (4088 - b) mod 4096.
Lemma kinit_first lo hi s f : 0 < sbk s -> lo <= sbk s -> start_of (sbk s) <= hi -> hi <= LONG_MAX ->
  (forall b, 0 <= b < 30 -> f b = 0) ->
  exists k, kinit lo hi (mkk s 0 0 f) = Ok (k, true) /\
    inv lo hi (start_of (sbk s)) k [] (fun _ => []) /\
    (forall x, x < sbk s -> sm (kseg k) x = sm s x) /\ sbk (kseg k) = start_of (sbk s).
Proof.
  intros H0 H1 H2 H3 H4. unfold start_of in *. set (d := (4088 - sbk s) mod 4096) in *.
  assert (Hd : 0 <= d < 4096) by (apply Z.mod_pos_bound; lia).
  unfold kinit. cbn [kpg kseg kpb kn]. change (0 =? 0) with true. cbv iota.
  destruct (sbrk_ok lo hi s 0) as (s1 & S1 & S2 & S3 & _); try lia. rewrite S1, bind_Ok.
  unfold PAGE, OVER. change (Z.land (sbk s) (4096 - 1)) with (Z.land (sbk s) (Z.ones 12)).
  rewrite Z.land_ones by lia. change (2 ^ 12) with 4096.
  rewrite s64_small by (pose proof (Z.mod_pos_bound (sbk s) 4096); unfold LONG_MIN, LONG_MAX; lia).
  assert (E : (if 4096 - 8 - sbk s mod 4096 <? 0 then 4096 - 8 - sbk s mod 4096 + 4096
               else 4096 - 8 - sbk s mod 4096) = d).
  { unfold d. destruct (Z.ltb_spec (4096 - 8 - sbk s mod 4096) 0); lia. }
  cbv zeta. rewrite E. clear E. rewrite Z.add_0_r in S2.
  assert (X : exists s2 r, (if d =? 0 then Ok (s1, 0) else sbrk lo hi s1 d) = Ok (s2, r) /\ r <> -1 /\
     sbk s2 = sbk s + d /\ (forall x, x < sbk s -> sm s2 x = sm s x)).
  { destruct (Z.eqb_spec d 0) as [D|D].
    - exists s1, 0. split; [auto|]. split; [lia|]. split; [lia|]. auto.
    - destruct (sbrk_ok lo hi s1 d) as (s2 & T1 & T2 & T3 & _); try lia. exists s2, (sbk s1).
      split; [auto|]. split; [lia|]. split; [lia|]. intros x Hx. rewrite T3 by lia. auto. }
  destruct X as (s2 & r & X1 & X2 & X3 & X4). rewrite X1, bind_Ok. destruct (Z.eqb_spec r (-1)); [lia|].
  change (page_bucket 40 4096 8 0) with (Ok 9). rewrite bind_Ok. eexists. split; [reflexivity|].
  cbn [kseg]. split; [|auto].
  constructor; cbn [kseg kpg kpb kn]; auto; try lia.
  - rewrite X3. intros x Hx. lia.
  - intros a b [[]|[]].
  - intros a b [[]|[]].
  - intros a b a' b' [[]|[]].
  - constructor.
  - constructor.
  - intros a b [].
Qed.

(* ---- writing into a block ---- *)
Lemma inv_write lo hi base k U F a b m' n : inv lo hi base k U F -> blk U F a b -> 0 <= n <= us b ->
  same_outside (sm (kseg k)) m' (a + 8) n -> (forall x, sm (kseg k) x <> None -> m' x <> None) ->
  inv lo hi base (set_mem k m') U F.
Proof.
  intros I B Hn S R. apply inv_mem; auto.
  - intros x Hx. apply R. apply (i_room _ _ _ _ _ _ I). auto.
  - intros a' b' x H Hx. apply S. destruct (i_apart _ _ _ _ _ _ I _ _ _ _ H B) as [(-> & ->)|X]; [lia|].
    destruct (i_in _ _ _ _ _ _ I a' b' H) as (X1 & _). pose proof (Bs_pos b' ltac:(lia)).
    unfold apart, us in *. lia.
Qed.

(* what is known about the blocks of the program *)
Definition isin (m : mem) (u : Z * Z) (c : cells) : Prop :=
  cls (zlen c) (snd u) /\ stored m (fst u + 8) c.
Lemma stored_ext m m' p c : stored m p c -> (forall x, p <= x < p + zlen c -> m' x = m x) -> stored m' p c.
Proof.
  intros (R & S) E. split.
  - intros x Hx. rewrite E by auto. auto.
  - intros i v H. rewrite E; auto. assert (i < length c)%nat by (apply nth_error_Some; congruence).
    unfold zlen. lia.
Qed.
Lemma isin_ext m m' u c : isin m u c -> (forall x, fst u + 8 <= x < fst u + Bs (snd u) -> m' x = m x) -> isin m' u c.
Proof.
  intros (H1 & H2) E. split; [auto|]. eapply stored_ext; eauto. intros x Hx. apply E.
  destruct H1 as (H1 & H3 & _). unfold us in *. lia.
Qed.

(* the state of program and abstract blocks *)
Record good (lo hi b0 : Z) (m0 : mem) (c : prog) (U : list (Z * Z)) (F : Z -> list Z) (st : list cells) : Prop := mkgood {
  g_inv : inv lo hi (start_of b0) (pk c) U F;
  g_ptrs : ptrs c = map (fun u => fst u + 8) U;
  g_st : Forall2 (isin (sm (kseg (pk c)))) U st;
  g_ever : forall p, In p (ever c) -> exists b, blk U F (p - 8) b;
  g_low : forall x, x < b0 -> sm (kseg (pk c)) x = m0 x }.

Lemma good_apart lo hi b0 m0 c U F st i j u v : good lo hi b0 m0 c U F st -> nth_error U i = Some u -> nth_error U j = Some v ->
  i <> j -> apart (fst u) (Bs (snd u)) (fst v) (Bs (snd v)).
Proof.
  intros G Hi Hj N. destruct u as (a & b), v as (a' & b'). cbn [fst snd].
  destruct (i_apart _ _ _ _ _ _ (g_inv _ _ _ _ _ _ _ _ G) a b a' b') as [(E1 & E2)|X]; auto.
  - left. eapply nth_error_In; eauto.
  - left. eapply nth_error_In; eauto.
  - exfalso. apply N. pose proof (i_ndu _ _ _ _ _ _ (g_inv _ _ _ _ _ _ _ _ G)) as ND.
    rewrite NoDup_nth_error in ND. apply ND; [apply nth_error_Some; congruence|]. rewrite Hi, Hj, E1, E2. reflexivity.
Qed.
