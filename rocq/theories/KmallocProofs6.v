(* krealloc of the block that was freed last. *)
From Verif Require Import Base BaseLemmas SortModel SortSpec SortProofs MemModel MemSpec MemProofs ShrinkModel DirModel DirSpec
  DirProofs KmallocModel KmallocSpec KmallocProofs KmallocProofs2 KmallocProofs3 KmallocProofs4.

Lemma head_magic lo hi base k U F a b r : inv lo hi base k U F -> F b = a :: r ->
  exists v, sm (kseg k) a = Some v /\ v <> MAGIC.
Proof.
  intros I E. assert (B : blk U F a b) by (right; rewrite E; left; auto).
  pose proof (i_in _ _ _ _ _ _ I a b B) as (A1 & A2 & A3). pose proof (i_lo _ _ _ _ _ _ I) as Q0.
  pose proof (free_again lo hi base k U F a b I) as X. rewrite E in X. specialize (X (or_introl eq_refl)).
  pose proof (i_chain _ _ _ _ _ _ I b ltac:(lia)) as C. rewrite E in C. cbn [chain] in C.
  destruct C as (_ & C & _). cbn [le_bytes bytes_at] in C. destruct C as (C & _).
  eexists. split; [exact C|].
  assert (N : exists nx, hd 0 r = nx /\ (nx = 0 \/ In nx r)) by (destruct r; cbn; eauto).
  destruct N as (nx & N1 & N2). rewrite N1. unfold MAGIC. destruct N2 as [->|N2]; [cbn; lia|].
  assert (Bk : blk U F nx b) by (right; rewrite E; right; auto).
  pose proof (i_mod _ _ _ _ _ _ I nx b Bk) as M.
  apply Z.mod_divide in M; [|apply Z.pow_nonzero; lia].
  assert (D2 : (2 ^ 3 | nx + 8)) by (apply Z.divide_trans with (2 ^ Z.min (b + 3) 12); [apply pow_div; lia|exact M]).
  change (2 ^ 3) with 8 in D2. destruct D2 as (q & Hq). lia.
Qed.

Lemma search_first lo hi base k U F i a fuel : inv lo hi base k U F -> 0 <= i < 30 -> 0 < a ->
  search_list (S (S fuel)) (sm (kseg k)) (kn k i) a 0 1 = Ok (kn k i =? a).
Proof.
  intros I Hi Ha. cbn [search_list]. pose proof (i_chain _ _ _ _ _ _ I i Hi) as C.
  destruct (F i) as [|x r] eqn:E; cbn [chain] in C.
  - rewrite C, Z.eqb_refl. cbn [negb andb]. destruct (Z.eqb_spec 0 a); [lia|]. reflexivity.
  - destruct C as (-> & C & _). assert (B : blk U F x i) by (right; rewrite E; left; auto).
    pose proof (i_in _ _ _ _ _ _ I x i B) as (A1 & A2 & A3). pose proof (i_lo _ _ _ _ _ _ I) as Q0.
    destruct (Z.eqb_spec x 0); [lia|]. change (0 =? 1) with false. cbn [negb andb].
    destruct (Z.eqb_spec x a); [reflexivity|].
    assert (Hnx : 0 <= hd 0 r <= LONG_MAX).
    { destruct r as [|a2 r2]; cbn [hd]; [unfold LONG_MAX; lia|].
      destruct (i_in _ _ _ _ _ _ I a2 i) as (X1 & X2 & X3); [right; rewrite E; right; left; auto|].
      pose proof (i_brk _ _ _ _ _ _ I). pose proof (i_hi _ _ _ _ _ _ I). pose proof (Bs_pos i). lia. }
    rewrite (get_le_ok 8 _ _ (hd 0 r)); [|change (256 ^ Z.of_nat 8) with 18446744073709551616; unfold LONG_MAX in *; lia|exact C].
    rewrite bind_Ok. change (0 + 1 =? 1) with true. rewrite andb_false_r. reflexivity.
Qed.

Lemma find_first lo hi base k U F a b r fuel : inv lo hi base k U F -> F b = a :: r -> (2 <= fuel)%nat ->
  findbucket fuel k a 1 = Ok b.
Proof.
  intros I E Hf. destruct fuel as [|[|fuel]]; try lia. clear Hf.
  assert (B : blk U F a b) by (right; rewrite E; left; auto).
  pose proof (i_in _ _ _ _ _ _ I a b B) as (A1 & A2 & A3). pose proof (i_lo _ _ _ _ _ _ I) as Q0.
  unfold findbucket. assert (L : forall n, (Z.of_nat n <= 30) -> 30 - Z.of_nat n <= b ->
    findbucket_loop n (S (S fuel)) k a 1 = Ok b).
  { induction n as [|n IH]; intros H1 H2; [lia|]. cbn [findbucket_loop]. unfold NBUCKETS. cbv zeta.
    rewrite (search_first lo hi base k U F) by (auto; lia). rewrite bind_Ok.
    set (i := 30 - Z.of_nat (S n)) in *. destruct (Z.eqb_spec (kn k i) a) as [X|X].
    - f_equal. pose proof (i_chain _ _ _ _ _ _ I i ltac:(lia)) as C. destruct (F i) as [|x r'] eqn:E'; cbn [chain] in C; [lia|].
      destruct C as (C & _). assert (B' : blk U F a i) by (right; rewrite E'; left; lia).
      destruct (i_apart _ _ _ _ _ _ I _ _ _ _ B' B) as [(_ & Y)|Y]; [lia|].
      pose proof (Bs_pos b ltac:(lia)). pose proof (Bs_pos i ltac:(lia)). unfold apart in Y. lia.
    - apply IH; [lia|]. assert (i <> b); [|lia]. intros Y. rewrite Y in X.
      pose proof (i_chain _ _ _ _ _ _ I b ltac:(lia)) as C. rewrite E in C. cbn [chain] in C. tauto. }
  apply L; lia.
Qed.

Lemma good_compact lo hi b0 m0 fuel srch k ps es U F st i a b d n : good lo hi b0 m0 (mkp k ps es) U F st ->
  nth_error U i = Some (a, b) -> nth_error st i = Some d -> 0 < n <= LARGEST -> n < Z.of_nat fuel -> (2 <= fuel)%nat ->
  sbk (kseg k) + (2 * n + 8192) <= hi ->
  exists k1 k' a' b' F', kfree k (a + 8) = Ok k1 /\ krealloc fuel srch lo hi k1 (a + 8) n = Ok (k', a' + 8) /\ 0 < a' /\
    good lo hi b0 m0 (mkp k' (a' + 8 :: without i ps) (a' + 8 :: es)) ((a', b') :: without i U) F'
      (resize d n :: drop_nth i st).
Proof.
  intros G Hi Hs Hn Hf Hf2 HS.
  destruct (Forall2_nth _ _ _ (g_st _ _ _ _ _ _ _ _ G) i d Hs) as (u & U1 & U2). rewrite Hi in U1. injection U1 as <-.
  destruct U2 as (C & R & V). cbn [fst snd pk] in *.
  destruct (good_free lo hi b0 m0 k ps es U F st i a b G Hi) as (k1 & K1 & K2 & K3 & K4).
  exists k1. pose proof (g_inv _ _ _ _ _ _ _ _ K2) as I. cbn [pk] in I.
  pose proof (i_in _ _ _ _ _ _ (g_inv _ _ _ _ _ _ _ _ G) a b (or_introl (nth_error_In _ _ Hi))) as (A1 & A2 & A3).
  pose proof (i_lo _ _ _ _ _ _ I) as Q0.
  destruct (head_magic _ _ _ _ _ _ a b (F b) I (updf_same _ _ _)) as (v & V1 & V2).
  destruct (good_move lo hi b0 m0 fuel k1 (without i ps) es (without i U) (updf F b (a :: F b)) (drop_nth i st) a b (F b) d n)
    as (k' & a' & b' & F' & M1 & M2 & M3 & M4); auto.
  - apply updf_same.
  - intros j w Hj. rewrite K3 by lia. auto.
  - destruct C as (_ & C & _). exact C.
  - lia.
  - exists k', a', b', F'. split; [exact K1|]. split; [|auto].
    unfold krealloc, OVER. destruct (Z.eqb_spec (a + 8) 0); [lia|]. destruct (Z.eqb_spec n 0); [lia|].
    replace (a + 8 - 8) with a by lia. cbv zeta. rewrite (load_some _ _ _ V1), bind_Ok.
    destruct (Z.eqb_spec v MAGIC); [contradiction|].
    rewrite (find_first lo hi _ k1 _ _ a b (F b) fuel I (updf_same _ _ _) Hf2), bind_Ok.
    destruct (Z.ltb_spec b 0); [lia|]. rewrite bind_Ok. destruct (Z.ltb_spec b 0); [lia|].
    rewrite usable_ok, bind_Ok by (auto; apply (i_pg _ _ _ _ _ _ I)). exact M1.
Qed.
