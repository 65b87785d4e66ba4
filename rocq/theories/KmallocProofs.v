(* Invariant of the allocator. *)
From Verif Require Import Base BaseLemmas SortModel SortSpec SortProofs MemModel MemProofs ShrinkModel DirModel DirSpec
  DirProofs KmallocModel KmallocSpec.

(* the bytes of a block with header, and without *)
Definition Bs (b : Z) : Z := if b <? 9 then 2 ^ (b + 3) else 2 ^ (b + 3) + 4096.
Definition us (b : Z) : Z := Bs b - 8.
(* b is the bucket for n bytes *)
Definition cls (n b : Z) : Prop := 0 <= b <= 27 /\ n <= us b /\ (b = 0 \/ us (b - 1) < n).

Lemma pow_step b : 0 <= b -> 2 ^ (b + 1) = 2 * 2 ^ b.
Proof. intros. rewrite Z.pow_add_r by lia. lia. Qed.
Lemma pow_mono a b : 0 <= a <= b -> 2 ^ a <= 2 ^ b.
Proof. intros. apply Z.pow_le_mono_r; lia. Qed.
Lemma Bs_pos b : 0 <= b -> 8 <= Bs b.
Proof.
  intros. unfold Bs. pose proof (pow_mono 3 (b + 3)). change (2 ^ 3) with 8 in *.
  destruct (b <? 9); lia.
Qed.
Lemma Bs_step b : 0 <= b -> Bs b < Bs (b + 1).
Proof.
  intros. unfold Bs. pose proof (pow_mono 3 (b + 3)). change (2 ^ 3) with 8 in *.
  replace (b + 1 + 3) with (b + 3 + 1) by lia. rewrite pow_step by lia.
  destruct (Z.ltb_spec b 9), (Z.ltb_spec (b + 1) 9); lia.
Qed.
Lemma Bs_mono a b : 0 <= a <= b -> Bs a <= Bs b.
Proof.
  intros H. replace b with (a + Z.of_nat (Z.to_nat (b - a))) by lia.
  induction (Z.to_nat (b - a)) as [|n IH]; [rewrite Z.add_0_r; lia|].
  replace (a + Z.of_nat (S n)) with (a + Z.of_nat n + 1) by lia.
  pose proof (Bs_step (a + Z.of_nat n)). lia.
Qed.
Lemma Bs_max b : 0 <= b <= 27 -> Bs b <= 1073745920.
Proof. intros. pose proof (Bs_mono b 27). change (Bs 27) with 1073745920 in *. lia. Qed.
Lemma cls_unique n b b' : cls n b -> cls n b' -> b = b'.
Proof.
  unfold cls, us. intros (H1 & H2 & H3) (K1 & K2 & K3).
  destruct (Z.lt_trichotomy b b') as [L|[L|L]]; auto.
  - destruct K3 as [->|K3]; [lia|]. pose proof (Bs_mono b (b' - 1)). lia.
  - destruct H3 as [->|H3]; [lia|]. pose proof (Bs_mono b' (b - 1)). lia.
Qed.

(* ---- the size class ---- *)
Lemma find_class_ok nbytes n b0 : nbytes <= 2147483648 + n ->
  forall f b, 0 <= b0 <= b -> b <= 28 -> 28 - b < Z.of_nat f -> 
  (b = b0 \/ 2 ^ (b + 2) + n < nbytes) ->
  exists b', find_class f nbytes n (2 ^ (b + 3)) b = Ok (Some b') /\ b0 <= b' <= 28 /\
    nbytes <= 2 ^ (b' + 3) + n /\ (b' = b0 \/ 2 ^ (b' + 2) + n < nbytes).
Proof.
  intros Hn. induction f as [|f IH]; intros b H0 Hb Hf HI; [lia|]. cbn [find_class].
  destruct (Z.ltb_spec (2 ^ (b + 3) + n) nbytes) as [L|L].
  - assert (b <> 28) by (intros ->; change (2 ^ (28 + 3)) with 2147483648 in L; lia).
    pose proof (pow_mono (b + 3) 30). change (2 ^ 30) with 1073741824 in *.
    assert (0 < 2 ^ (b + 3)) by (apply Z.pow_pos_nonneg; lia).
    assert (E : u32 (2 ^ (b + 3) * 2) = 2 ^ (b + 1 + 3)).
    { rewrite u32_small by lia. replace (b + 1 + 3) with (b + 3 + 1) by lia. rewrite pow_step; lia. }
    cbv zeta. rewrite E. destruct (Z.eqb_spec (2 ^ (b + 1 + 3)) 0) as [X|X].
    { replace (b + 1 + 3) with (b + 3 + 1) in X by lia. rewrite pow_step in X; lia. }
    apply IH; try lia. right. replace (b + 1 + 2) with (b + 3) by lia. exact L.
  - exists b. split; [reflexivity|]. split; [lia|]. split; [lia|]. exact HI.
Qed.

Definition pick (nbytes : Z) : res (option Z) :=
  if nbytes <=? 4088 then find_class 40 nbytes (-8) 8 0 else find_class 40 nbytes 4088 4096 9.
Lemma pick_ok n : n <= LARGEST -> exists b, pick n = Ok (Some b) /\ cls (Z.max 0 n) b.
Proof.
  unfold LARGEST. intros Hn. unfold pick. destruct (Z.leb_spec n 4088) as [L|L].
  - destruct (find_class_ok n (-8) 0) with (f := 40%nat) (b := 0) as (b & E & H1 & H2 & H3); try lia.
    exists b. split; [exact E|]. unfold cls, us.
    assert (b <= 9).
    { destruct (Z_le_dec b 9); auto. pose proof (pow_mono 12 (b + 2)). change (2 ^ 12) with 4096 in *. lia. }
    split; [lia|]. unfold Bs. destruct (Z.ltb_spec b 9) as [B|B].
    + pose proof (pow_mono 3 (b + 3)). change (2 ^ 3) with 8 in *. split; [lia|].
      destruct H3 as [->|H3]; [auto|]. destruct (Z_lt_dec b 1); [lia|]. right.
      destruct (Z.ltb_spec (b - 1) 9); [|lia]. replace (b - 1 + 3) with (b + 2) by lia.
      pose proof (pow_mono 3 (b + 2)). change (2 ^ 3) with 8 in *. lia.
    + assert (b = 9) by lia. subst b. change (2 ^ (9 + 3)) with 4096 in *. split; [lia|].
      right. change (9 - 1 <? 9) with true. cbv iota. change (2 ^ (9 - 1 + 3)) with 2048.
      change (2 ^ (9 + 2)) with 2048 in *. lia.
  - destruct (find_class_ok n 4088 9) with (f := 40%nat) (b := 9) as (b & E & H1 & H2 & H3); try lia.
    exists b. split; [exact E|]. unfold cls, us.
    assert (b <= 27).
    { destruct (Z_le_dec b 27); auto. assert (b = 28) by lia. subst b. 
      change (2 ^ (28 + 2)) with 1073741824 in *. lia. }
    split; [lia|]. unfold Bs. destruct (Z.ltb_spec b 9) as [B|B]; [lia|]. split; [lia|].
    right. destruct (Z.eq_dec b 9) as [->|N].
    + change (9 - 1 <? 9) with true. cbv iota. change (2 ^ (9 - 1 + 3)) with 2048. lia.
    + destruct (Z.ltb_spec (b - 1) 9); [lia|]. destruct H3 as [X|H3]; [lia|].
      replace (b - 1 + 3) with (b + 2) by lia. lia.
Qed.
Lemma pick_big n : LARGEST < n <= INT_MAX -> pick n = Ok (Some 28).
Proof.
  unfold LARGEST, INT_MAX. intros Hn. unfold pick. destruct (Z.leb_spec n 4088) as [L|L]; [lia|].
  destruct (find_class_ok n 4088 9) with (f := 40%nat) (b := 9) as (b & E & H1 & H2 & H3); try lia.
  change (find_class 40 n 4088 4096 9) with (find_class 40 n 4088 (2 ^ (9 + 3)) 9). rewrite E.
  destruct (Z.eq_dec b 28) as [->|N]; auto.
  pose proof (pow_mono (b + 3) 30). change (2 ^ 30) with 1073741824 in *. lia.
Qed.

(* ---- the invariant ---- *)
Fixpoint chain (m : mem) (p : Z) (l : list Z) : Prop :=
  match l with
  | [] => p = 0
  | a :: r => p = a /\ bytes_at m a (le_bytes 8 (hd 0 r)) /\ chain m (hd 0 r) r
  end.
Definition blk (U : list (Z * Z)) (F : Z -> list Z) (a b : Z) : Prop := In (a, b) U \/ In a (F b).

Record inv (lo hi base : Z) (k : kst) (U : list (Z * Z)) (F : Z -> list Z) : Prop := mkinv {
  i_pg : kpg k = 4096; i_pb : kpb k = 9;
  i_lo : 0 < base /\ lo <= base; i_hi : hi <= LONG_MAX;
  i_brk : base <= sbk (kseg k) <= hi; i_al : (sbk (kseg k) + 8) mod 4096 = 0;
  i_room : room (sm (kseg k)) base (sbk (kseg k) - base);
  i_chain : forall b, 0 <= b < 30 -> chain (sm (kseg k)) (kn k b) (F b);
  i_in : forall a b, blk U F a b -> 0 <= b <= 27 /\ base <= a /\ a + Bs b <= sbk (kseg k);
  i_mod : forall a b, blk U F a b -> (a + 8) mod 2 ^ Z.min (b + 3) 12 = 0;
  i_apart : forall a b a' b', blk U F a b -> blk U F a' b' ->
    a = a' /\ b = b' \/ apart a (Bs b) a' (Bs b');
  i_ndu : NoDup U; i_ndf : forall b, NoDup (F b);
  i_ex : forall a b, In (a, b) U -> ~ In a (F b);
  i_hdr : forall a b, In (a, b) U -> sm (kseg k) a = Some MAGIC /\ sm (kseg k) (a + 1) = Some b }.

Definition updf (F : Z -> list Z) (b : Z) (l : list Z) : Z -> list Z :=
  fun x => if x =? b then l else F x.
Lemma updf_same F b l : updf F b l b = l.
Proof. unfold updf. rewrite Z.eqb_refl. reflexivity. Qed.
Lemma updf_other F b l x : x <> b -> updf F b l x = F x.
Proof. intros. unfold updf. destruct (Z.eqb_spec x b); congruence. Qed.

Lemma chain_ext m m' : forall l p, chain m p l ->
  (forall a, In a l -> forall x, a <= x < a + 8 -> m' x = m x) -> chain m' p l.
Proof.
  induction l as [|a r IH]; intros p H E; cbn [chain] in *; auto.
  destruct H as (H1 & H2 & H3). split; [auto|]. split.
  - apply (bytes_at_ext m); auto. rewrite le_zlen. intros x Hx. apply (E a); [left; auto|lia].
  - apply IH; auto. intros b Hb. apply (E b). right. auto.
Qed.
Lemma chain_head m p l : chain m p l -> p = hd 0 l.
Proof. destruct l; cbn; tauto. Qed.

Lemma nextf_ok k b : 0 <= b < 30 -> nextf k b = Ok (kn k b).
Proof. intros. unfold nextf, NBUCKETS. destruct (Z.leb_spec 0 b), (Z.ltb_spec b 30); try lia. reflexivity. Qed.
Lemma set_nextf_ok k b v : 0 <= b < 30 ->
  set_nextf k b v = Ok (mkk (kseg k) (kpg k) (kpb k) (fun x => if x =? b then v else kn k x)).
Proof. intros. unfold set_nextf, NBUCKETS. destruct (Z.leb_spec 0 b), (Z.ltb_spec b 30); try lia. reflexivity. Qed.

Lemma shl1_ok b : 0 <= b <= 30 -> shl1 b = Ok (2 ^ b).
Proof.
  intros. unfold shl1. destruct (Z.leb_spec 0 b), (Z.ltb_spec b 32); try lia. cbn [andb].
  pose proof (pow_mono b 30). change (2 ^ 30) with 1073741824 in *.
  assert (0 < 2 ^ b) by (apply Z.pow_pos_nonneg; lia).
  rewrite s32_small by (unfold INT_MIN, INT_MAX; lia). reflexivity.
Qed.

(* memory may change where no header is *)
Lemma inv_mem lo hi base k U F m' : inv lo hi base k U F ->
  room m' base (sbk (kseg k) - base) ->
  (forall a b x, blk U F a b -> a <= x < a + 8 -> m' x = sm (kseg k) x) ->
  inv lo hi base (set_mem k m') U F.
Proof.
  intros I R E. destruct I. constructor; cbn [set_mem kseg kpg kpb kn sm sbk]; auto.
  - intros b Hb. apply (chain_ext (sm (kseg k))); auto. intros a Ha x Hx. apply (E a b); [right; auto|auto].
  - intros a b H. rewrite !(E a b) by (try (left; assumption); lia). auto.
Qed.

(* ---- taking a block ---- *)
Lemma blk_take U F a b r x c : F b = a :: r ->
  (blk ((a, b) :: U) (updf F b r) x c <-> blk U F x c).
Proof.
  intros E. unfold blk. cbn [In]. destruct (Z.eq_dec c b) as [->|N].
  - rewrite updf_same, E. cbn [In]. split.
    + intros [[H|H]|H]; auto. injection H as ->. auto.
    + intros [H|[H|H]]; auto. subst. auto.
  - rewrite updf_other by auto. split; [|tauto]. intros [[H|H]|H]; auto. injection H. congruence.
Qed.

Lemma room_same2 m m' p n a k : room m p n -> room m' a k -> same_outside m m' a k -> room m' p n.
Proof.
  intros R1 R2 S x Hx. destruct (Z_lt_dec x a); [rewrite S by lia; auto|].
  destruct (Z_lt_dec x (a + k)); [apply R2; lia|]. rewrite S by lia. auto.
Qed.

Lemma take_ok lo hi base k U F b a r : inv lo hi base k U F -> 0 <= b < 30 -> F b = a :: r ->
  exists k', take_block k b a = Ok (k', a + 8) /\ inv lo hi base k' ((a, b) :: U) (updf F b r) /\
    same_outside (sm (kseg k)) (sm (kseg k')) a 8 /\ sbk (kseg k') = sbk (kseg k).
Proof.
  intros I Hb E. pose proof (i_chain _ _ _ _ _ _ I b Hb) as C. rewrite E in C. cbn [chain] in C.
  destruct C as (C1 & C2 & C3).
  assert (BA : blk U F a b) by (right; rewrite E; left; auto).
  destruct (i_in _ _ _ _ _ _ I a b BA) as (G1 & G2 & G3). pose proof (Bs_pos b ltac:(lia)) as G4.
  destruct (i_brk _ _ _ _ _ _ I) as (Q1 & Q2). pose proof (i_hi _ _ _ _ _ _ I) as Q3.
  assert (Hnx : 0 <= hd 0 r <= LONG_MAX).
  { destruct r as [|a2 r2]; cbn [hd]; [unfold LONG_MAX; lia|].
    destruct (i_in _ _ _ _ _ _ I a2 b) as (X1 & X2 & X3); [right; rewrite E; right; left; auto|].
    pose proof (i_lo _ _ _ _ _ _ I). unfold LONG_MAX in *. pose proof (Bs_pos b). lia. }
  unfold take_block. rewrite (get_le_ok 8 _ _ (hd 0 r)); [|change (256 ^ Z.of_nat 8) with 18446744073709551616;
    unfold LONG_MAX in *; lia|exact C2].
  rewrite bind_Ok, set_nextf_ok, bind_Ok by lia. cbn [kseg].
  pose proof (i_room _ _ _ _ _ _ I) as R.
  rewrite (store_room _ _ _ _ _ R) by lia. rewrite bind_Ok.
  rewrite (store_room _ _ _ _ _ (room_upd _ _ _ _ _ R)) by lia. rewrite bind_Ok.
  unfold ubyte. rewrite Z.mod_small by lia. unfold OVER.
  set (m' := upd (upd (sm (kseg k)) a MAGIC) (a + 1) b).
  assert (S : same_outside (sm (kseg k)) m' a 8).
  { intros x Hx. unfold m'. rewrite !upd_other by lia. reflexivity. }
  eexists. split; [reflexivity|]. split; [|split; [exact S|reflexivity]].
  assert (R' : room m' base (sbk (kseg k) - base)) by (unfold m'; now apply room_upd, room_upd).
  assert (NE : forall a' b', blk U F a' b' -> a' <> a -> forall x, a' <= x < a' + 8 -> m' x = sm (kseg k) x).
  { intros a' b' H N x Hx. apply S.
    destruct (i_apart _ _ _ _ _ _ I _ _ _ _ H BA) as [(X & _)|X]; [congruence|].
    destruct (i_in _ _ _ _ _ _ I a' b' H) as (X1 & _). pose proof (Bs_pos b' ltac:(lia)).
    unfold apart in X. lia. }
  pose proof (i_ndf _ _ _ _ _ _ I b) as ND. rewrite E in ND. apply NoDup_cons_iff in ND. destruct ND as (ND1 & ND2).
  constructor; cbn [set_mem kseg kpg kpb kn sm sbk]; try (destruct I; assumption).
  - intros c Hc. destruct (Z.eqb_spec c b) as [->|N].
    + rewrite updf_same. apply (chain_ext (sm (kseg k))); auto. intros a' Ha x Hx.
      apply (NE a' b); auto. { right. rewrite E. right. auto. } intros ->. auto.
    + rewrite updf_other by auto. apply (chain_ext (sm (kseg k))); [apply (i_chain _ _ _ _ _ _ I); auto|].
      intros a' Ha x Hx. apply (NE a' c); auto; [right; auto|]. intros ->.
      destruct (i_apart _ _ _ _ _ _ I a c a b) as [(_ & X)|X]; auto; [right; auto|].
      pose proof (Bs_pos c ltac:(lia)). unfold apart in X. lia.
  - intros a' b' H. apply (i_in _ _ _ _ _ _ I). eapply blk_take; eauto.
  - intros a' b' H. apply (i_mod _ _ _ _ _ _ I). eapply blk_take; eauto.
  - intros a1 b1 a2 b2 H1 H2. apply (i_apart _ _ _ _ _ _ I); eapply blk_take; eauto.
  - constructor; [|apply (i_ndu _ _ _ _ _ _ I)]. intros H. apply (i_ex _ _ _ _ _ _ I) in H.
    apply H. rewrite E. left. auto.
  - intros c. destruct (Z.eq_dec c b) as [->|N]; [rewrite updf_same; auto|].
    rewrite updf_other by auto. apply (i_ndf _ _ _ _ _ _ I).
  - intros a' b' H H'. cbn [In] in H. destruct H as [H|H].
    + injection H as <- <-. rewrite updf_same in H'. auto.
    + apply (i_ex _ _ _ _ _ _ I _ _ H). destruct (Z.eq_dec b' b) as [->|N].
      * rewrite updf_same in H'. rewrite E. right. auto.
      * rewrite updf_other in H' by auto. auto.
  - intros a' b' H. cbn [In] in H. destruct H as [H|H].
    + injection H as <- <-. unfold m'. rewrite upd_same, upd_other, upd_same by lia. auto.
    + assert (a' <> a).
      { intros ->. destruct (i_apart _ _ _ _ _ _ I a b' a b) as [(_ & ->)|X]; auto; [left; auto| |].
        - apply (i_ex _ _ _ _ _ _ I _ _ H). rewrite E. left. auto.
        - destruct (i_in _ _ _ _ _ _ I a b') as (Y & _); [left; auto|]. pose proof (Bs_pos b' ltac:(lia)).
          unfold apart in X. lia. }
      rewrite !(NE a' b') by (try (left; assumption); auto; lia). apply (i_hdr _ _ _ _ _ _ I). auto.
Qed.
