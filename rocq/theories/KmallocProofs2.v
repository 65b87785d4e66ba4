(* kfree and morecore. *)
From Verif Require Import Base BaseLemmas SortModel SortSpec SortProofs MemModel MemProofs ShrinkModel DirModel DirSpec
  DirProofs KmallocModel KmallocSpec KmallocProofs.

(* ---- lists ---- *)
Lemma without_in {A} (l : list A) : forall i x, In x (without i l) -> In x l.
Proof.
  induction l as [|a l IH]; intros [|i] x H; cbn [without In] in *; auto.
  destruct H as [H|H]; auto. right. eapply IH; eauto.
Qed.
Lemma in_without {A} (l : list A) : forall i u x, nth_error l i = Some u -> In x l ->
  x = u \/ In x (without i l).
Proof.
  induction l as [|a l IH]; intros [|i] u x H I; cbn [without In nth_error] in *; try tauto.
  - injection H as ->. destruct I as [->|I]; auto.
  - destruct I as [->|I]; [auto|]. destruct (IH i u x H I); auto.
Qed.
Lemma without_nodup {A} (l : list A) : forall i u, NoDup l -> nth_error l i = Some u ->
  NoDup (without i l) /\ ~ In u (without i l).
Proof.
  induction l as [|a l IH]; intros [|i] u H N; cbn [without nth_error] in *; try discriminate.
  - injection N as ->. apply NoDup_cons_iff in H. tauto.
  - apply NoDup_cons_iff in H. destruct H as (H1 & H2). destruct (IH i u H2 N) as (K1 & K2). split.
    + constructor; auto. intros X. apply H1. eapply without_in; eauto.
    + cbn [In]. intros [->|X]; auto. apply H1. eapply nth_error_In; eauto.
Qed.

Lemma blk_free U F i a b x c : nth_error U i = Some (a, b) ->
  (blk (without i U) (updf F b (a :: F b)) x c <-> blk U F x c).
Proof.
  intros E. unfold blk. destruct (Z.eq_dec c b) as [->|N].
  - rewrite updf_same. cbn [In]. split.
    + intros [H|[H|H]]; auto. { left. eapply without_in; eauto. } subst. left. eapply nth_error_In; eauto.
    + intros [H|H]; auto. destruct (in_without U i (a, b) (x, b) E H) as [X|X]; auto. injection X as ->. auto.
  - rewrite updf_other by auto. split.
    + intros [H|H]; auto. left. eapply without_in; eauto.
    + intros [H|H]; auto. destruct (in_without U i (a, b) (x, c) E H) as [X|X]; auto. congruence.
Qed.

Lemma free_ok lo hi base k U F i a b : inv lo hi base k U F -> nth_error U i = Some (a, b) ->
  exists k', kfree k (a + 8) = Ok k' /\ inv lo hi base k' (without i U) (updf F b (a :: F b)) /\
    same_outside (sm (kseg k)) (sm (kseg k')) a 8 /\ sbk (kseg k') = sbk (kseg k).
Proof.
  intros I E. assert (IN : In (a, b) U) by (eapply nth_error_In; eauto).
  assert (BA : blk U F a b) by (left; auto).
  destruct (i_in _ _ _ _ _ _ I a b BA) as (G1 & G2 & G3). pose proof (Bs_pos b ltac:(lia)) as G4.
  destruct (i_hdr _ _ _ _ _ _ I a b IN) as (D1 & D2).
  pose proof (i_lo _ _ _ _ _ _ I) as Q0. pose proof (i_brk _ _ _ _ _ _ I) as Q1.
  pose proof (i_hi _ _ _ _ _ _ I) as Q2. pose proof (i_room _ _ _ _ _ _ I) as R.
  unfold kfree, OVER. destruct (Z.eqb_spec (a + 8) 0); [lia|]. replace (a + 8 - 8) with a by lia.
  cbv zeta. rewrite (load_some _ _ _ D1), bind_Ok. rewrite Z.eqb_refl. cbn [negb].
  rewrite (load_some _ _ _ D2), bind_Ok, nextf_ok, bind_Ok by lia.
  assert (R8 : room (sm (kseg k)) a (Z.of_nat 8)) by (apply (room_sub _ _ _ _ _ R); lia).
  destruct (put_le_ok 8 (sm (kseg k)) a (kn k b) R8) as (m' & P1 & P2 & P3).
  rewrite P1, bind_Ok, set_nextf_ok by lia. cbn [set_mem kseg kpg kpb kn].
  change (Z.of_nat 8) with 8 in *.
  eexists. split; [reflexivity|]. split; [|split; [exact P3|reflexivity]].
  assert (R' : room m' base (sbk (kseg k) - base)).
  { apply (room_same2 (sm (kseg k)) m' _ _ a 8); auto. pose proof (bytes_room _ _ _ P2) as X.
    rewrite le_zlen in X. exact X. }
  assert (NE : forall a' b', blk U F a' b' -> (a', b') <> (a, b) ->
            forall x, a' <= x < a' + 8 -> m' x = sm (kseg k) x).
  { intros a' b' H N x Hx. apply P3.
    destruct (i_apart _ _ _ _ _ _ I _ _ _ _ H BA) as [(-> & ->)|X]; [congruence|].
    destruct (i_in _ _ _ _ _ _ I a' b' H) as (X1 & _). pose proof (Bs_pos b' ltac:(lia)).
    unfold apart in X. lia. }
  pose proof (i_ex _ _ _ _ _ _ I _ _ IN) as NI.
  destruct (without_nodup U i (a, b) (i_ndu _ _ _ _ _ _ I) E) as (ND1 & ND2).
  constructor; cbn [set_mem kseg kpg kpb kn sm sbk]; try (destruct I; assumption); auto.
  - intros c Hc. destruct (Z.eqb_spec c b) as [->|N].
    + rewrite updf_same. pose proof (i_chain _ _ _ _ _ _ I b Hc) as C.
      pose proof (chain_head _ _ _ C) as CH. cbn [chain]. split; [auto|]. rewrite <- CH. split; [auto|].
      apply (chain_ext (sm (kseg k))); auto. intros a' Ha x Hx.
      apply (NE a' b); auto; [right; auto|]. congruence.
    + rewrite updf_other by auto. apply (chain_ext (sm (kseg k))); [apply (i_chain _ _ _ _ _ _ I); auto|].
      intros a' Ha x Hx. apply (NE a' c); auto; [right; auto|]. congruence.
  - intros a' b' H. apply (i_in _ _ _ _ _ _ I). eapply blk_free; eauto.
  - intros a' b' H. apply (i_mod _ _ _ _ _ _ I). eapply blk_free; eauto.
  - intros a1 b1 a2 b2 H1 H2. apply (i_apart _ _ _ _ _ _ I); eapply blk_free; eauto.
  - intros c. destruct (Z.eq_dec c b) as [->|N].
    + rewrite updf_same. constructor; auto. apply (i_ndf _ _ _ _ _ _ I).
    + rewrite updf_other by auto. apply (i_ndf _ _ _ _ _ _ I).
  - intros a' b' H H'. pose proof (without_in _ _ _ H) as H2.
    destruct (Z.eq_dec b' b) as [->|N].
    + rewrite updf_same in H'. cbn [In] in H'. destruct H' as [->|H']; [auto|].
      eapply (i_ex _ _ _ _ _ _ I); eauto.
    + rewrite updf_other in H' by auto. eapply (i_ex _ _ _ _ _ _ I); eauto.
  - intros a' b' H. pose proof (without_in _ _ _ H) as H2.
    assert ((a', b') <> (a, b)) by (intros X; rewrite X in H; auto).
    rewrite !(NE a' b') by (try (left; assumption); auto; lia). apply (i_hdr _ _ _ _ _ _ I). auto.
Qed.

(* a block that is not in use: kfree does nothing *)
Lemma free_again lo hi base k U F a b : inv lo hi base k U F -> In a (F b) -> kfree k (a + 8) = Ok k.
Proof.
  intros I H. destruct (i_in _ _ _ _ _ _ I a b) as (G1 & G2 & G3); [right; auto|].
  pose proof (i_lo _ _ _ _ _ _ I) as Q0. unfold kfree, OVER.
  destruct (Z.eqb_spec (a + 8) 0); [lia|]. replace (a + 8 - 8) with a by lia. cbv zeta.
  pose proof (i_chain _ _ _ _ _ _ I b ltac:(lia)) as C.
  destruct (in_split _ _ H) as (l1 & l2 & E). rewrite E in C.
  assert (X : exists nx, bytes_at (sm (kseg k)) a (le_bytes 8 nx) /\ (nx = 0 \/ In nx l2)).
  { clear - C. revert C. generalize (kn k b). induction l1 as [|c l1 IH]; intros p C; cbn [app chain] in C.
    - destruct C as (_ & C & _). exists (hd 0 l2). split; auto. destruct l2; cbn; auto.
    - destruct C as (_ & _ & C). eauto. }
  destruct X as (nx & X1 & X2). cbn [le_bytes bytes_at] in X1. destruct X1 as (X1 & _).
  rewrite (load_some _ _ _ X1), bind_Ok.
  assert (Y : nx mod 256 <> MAGIC).
  { unfold MAGIC. destruct X2 as [->|X2]; [cbn; lia|].
    assert (Bk : blk U F nx b) by (right; rewrite E; apply in_or_app; right; right; auto).
    pose proof (i_mod _ _ _ _ _ _ I nx b Bk) as M.
    assert (D : (2 ^ 3 | 2 ^ Z.min (b + 3) 12)).
    { exists (2 ^ (Z.min (b + 3) 12 - 3)). rewrite <- Z.pow_add_r by lia. f_equal. lia. }
    apply Z.mod_divide in M; [|apply Z.pow_nonzero; lia].
    assert (D2 : (8 | nx + 8)) by (eapply Z.divide_trans; [exact D|exact M]).
    destruct D2 as (q & Hq). lia. }
  destruct (Z.eqb_spec (nx mod 256) MAGIC); [contradiction|]. reflexivity.
Qed.

(* ---- morecore ---- *)
Fixpoint row (op sz : Z) (n : nat) : list Z :=
  match n with O => [] | S j => op :: row (op + sz) sz j end.
Lemma in_row n sz : forall op a, In a (row op sz n) -> exists i, 0 <= i < Z.of_nat n /\ a = op + sz * i.
Proof.
  induction n as [|n IH]; intros op a H; cbn [row In] in H; [tauto|]. destruct H as [<-|H].
  - exists 0. lia.
  - destruct (IH _ _ H) as (i & H1 & H2). exists (i + 1). lia.
Qed.
Lemma row_nodup n sz : 0 < sz -> forall op, NoDup (row op sz n).
Proof.
  intros Hs. induction n as [|n IH]; intros op; cbn [row]; constructor; auto.
  intros H. destruct (in_row _ _ _ _ H) as (i & H1 & H2). nia.
Qed.

Lemma link_ok sz : 8 <= sz -> forall n m op, room m op (sz * Z.of_nat n + 8) ->
  bytes_at m (op + sz * Z.of_nat n) (le_bytes 8 0) ->
  exists m', link_blocks n m op sz = Ok m' /\ chain m' op (row op sz (S n)) /\
    same_outside m m' op (sz * Z.of_nat n) /\ (forall x, m x <> None -> m' x <> None).
Proof.
  intros Hs. induction n as [|n IH]; intros m op R B; cbn [link_blocks].
  - exists m. split; [reflexivity|]. change (Z.of_nat 0) with 0 in *. rewrite Z.mul_0_r, Z.add_0_r in *.
    split; [|split; [apply same_outside_refl|auto]]. cbn [row chain hd]. auto.
  - replace (Z.of_nat (S n)) with (Z.of_nat n + 1) in * by lia.
    assert (R8 : room m op (Z.of_nat 8)) by (apply (room_sub _ _ _ _ _ R); nia).
    destruct (put_le_ok 8 m op (op + sz) R8) as (m1 & P1 & P2 & P3).
    change (Z.of_nat 8) with 8 in *. rewrite P1, bind_Ok.
    assert (K1 : forall x, m x <> None -> m1 x <> None).
    { intros x Hx. pose proof (bytes_room _ _ _ P2) as Y. rewrite le_zlen in Y.
      destruct (Z_lt_dec x op); [rewrite P3 by lia; auto|].
      destruct (Z_lt_dec x (op + 8)); [apply Y; lia|]. rewrite P3 by lia. auto. }
    destruct (IH m1 (op + sz)) as (m' & E & C & S & K).
    + intros x Hx. apply K1, R. nia.
    + apply (bytes_at_ext m); [replace (op + sz + sz * Z.of_nat n) with (op + sz * (Z.of_nat n + 1)) by lia; exact B|].
      intros x Hx. apply P3. nia.
    + exists m'. split; [exact E|]. split; [|split].
      * change (row op sz (Datatypes.S (Datatypes.S n))) with (op :: row (op + sz) sz (Datatypes.S n)). cbn [chain]. split; [reflexivity|].
        change (hd 0 (row (op + sz) sz (Datatypes.S n))) with (op + sz). split; [|exact C].
        apply (bytes_at_ext m1); auto. rewrite le_zlen. intros x Hx. apply S. lia.
      * intros x Hx. rewrite S by nia. apply P3. nia.
      * auto.
Qed.

Definition grow (b : Z) : Z := if b <? 9 then 4096 else Bs b.
Lemma grow_pos b : 0 <= b -> 4096 <= grow b.
Proof.
  intros. unfold grow, Bs. destruct (Z.ltb_spec b 9); [lia|].
  assert (0 < 2 ^ (b + 3)) by (apply Z.pow_pos_nonneg; lia). lia.
Qed.
Lemma pow_div a b : 0 <= a <= b -> (2 ^ a | 2 ^ b).
Proof. intros. exists (2 ^ (b - a)). rewrite <- Z.pow_add_r by lia. f_equal. lia. Qed.

Lemma sbrk_ok lo hi s n : 0 < sbk s -> lo <= sbk s -> 0 <= n -> sbk s + n <= hi -> hi <= LONG_MAX ->
  exists s', sbrk lo hi s n = Ok (s', sbk s) /\ sbk s' = sbk s + n /\
    (forall x, x < sbk s -> sm s' x = sm s x) /\ (forall x, sbk s <= x < sbk s + n -> sm s' x = Some 0).
Proof.
  intros H0 H1 H2 H3 H4. unfold sbrk. rewrite lop_ok by (unfold LONG_MIN, LONG_MAX in *; lia). rewrite bind_Ok.
  unfold sys_brk. destruct (Z.leb_spec lo (sbk s + n)), (Z.leb_spec (sbk s + n) hi); try lia. cbn [andb].
  destruct (Z.ltb_spec 0 (sbk s + n)); [|lia]. eexists. split; [reflexivity|]. cbn [sm sbk].
  split; [reflexivity|]. split; intros x Hx.
  - destruct (Z.leb_spec (sbk s) x), (Z.ltb_spec x (sbk s + n)), (Z.leb_spec (sbk s + n) x), (Z.ltb_spec x (sbk s));
      cbn [andb]; try lia; reflexivity.
  - destruct (Z.leb_spec (sbk s) x), (Z.ltb_spec x (sbk s + n)); try lia. reflexivity.
Qed.

Lemma morecore_ok lo hi base k U F b : inv lo hi base k U F -> 0 <= b <= 27 -> F b = [] ->
  sbk (kseg k) + grow b <= hi ->
  exists k' r, morecore lo hi k b = Ok k' /\ inv lo hi base k' U (updf F b (sbk (kseg k) :: r)) /\
    (forall x, x < sbk (kseg k) -> sm (kseg k') x = sm (kseg k) x) /\
    sbk (kseg k') = sbk (kseg k) + grow b.
Proof.
  intros I Hb E HG. pose proof (i_pg _ _ _ _ _ _ I) as PG. pose proof (i_brk _ _ _ _ _ _ I) as Q1.
  pose proof (i_lo _ _ _ _ _ _ I) as Q0. pose proof (i_hi _ _ _ _ _ _ I) as Q2.
  pose proof (i_al _ _ _ _ _ _ I) as QA. pose proof (grow_pos b ltac:(lia)) as GP.
  assert (P8 : 8 <= 2 ^ (b + 3)) by (pose proof (pow_mono 3 (b + 3)); change (2 ^ 3) with 8 in *; lia).
  unfold morecore. rewrite shl1_ok, bind_Ok by lia. rewrite PG.
  destruct (Z.leb_spec (2 ^ (b + 3)) 0) as [LE0|LE0]; [lia|].
  (* the number of blocks *)
  assert (N : exists n, (if 2 ^ (b + 3) <? 4096 then (4096, 4096 / 2 ^ (b + 3)) else (2 ^ (b + 3) + 4096, 1)) =
              (grow b, Z.of_nat (S n)) /\ 2 ^ (b + 3) * Z.of_nat n + Bs b = grow b /\ (0 < Z.of_nat n -> b < 9)).
  { unfold grow, Bs. destruct (Z.ltb_spec b 9) as [L|L].
    - pose proof (pow_mono (b + 3) 11). change (2 ^ 11) with 2048 in *.
      destruct (Z.ltb_spec (2 ^ (b + 3)) 4096); [|lia].
      assert (D : 2 ^ (b + 3) * 2 ^ (9 - b) = 4096) by (rewrite <- Z.pow_add_r by lia; replace (b + 3 + (9 - b)) with 12 by lia; reflexivity).
      assert (P : 0 < 2 ^ (9 - b)) by (apply Z.pow_pos_nonneg; lia).
      exists (Z.to_nat (2 ^ (9 - b) - 1)). split; [|split; [nia|auto]].
      f_equal. rewrite <- D at 1. rewrite Z.mul_comm, Z.div_mul by lia. lia.
    - pose proof (pow_mono 12 (b + 3)). change (2 ^ 12) with 4096 in *.
      destruct (Z.ltb_spec (2 ^ (b + 3)) 4096); [lia|]. exists O. split; [reflexivity|]. split; [lia|lia]. }
  destruct N as (n & N1 & N2 & N3). rewrite N1. clear N1.
  destruct (sbrk_ok lo hi (kseg k) (grow b)) as (s' & S1 & S2 & S3 & S4); try lia.
  rewrite S1, bind_Ok. destruct (Z.eqb_spec (sbk (kseg k)) (-1)); [lia|].
  rewrite set_nextf_ok, bind_Ok by lia.
  replace (Z.to_nat (Z.of_nat (S n) - 1)) with n by lia.
  pose proof (Bs_pos b ltac:(lia)) as BP. set (T := sbk (kseg k)) in *.
  destruct (link_ok (2 ^ (b + 3)) P8 n (sm s') T) as (m' & L1 & L2 & L3 & L4).
  { intros x Hx. rewrite S4 by lia. discriminate. }
  { change (le_bytes 8 0) with (repeat 0 8). apply bytes_at_intro. intros i v Hi.
    assert (i < 8)%nat by (rewrite <- (repeat_length 0 8); apply nth_error_Some; congruence).
    rewrite S4 by lia. do 8 (destruct i as [|i]; [cbn in Hi; congruence|]). lia. }
  rewrite L1, bind_Ok. unfold set_mem, set_seg. cbn [kseg kpg kpb kn sbk].
  exists (mkk (mkseg m' (sbk s')) (kpg k) (kpb k) (fun x => if x =? b then T else kn k x)),
    (row (T + 2 ^ (b + 3)) (2 ^ (b + 3)) n).
  split; [reflexivity|]. cbn [kseg sm sbk].
  assert (LOW : forall x, x < T -> m' x = sm (kseg k) x) by (intros x Hx; rewrite L3 by lia; apply S3; auto).
  split; [|split; [exact LOW|exact S2]].
  set (rw := row T (2 ^ (b + 3)) (S n)).
  change (T :: row (T + 2 ^ (b + 3)) (2 ^ (b + 3)) n) with rw in *.
  assert (NEW : forall a, In a rw -> T <= a /\ a + Bs b <= sbk s' /\ (a + 8) mod 2 ^ Z.min (b + 3) 12 = 0 /\
     forall a', In a' rw -> a = a' \/ apart a (Bs b) a' (Bs b)).
  { intros a Ha. destruct (in_row _ _ _ _ Ha) as (i & I1 & I2). subst a.
    split; [nia|]. split; [rewrite S2; nia|]. split.
    - assert (D : (2 ^ Z.min (b + 3) 12 | T + 8)).
      { apply Z.divide_trans with (2 ^ 12); [apply pow_div; lia|]. change (2 ^ 12) with 4096.
        apply Z.mod_divide; [lia|exact QA]. }
      assert (D2 : (2 ^ Z.min (b + 3) 12 | 2 ^ (b + 3) * i)).
      { apply Z.divide_mul_l. apply pow_div. lia. }
      replace (T + 2 ^ (b + 3) * i + 8) with (T + 8 + 2 ^ (b + 3) * i) by lia.
      apply Z.mod_divide; [apply Z.pow_nonzero; lia|]. apply Z.divide_add_r; auto.
    - intros a' Ha'. destruct (in_row _ _ _ _ Ha') as (j & J1 & J2). subst a'.
      destruct (Z.eq_dec i j) as [->|NE]; [auto|]. right.
      assert (BB : Bs b = 2 ^ (b + 3)) by (unfold Bs; destruct (Z.ltb_spec b 9); [auto|]; lia).
      rewrite BB. unfold apart. destruct (Z_lt_dec i j); [left|right]; nia. }
  assert (OLD : forall a c, blk U (updf F b rw) a c -> blk U F a c /\ a + Bs c <= T \/ c = b /\ In a rw).
  { intros a c [H|H].
    - left. assert (B : blk U F a c) by (left; auto). split; [auto|]. apply (i_in _ _ _ _ _ _ I) in B. lia.
    - destruct (Z.eq_dec c b) as [->|NE]; [rewrite updf_same in H; auto|]. rewrite updf_other in H by auto.
      left. assert (B : blk U F a c) by (right; auto). split; [auto|]. apply (i_in _ _ _ _ _ _ I) in B. lia. }
  constructor; cbn [kseg kpg kpb kn sm sbk].
  - exact PG.
  - apply (i_pb _ _ _ _ _ _ I).
  - exact Q0.
  - exact Q2.
  - rewrite S2. lia.
  - rewrite S2. assert (D : (4096 | T + 8)) by (apply Z.mod_divide; [lia|exact QA]).
    assert (D2 : (4096 | grow b)).
    { unfold grow, Bs. destruct (Z.ltb_spec b 9); [exists 1; lia|].
      apply Z.divide_add_r; [change 4096 with (2 ^ 12); apply pow_div; lia|exists 1; lia]. }
    replace (T + grow b + 8) with (T + 8 + grow b) by lia. apply Z.mod_divide; [lia|]. apply Z.divide_add_r; auto.
  - intros x Hx. apply L4. destruct (Z_lt_dec x T).
    + rewrite S3 by auto. apply (i_room _ _ _ _ _ _ I). fold T. lia.
    + rewrite S4 by lia. discriminate.
  - intros c Hc. destruct (Z.eqb_spec c b) as [->|NE]; [rewrite updf_same; exact L2|].
    rewrite updf_other by auto. apply (chain_ext (sm (kseg k))); [apply (i_chain _ _ _ _ _ _ I); auto|].
    intros a Ha x Hx. apply LOW. destruct (i_in _ _ _ _ _ _ I a c) as (X1 & X2 & X3); [right; auto|].
    fold T in X3. pose proof (Bs_pos c ltac:(lia)). lia.
  - intros a c H. destruct (OLD a c H) as [(O1 & O2)|(-> & O2)].
    + apply (i_in _ _ _ _ _ _ I) in O1. rewrite S2. fold T in O1. lia.
    + destruct (NEW a O2) as (X1 & X2 & _). split; [lia|]. split; lia.
  - intros a c H. destruct (OLD a c H) as [(O1 & O2)|(-> & O2)].
    + apply (i_mod _ _ _ _ _ _ I). auto.
    + apply (NEW a O2).
  - intros a c a' c' H H'. destruct (OLD a c H) as [(O1 & O2)|(-> & O2)], (OLD a' c' H') as [(O1' & O2')|(-> & O2')].
    + apply (i_apart _ _ _ _ _ _ I); auto.
    + right. destruct (NEW a' O2') as (X & _). unfold apart. lia.
    + right. destruct (NEW a O2) as (X & _). unfold apart. lia.
    + destruct (NEW a O2) as (_ & _ & _ & X). destruct (X a' O2') as [->|Y]; auto.
  - apply (i_ndu _ _ _ _ _ _ I).
  - intros c. destruct (Z.eq_dec c b) as [->|NE].
    + rewrite updf_same. apply row_nodup. lia.
    + rewrite updf_other by auto. apply (i_ndf _ _ _ _ _ _ I).
  - intros a c H H'. destruct (Z.eq_dec c b) as [->|NE].
    + rewrite updf_same in H'. destruct (NEW a H') as (X & _).
      destruct (i_in _ _ _ _ _ _ I a b) as (Y1 & Y2 & Y3); [left; auto|]. fold T in Y3. lia.
    + rewrite updf_other in H' by auto. eapply (i_ex _ _ _ _ _ _ I); eauto.
  - intros a c H. destruct (i_in _ _ _ _ _ _ I a c) as (Y1 & Y2 & Y3); [left; auto|]. fold T in Y3.
    pose proof (Bs_pos c ltac:(lia)). rewrite !LOW by lia. apply (i_hdr _ _ _ _ _ _ I). auto.
Qed.
