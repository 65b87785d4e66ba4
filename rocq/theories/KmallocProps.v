(* C94-C99: the allocator of contrib *)
From Verif Require Import Base BaseLemmas SortModel SortSpec SortProofs MemModel MemSpec MemProofs ShrinkModel DirModel DirSpec
  DirProofs KmallocModel KmallocSpec KmallocProofs KmallocProofs2 KmallocProofs3 KmallocProofs4 KmallocProofs5
  KmallocProofs6.

(* a program that called nothing yet *)
Definition unused (s : seg) : prog := mkp (mkk s 0 0 (fun _ => 0)) [] [].

Lemma state_start lo hi s R : 0 < sbk s -> lo <= sbk s -> sbk s + 4096 + R <= hi -> 0 <= R -> hi <= LONG_MAX ->
  state lo hi (sbk s) (sm s) (pk (unused s)) R (unused s) [].
Proof.
  intros H0 H1 H2 H3 H4.
  assert (SO : start_of (sbk s) < sbk s + 4096).
  { unfold start_of. pose proof (Z.mod_pos_bound (4088 - sbk s) 4096). lia. }
  destruct (kinit_first lo hi s (fun _ => 0)) as (k & K1 & K2 & K3 & K4); auto; try lia.
  exists k, [], (fun _ => []). cbn [unused pk ptrs ever]. split; [exact K1|]. split; [|split; [lia|auto]].
  constructor; cbn [pk ptrs ever map]; auto. intros p [].
Qed.

Lemma finish fuel srch lo hi s os st : 0 < sbk s -> lo <= sbk s -> sbk s + 4096 + bill os <= hi -> hi <= LONG_MAX ->
  arun [] os = Some st -> Forall (fun o => moves o < Z.of_nat fuel) os ->
  exists c, krun fuel srch lo hi (unused s) (map kop_of os) = Ok c /\
    state lo hi (sbk s) (sm s) (pk (unused s)) (hi - (sbk s + 4096) - bill os) c st.
Proof.
  intros H0 H1 H2 H3 H4 H5. pose proof (bill_nonneg _ _ _ H4).
  apply (run_ok lo hi (sbk s) (sm s) _ fuel srch os _ (unused s) [] st); auto; [|lia].
  apply state_start; auto; lia.
Qed.

(* ---- C94 --------------------------------------------------------------------- *)
(* Whatever a program does with kmalloc, kcalloc, krealloc, kfree and writes into its
   blocks: nothing faults; every block has its size and the bytes that were written
   (kcalloc: zeros, krealloc: those of the old block); no two blocks overlap; blocks
   begin at multiples of 16; memory below the break is as before; the break has not
   moved more than the requests justify. *)
Theorem C94_histories fuel srch lo hi s os st :
  0 < sbk s -> lo <= sbk s -> sbk s + 4096 + bill os <= hi -> hi <= LONG_MAX ->
  arun [] os = Some st -> Forall (fun o => moves o < Z.of_nat fuel) os ->
  exists c, krun fuel srch lo hi (unused s) (map kop_of os) = Ok c /\
    Forall2 (stored (sm (kseg (pk c)))) (ptrs c) st /\ separate (ptrs c) st /\
    Forall2 (fun p d => d <> [] -> p mod 16 = 0) (ptrs c) st /\
    Forall (fun p => sbk s < p) (ptrs c) /\
    (forall x, x < sbk s -> sm (kseg (pk c)) x = sm s x) /\
    sbk (kseg (pk c)) <= sbk s + 4096 + bill os.
Proof.
  intros H0 H1 H2 H3 H4 H5. destruct (finish fuel srch lo hi s os st) as (c & K & S); auto.
  exists c. split; [exact K|]. pose proof (bill_nonneg _ _ _ H4) as HB.
  destruct S as (k1 & U & F & S1 & S2 & S3 & S4).
  destruct S4 as [->|(-> & S5 & S6)].
  - destruct c as [k ps es]. cbn [pk ptrs ever] in *. pose proof (g_inv _ _ _ _ _ _ _ _ S2) as I.
    pose proof (g_ptrs _ _ _ _ _ _ _ _ S2) as P. pose proof (g_st _ _ _ _ _ _ _ _ S2) as FS. cbn [pk ptrs] in *.
    assert (B0 := b0_start (sbk s)).
    split; [|split; [|split; [|split; [|split]]]].
    + rewrite P. clear - FS. induction FS as [|u d U st (H & H') FS IH]; cbn [map]; constructor; auto.
    + rewrite P. intros i j p q d e Hi Hj Hd He N. rewrite nth_error_map in Hi, Hj.
      destruct (Forall2_nth _ _ _ FS i d Hd) as (u & U1 & (C1 & _)). destruct (Forall2_nth _ _ _ FS j e He) as (v & V1 & (C2 & _)).
      rewrite U1 in Hi. rewrite V1 in Hj. injection Hi as <-. injection Hj as <-.
      pose proof (good_apart _ _ _ _ _ _ _ _ i j u v S2 U1 V1 N) as A. destruct C1 as (_ & C1 & _), C2 as (_ & C2 & _).
      unfold apart, us in *. lia.
    + rewrite P. assert (M : forall u, In u U -> blk U F (fst u) (snd u)) by (intros (a & b) H; left; exact H).
      assert (MM := i_mod _ _ _ _ _ _ I). clear - FS M MM.
      assert (Q : forall a b n, blk U F a b -> cls n b -> 0 < n -> (a + 8) mod 16 = 0).
      { intros a b n B (C1 & C2 & C3) Hn. apply MM in B. assert (b <> 0).
        { intros ->. unfold us in C2. change (Bs 0) with 8 in C2. lia. }
        apply Z.mod_divide in B; [|apply Z.pow_nonzero; lia]. apply Z.mod_divide; [lia|].
        eapply Z.divide_trans; [|exact B]. change 16 with (2 ^ 4). apply pow_div. lia. }
      clear MM. revert Q M. generalize (blk U F) as BK. intros BK Q M.
      induction FS as [|u d U st (H & H') FS IH]; cbn [map]; constructor; auto with datatypes.
      intros Hd. apply (Q (fst u) (snd u) (zlen d)); auto with datatypes.
      destruct d; [congruence|]. rewrite zlen_cons. nneg d. lia.
    + rewrite P. apply Forall_forall. intros p H. apply in_map_iff in H. destruct H as ((a & b) & <- & H). cbn [fst].
      pose proof (i_in _ _ _ _ _ _ I a b (or_introl H)). lia.
    + intros x Hx. apply (g_low _ _ _ _ _ _ _ _ S2). exact Hx.
    + lia.
  - pose proof (g_ptrs _ _ _ _ _ _ _ _ S2) as P. pose proof (g_st _ _ _ _ _ _ _ _ S2) as FS. cbn [ptrs map] in P.
    inversion FS; subst. rewrite P, S6. cbn [unused pk kseg].
    split; [constructor|]. split; [intros [|i]; discriminate|]. split; [constructor|]. split; [constructor|].
    split; [auto|]. lia.
Qed.
Print Assumptions C94_histories.
Definition ex_kseg := mkseg (fun x => if (0 <? x) && (x <? 5000) then Some 7 else None) 5000.
Definition ex_kops := [AMalloc 100; AWrite 0 99 11; AMalloc 3; AWrite 0 2 12; ACalloc 3 7; ARealloc 2 300;
  AWrite 0 299 13; AFree 2; AMalloc 1; AMalloc 2000000000; ARealloc 1 280; AMalloc (-5); AMalloc 10000; AFree 1].
Definition ex_end : res prog := krun 500 4 5000 5000000000 (unused ex_kseg) (map kop_of ex_kops).
Definition ex_ask {A} (f : prog -> A) : res A := let* c := ex_end in Ok (f c).
Definition ex_blocks : list cells := match arun [] ex_kops with Some st => st | None => [] end.
Example C94_histories_case :
  5000 + 4096 + bill ex_kops <= 5000000000 /\ Forall (fun o => moves o < Z.of_nat 500) ex_kops /\
  arun [] ex_kops = Some ex_blocks /\ map zlen ex_blocks = [10000; 280; 1; 21] /\
  nth 99 (nth 1 ex_blocks []) None = Some 11 /\ nth 3 (nth 3 ex_blocks []) None = Some 0 /\
  ex_ask ptrs = Ok [28672; 20480; 12288; 16384] /\ ex_ask (fun c => sbk (kseg (pk c))) = Ok 40952.
Proof.
  split; [vm_compute; discriminate|]. split; [repeat constructor|].
  split; [vm_compute; reflexivity|]. split; [vm_compute; reflexivity|]. split; [vm_compute; reflexivity|].
  split; [vm_compute; reflexivity|]. split; vm_compute; reflexivity.
Qed.

(* ---- C95 --------------------------------------------------------------------- *)
(* After any history: kfree of NULL, and kfree of a pointer that the program got once
   and that is not in use now (it was freed before, or krealloc moved the block)
   changes nothing at all. *)
Theorem C95_free_twice fuel srch lo hi s os st c p :
  0 < sbk s -> lo <= sbk s -> sbk s + 4096 + bill os <= hi -> hi <= LONG_MAX ->
  arun [] os = Some st -> Forall (fun o => moves o < Z.of_nat fuel) os ->
  krun fuel srch lo hi (unused s) (map kop_of os) = Ok c ->
  In p (ever c) \/ p = 0 -> ~ In p (ptrs c) ->
  kfree (pk c) p = Ok (pk c).
Proof.
  intros H0 H1 H2 H3 H4 H5 HK [HP| ->] HN; [|reflexivity].
  destruct (finish fuel srch lo hi s os st) as (c' & K & S); auto. rewrite K in HK. injection HK as <-.
  destruct S as (k1 & U & F & S1 & S2 & S3 & S4).
  destruct S4 as [->|(_ & S5 & _)]; [|rewrite S5 in HP; destruct HP].
  destruct c' as [k ps es]. cbn [pk ptrs ever] in *.
  destruct (g_ever _ _ _ _ _ _ _ _ S2 p HP) as (b & [B|B]).
  - exfalso. apply HN. pose proof (g_ptrs _ _ _ _ _ _ _ _ S2) as P. cbn [ptrs] in P. rewrite P.
    apply in_map_iff. exists (p - 8, b). cbn [fst]. split; [lia|auto].
  - replace p with (p - 8 + 8) by lia. eapply free_again; [apply (g_inv _ _ _ _ _ _ _ _ S2)|]. cbn [pk]. exact B.
Qed.
Print Assumptions C95_free_twice.
Example C95_free_twice_case :
  ex_ask ever = Ok [28672; 24576; 20480; 12288; 20480; 16384; 12288; 8192] /\
  ex_ask ptrs = Ok [28672; 20480; 12288; 16384].
Proof. split; vm_compute; reflexivity. Qed.

(* ---- C96 --------------------------------------------------------------------- *)
Lemma us_size b : us b = block_size (b + 3).
Proof. unfold us, Bs, block_size. destruct (Z.ltb_spec b 9), (Z.ltb_spec (b + 3) 12); lia. Qed.
Lemma cls_same n n' b : cls n b -> same_size n' n -> cls n' b.
Proof.
  intros (H1 & H2 & H3) S. rewrite !us_size in *. unfold cls. rewrite !us_size. split; [auto|]. split; [apply (S (b + 3)); [lia|auto]|].
  destruct H3 as [->|H3]; [auto|]. destruct (Z.eq_dec b 0); [auto|]. right.
  destruct (Z_le_gt_dec n' (block_size (b - 1 + 3))) as [L|L]; [|lia].
  apply (S (b - 1 + 3)) in L; lia.
Qed.
Lemma cls_top n b : cls n b -> n <= LARGEST.
Proof. intros (H1 & H2 & _). pose proof (Bs_max b H1). unfold us, LARGEST in *. lia. Qed.

(* A block that was freed is the next one that is used for a request of its size, and
   the break does not move. *)
Theorem C96_reuse fuel srch lo hi s os st c i p d n :
  0 < sbk s -> lo <= sbk s -> sbk s + 4096 + bill os <= hi -> hi <= LONG_MAX ->
  arun [] os = Some st -> Forall (fun o => moves o < Z.of_nat fuel) os ->
  krun fuel srch lo hi (unused s) (map kop_of os) = Ok c ->
  nth_error (ptrs c) i = Some p -> nth_error st i = Some d -> 0 <= n -> same_size n (zlen d) ->
  exists k1 k2, kfree (pk c) p = Ok k1 /\ kmalloc lo hi k1 n = Ok (k2, p) /\
    sbk (kseg k2) = sbk (kseg (pk c)).
Proof.
  intros H0 H1 H2 H3 H4 H5 HK HP HD Hn HS.
  destruct (finish fuel srch lo hi s os st) as (c' & K & S); auto. rewrite K in HK. injection HK as <-.
  destruct (state_started _ _ _ _ _ _ _ _ _ _ S HD) as (U & F & a & b & G & U1 & U2 & _).
  rewrite HP in U2. injection U2 as ->. destruct c' as [k ps es]. cbn [pk ptrs] in *.
  destruct (Forall2_nth _ _ _ (g_st _ _ _ _ _ _ _ _ G) i d HD) as (u & V1 & V2). rewrite U1 in V1. injection V1 as <-.
  destruct V2 as (C & _). cbn [snd] in C. pose proof (cls_same _ _ _ C HS) as C'.
  destruct (good_free lo hi (sbk s) (sm s) k ps es U F st i a b G U1) as (k1 & K1 & K2 & _ & K4).
  exists k1. pose proof (g_inv _ _ _ _ _ _ _ _ K2) as I. cbn [pk] in I.
  rewrite (kmalloc_eq lo hi _ k1 k1 _ _ n (kinit_done _ _ _ _ _ _ I) I).
  unfold kmalloc_go. destruct (pick_ok n (cls_top _ _ C')) as (b' & E & CB). rewrite E, bind_Ok.
  replace (Z.max 0 n) with n in CB by lia. pose proof (cls_unique _ _ _ CB C') as ->.
  assert (HB : 0 <= b < 30) by (destruct C' as (X & _); lia).
  rewrite nextf_ok, bind_Ok by auto. pose proof (i_chain _ _ _ _ _ _ I b HB) as CH. rewrite updf_same in CH.
  cbn [chain] in CH. destruct CH as (CH & _). rewrite CH.
  pose proof (i_in _ _ _ _ _ _ (g_inv _ _ _ _ _ _ _ _ G) a b (or_introl (nth_error_In _ _ U1))) as A.
  pose proof (i_lo _ _ _ _ _ _ I) as Q0. destruct (Z.eqb_spec a 0); [lia|].
  destruct (take_ok lo hi _ k1 _ _ b a (F b) I HB (updf_same _ _ _)) as (k2 & T1 & _ & _ & T4).
  exists k2. split; [exact K1|]. split; [exact T1|]. congruence.
Qed.
Print Assumptions C96_reuse.
Lemma same_size_dec n n' : forallb (fun k => Bool.eqb (n <=? block_size (Z.of_nat k)) (n' <=? block_size (Z.of_nat k)))
  (seq 3 28) = true <-> same_size n n'.
Proof.
  rewrite forallb_forall. split; intros H.
  - intros k Hk. specialize (H (Z.to_nat k)). rewrite Z2Nat.id in H by lia.
    rewrite Bool.eqb_true_iff in H. rewrite <- !Z.leb_le. rewrite H; [tauto|]. apply in_seq. lia.
  - intros k Hk. apply in_seq in Hk. specialize (H (Z.of_nat k) ltac:(lia)).
    apply Bool.eqb_true_iff. apply Bool.eq_true_iff_eq. rewrite !Z.leb_le. exact H.
Qed.
Example C96_reuse_case : same_size 100 58 /\ ~ same_size 100 56 /\ same_size 2041 8184 /\
  ex_ask (fun c => nth_error (ptrs c) 3) = Ok (Some 16384) /\ option_map zlen (nth_error ex_blocks 3) = Some 21.
Proof.
  split; [apply same_size_dec; vm_compute; reflexivity|].
  split; [rewrite <- same_size_dec; vm_compute; discriminate|].
  split; [apply same_size_dec; vm_compute; reflexivity|]. split; vm_compute; reflexivity.
Qed.

(* ---- C97 --------------------------------------------------------------------- *)
(* krealloc to a size that needs the same block returns the pointer and changes
   nothing.  (That other sizes keep the bytes too is part of C94.) *)
Theorem C97_realloc_same fuel srch lo hi s os st c i p d n fuel' :
  0 < sbk s -> lo <= sbk s -> sbk s + 4096 + bill os <= hi -> hi <= LONG_MAX ->
  arun [] os = Some st -> Forall (fun o => moves o < Z.of_nat fuel) os ->
  krun fuel srch lo hi (unused s) (map kop_of os) = Ok c ->
  nth_error (ptrs c) i = Some p -> nth_error st i = Some d -> 0 < n -> same_size n (zlen d) ->
  krealloc fuel' srch lo hi (pk c) p n = Ok (pk c, p).
Proof.
  intros H0 H1 H2 H3 H4 H5 HK HP HD Hn HS.
  destruct (finish fuel srch lo hi s os st) as (c' & K & S); auto. rewrite K in HK. injection HK as <-.
  destruct (state_started _ _ _ _ _ _ _ _ _ _ S HD) as (U & F & a & b & G & U1 & U2 & _).
  rewrite HP in U2. injection U2 as ->. destruct c' as [k ps es]. cbn [pk ptrs] in *.
  destruct (Forall2_nth _ _ _ (g_st _ _ _ _ _ _ _ _ G) i d HD) as (u & V1 & V2). rewrite U1 in V1. injection V1 as <-.
  destruct V2 as (C & _). cbn [snd] in C. pose proof (cls_same _ _ _ C HS) as C'. pose proof (cls_top _ _ C') as TP.
  pose proof (g_inv _ _ _ _ _ _ _ _ G) as I. cbn [pk] in I.
  pose proof (i_in _ _ _ _ _ _ I a b (or_introl (nth_error_In _ _ U1))) as A. pose proof (i_lo _ _ _ _ _ _ I) as Q0.
  destruct (i_hdr _ _ _ _ _ _ I a b (nth_error_In _ _ U1)) as (D1 & D2). pose proof (i_pg _ _ _ _ _ _ I) as PG.
  unfold krealloc, OVER. destruct (Z.eqb_spec (a + 8) 0); [lia|]. destruct (Z.eqb_spec n 0); [lia|].
  replace (a + 8 - 8) with a by lia. cbv zeta. rewrite (load_some _ _ _ D1), bind_Ok, Z.eqb_refl.
  rewrite (load_some _ _ _ D2), bind_Ok, usable_ok, bind_Ok by tauto.
  unfold LARGEST in TP. rewrite u64_small by lia. destruct C' as (C1 & C2 & C3).
  assert (b <> 0). { intros ->. unfold us in C2. change (Bs 0) with 8 in C2. lia. }
  destruct (Z.eqb_spec b 0); [contradiction|]. rewrite usable_ok, bind_Ok by (auto; lia).
  destruct (Z.leb_spec n (us b)); [|lia]. destruct (Z.ltb_spec (us (b - 1)) n); [reflexivity|lia].
Qed.
Print Assumptions C97_realloc_same.
Example C97_realloc_same_case :
  (let* c := ex_end in let* (_, p) := krealloc 0 4 5000 5000000000 (pk c) 20480 249 in Ok p) = Ok 20480 /\
  (let* c := ex_end in let* (_, p) := krealloc 600 4 5000 5000000000 (pk c) 20480 505 in Ok p) = Ok 40960.
Proof. split; vm_compute; reflexivity. Qed.

(* ---- C98 --------------------------------------------------------------------- *)
(* a request for more than the largest block returns NULL and changes nothing, once
   the allocator was used *)
Theorem C98_too_large_partial fuel srch lo hi s os st c n :
  0 < sbk s -> lo <= sbk s -> sbk s + 4096 + bill os <= hi -> hi <= LONG_MAX ->
  arun [] os = Some st -> Forall (fun o => moves o < Z.of_nat fuel) os ->
  krun fuel srch lo hi (unused s) (map kop_of os) = Ok c -> ever c <> [] -> LARGEST < n <= INT_MAX ->
  kmalloc lo hi (pk c) n = Ok (pk c, 0).
Proof.
  intros H0 H1 H2 H3 H4 H5 HK HE Hn.
  destruct (finish fuel srch lo hi s os st) as (c' & K & S); auto. rewrite K in HK. injection HK as <-.
  destruct S as (k1 & U & F & S1 & S2 & S3 & S4). destruct S4 as [->|(_ & S5 & _)]; [|contradiction].
  rewrite (kmalloc_eq lo hi _ _ _ U F n S1 (g_inv _ _ _ _ _ _ _ _ S2)).
  eapply kmalloc_go_big; [apply (g_inv _ _ _ _ _ _ _ _ S2)|lia].
Qed.
Print Assumptions C98_too_large_partial.
Example C98_too_large_case : ex_ask (fun c => length (ever c)) = Ok 8%nat /\ LARGEST < 1500000000 <= INT_MAX.
Proof. split; [vm_compute; reflexivity|]. unfold LARGEST, INT_MAX. lia. Qed.

(* The break cannot move: sbrk does not notice it, kmalloc writes behind the segment. *)
Theorem C98_limit_refuted : exists lo hi s n, 0 < sbk s /\ lo <= sbk s <= hi /\ hi <= LONG_MAX /\ 0 < n <= LARGEST /\
  kmalloc lo hi (pk (unused s)) n = Fault.
Proof.
  exists 5000, 9000, ex_kseg, 5. split; [cbn; lia|]. split; [cbn; lia|]. split; [unfold LONG_MAX; lia|].
  split; [unfold LARGEST; lia|]. vm_compute. reflexivity.
Qed.
Print Assumptions C98_limit_refuted.

(* krealloc that returns NULL has already freed the block: the next kmalloc gives it
   to somebody else, so the pointer that the program still holds is not its own. *)
Theorem C98_realloc_fails_refuted : exists fuel lo hi s n k p k1 k2,
  0 < sbk s /\ lo <= sbk s <= hi /\ hi <= LONG_MAX /\
  kmalloc lo hi (pk (unused s)) 100 = Ok (k, p) /\ krealloc fuel 4 lo hi k p n = Ok (k1, 0) /\
  kmalloc lo hi k1 100 = Ok (k2, p).
Proof.
  exists 10%nat, 5000, 5000000000, ex_kseg, 1073745913.
  assert (A : (let* (k, p) := kmalloc 5000 5000000000 (pk (unused ex_kseg)) 100 in
    let* (k1, q) := krealloc 10 4 5000 5000000000 k p 1073745913 in
    let* (k2, r) := kmalloc 5000 5000000000 k1 100 in Ok (q, r =? p)) = Ok (0, true)) by (vm_compute; reflexivity).
  destruct (kmalloc 5000 5000000000 (pk (unused ex_kseg)) 100) as [[k p]| |]; try discriminate A.
  rewrite bind_Ok in A. destruct (krealloc 10 4 5000 5000000000 k p 1073745913) as [[k1 q]| |] eqn:E1; try discriminate A.
  rewrite bind_Ok in A. destruct (kmalloc 5000 5000000000 k1 100) as [[k2 r]| |] eqn:E2; try discriminate A.
  rewrite bind_Ok in A. injection A as -> A. apply Z.eqb_eq in A. subst r. exists k, p, k1, k2.
  split; [cbn; lia|]. split; [cbn; lia|]. split; [unfold LONG_MAX; lia|]. auto.
Qed.
Print Assumptions C98_realloc_fails_refuted.

(* kcalloc does not look at the result of kmalloc: it clears memory at NULL, where
   nothing is *)
Theorem C98_calloc_null_refuted : exists lo hi s n, 0 < sbk s /\ lo <= sbk s <= hi /\ hi <= LONG_MAX /\ 0 < n <= INT_MAX /\
  forall fuel, kcalloc (S fuel) lo hi (pk (unused s)) 1 n = Fault.
Proof.
  exists 5000, 5000000000, ex_kseg, 1073745913. split; [cbn; lia|]. split; [cbn; lia|]. split; [unfold LONG_MAX; lia|].
  split; [unfold INT_MAX; lia|]. intros fuel. unfold kcalloc.
  rewrite lop_ok, bind_Ok by (unfold LONG_MIN, LONG_MAX; lia).
  rewrite s32_small by (unfold INT_MIN, INT_MAX; lia).
  assert (A : (let* (k, p) := kmalloc 5000 5000000000 (pk (unused ex_kseg)) (1 * 1073745913) in
    Ok (p, sm (kseg k) 0)) = Ok (0, None)) by (vm_compute; reflexivity).
  destruct (kmalloc 5000 5000000000 (pk (unused ex_kseg)) (1 * 1073745913)) as [[k p]| |]; try discriminate A.
  rewrite bind_Ok in *. injection A as -> P. unfold memset. cbn [memset_loop].
  change (0 <? 1 * 1073745913) with true. cbv iota. unfold store. change (0 + 0) with 0. rewrite P. reflexivity.
Qed.
Print Assumptions C98_calloc_null_refuted.

(* the product of kcalloc is cut to an int: 65536 blocks of 65536 bytes get a block of
   no bytes (the next request of no bytes gets memory 8 bytes later) *)
Theorem C98_calloc_product_refuted : exists lo hi s k p k' q, 0 < sbk s /\ lo <= sbk s <= hi /\ hi <= LONG_MAX /\
  kcalloc 1 lo hi (pk (unused s)) 65536 65536 = Ok (k, p) /\ p <> 0 /\
  kmalloc lo hi k 0 = Ok (k', q) /\ q = p + 8.
Proof.
  exists 5000, 5000000000, ex_kseg.
  assert (A : (let* (k, p) := kcalloc 1 5000 5000000000 (pk (unused ex_kseg)) 65536 65536 in
    let* (k', q) := kmalloc 5000 5000000000 k 0 in Ok (p =? 0, q - p)) = Ok (false, 8)) by (vm_compute; reflexivity).
  destruct (kcalloc 1 5000 5000000000 (pk (unused ex_kseg)) 65536 65536) as [[k p]| |]; try discriminate A.
  rewrite bind_Ok in A. destruct (kmalloc 5000 5000000000 k 0) as [[k' q]| |] eqn:E2; try discriminate A.
  rewrite bind_Ok in A. injection A as A1 A2. apply Z.eqb_neq in A1.
  exists k, p, k', q. split; [cbn; lia|]. split; [cbn; lia|]. split; [unfold LONG_MAX; lia|]. split; [auto|].
  split; [auto|]. split; [auto|lia].
Qed.
Print Assumptions C98_calloc_product_refuted.

(* krealloc to 2^32 + 1 bytes: kmalloc is asked for 1 byte, then all bytes of the old
   block are copied over the blocks that follow; the program has two blocks, the other
   one is overwritten *)
Theorem C98_realloc_wide_refuted : exists fuel lo hi s os c n d p k q,
  0 < sbk s /\ lo <= sbk s <= hi /\ hi <= LONG_MAX /\
  krun fuel 4 lo hi (unused s) os = Ok c /\ ptrs c = [d; p] /\
  krealloc fuel 4 lo hi (pk c) d n = Ok (k, q) /\ q <> 0 /\
  sm (kseg (pk c)) p = Some 55 /\ sm (kseg k) p = Some 0.
Proof.
  exists 300%nat, 5000, 5000000000, ex_kseg, [KMalloc 1; KMalloc 1; KWrite 0 0 55; KMalloc 100; KFree 2].
  assert (A : (let* c := krun 300 4 5000 5000000000 (unused ex_kseg)
    [KMalloc 1; KMalloc 1; KWrite 0 0 55; KMalloc 100; KFree 2] in let* (k, q) := krealloc 300 4 5000 5000000000 (pk c) 12288 4294967297 in
     Ok (ptrs c, q =? 0, sm (kseg (pk c)) 8208, sm (kseg k) 8208)) = Ok ([12288; 8208], false, Some 55, Some 0))
    by (vm_compute; reflexivity).
  destruct (krun 300 4 5000 5000000000 (unused ex_kseg)
    [KMalloc 1; KMalloc 1; KWrite 0 0 55; KMalloc 100; KFree 2]) as [c| |]; try discriminate A. rewrite bind_Ok in A.
  exists c, 4294967297, 12288, 8208.
  destruct (krealloc 300 4 5000 5000000000 (pk c) 12288 4294967297) as [[k q]| |] eqn:E2; try discriminate A.
  rewrite bind_Ok in A. injection A as A1 A2 A3 A4. exists k, q.
  split; [cbn; lia|]. split; [cbn; lia|]. split; [unfold LONG_MAX; lia|]. split; [reflexivity|]. split; [exact A1|].
  split; [reflexivity|]. split; [|auto]. apply Z.eqb_neq. exact A2.
Qed.
Print Assumptions C98_realloc_wide_refuted.

(* kmalloc_usable_size returns the number of the bucket: less than the bytes that
   were asked for *)
Theorem C98_usable_refuted : exists lo hi s n k p z, 0 < sbk s /\ lo <= sbk s <= hi /\ hi <= LONG_MAX /\
  kmalloc lo hi (pk (unused s)) n = Ok (k, p) /\ p <> 0 /\ kmalloc_usable_size k p = Ok z /\ z < n.
Proof.
  exists 5000, 5000000000, ex_kseg, 100.
  assert (A : (let* (k, p) := kmalloc 5000 5000000000 (pk (unused ex_kseg)) 100 in
    let* z := kmalloc_usable_size k p in Ok (p =? 0, z)) = Ok (false, 4)) by (vm_compute; reflexivity).
  destruct (kmalloc 5000 5000000000 (pk (unused ex_kseg)) 100) as [[k p]| |]; try discriminate A.
  rewrite bind_Ok in A. destruct (kmalloc_usable_size k p) as [z| |] eqn:E; try discriminate A.
  rewrite bind_Ok in A. injection A as A1 ->. apply Z.eqb_neq in A1.
  exists k, p, 4. split; [cbn; lia|]. split; [cbn; lia|]. split; [unfold LONG_MAX; lia|]. split; [reflexivity|].
  split; [auto|]. split; [auto|lia].
Qed.
Print Assumptions C98_usable_refuted.

(* ---- C99 --------------------------------------------------------------------- *)
(* "storage compaction": krealloc of the block that was freed last finds its bytes
   again, whatever the new size; the other blocks keep theirs. *)
Theorem C99_compaction fuel srch lo hi s os st c i p d n :
  0 < sbk s -> lo <= sbk s -> sbk s + 4096 + bill os + (2 * n + 8192) <= hi -> hi <= LONG_MAX ->
  arun [] os = Some st -> Forall (fun o => moves o < Z.of_nat fuel) os ->
  krun fuel srch lo hi (unused s) (map kop_of os) = Ok c ->
  nth_error (ptrs c) i = Some p -> nth_error st i = Some d -> 0 < n <= LARGEST -> n < Z.of_nat fuel ->
  exists k1 k2 q, kfree (pk c) p = Ok k1 /\ krealloc fuel srch lo hi k1 p n = Ok (k2, q) /\
    Forall2 (stored (sm (kseg k2))) (q :: drop_nth i (ptrs c)) (resize d n :: drop_nth i st) /\
    separate (q :: drop_nth i (ptrs c)) (resize d n :: drop_nth i st).
Proof.
  intros H0 H1 H2 H3 H4 H5 HK HP HD Hn Hf.
  destruct (finish fuel srch lo hi s os st) as (c' & K & S); auto; [lia|]. rewrite K in HK. injection HK as <-.
  destruct (state_started _ _ _ _ _ _ _ _ _ _ S HD) as (U & F & a & b & G & U1 & U2 & HS).
  rewrite HP in U2. injection U2 as ->. destruct c' as [k ps es]. cbn [pk ptrs] in *.
  destruct (good_compact lo hi (sbk s) (sm s) fuel srch k ps es U F st i a b d n G U1 HD) as
    (k1 & k2 & a' & b' & F' & K1 & K2 & _ & K3); auto; try lia.
  exists k1, k2, (a' + 8). split; [exact K1|]. split; [exact K2|].
  pose proof (g_st _ _ _ _ _ _ _ _ K3) as FS. pose proof (g_ptrs _ _ _ _ _ _ _ _ K3) as P. cbn [pk ptrs] in *.
  rewrite without_drop in P.
  rewrite P. split.
  - revert FS. generalize ((a', b') :: without i U) as V. generalize (resize d n :: drop_nth i st) as w. clear.
    intros w V FS. induction FS as [|u e V w (H & H') FS IH]; cbn [map]; constructor; auto.
  - intros x y p q e f Hx Hy He Hf2 N. rewrite nth_error_map in Hx, Hy.
    destruct (Forall2_nth _ _ _ FS x e He) as (u & V1 & (C1 & _)). destruct (Forall2_nth _ _ _ FS y f Hf2) as (v & W1 & (C2 & _)).
    rewrite V1 in Hx. rewrite W1 in Hy. injection Hx as <-. injection Hy as <-.
    pose proof (good_apart _ _ _ _ _ _ _ _ x y u v K3 V1 W1 N) as A. destruct C1 as (_ & C1 & _), C2 as (_ & C2 & _).
    unfold apart, us in *. lia.
Qed.
Print Assumptions C99_compaction.
Example C99_compaction_case :
  (let* c := ex_end in let* k := kfree (pk c) 20480 in
   let* (k, q) := krealloc 600 4 5000 5000000000 k 20480 505 in
   Ok (q, sm (kseg k) (q + 99))) = Ok (40960, Some 11).
Proof. vm_compute. reflexivity. Qed.
