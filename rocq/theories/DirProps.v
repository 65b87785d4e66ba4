(* C64, C83, C84: scandir, directory streams, the data segment *)
From Verif Require Import Base BaseLemmas StrSpec StrModel StrProofs2 SortModel SortSpec SortProofs ShrinkModel DirModel
  DirSpec DirProofs DirProofs2 DirProofs3 DirProofs4.

(* entries of 24 bytes: inode 7, d_off, length, type, name *)
Definition ex_ent (off : Z) (name : list Z) : list Z :=
  le_bytes 8 7 ++ le_bytes 8 off ++ le_bytes 2 24 ++ name ++ repeat 0 (6 - length name).
Definition ex_a := ex_ent 11 [97].
Definition ex_b := ex_ent 22 [98; 98].
Definition ex_c := ex_ent 33 [99].
Definition ex_bs : list (list (list Z)) := [[ex_c; ex_b]; [ex_a]].
(* by the first letter of the name; all but "bb" *)
Definition ex_cmp (x y : list Z) : Z := nth 18 x 0 - nth 18 y 0.
Definition ex_sel (x : list Z) : Z := if nth 18 x 0 =? 98 then 0 else 1.
Definition ex_seg := mkseg (fun x => if (0 <? x) && (x <? 1000) then Some 5 else None) 1000.

Lemma bytes_check (l : list Z) : forallb (fun b => (0 <=? b) && (b <=? 255)) l = true ->
  Forall (fun b => 0 <= b <= 255) l.
Proof.
  rewrite forallb_forall. intros H. apply Forall_forall. intros b Hb. specialize (H b Hb).
  apply andb_prop in H. destruct H as (H1 & H2). apply Z.leb_le in H1, H2. lia.
Qed.
Lemma ex_dirents : Forall dirent [ex_a; ex_b; ex_c].
Proof.
  repeat apply Forall_cons; try apply Forall_nil;
    (split; [apply bytes_check; vm_compute; reflexivity|]; split; vm_compute; congruence).
Qed.
Lemma ex_batches : batches SBUF ex_bs.
Proof.
  pose proof ex_dirents as F. rewrite Forall_forall in F. cbn [In] in F.
  repeat apply Forall_cons; try apply Forall_nil; (split; [discriminate|]; split;
    [vm_compute; discriminate|]); repeat apply Forall_cons; try apply Forall_nil; apply F; auto.
Qed.

(* ---- C64 -------------------------------------------------------------------- *)
(* A directory that opens (fd) and reads (fin = 0: the last getdents found the end)
   with less than 128 MiB of entries, and space in the data segment.  *listing is a
   list of pointers to copies of the accepted entries, the result is their number;
   the entries keep the order of the directory or are sorted. *)
Theorem C64_scandir_partial lo hi sel cmp fuel s start fd bs :
  0 <= fd -> batches 4096 bs -> (length (concat bs) + 1 < fuel)%nat ->
  zlen (concat (concat bs)) <= 134217000 ->
  0 < sbk s -> lo <= sbk s -> sbk s + 2 * zlen (concat (concat bs)) + 4112 <= hi -> hi <= LONG_MAX ->
  let es := accepted sel (concat bs) in
  exists s' listing ps es',
    scandir lo hi sel cmp fuel s start fd bs 0 = Ok (s', zlen es, Some listing) /\
    pointers_at (sm s') listing ps /\ Forall2 (bytes_at (sm s')) ps es' /\
    Permutation es es' /\ (cmp = None -> es' = es) /\
    (forall c, cmp = Some c -> total_preorder c es -> sorted c es') /\
    Forall (fun p => sbk s <= p <= LONG_MAX) ps /\
    (forall x, x < sbk s -> sm s' x = sm s x).
Proof. intros. apply (scandir_ok lo hi sel cmp fuel s start fd bs 0); auto. lia. Qed.
Print Assumptions C64_scandir_partial.
Example C64_scandir_hyps :
  batches 4096 ex_bs /\ (length (concat ex_bs) + 1 < 6)%nat /\
  zlen (concat (concat ex_bs)) <= 134217000 /\ 0 < sbk ex_seg /\ 1000 <= sbk ex_seg /\
  sbk ex_seg + 2 * zlen (concat (concat ex_bs)) + 4112 <= 100000.
Proof.
  split; [exact ex_batches|]. split; [cbn; lia|]. vm_compute.
  repeat split; congruence.
Qed.
Lemma ex_total : total_preorder ex_cmp (accepted (Some ex_sel) (concat ex_bs)).
Proof. split; intros; unfold ex_cmp in *; lia. Qed.
(* the accepted entries are c and a; sorted they are a and c *)
Example C64_scandir_case : accepted (Some ex_sel) (concat ex_bs) = [ex_c; ex_a] /\
  exists s', scandir 1000 100000 (Some ex_sel) (Some ex_cmp) 6 ex_seg 0 3 ex_bs 0 =
    Ok (s', 2, Some 1052) /\
  loads 16 (sm s') 1052 = Ok (le_bytes 8 1028 ++ le_bytes 8 1004) /\
  loads 24 (sm s') 1028 = Ok ex_a /\ loads 24 (sm s') 1004 = Ok ex_c.
Proof.
  split; [reflexivity|].
  destruct (scandir 1000 100000 (Some ex_sel) (Some ex_cmp) 6 ex_seg 0 3 ex_bs 0)
    as [[[s' n] o]| |] eqn:E; [|vm_compute in E; discriminate|vm_compute in E; discriminate].
  exists s'. 
  assert (Q : match scandir 1000 100000 (Some ex_sel) (Some ex_cmp) 6 ex_seg 0 3 ex_bs 0 with
              | Ok (s', n, o) => n = 2 /\ o = Some 1052 /\
                 loads 16 (sm s') 1052 = Ok (le_bytes 8 1028 ++ le_bytes 8 1004) /\
                 loads 24 (sm s') 1028 = Ok ex_a /\ loads 24 (sm s') 1004 = Ok ex_c
              | _ => False end).
  { vm_compute. repeat split. }
  rewrite E in Q. destruct Q as (-> & -> & Q). auto.
Qed.

(* a directory that does not open, or that does not read to the end: the error
   number is the result, *listing is not set *)
Theorem C64_errors lo hi sel cmp fuel s start fd bs fin :
  batches 4096 bs -> (length (concat bs) + 1 < fuel)%nat ->
  zlen (concat (concat bs)) <= 134217000 ->
  0 < sbk s -> lo <= sbk s -> sbk s + 2 * zlen (concat (concat bs)) + 4112 <= hi -> hi <= LONG_MAX ->
  fd < 0 \/ (0 <= fd /\ fin < 0) ->
  exists s', scandir lo hi sel cmp fuel s start fd bs fin =
    Ok (s', if fd <? 0 then fd else fin, None) /\
  forall x, x < sbk s -> sm s' x = sm s x.
Proof.
  intros HB Hf HT Hs0 Hs1 Hs2 HL Hx.
  pose proof (zlen_nonneg (concat (concat bs))) as N0.
  unfold scandir. destruct (Z.ltb_spec fd 0); [exists s; auto|].
  destruct Hx as [Hx|(_ & Hx)]; [lia|].
  destruct (malloc_brk_ok lo hi s start SBUF) as (s1 & start1 & z & -> & L1 & Hz & K1 & _);
    try (unfold SBUF; lia).
  rewrite bind_Ok. set (buf := sbk s + 4) in *. destruct (Z.eqb_spec buf 0); [lia|].
  destruct (scan_loop_ok lo hi sel fuel buf ltac:(unfold buf; lia) bs s1 [] 0 z)
    as (s2 & z2 & E & L2 & Hz2 & Hcp & B2 & K2); auto;
    try (unfold SBUF, buf in *; cbn [concat]; change (zlen (@nil Z)) with 0; lia).
  { exact I. }
  change (zlen (concat [])) with 0 in E. change (zlen (@nil (list Z))) with 0 in E.
  rewrite E, bind_Ok. destruct (Z.ltb_spec fin 0); [|lia].
  exists s2. split; [reflexivity|]. intros x Hx'. rewrite K2, K1 by (unfold buf; lia). reflexivity.
Qed.
Print Assumptions C64_errors.
Example C64_errors_case : exists s', scandir 1000 100000 None None 6 ex_seg 0 3 ex_bs (-2) = Ok (s', -2, None).
Proof.
  destruct (C64_errors 1000 100000 None None 6 ex_seg 0 3 ex_bs (-2)) as (s' & E & _);
    try apply C64_scandir_hyps; try (unfold LONG_MAX; lia). exists s'. exact E.
Qed.

(* with alphasort the names are in the order of their bytes: c e1 e2 is the number
   that alphasort returns for pointers to e1 and e2 *)
Definition by_alphasort (c : list Z -> list Z -> Z) (es : list (list Z)) : Prop :=
  forall e1 e2, In e1 es -> In e2 es -> exists m p q,
    bytes_at m p e1 /\ bytes_at m q e2 /\
    forall fuel, (length e1 < fuel)%nat -> alphasort fuel m p q = Ok (c e1 e2).

Lemma named_str m p e n : named e n -> bytes_at m p e -> str_at m (p + 18) n.
Proof.
  intros (Hn & h & pad & -> & Hh) B. apply bytes_at_app in B. destruct B as (_ & B).
  rewrite Hh in B. revert B. generalize (p + 18). clear - Hn.
  induction Hn as [|b n Hb Hn IH]; intros q B; cbn [app bytes_at str_at] in *; [tauto|].
  destruct B as (B1 & B2). auto.
Qed.
Theorem C64_alphasort lo hi sel c fuel s start fd bs names :
  0 <= fd -> batches 4096 bs -> (length (concat bs) + 1 < fuel)%nat ->
  zlen (concat (concat bs)) <= 134217000 ->
  0 < sbk s -> lo <= sbk s -> sbk s + 2 * zlen (concat (concat bs)) + 4112 <= hi -> hi <= LONG_MAX ->
  let es := accepted sel (concat bs) in
  by_alphasort c es -> (forall e, In e es -> named e (names e)) ->
  exists s' listing ps es',
    scandir lo hi sel (Some c) fuel s start fd bs 0 = Ok (s', zlen es, Some listing) /\
    pointers_at (sm s') listing ps /\ Forall2 (bytes_at (sm s')) ps es' /\ Permutation es es' /\
    forall i j x y, (i < j)%nat -> nth_error es' i = Some x -> nth_error es' j = Some y ->
      lexcmp (names x) (names y) <= 0.
Proof.
  intros Hfd HB Hf HT H0 H1 H2 H3 es HA HN.
  assert (DE : forall e, In e es -> dirent e).
  { apply Forall_forall. apply accepted_forall. clear - HB.
    induction HB as [|b bs (_ & _ & H) _ IH]; cbn [concat]; [constructor|]. apply Forall_app; auto. }
  assert (SG : forall e1 e2, In e1 es -> In e2 es -> Z.sgn (c e1 e2) = lexcmp (names e1) (names e2)).
  { intros e1 e2 I1 I2. destruct (HA e1 e2 I1 I2) as (m & p & q & B1 & B2 & E).
    pose proof (named_str m p e1 _ (HN e1 I1) B1) as S1.
    pose proof (named_str m q e2 _ (HN e2 I2) B2) as S2.
    assert (LN : zlen (names e1) <= zlen e1).
    { destruct (HN e1 I1) as (_ & h & pad & E1 & _). rewrite E1 at 2. rewrite !zlen_app, zlen_cons.
      pose proof (zlen_nonneg h). pose proof (zlen_nonneg pad). lia. }
    assert (LE : zlen e1 <= 65535).
    { destruct (DE e1 I1) as (F & _ & ->). rewrite Forall_forall in F.
      assert (NB : forall k, 0 <= nth k e1 0 <= 255).
      { intros k. destruct (nth_in_or_default k e1 0) as [I| ->]; [auto|lia]. }
      pose proof (NB 16%nat). pose proof (NB 17%nat). lia. }
    destruct (strcmp_ok (names e1) (names e2) (S (length e1)) m (p + 18) (q + 18) S1 S2)
      as (r & E1 & E2); [unfold INT_MAX; lia|unfold zlen in LN; lia|].
    specialize (E (S (length e1)) ltac:(lia)). unfold alphasort in E. rewrite E1 in E.
    injection E as <-. exact E2. }
  destruct (C64_scandir_partial lo hi sel (Some c) fuel s start fd bs) as
    (s' & li & ps & es' & E & Q1 & Q2 & Q3 & _ & Q4 & _); auto.
  exists s', li, ps, es'. split; [exact E|]. split; [exact Q1|]. split; [exact Q2|].
  split; [exact Q3|].
  assert (TP : total_preorder c es).
  { assert (LE : forall e1 e2, In e1 es -> In e2 es -> (c e1 e2 <= 0 <-> lexcmp (names e1) (names e2) <= 0)).
    { intros e1 e2 I1 I2. rewrite <- SG by auto. lia. }
    split.
    - intros x y Hx Hy. rewrite !LE by auto. pose proof (lexcmp_antisym (names x) (names y)). lia.
    - intros x y z Hx Hy Hz. rewrite !LE by auto. apply lexcmp_trans. }
  intros i j x y Hij Hx Hy.
  assert (In x es) by (apply (Permutation_in _ (Permutation_sym Q3)); eapply nth_error_In; eauto).
  assert (In y es) by (apply (Permutation_in _ (Permutation_sym Q3)); eapply nth_error_In; eauto).
  rewrite <- SG by auto. pose proof (Q4 c eq_refl TP i j x y Hij Hx Hy). lia.
Qed.
Print Assumptions C64_alphasort.
(* the three entries of the example and their names *)
Definition ex_names (e : list Z) : list Z := if nth 19 e 0 =? 0 then [nth 18 e 0] else [98; 98].
Definition ex_alpha (x y : list Z) : Z :=
  match alphasort 30 (mem_of [(0, x); (100, y)]) 0 100 with Ok r => r | _ => 0 end.
Example C64_alphasort_hyps : by_alphasort ex_alpha (accepted None (concat ex_bs)) /\
  forall e, In e (accepted None (concat ex_bs)) -> named e (ex_names e).
Proof.
  split.
  - intros e1 e2 H1 H2. exists (mem_of [(0, e1); (100, e2)]), 0, 100.
    cbn [accepted ex_bs concat app In] in H1, H2.
    assert (EE : e1 = ex_c \/ e1 = ex_b \/ e1 = ex_a) by (destruct H1 as [<-|[<-|[<-|[]]]]; auto). clear H1.
    assert (EF : e2 = ex_c \/ e2 = ex_b \/ e2 = ex_a) by (destruct H2 as [<-|[<-|[<-|[]]]]; auto). clear H2.
    destruct EE as [->|[->| ->]]; destruct EF as [->|[->| ->]];
      (split; [vm_compute; repeat split|]; split; [vm_compute; repeat split|];
       intros fuel Hf; change (24 < fuel)%nat in Hf;
       do 25 (destruct fuel as [|fuel]; [lia|]); vm_compute; reflexivity).
  - intros e H. cbn [accepted ex_bs concat app In] in H.
    assert (EE : e = ex_c \/ e = ex_b \/ e = ex_a) by (destruct H as [<-|[<-|[<-|[]]]]; auto).
    destruct EE as [->|[->| ->]]; (split; [vm_compute; repeat constructor; discriminate|]).
    + exists (firstn 18 ex_c), (repeat 0 4). split; reflexivity.
    + exists (firstn 18 ex_b), (repeat 0 3). split; reflexivity.
    + exists (firstn 18 ex_a), (repeat 0 4). split; reflexivity.
Qed.

(* The kernel returns the old break when it refuses; sbrk and brk take that as
   success.  In a data segment that cannot grow scandir writes behind its end. *)
Theorem C64_limit_refuted : exists hi s bs, batches 4096 bs /\ 0 < sbk s /\ sbk s <= hi /\
  scandir 1000 hi None None 6 s 0 3 bs 0 = Fault.
Proof.
  exists 1000, ex_seg, ex_bs. split; [exact ex_batches|]. split; [cbn; lia|]. split; [cbn; lia|].
  vm_compute. reflexivity.
Qed.
Print Assumptions C64_limit_refuted.

(* ---- C83 -------------------------------------------------------------------- *)
(* Every sequence of readdir, rewinddir, telldir and seekdir to positions of the
   directory gets from a stream what the index machine gives.  [many] is the
   kernel's choice how many entries a getdents call delivers (at least one, as long
   as there are any, and at most 2048 bytes).  telldir needs either memory of
   malloc that was zero at [tell], or a rewinddir first. *)
Theorem C83_stream_partial es many tell buf os :
  Forall dirent es -> (forall k, (k < length es)%nat -> (1 <= many k)%nat) ->
  (forall k, zlen (concat (firstn (many k) (skipn k es))) <= 2048) ->
  NoDup (0 :: map d_off es) -> seeks_inside es os ->
  tell = 0 \/ ~ In Tell os \/ (exists r, os = Rewind :: r) ->
  exists rs, dir_run es many (opendirp tell buf) (map (call es) os) = Ok rs /\
             map answer rs = machine_run es 0 os.
Proof.
  intros HE HM HS HD Hin Ht.
  apply (dir_run_ok es many HE HM HS HD os (tell =? 0)); auto.
  - apply opendirp_ok.
  - destruct Ht as [->|Ht]; auto.
Qed.
Print Assumptions C83_stream_partial.
Definition ex_es := [ex_a; ex_b; ex_c].
Definition ex_os := [Read; Tell; Read; Read; Read; Seek 1; Read; Rewind; Tell; Read].
Example C83_stream_case :
  Forall dirent ex_es /\ (forall k, (k < length ex_es)%nat -> (1 <= 2)%nat) /\
  (forall k, zlen (concat (firstn 2 (skipn k ex_es))) <= 2048) /\
  NoDup (0 :: map d_off ex_es) /\ seeks_inside ex_es ex_os /\
  machine_run ex_es 0 ex_os =
    [Entry ex_a; At 11; Entry ex_b; Entry ex_c; End; Nothing; Entry ex_b; Nothing; At 0; Entry ex_a].
Proof.
  split; [exact ex_dirents|]. split; [auto|]. split.
  { intros [|[|[|k]]]; try (vm_compute; discriminate). cbn [skipn ex_es].
    rewrite (skipn_all2 (n := k)) by (cbn; lia). vm_compute. discriminate. }
  split. { vm_compute. repeat constructor; cbn [In]; intuition discriminate. }
  split. { intros j Hj. cbn in Hj. intuition (try discriminate).
           match goal with H : _ = Seek j |- _ => injection H as <- end. cbn. lia. }
  reflexivity.
Qed.

(* telldir directly after opendir returns what the memory contained before *)
Theorem C83_tell_refuted : exists es many tell buf,
  Forall dirent es /\ NoDup (0 :: map d_off es) /\
  dir_run es many (opendirp tell buf) [OTell] = Ok [RPos tell] /\
  map answer [RPos tell] <> machine_run es 0 [Tell].
Proof.
  exists ex_es, (fun _ => 2%nat), 4711, []. split; [exact ex_dirents|].
  split; [apply C83_stream_case|]. split; [reflexivity|]. discriminate.
Qed.
Print Assumptions C83_tell_refuted.

(* ---- C84 -------------------------------------------------------------------- *)
(* Every sequence of malloc_brk, realloc of the last block, free of any block and
   writes into blocks that a stack of blocks allows runs without fault, whatever was
   in the segment: afterwards all blocks that are in use have their size and the
   bytes written, they do not overlap, memory below the segment is as before, and
   free_brk gives the whole segment back. *)
Theorem C84_segment_partial lo hi s os st :
  0 < sbk s -> lo <= sbk s -> sbk s <= hi -> hi <= LONG_MAX ->
  stack_run (hi - sbk s) [] os = Some st ->
  exists s' start ps, heap_run lo hi (s, 0, []) (map op_of os) = Ok (s', start, ps) /\
    Forall2 (holds (sm s')) ps st /\ stacked ps st (sbk s') /\ Forall (fun p => sbk s < p) ps /\
    (forall x, x < sbk s -> sm s' x = sm s x) /\
    sbk (fst (free_brk lo hi s' start)) = sbk s /\
    (forall x, x < sbk s -> sm (fst (free_brk lo hi s' start)) x = sm s x).
Proof.
  intros Hb Hlo Hh Hhi HR.
  destruct (heap_run_ok lo hi (sbk s) (sm s) Hb Hlo Hhi os [] (s, 0, []) st) as
    (((s' & start) & ps) & E & K); auto.
  { split; [cbn [layout]; reflexivity|]. split; [auto|]. split; auto. }
  exists s', start, ps. split; [exact E|].
  pose proof (free_brk_ok lo hi (sbk s) (sm s) Hb Hlo st s' start ps K) as (F1 & F2).
  destruct K as (L & _ & K & _).
  split; [eapply layout_holds; eauto|]. split; [eapply layout_stacked; eauto|].
  split; [eapply layout_above; eauto|]. auto.
Qed.
Print Assumptions C84_segment_partial.
Definition ex_hops := [Malloc 5; Write 0 4 9; Malloc 3; Write 0 0 1; Malloc 2; Realloc 1000;
  Write 0 999 77; Free 1; Free 0; Malloc 7; Write 2 0 8].
Example C84_segment_case :
  stack_run (100000 - sbk ex_seg) [] ex_hops =
  Some [(repeat None 7, true); ([Some 1; None; None], false); ([Some 8; None; None; None; Some 9], true)].
Proof. vm_compute. reflexivity. Qed.

(* realloc of the last block keeps its address and its bytes (src/memory/malloc.c
   moves other blocks) *)
Theorem C84_realloc_in_place lo hi s n k : 
  0 < sbk s -> lo <= sbk s -> 1 <= n <= 268435440 -> 1 <= k <= 268435440 ->
  sbk s + n + 8 <= hi -> sbk s + k + 8 <= hi -> hi <= LONG_MAX ->
  exists s1 start p s2, malloc_brk lo hi s 0 n = Ok (s1, start, p) /\
    realloc_brk lo hi s1 p k = Ok (s2, p) /\ room (sm s1) p n /\ room (sm s2) p k /\
    forall x, x < p - 4 \/ p <= x < p + Z.min n k -> sm s2 x = sm s1 x.
Proof.
  intros Hb Hlo Hn Hk H1 H2 H3.
  destruct (malloc_brk_ok lo hi s 0 n) as (s1 & start & z & E & L & Hz & K & _); auto.
  destruct (realloc_brk_ok lo hi s1 (sbk s + 4) z k L) as (s2 & z' & E2 & L2 & Hz2 & K2); auto; try lia.
  exists s1, start, (sbk s + 4), s2. split; [exact E|]. split; [exact E2|].
  destruct L as (_ & _ & _ & _ & R1). destruct L2 as (_ & _ & _ & _ & R2).
  split; [apply (room_sub _ _ _ _ _ R1); lia|]. split; [apply (room_sub _ _ _ _ _ R2); lia|].
  intros x Hx. apply K2. lia.
Qed.
Print Assumptions C84_realloc_in_place.
Example C84_realloc_case : 0 < sbk ex_seg /\ 1000 <= sbk ex_seg /\ sbk ex_seg + 5000 + 8 <= 100000.
Proof. cbn. lia. Qed.

(* a segment that cannot grow: malloc_brk does not return 0 but writes behind it *)
Theorem C84_limit_refuted : exists lo hi s n, 0 < sbk s /\ lo <= sbk s <= hi /\ 1 <= n /\
  malloc_brk lo hi s 0 n = Fault.
Proof.
  exists 1000, 1001, ex_seg, 1. split; [cbn; lia|]. split; [cbn; lia|]. split; [lia|].
  vm_compute. reflexivity.
Qed.
Print Assumptions C84_limit_refuted.

