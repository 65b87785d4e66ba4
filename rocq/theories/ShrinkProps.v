(* C62, C63: shrinkelf *)
From Coq Require Import ZifyBool.
From Verif Require Import Base BaseLemmas ShrinkModel ShrinkSpec ShrinkProofs ShrinkProofs2
  ShrinkProofs3 ShrinkProofs4.

(* An example: a header with two program header entries, of which the second is
   far behind the first, and a symbol table at the end. *)
Definition le (n : nat) (v : Z) : list Z := le_bytes n v.
Definition ex_hdr (phnum shoff : Z) : list Z :=
  [127; 69; 76; 70; 2; 1; 1; 0; 0; 0; 0; 0; 0; 0; 0; 0] ++ le 2 2 ++ le 2 62 ++ le 4 1 ++
  le 8 4198400 ++ le 8 64 ++ le 8 shoff ++ le 4 0 ++ le 2 64 ++ le 2 56 ++ le 2 phnum ++
  le 2 64 ++ le 2 5 ++ le 2 4.
Definition ex_ph (ty off filesz : Z) : list Z :=
  le 4 ty ++ le 4 5 ++ le 8 off ++ le 8 (4194304 + off) ++ le 8 (4194304 + off) ++
  le 8 filesz ++ le 8 filesz ++ le 8 4096.
Definition ex_file : list Z :=
  ex_hdr 3 9008 ++ ex_ph 1 0 240 ++ ex_ph 1 9000 8 ++ ex_ph 0 7 7 ++
  [184; 60; 0; 0; 0; 15; 5; 195] ++ repeat 0 (Z.to_nat 8760) ++ [1; 2; 3; 4; 5; 6; 7; 8] ++ repeat 9 92.

Example ex_file_elf : elf_exec ex_file.
Proof.
  assert (L : zlen ex_file = 9100) by (vm_compute; reflexivity).
  assert (N : ph_num ex_file = 3) by (vm_compute; reflexivity).
  assert (O : ph_off ex_file = 64) by (vm_compute; reflexivity).
  unfold elf_exec. rewrite L, N, O. unfold LONG_MAX.
  repeat match goal with |- _ /\ _ => split end; try lia;
    try (lazymatch goal with |- _ = _ => vm_compute; reflexivity end).
  - apply Forall_forall. intros b Hb.
    assert (F : forallb (fun b => (0 <=? b) && (b <=? 255)) ex_file = true)
      by (vm_compute; reflexivity).
    rewrite forallb_forall in F. specialize (F b Hb). lia.
  - intros i Hi Hb. assert (i = 0 \/ i = 1 \/ i = 2) as [->|[->| ->]] by lia.
    + vm_compute; discriminate.
    + vm_compute; discriminate.
    + destruct Hb as (Hb & _). destruct Hb. vm_compute. reflexivity.
Qed.

(* a file of less than 4 GiB has no long run *)
Lemma small_no_run f : elf_exec f -> zlen f < 4294967296 -> no_long_run (needed f).
Proof.
  intros (Hb & Hl & _ & _ & _ & _ & _ & _ & H1 & H2 & Hs) Hz a.
  destruct (Z_lt_dec a 0).
  - exists a. split; [lia|]. intros [H|[H|(i & Hi & Ht & H)]].
    + unfold in_ehdr in H. lia.
    + unfold in_phdr in H. lia.
    + pose proof (number_bound f 8 Hb (ph_off f + 56 * i + 8)) as B.
      fold (seg_off f i) in B. lia.
  - exists (a + 4294967295). split; [lia|]. intros [H|[H|(i & Hi & Ht & H)]].
    + unfold in_ehdr in H. lia.
    + unfold in_phdr in H. lia.
    + assert (has_bytes f i) as Hn by (split; [auto|lia]). specialize (Hs i Hi Hn). lia.
Qed.

(* ---- C62 ------------------------------------------------------------------ *)
(* later regions in the list begin behind the end of earlier ones, with at
   least one byte between *)
Definition separated (rs : list region) : Prop :=
  forall a r1 b r2 c, rs = a ++ r1 :: b ++ r2 :: c -> r_off r1 + r_sz r1 < r_off r2.

Definition regions_of (e ph : list Z) : list region :=
  compute_regions (e_phoff e) (u32 (e_phentsize e * e_phnum e)) (e_phnum e) ph.

(* For every file whose headers are accepted the regions are sorted, disjoint and
   not adjacent, and if no 2^32 bytes in a row are needed they are not empty and
   contain exactly the needed bytes.  Missing: longer runs, see the refutation. *)
Theorem C62_regions_partial : forall f e ph,
  Forall (fun b => 0 <= b <= 255) f -> zlen f <= LONG_MAX ->
  read_hdrs f = Some (e, ph) ->
  (forall i, 0 <= i < ph_num f -> seg_type f i <> 0 ->
     seg_off f i + seg_size f i < 18446744073709551616) ->
  separated (regions_of e ph) /\
  (no_long_run (needed f) ->
   (forall r, In r (regions_of e ph) -> 0 < r_sz r) /\
   forall x, (exists r, In r (regions_of e ph) /\ r_off r <= x < r_off r + r_sz r)
             <-> needed f x).
Proof.
  intros f e ph Hb Hl Hr Hs.
  destruct (regions_file f e ph Hb Hl Hr) as (R1 & R2).
  { intros i Hi Ht. specialize (Hs i Hi Ht).
    pose proof (number_bound f 8 Hb (ph_off f + 56 * i + 32)) as B.
    fold (seg_size f i) in B. pose proof (u32_le (seg_size f i)). unfold B64. lia. }
  split.
  - intros a r1 b r2 c E. eapply from_order; eauto.
  - intros HP. destruct (R2 HP) as (R3 & R4). split.
    + unfold pos_sizes in R3. rewrite Forall_forall in R3. exact R3.
    + exact R4.
Qed.
Print Assumptions C62_regions_partial.

(* the hypotheses hold of the example, whose two regions are these *)
Example C62_example :
  read_hdrs ex_file = Some (read_at ex_file 0 64, read_at ex_file 64 168) /\
  (forall i, 0 <= i < ph_num ex_file -> seg_type ex_file i <> 0 ->
     seg_off ex_file i + seg_size ex_file i < 18446744073709551616) /\
  no_long_run (needed ex_file) /\
  regions_of (read_at ex_file 0 64) (read_at ex_file 64 168) =
    [Region 0 240 0 0; Region 9000 8 0 0].
Proof.
  split; [vm_compute; reflexivity|]. split.
  { replace (ph_num ex_file) with 3 by (vm_compute; reflexivity).
    intros i Hi _. assert (i = 0 \/ i = 1 \/ i = 2) as [->|[->| ->]] by lia;
      vm_compute; reflexivity. }
  split; [apply small_no_run; [exact ex_file_elf|vm_compute; reflexivity]|].
  vm_compute. reflexivity.
Qed.

(* a file with a segment of 4 GiB: all sizes of regions are 32 bit numbers.  The
   first segment has 2^32 bytes from offset 4096, none of them is in a region *)
Definition big_hdr : list Z := ex_hdr 1 0 ++ ex_ph 1 4096 4294967296.
Theorem C62_size_refuted : exists f e ph,
  elf_exec f /\ read_hdrs f = Some (e, ph) /\ needed f 4096 /\
  ~ exists r, In r (regions_of e ph) /\ r_off r <= 4096 < r_off r + r_sz r.
Proof.
  exists (big_hdr ++ repeat 0 (Z.to_nat 4294971272)), (ex_hdr 1 0), (ex_ph 1 4096 4294967296).
  set (t := repeat 0 (Z.to_nat 4294971272)).
  assert (T : zlen t = 4294971272) by (unfold t, zlen; rewrite repeat_length; lia).
  assert (TB : Forall (fun b => 0 <= b <= 255) t).
  { apply Forall_forall. intros b Hb. apply repeat_spec in Hb. lia. }
  clearbody t.
  assert (L : zlen (big_hdr ++ t) = 4294971392).
  { rewrite zlen_app, T. reflexivity. }
  assert (N : ph_num (big_hdr ++ t) = 1) by reflexivity.
  assert (O : ph_off (big_hdr ++ t) = 64) by reflexivity.
  assert (S0 : seg_off (big_hdr ++ t) 0 = 4096 /\ seg_size (big_hdr ++ t) 0 = 4294967296 /\
               seg_type (big_hdr ++ t) 0 = 1).
  { unfold seg_off, seg_size, seg_type. rewrite O. repeat split; reflexivity. }
  destruct S0 as (S1 & S2 & S3).
  assert (EX : elf_exec (big_hdr ++ t)).
  { unfold elf_exec. rewrite L, N, O. unfold LONG_MAX.
    repeat match goal with |- _ /\ _ => split end; try lia; try reflexivity.
    - apply Forall_app. split; [|exact TB]. apply Forall_forall. intros b Hb.
      assert (F : forallb (fun b => (0 <=? b) && (b <=? 255)) big_hdr = true)
        by (vm_compute; reflexivity).
      rewrite forallb_forall in F. specialize (F b Hb). lia.
    - intros i Hi _. replace i with 0 by lia. rewrite S1, S2. lia. }
  split; [exact EX|]. split.
  { rewrite (read_hdrs_exec _ EX). rewrite O, N. reflexivity. }
  split.
  { right. right. exists 0. rewrite N, S1, S2, S3. lia. }
  replace (regions_of (ex_hdr 1 0) (ex_ph 1 4096 4294967296)) with [Region 0 120 0 0]
    by (vm_compute; reflexivity).
  intros (r & [<-|[]] & H). cbn [r_off r_sz] in H. lia.
Qed.
Print Assumptions C62_size_refuted.

(* ---- C63 ------------------------------------------------------------------ *)
(* Displacements of any sorted, disjoint list of regions. *)
Lemma separated_from rs :
  separated rs -> Forall (fun r => 0 <= r_off r /\ 0 <= r_sz r < 4294967296 /\
    r_off r + r_sz r < 18446744073709551616) rs -> from (-1) rs.
Proof.
  intros Hs HF.
  assert (G : forall lo, match rs with [] => True | r :: _ => lo < r_off r end -> from lo rs).
  { induction rs as [|r rs IH]; intros lo Hlo; [exact I|].
    apply Forall_cons_iff in HF. destruct HF as (Hr & HF).
    cbn [from]. unfold B32, B64. split; [exact Hlo|]. split; [lia|]. split; [lia|].
    apply IH; auto.
    - intros a r1 b r2 c E. apply (Hs (r :: a) r1 b r2 c). rewrite E. reflexivity.
    - destruct rs as [|r2 rs]; [exact I|]. apply (Hs [] r [] r2 rs). reflexivity. }
  apply G. destruct rs as [|r rs]; [exact I|].
  apply Forall_cons_iff in HF. destruct HF as (Hr & _). lia.
Qed.

(* Each region moves down by a multiple of the page size, the target regions
   keep the order and do not overlap; and if all offsets are 32 bit numbers
   there is no hole of a page or more between them. *)
Theorem C63_displacements : forall rs,
  separated rs -> Forall (fun r => 0 <= r_off r /\ 0 <= r_sz r < 4294967296 /\
    r_off r + r_sz r < 18446744073709551616) rs ->
  let ds := compute_disps 0 rs in
  Forall2 (fun r d => r_off d = r_off r /\ r_sz d = r_sz r /\
             r_disp d mod 4096 = 0 /\ 0 <= r_disp d <= r_off r /\
             r_toff d = r_off r - r_disp d) rs ds /\
  (forall a d1 b d2 c, ds = a ++ d1 :: b ++ d2 :: c -> r_toff d1 + r_sz d1 <= r_toff d2) /\
  (Forall (fun r => r_off r < 4294967296) rs ->
   forall a d1 d2 c, ds = a ++ d1 :: d2 :: c -> r_toff d2 < r_toff d1 + r_sz d1 + 4096).
Proof.
  intros rs Hs HF ds. pose proof (separated_from rs Hs HF) as Hf.
  destruct (compute_disps_ok rs (-1) 0 Hf) as (D1 & D2); [lia|].
  fold ds in D1, D2. split; [exact D1|]. split.
  - apply (tfrom_order 0 ds D2). apply Forall_forall. intros d Hd.
    destruct (Forall2_in_r _ _ _ D1 d Hd) as (r & Hr & _ & -> & _).
    rewrite Forall_forall in HF. specialize (HF r Hr). lia.
  - intros H32. apply (tight_consec 0). apply (compute_disps_tight rs (-1)); auto. lia.
Qed.
Print Assumptions C63_displacements.

Example C63_displacements_example :
  let rs := [Region 0 240 0 0; Region 9000 8 0 0; Region 9009 5000 0 0] in
  separated rs /\ Forall (fun r => 0 <= r_off r /\ 0 <= r_sz r < 4294967296 /\
    r_off r + r_sz r < 18446744073709551616) rs /\
  compute_disps 0 rs =
    [Region 0 240 0 0; Region 9000 8 8192 808; Region 9009 5000 8192 817].
Proof.
  cbv zeta. split; [|split; [repeat (constructor; [cbn [r_off r_sz]; lia|]); constructor|
    vm_compute; reflexivity]].
  intros a r1 b r2 c E. apply (fun H => from_order (-1) _ H a r1 b r2 c E). cbn [from r_off r_sz]. unfold B32, B64. lia.
Qed.

(* Every complete ELF64 executable without a needed run of 2^32 bytes is
   rewritten into a file that is not longer and in which every program header
   entry is kept and every segment addresses the same bytes as before, at an
   offset congruent to the old one modulo the page size. *)
Theorem C63_shrinkelf_partial : forall f,
  elf_exec f -> no_long_run (needed f) ->
  exists out, shrinkelf f = Ok (Some out) /\ zlen out <= zlen f /\ relocated f out.
Proof. exact shrinkelf_ok. Qed.
Print Assumptions C63_shrinkelf_partial.

(* in particular every executable of less than 4 GiB *)
Theorem C63_shrinkelf_small : forall f,
  elf_exec f -> zlen f < 4294967296 ->
  exists out, shrinkelf f = Ok (Some out) /\ zlen out <= zlen f /\ relocated f out.
Proof. intros f He Hz. apply shrinkelf_ok; auto. apply small_no_run; auto. Qed.
Print Assumptions C63_shrinkelf_small.

(* the example file shrinks from 9100 to 816 bytes, its second segment moves from
   9000 to 808 *)
Example C63_example :
  elf_exec ex_file /\ zlen ex_file < 4294967296 /\
  match shrinkelf ex_file with
  | Ok (Some out) => zlen out = 816 /\ seg_off out 1 = 808 /\ ph_off out = 64 /\
                     seg_off out 2 = 7 /\
                     map (byte out) [808; 815] = [Some 1; Some 8]
  | _ => False
  end.
Proof.
  split; [exact ex_file_elf|]. split; [vm_compute; reflexivity|].
  vm_compute. repeat split.
Qed.

(* With larger segments the file can be damaged silently: the first segment
   makes the size of the region of the headers wrap to 30, the second one covers
   the rest of the file from offset 40 on.  The bytes 30 to 39 of the ELF header,
   among them e_phoff, are in no region and are zero in the output. *)
Definition dmg_hdr : list Z :=
  ex_hdr 2 0 ++ ex_ph 1 60 4294967266 ++ ex_ph 1 40 4294967286.
Lemma process_two f e ph phoff phsz n b m :
  zlen e = 64 -> 64 <= zlen f -> zlen ph = phsz -> 0 <= phoff -> phoff + phsz <= zlen f ->
  0 < n <= b -> 0 < m -> b + m <= zlen f ->
  let P := patched f e ph phoff in
  process_file f e ph phoff phsz [Region 0 n 0 0; Region b m 0 b] [] =
  Ok (Some (app_at (app_at [] 0 (read_at P 0 n)) b (read_at P b m))).
Proof.
  intros H1 H2 H3 H4 H5 H6 H7 H8. cbv zeta. cbn [process_file r_off r_sz r_toff].
  rewrite copy_blocks_ok; auto; try (change (zlen (@nil Z)) with 0); try lia.
  cbn [bind]. rewrite copy_blocks_ok; auto; try lia.
  rewrite zlen_app_at by (change (zlen (@nil Z)) with 0; lia).
  rewrite zlen_read_at; rewrite ?(zlen_patched f e ph phoff phsz); lia.
Qed.

Theorem C63_damage_refuted : exists f out,
  elf_exec f /\ shrinkelf f = Ok (Some out) /\ ph_off f = 64 /\ ph_off out = 0 /\
  ~ relocated f out.
Proof.
  set (t := repeat 0 (Z.to_nat 4294967296)).
  assert (T : zlen t = 4294967296) by (unfold t, zlen; rewrite repeat_length; lia).
  assert (TB : Forall (fun b => 0 <= b <= 255) t).
  { apply Forall_forall. intros b Hb. apply repeat_spec in Hb. lia. }
  clearbody t. set (f := dmg_hdr ++ t).
  assert (L : zlen f = 4294967472).
  { unfold f. rewrite zlen_app, T. reflexivity. }
  assert (N : ph_num f = 2) by reflexivity.
  assert (O : ph_off f = 64) by reflexivity.
  assert (EX : elf_exec f).
  { unfold elf_exec. rewrite L, N, O. unfold LONG_MAX.
    repeat match goal with |- _ /\ _ => split end; try lia; try reflexivity.
    - apply Forall_app. split; [|exact TB]. apply Forall_forall. intros b Hb.
      assert (F : forallb (fun b => (0 <=? b) && (b <=? 255)) dmg_hdr = true)
        by (vm_compute; reflexivity).
      rewrite forallb_forall in F. specialize (F b Hb). lia.
    - intros i Hi _. unfold seg_off, seg_size. rewrite O.
      assert (i = 0 \/ i = 1) as [->| ->] by lia.
      + change (60 + 4294967266 <= 4294967472). lia.
      + change (40 + 4294967286 <= 4294967472). lia. }
  pose proof (read_hdrs_exec f EX) as Hr. rewrite O, N in Hr.
  change (read_at f 0 64) with (ex_hdr 2 0) in Hr.
  change (read_at f 64 (2 * 56)) with (ex_ph 1 60 4294967266 ++ ex_ph 1 40 4294967286) in Hr.
  set (ph := ex_ph 1 60 4294967266 ++ ex_ph 1 40 4294967286) in *.
  assert (RS : compute_disps 0 (compute_regions 64 112 2 ph) =
               [Region 0 30 0 0; Region 40 4294967286 0 40]) by (vm_compute; reflexivity).
  set (e' := ex_hdr 2 0).
  destruct (modify_hdrs [Region 0 30 0 0; Region 40 4294967286 0 40] 64 112 (ex_hdr 2 0) ph)
    as [(e5 & ph5)|] eqn:M; [|exfalso; revert M; vm_compute; discriminate].
  assert (Le : zlen e5 = 64 /\ zlen ph5 = 112).
  { revert M. vm_compute. intros M. injection M as <- <-. auto. }
  destruct Le as (Le & Lp).
  assert (E7 : byte e5 0 = Some 127).
  { revert M. vm_compute. intros M. injection M as <- <-. auto. }
  set (P := patched f e5 ph5 64).
  set (out := app_at (app_at [] 0 (read_at P 0 30)) 40 (read_at P 40 4294967286)).
  assert (LP : zlen P = 4294967472).
  { unfold P. rewrite (zlen_patched f e5 ph5 64 112); lia. }
  assert (L1 : zlen (app_at [] 0 (read_at P 0 30)) = 30).
  { rewrite zlen_app_at by (change (zlen (@nil Z)) with 0; lia).
    rewrite zlen_read_at by lia. lia. }
  assert (H : shrinkelf f = Ok (Some out)).
  { unfold shrinkelf. rewrite Hr.
    change (e_phoff (ex_hdr 2 0)) with 64.
    change (u32 (e_phentsize (ex_hdr 2 0) * e_phnum (ex_hdr 2 0))) with 112.
    change (e_phnum (ex_hdr 2 0)) with 2.
    rewrite RS, M. apply process_two; lia. }
  assert (OB : forall x, 30 <= x < 40 -> byte out x = Some 0).
  { intros x Hx. unfold out, app_at at 1. rewrite byte_app, L1.
    destruct (Z.ltb_spec x 30); [lia|]. rewrite byte_app.
    unfold zlen in L1. unfold zlen. rewrite repeat_length.
    destruct (Z.ltb_spec (x - 30)
      (Z.of_nat (Z.to_nat 40 - length (app_at [] 0 (read_at P 0 30))))); [|lia].
    rewrite byte_nth by lia.
    rewrite (nth_error_nth' _ 0) by (rewrite repeat_length; lia).
    rewrite nth_repeat. reflexivity. }
  assert (O0 : ph_off out = 0).
  { unfold ph_off. cbn [number]. rewrite !OB by lia. reflexivity. }
  exists f, out. split; [exact EX|]. split; [exact H|]. split; [exact O|].
  split; [exact O0|].
  intros (_ & _ & R & _). specialize (R 0 0). rewrite N, O, O0 in R.
  specialize (R ltac:(lia) ltac:(lia) ltac:(lia)).
  change (byte f (64 + 56 * 0 + 0)) with (Some 1) in R.
  change (0 + 56 * 0 + 0) with 0 in R.
  assert (byte out 0 = Some 127) as R'.
  { unfold out. destruct (byte_app_at (app_at [] 0 (read_at P 0 30)) 40
      (read_at P 40 4294967286) 0) as (B & _); [lia|lia|]. rewrite B by lia.
    destruct (byte_app_at [] 0 (read_at P 0 30) 0) as (_ & B');
      [lia|change (zlen (@nil Z)) with 0; lia|].
    rewrite B' by lia. rewrite byte_read_at by lia. cbn [Z.leb Z.ltb Z.compare andb].
    unfold P. rewrite (byte_patched f e5 ph5 64 112) by lia. exact E7. }
  rewrite R' in R. discriminate.
Qed.
Print Assumptions C63_damage_refuted.
