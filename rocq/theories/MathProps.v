(* C33-C36, C70: powers, hashes, checksums, random numbers. *)
From Verif Require Import Base BaseLemmas MathModel MathSpec MathProofs.

(* ---- C33: integer power ---- *)
(* wrapping arithmetic: all bases and exponents, at most 2 log2 n multiplications,
   recursion at most 32 deep *)
Theorem C33_ipoweriui : forall x n fuel, INT_MIN <= x <= INT_MAX -> 0 <= n < 2 ^ 32 -> (32 <= fuel)%nat ->
  exists c, ipoweriui false fuel x n = Ok (s32 (x ^ n), c) /\ c <= 2 * Z.log2 n.
Proof.
  intros x n [|k] Hx Hn Hf; [lia|]. destruct (ipow_ok false x k Hx n) as (c & H & Hc); [|discriminate|].
  - split; [lia|]. apply Z.lt_le_trans with (2 ^ 32); [lia|]. apply Z.pow_le_mono_r; lia.
  - exists c. split; auto. lia.
Qed.
Print Assumptions C33_ipoweriui.
Theorem C33_ipoweri : forall x n fuel, INT_MIN <= x <= INT_MAX -> 0 <= n <= INT_MAX -> (32 <= fuel)%nat ->
  exists c, ipoweri false fuel x n = Ok (s32 (x ^ n), c) /\ c <= 2 * Z.log2 n.
Proof.
  intros x n fuel Hx Hn Hf. unfold INT_MAX in Hn.
  destruct (C33_ipoweriui x n fuel Hx) as (c & H & Hc); [lia|auto|].
  unfold ipoweri. rewrite u32_small by lia. destruct (Z.ltb_spec 0 n).
  - exists c. auto.
  - assert (n = 0) by lia. subst. rewrite H. exists c. auto.
Qed.
Print Assumptions C33_ipoweri.
(* undefined overflow: whenever the power is an int *)
Theorem C33_strict_partial : forall x n fuel, INT_MIN <= x <= INT_MAX -> 0 <= n < 2 ^ 32 -> (32 <= fuel)%nat ->
  INT_MIN <= x ^ n <= INT_MAX ->
  exists c, ipoweriui true fuel x n = Ok (x ^ n, c) /\ c <= 2 * Z.log2 n.
Proof.
  intros x n [|k] Hx Hn Hf Hp; [lia|]. destruct (ipow_ok true x k Hx n) as (c & H & Hc); auto.
  - split; [lia|]. apply Z.lt_le_trans with (2 ^ 32); [lia|]. apply Z.pow_le_mono_r; lia.
  - exists c. rewrite s32_small in H by auto. split; auto. lia.
Qed.
Print Assumptions C33_strict_partial.
Theorem C33_strict_refuted : exists x n, INT_MIN <= x <= INT_MAX /\ 0 <= n < 2 ^ 32 /\
  forall fuel, (32 <= fuel)%nat -> ipoweriui true fuel x n = Fault.
Proof.
  exists 2, 31. split; [vm_compute; split; discriminate|]. split; [lia|].
  intros fuel H. replace fuel with (32 + (fuel - 32))%nat by lia. reflexivity.
Qed.
Print Assumptions C33_strict_refuted.
Example C33_case : (-2) ^ 31 = INT_MIN /\ ipoweriui true 32 (-2) 31 = Ok (INT_MIN, 8)
  /\ ipoweriui false 32 3 4294967295 = Ok (-1431655765, 62).
Proof. repeat split. Qed.

(* ---- C34: hashes ---- *)
Theorem C34_djb2 : forall m p l fuel, str_at m p l -> (length l < fuel)%nat ->
  djb2_hash fuel m p = Ok (poly 64 33 5381 l).
Proof. intros. now apply djb2_loop_ok. Qed.
Print Assumptions C34_djb2.
Theorem C34_sdbm : forall m p l fuel, str_at m p l -> (length l < fuel)%nat ->
  sdbm_hash fuel m p = Ok (poly 64 65599 0 l).
Proof. intros. now apply sdbm_loop_ok. Qed.
Print Assumptions C34_sdbm.
(* hashing a concatenation = continuing with the hash of the first part *)
Theorem C34_djb2_concat : forall m p q a b h fuel,
  str_at m p (a ++ b) -> str_at m q a -> djb2_hash fuel m q = Ok h -> (length (a ++ b) < fuel)%nat ->
  djb2_hash fuel m p = Ok (poly 64 33 h b).
Proof.
  intros m p q a b h fuel H1 H2 H3 Hf. rewrite app_length in Hf.
  rewrite (C34_djb2 m q a) in H3 by (auto; lia). inversion H3; subst.
  rewrite (C34_djb2 m p (a ++ b)) by (auto; rewrite app_length; lia). now rewrite poly_app.
Qed.
Print Assumptions C34_djb2_concat.
Theorem C34_sdbm_concat : forall m p q a b h fuel,
  str_at m p (a ++ b) -> str_at m q a -> sdbm_hash fuel m q = Ok h -> (length (a ++ b) < fuel)%nat ->
  sdbm_hash fuel m p = Ok (poly 64 65599 h b).
Proof.
  intros m p q a b h fuel H1 H2 H3 Hf. rewrite app_length in Hf.
  rewrite (C34_sdbm m q a) in H3 by (auto; lia). inversion H3; subst.
  rewrite (C34_sdbm m p (a ++ b)) by (auto; rewrite app_length; lia). now rewrite poly_app.
Qed.
Print Assumptions C34_sdbm_concat.
Example C34_case : let m := mem_of [(10, [255; 97; 98; 0]); (20, [255; 0])] in
  str_at m 10 ([255] ++ [97; 98]) /\ str_at m 20 [255] /\
  djb2_hash 9 m 20 = Ok 177828 /\ djb2_hash 9 m 10 = Ok 193657991 /\ poly 64 33 177828 [97; 98] = 193657991
  /\ sdbm_hash 9 m 20 = Ok 255.
Proof. cbn zeta. cbn [str_at app]. repeat split; try lia; reflexivity. Qed.

(* ---- C35: block checksums ---- *)
Theorem C35_partition : forall m p h bs, 0 <= h < 65536 -> bytes_at m p (concat bs) ->
  exists r, feed (bsd_cksumblock m) h p bs = Ok r
         /\ bsd_cksumblock m h p (zlen (concat bs)) = Ok r /\ 0 <= r < 65536.
Proof.
  intros m p h bs Hh Hb. exists (bsd_sum h (map schar (concat bs))).
  split; [apply feed_bsd; auto; lia|]. split.
  - unfold bsd_cksumblock. rewrite zlen_nat. apply bsd_loop_ok; auto. lia.
  - apply bsd_sum_range16. auto.
Qed.
Print Assumptions C35_partition.
(* the whole data at once, from 0 *)
Theorem C35_bsd_cksum : forall m p bs, bytes_at m p (concat bs) ->
  exists r, feed (bsd_cksumblock m) 0 p bs = Ok r /\ bsd_cksum m p (zlen (concat bs)) = Ok r /\ 0 <= r < 65536.
Proof. intros. apply C35_partition; auto; lia. Qed.
Print Assumptions C35_bsd_cksum.
Example C35_case : let m := mem_of [(10, [200; 1; 2; 3; 255])] in
  bytes_at m 10 (concat [[200; 1]; []; [2]; [3; 255]])
  /\ feed (bsd_cksumblock m) 0 10 [[200; 1]; []; [2]; [3; 255]] = bsd_cksum m 10 5.
Proof. cbn zeta. cbn [concat app bytes_at]. repeat split. Qed.

(* ---- C36: rand ---- *)
Theorem C36_reproducible_partial : forall s1 s2 i k, rands k (srand s1 i) = rands k (srand s2 i).
Proof. reflexivity. Qed.
Print Assumptions C36_reproducible_partial.
Theorem C36_unsigned_range_partial : forall s k v, In v (rands k s) -> 0 <= v <= 4294967295.
Proof.
  intros s k. revert s. induction k as [|k IH]; cbn [rands]; intros s v [H|H] || intros s v [].
  - subst. unfold rand. cbn [fst]. pose proof (u32_range (u32 (rand_round (if s =? 0 then 1 else s)) - 1)). lia.
  - eapply IH; eauto.
Qed.
Print Assumptions C36_unsigned_range_partial.
(* 4227866623 is a seed whose first value is 2^32-1, after which the state is 0 *)
Theorem C36_range_refuted : exists i, 0 <= i < 2 ^ 32 /\
  exists k v, In v (rands k (srand 0 i)) /\ ~ (0 <= v <= 2147483647).
Proof.
  exists 4227866623. split; [lia|]. exists 1%nat, 4294967295. split; [left; reflexivity|lia].
Qed.
Print Assumptions C36_range_refuted.
Example C36_case : rands 2 (srand 5 1) = [270368; 1815334945].
Proof. reflexivity. Qed.

(* ---- C70: the checksums are the published ones ---- *)
(* bytes below 128: the BSD checksum of the bytes (sum -r), and djb2 modulo 2^32 *)
Theorem C70_ascii_partial : forall m p l, bytes_at m p l -> Forall (fun b => 0 <= b < 128) l ->
  bsd_cksum m p (zlen l) = Ok (bsd_sum 0 l) /\ djb_cksum m p (zlen l) = Ok (poly 32 33 5381 l).
Proof.
  intros m p l Hb Hl. assert (E : map schar l = l).
  { clear Hb. induction Hl as [|b l H Hl IH]; cbn; [auto|]. rewrite IH, schar_low by lia. auto. }
  unfold bsd_cksum, bsd_cksumblock, djb_cksum. rewrite zlen_nat, bsd_loop_ok, djb_cksum_loop_ok by (auto; lia).
  rewrite E. auto.
Qed.
Print Assumptions C70_ascii_partial.
(* other bytes are added as negative chars *)
Theorem C70_high_refuted : exists m p l, bytes_at m p l /\ Forall (fun b => 0 <= b < 256) l /\
  bsd_cksum m p (zlen l) <> Ok (bsd_sum 0 l) /\ djb_cksum m p (zlen l) <> Ok (poly 32 33 5381 l).
Proof.
  exists (mem_of [(10, [255])]), 10, [255]. split; [cbn; auto|]. split; [repeat constructor; lia|].
  split; vm_compute; discriminate.
Qed.
Print Assumptions C70_high_refuted.
Example C70_case : let m := mem_of [(10, [97; 98; 127])] in
  bytes_at m 10 [97; 98; 127] /\ Forall (fun b => 0 <= b < 128) [97; 98; 127] /\ bsd_cksum m 10 3 = Ok 16584.
Proof. cbn zeta. cbn [bytes_at]. split; [repeat split|]. split; [repeat constructor; lia|]. vm_compute. reflexivity. Qed.
