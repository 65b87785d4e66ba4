(* C150: byte order conversions. *)
From Verif Require Import Base BaseLemmas EndModel.
From Coq Require Import Lia ZifyBool.

(* ---- specification ---- *)
(* the bytes of an unsigned number of n bytes in the memory of a little endian machine, and
   in network order *)
Fixpoint image (n : nat) (x : Z) : list Z :=
  match n with O => [] | S k => x mod 256 :: image k (x / 256) end.
Definition network (n : nat) (x : Z) : list Z := rev (image n x).

(* ---- proofs ---- *)
Lemma lor_apart a b k : 0 <= k -> 0 <= a < 2 ^ k -> Z.lor a (b * 2 ^ k) = a + b * 2 ^ k.
Proof.
  intros Hk Ha. assert (L : Z.land a (b * 2 ^ k) = 0).
  { apply Z.bits_inj'. intros n Hn. rewrite Z.land_spec, Z.bits_0.
    destruct (Z.lt_ge_cases n k).
    - rewrite Z.mul_pow2_bits_low by lia. apply andb_false_r.
    - rewrite <- (Z.mod_small a (2 ^ k)) by exact Ha. rewrite Z.mod_pow2_bits_high by lia. reflexivity. }
  rewrite <- Z.lxor_lor by exact L. symmetry. apply Z.add_nocarry_lxor. exact L.
Qed.
Lemma land_field y k n : 0 <= k -> 0 <= n -> Z.land y (Z.ones k * 2 ^ n) = (y / 2 ^ n) mod 2 ^ k * 2 ^ n.
Proof.
  intros Hk Hn. apply Z.bits_inj'. intros i Hi. rewrite Z.land_spec.
  destruct (Z.lt_ge_cases i n).
  - rewrite !Z.mul_pow2_bits_low by lia. apply andb_false_r.
  - rewrite !Z.mul_pow2_bits by lia. rewrite <- Z.land_ones by lia. rewrite Z.land_spec, Z.div_pow2_bits by lia.
    replace (i - n + n) with i by lia. reflexivity.
Qed.

Lemma bswap16_value x : 0 <= x < 65536 -> bswap16 x = x / 256 + 256 * (x mod 256).
Proof.
  intros H. unfold bswap16, u16. rewrite Z.shiftl_mul_pow2, Z.shiftr_div_pow2, Z.lor_comm by lia.
  rewrite lor_apart; [|lia|change (2 ^ 8) with 256; Z.div_mod_to_equations; lia].
  change (2 ^ 8) with 256. Z.div_mod_to_equations; lia.
Qed.
Lemma bswap32_value x : 0 <= x < 4294967296 ->
  bswap32 x = x / 16777216 + 256 * (x / 65536 mod 256) + 65536 * (x / 256 mod 256) + 16777216 * (x mod 256).
Proof.
  intros H. unfold bswap32, u32. rewrite !Z.shiftl_mul_pow2, !Z.shiftr_div_pow2 by lia.
  change 0xff00 with (Z.ones 8 * 2 ^ 8). change 0xff0000 with (Z.ones 8 * 2 ^ 16).
  rewrite !land_field by lia.
  assert (E1 : x * 2 ^ 24 mod 4294967296 = (x mod 256) * 2 ^ 24) by (change (2 ^ 24) with 16777216; Z.div_mod_to_equations; lia).
  assert (E2 : (x * 2 ^ 8 mod 4294967296) / 2 ^ 16 mod 2 ^ 8 = x / 256 mod 256).
  { change (2 ^ 16) with 65536. change (2 ^ 8) with 256. Z.div_mod_to_equations; lia. }
  assert (E3 : x / 2 ^ 8 / 2 ^ 8 mod 2 ^ 8 = x / 65536 mod 256).
  { change (2 ^ 8) with 256. rewrite Zdiv_Zdiv by lia. reflexivity. }
  rewrite E1, E2, E3. change (2 ^ 24) with 16777216 at 1.
  assert (B1 : 0 <= x / 16777216 < 256) by (Z.div_mod_to_equations; lia).
  assert (B2 : 0 <= x / 65536 mod 256 < 256) by (apply Z.mod_pos_bound; lia).
  assert (B3 : 0 <= x / 256 mod 256 < 256) by (apply Z.mod_pos_bound; lia).
  change (2 ^ 24) with 16777216.
  rewrite (lor_apart (x / 16777216)); [|lia|change (2 ^ 8) with 256; lia]. change (2 ^ 8) with 256.
  rewrite lor_apart; [|lia|change (2 ^ 16) with 65536; lia]. change (2 ^ 16) with 65536.
  change 16777216 with (2 ^ 24) at 2. rewrite lor_apart; [|lia|change (2 ^ 24) with 16777216; lia]. change (2 ^ 24) with 16777216. lia.
Qed.
Lemma bswap32_range x : 0 <= x < 4294967296 -> 0 <= bswap32 x < 4294967296.
Proof. intros H. rewrite bswap32_value by exact H. Z.div_mod_to_equations; lia. Qed.
Lemma bswap64_value x : 0 <= x < 18446744073709551616 ->
  bswap64 x = bswap32 (x / 4294967296) + 4294967296 * bswap32 (x mod 4294967296).
Proof.
  intros H. unfold bswap64. rewrite Z.shiftl_mul_pow2, Z.shiftr_div_pow2 by lia. change (2 ^ 32) with 4294967296.
  rewrite Z.add_0_r. unfold u32.
  assert (A := bswap32_range (x mod 4294967296) ltac:(apply Z.mod_pos_bound; lia)).
  assert (D : 0 <= x / 4294967296 < 4294967296) by (Z.div_mod_to_equations; lia).
  rewrite (Z.mod_small (x / 4294967296)) by exact D. assert (B := bswap32_range _ D).
  rewrite (u64_small (bswap32 (x mod 4294967296))) by lia. rewrite u64_small by lia.
  rewrite Z.lor_comm. change 4294967296 with (2 ^ 32) at 3. rewrite lor_apart; [|lia|exact B]. change (2 ^ 32) with 4294967296. lia.
Qed.
Lemma image_32 a b : 0 <= a < 4294967296 -> image 8 (a + 4294967296 * b) = image 4 a ++ image 4 b.
Proof.
  intros H. cbn [image app].
  assert (E : forall k c d, 0 < k -> (c + k * 256 * d) / 256 = c / 256 + k * d).
  { intros k c d Hk. replace (c + k * 256 * d) with (c + k * d * 256) by ring. rewrite Z.div_add by lia. ring. }
  assert (M : forall k c d, 0 < k -> (c + k * 256 * d) mod 256 = c mod 256).
  { intros k c d Hk. replace (c + k * 256 * d) with (c + k * d * 256) by ring. apply Z.mod_add. lia. }
  change 4294967296 with (16777216 * 256). rewrite !M, !E by lia.
  change 16777216 with (65536 * 256). rewrite !M, !E by lia.
  change 65536 with (256 * 256). rewrite !M, !E by lia.
  change (256 * b) with (1 * 256 * b). rewrite !M, !E by lia. rewrite !Z.mul_1_l.
  assert (Z0 : a / 256 / 256 / 256 / 256 = 0) by (Z.div_mod_to_equations; lia).
  rewrite Z0, Z.add_0_l. reflexivity.
Qed.
Lemma digit a y : 0 <= a < 256 -> (a + 256 * y) mod 256 = a /\ (a + 256 * y) / 256 = y.
Proof.
  intros H. rewrite (Z.mul_comm 256). rewrite Z.mod_add, Z.div_add by lia. rewrite Z.mod_small, Z.div_small by lia. lia.
Qed.
Lemma image_digits a b c d : 0 <= a < 256 -> 0 <= b < 256 -> 0 <= c < 256 -> 0 <= d < 256 ->
  image 4 (a + 256 * (b + 256 * (c + 256 * d))) = [a; b; c; d].
Proof.
  intros. cbn [image].
  rewrite (proj1 (digit a _ ltac:(lia))), (proj2 (digit a _ ltac:(lia))).
  rewrite (proj1 (digit b _ ltac:(lia))), (proj2 (digit b _ ltac:(lia))).
  rewrite (proj1 (digit c _ ltac:(lia))), (proj2 (digit c _ ltac:(lia))).
  rewrite Z.mod_small by lia. reflexivity.
Qed.
Lemma digits32 x : 0 <= x < 4294967296 -> exists a b c d, x = a + 256 * (b + 256 * (c + 256 * d)) /\
  0 <= a < 256 /\ 0 <= b < 256 /\ 0 <= c < 256 /\ 0 <= d < 256.
Proof.
  intros H. exists (x mod 256), (x / 256 mod 256), (x / 256 / 256 mod 256), (x / 256 / 256 / 256).
  assert (E1 := Z.div_mod x 256 ltac:(lia)). assert (E2 := Z.div_mod (x / 256) 256 ltac:(lia)).
  assert (E3 := Z.div_mod (x / 256 / 256) 256 ltac:(lia)).
  assert (B1 := Z.mod_pos_bound x 256 ltac:(lia)). assert (B2 := Z.mod_pos_bound (x / 256) 256 ltac:(lia)).
  assert (B3 := Z.mod_pos_bound (x / 256 / 256) 256 ltac:(lia)). lia.
Qed.
Lemma bswap32_digits a b c d : 0 <= a < 256 -> 0 <= b < 256 -> 0 <= c < 256 -> 0 <= d < 256 ->
  bswap32 (a + 256 * (b + 256 * (c + 256 * d))) = d + 256 * (c + 256 * (b + 256 * a)).
Proof.
  intros. rewrite bswap32_value by lia.
  replace 16777216 with (256 * (256 * 256)) at 1 by reflexivity. replace 65536 with (256 * 256) at 1 by reflexivity.
  rewrite <- !Zdiv_Zdiv by lia.
  rewrite (proj1 (digit a _ ltac:(lia))), (proj2 (digit a _ ltac:(lia))).
  rewrite (proj1 (digit b _ ltac:(lia))), (proj2 (digit b _ ltac:(lia))).
  rewrite (proj1 (digit c _ ltac:(lia))), (proj2 (digit c _ ltac:(lia))). lia.
Qed.
Lemma bswap32_image x : 0 <= x < 4294967296 -> image 4 (bswap32 x) = network 4 x.
Proof.
  intros H. destruct (digits32 x H) as (a & b & c & d & -> & A & B & C & D).
  rewrite bswap32_digits by assumption. unfold network. rewrite !image_digits by assumption. reflexivity.
Qed.
Lemma bswap32_twice x : 0 <= x < 4294967296 -> bswap32 (bswap32 x) = x.
Proof.
  intros H. destruct (digits32 x H) as (a & b & c & d & -> & A & B & C & D).
  rewrite !bswap32_digits by assumption. reflexivity.
Qed.

Theorem C150_network_partial : forall x,
  image 2 (be16 1234 x) = network 2 (x mod 2 ^ 16) /\
  image 4 (be32 1234 x) = network 4 (x mod 2 ^ 32) /\
  image 8 (be64 1234 x) = network 8 (x mod 2 ^ 64).
Proof.
  intros x. unfold be16, be32, be64, swaps. cbn [Z.eqb Pos.eqb].
  change (2 ^ 16) with 65536. change (2 ^ 32) with 4294967296. change (2 ^ 64) with 18446744073709551616.
  split; [|split].
  - unfold u16. assert (B := Z.mod_pos_bound x 65536 ltac:(lia)). set (y := x mod 65536) in *. rewrite bswap16_value by exact B.
    unfold network. cbn [image rev app].
    assert (D : 0 <= y / 256 < 256) by (Z.div_mod_to_equations; lia).
    rewrite (proj1 (digit (y / 256) _ D)), (proj2 (digit (y / 256) _ D)), Z.mod_mod, (Z.mod_small (y / 256)) by lia. reflexivity.
  - apply bswap32_image. apply u32_range.
  - fold (u64 x). assert (B := u64_range x). set (y := u64 x) in *. rewrite bswap64_value by exact B.
    assert (D : 0 <= y / 4294967296 < 4294967296) by (Z.div_mod_to_equations; lia).
    assert (M := Z.mod_pos_bound y 4294967296 ltac:(lia)).
    rewrite image_32 by (apply bswap32_range; exact D). rewrite !bswap32_image by assumption.
    unfold network. rewrite <- rev_app_distr. f_equal. rewrite <- image_32 by exact M. f_equal. Z.div_mod_to_equations; lia.
Qed.
Print Assumptions C150_network_partial.

(* host order is kept by the little endian macros, and both directions cancel *)
Theorem C150_host_partial : forall x,
  le16 1234 x = x mod 2 ^ 16 /\ le32 1234 x = x mod 2 ^ 32 /\ le64 1234 x = x mod 2 ^ 64 /\
  (0 <= x < 2 ^ 16 -> be16 1234 (be16 1234 x) = x) /\ (0 <= x < 2 ^ 32 -> be32 1234 (be32 1234 x) = x) /\
  (0 <= x < 2 ^ 64 -> be64 1234 (be64 1234 x) = x).
Proof.
  intros x. unfold be16, be32, be64, swaps. cbn [Z.eqb Pos.eqb].
  change (2 ^ 16) with 65536. change (2 ^ 32) with 4294967296. change (2 ^ 64) with 18446744073709551616.
  do 3 (split; [reflexivity|]).
  assert (S32 := bswap32_twice).
  split; [|split].
  - intros H. unfold u16. rewrite (Z.mod_small x) by lia. rewrite (bswap16_value x) by exact H.
    assert (D : 0 <= x / 256 < 256) by (Z.div_mod_to_equations; lia).
    assert (M := Z.mod_pos_bound x 256 ltac:(lia)).
    rewrite Z.mod_small by lia. rewrite bswap16_value by lia.
    rewrite (proj1 (digit (x / 256) _ D)), (proj2 (digit (x / 256) _ D)).
    assert (E := Z.div_mod x 256 ltac:(lia)). lia.
  - intros H. rewrite (u32_small x) by exact H. rewrite u32_small by (apply bswap32_range; exact H). apply S32; exact H.
  - intros H. rewrite (u64_small x) by exact H.
    assert (D : 0 <= x / 4294967296 < 4294967296) by (Z.div_mod_to_equations; lia).
    assert (M := Z.mod_pos_bound x 4294967296 ltac:(lia)).
    assert (RD := bswap32_range _ D). assert (RM := bswap32_range _ M).
    rewrite (bswap64_value x) by exact H. rewrite u64_small by lia. rewrite bswap64_value by lia.
    assert (Q : (bswap32 (x / 4294967296) + 4294967296 * bswap32 (x mod 4294967296)) / 4294967296 = bswap32 (x mod 4294967296)).
    { rewrite Z.mul_comm, Z.div_add by lia. rewrite Z.div_small by exact RD. reflexivity. }
    assert (Q' : (bswap32 (x / 4294967296) + 4294967296 * bswap32 (x mod 4294967296)) mod 4294967296 = bswap32 (x / 4294967296)).
    { rewrite Z.mul_comm, Z.mod_add by lia. apply Z.mod_small. exact RD. }
    rewrite Q, Q', !S32 by assumption. Z.div_mod_to_equations; lia.
Qed.
Print Assumptions C150_host_partial.
Example C150_case : be32 1234 0x01020304 = 0x04030201 /\ be64 1234 0x0102030405060708 = 0x0807060504030201.
Proof. split; reflexivity. Qed.

(* as it stands: __BYTE_ORDER is not defined, the macros do the opposite *)
Theorem C150_order_refuted : exists x, 0 <= x < 2 ^ 32 /\ image 4 (be32 no_byte_order x) <> network 4 x /\ le32 no_byte_order x <> x.
Proof. exists 0x01020304. split; [lia|]. split; vm_compute; discriminate. Qed.
Print Assumptions C150_order_refuted.
