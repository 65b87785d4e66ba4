(* Bits of objects in memory. *)
From Verif Require Import Base BaseLemmas SortModel SortProofs MemModel ShrinkModel DirModel DirProofs AbiModel AbiSpec.

Lemma bit_low b x i : 0 <= b < 256 -> 0 <= i < 8 -> Z.testbit (b + 256 * x) i = Z.testbit b i.
Proof.
  intros Hb Hi. rewrite <- (Z.mod_pow2_bits_low (b + 256 * x) 8 i) by lia. change (2 ^ 8) with 256.
  replace (b + 256 * x) with (b + x * 256) by lia. rewrite Z.mod_add, Z.mod_small by lia. reflexivity.
Qed.
Lemma bit_high b x i : 0 <= b < 256 -> 8 <= i -> Z.testbit (b + 256 * x) i = Z.testbit x (i - 8).
Proof.
  intros Hb Hi. replace i with (i - 8 + 8) at 1 by lia. rewrite <- Z.div_pow2_bits by lia. change (2 ^ 8) with 256.
  replace (b + 256 * x) with (b + x * 256) by lia. rewrite Z.div_add, Z.div_small by lia. reflexivity.
Qed.
Lemma mbit_next m a i : mbit m (a + 1) (i - 8) = mbit m a i.
Proof.
  unfold mbit. replace (i - 8) with (i + (-1) * 8) by lia. rewrite Z.div_add, Z.mod_add by lia.
  replace (a + 1 + (i / 8 + -1)) with (a + i / 8) by lia. reflexivity.
Qed.
Lemma mbit_shift m p o i : mbit m (p + o / 8) (o mod 8 + i) = mbit m p (o + i).
Proof.
  unfold mbit. pose proof (Z.div_mod o 8). replace (o + i) with (o mod 8 + i + o / 8 * 8) by lia.
  rewrite Z.div_add, Z.mod_add by lia. replace (p + o / 8 + (o mod 8 + i) / 8) with (p + ((o mod 8 + i) / 8 + o / 8)) by lia. reflexivity.
Qed.
Lemma get_bits n : forall m a, byte_mem m -> room m a (Z.of_nat n) ->
  exists v, get_le n m a = Ok v /\ 0 <= v /\ forall i, 0 <= i < 8 * Z.of_nat n -> mbit m a i = Some (Z.testbit v i).
Proof.
  unfold get_le. induction n as [|n IH]; intros m a Hm R.
  - exists 0. split; [reflexivity|]. split; [lia|]. intros i Hi. lia.
  - destruct (m a) as [b|] eqn:E; [|exfalso; apply (R a); [lia|exact E]].
    destruct (IH m (a + 1) Hm) as (v & G & V & B). { intros x Hx. apply R. lia. }
    cbn [loads]. rewrite (load_some _ _ _ E), bind_Ok. destruct (loads n m (a + 1)) as [l| |] eqn:El; try discriminate G.
    rewrite bind_Ok in G. injection G as G. rewrite !bind_Ok. cbn [le_get]. rewrite G. exists (b + 256 * v). pose proof (Hm a b E).
    split; [reflexivity|]. split; [lia|]. intros i Hi. destruct (Z_lt_dec i 8).
    + unfold mbit. rewrite (Z.div_small i 8), (Z.mod_small i 8) by lia. rewrite Z.add_0_r, E, bit_low by lia. reflexivity.
    + rewrite bit_high by lia. rewrite <- B by lia. symmetry. apply mbit_next.
Qed.
Lemma bytes_bits n : forall m a v i, bytes_at m a (le_bytes n v) -> 0 <= i < 8 * Z.of_nat n -> mbit m a i = Some (Z.testbit v i).
Proof.
  induction n as [|n IH]; intros m a v i B Hi; [lia|]. cbn [le_bytes bytes_at] in B. destruct B as [E B]. destruct (Z_lt_dec i 8).
  - unfold mbit. rewrite (Z.div_small i 8), (Z.mod_small i 8) by lia. rewrite Z.add_0_r, E. f_equal.
    change 256 with (2 ^ 8). apply Z.mod_pow2_bits_low. lia.
  - rewrite <- mbit_next, (IH m (a + 1) (v / 256) (i - 8) B) by lia. f_equal. change 256 with (2 ^ 8). rewrite Z.div_pow2_bits by lia.
    f_equal. lia.
Qed.

Section Place.
Variables (m : mem) (p o w : Z).
Hypotheses (Ho : 0 <= o) (Hw : 0 <= w).
Local Notation n := (Z.to_nat ((o mod 8 + w + 7) / 8)).
Local Notation a := (p + o / 8).


Lemma n_val : Z.of_nat n = (o mod 8 + w + 7) / 8.
Proof. rewrite Z2Nat.id; [reflexivity|]. pose proof (Z.mod_pos_bound o 8). apply Z.div_pos; lia. Qed.
Lemma n_cover : o mod 8 + w <= 8 * Z.of_nat n.
Proof. rewrite n_val. pose proof (Z.div_mod (o mod 8 + w + 7) 8). pose proof (Z.mod_pos_bound (o mod 8 + w + 7) 8). lia. Qed.
(* every byte of the object that holds one of its bits is there *)
Lemma bits_room : (forall i, 0 <= i < w -> mbit m p (o + i) <> None) -> w = 0 -> o mod 8 = 0 -> room m a (Z.of_nat n).
Proof. intros _ W0 E x Hx. rewrite n_val, E, W0 in Hx. change ((0 + 0 + 7) / 8) with 0 in Hx. lia. Qed.
Lemma bits_room_pos : (forall i, 0 <= i < w -> mbit m p (o + i) <> None) -> 0 < w -> room m a (Z.of_nat n).
Proof.
  intros H P x Hx. rewrite n_val in Hx. pose proof (Z.div_mod o 8). pose proof (Z.mod_pos_bound o 8).
  pose proof (Z.div_mod (o mod 8 + w + 7) 8). pose proof (Z.mod_pos_bound (o mod 8 + w + 7) 8).
  set (j := x - (p + o / 8)) in *. set (i := Z.max 0 (8 * j - o mod 8)).
  assert (I : 0 <= i < w) by (unfold i; lia). specialize (H i I). unfold mbit in H.
  replace ((o + i) / 8) with (o / 8 + j) in H.
  - replace (p + (o / 8 + j)) with x in H by (unfold j; lia). intros E. rewrite E in H. contradiction.
  - unfold i. destruct (Z.max_spec 0 (8 * j - o mod 8)) as [[_ ->]|[L ->]].
    + replace (o + (8 * j - o mod 8)) with (0 + (o / 8 + j) * 8) by lia. rewrite Z.div_add by lia. reflexivity.
    + assert (j = 0) by lia. replace j with 0 by lia. rewrite !Z.add_0_r. reflexivity.
Qed.
End Place.

Lemma get_holds m p t f o w v : byte_mem m -> member t f = Some (o, w) -> 0 <= o -> 0 < w \/ w = 0 /\ o mod 8 = 0 ->
  0 <= v < 2 ^ w -> holds m p o w v -> get_member m p t f = Ok v.
Proof.
  intros Hm M Ho Hw Hv H. unfold get_member. rewrite M. set (n := Z.to_nat _).
  assert (R : room m (p + o / 8) (Z.of_nat n)).
  { assert (H' : forall i, 0 <= i < w -> mbit m p (o + i) <> None) by (intros i Hi; rewrite (H i Hi); discriminate).
    destruct Hw as [Hw|[Hw E]]; [apply bits_room_pos; auto; lia|apply bits_room; auto; lia]. }
  destruct (get_bits n m (p + o / 8) Hm R) as (x & -> & X & B). rewrite bind_Ok. f_equal.
  pose proof (n_cover o w ltac:(lia)) as C. fold n in C. pose proof (Z.mod_pos_bound o 8).
  apply Z.bits_inj'. intros i Hi. rewrite Z.land_spec, Z.shiftr_spec by lia. destruct (Z_lt_dec i w).
  - rewrite Z.ones_spec_low, andb_true_r by lia. specialize (B (o mod 8 + i) ltac:(lia)). rewrite mbit_shift, (H i ltac:(lia)) in B.
    injection B as ->. f_equal. lia.
  - rewrite Z.ones_spec_high, andb_false_r by lia. symmetry. apply Z.testbit_false; [lia|].
    rewrite Z.div_small; [reflexivity|]. split; [lia|]. eapply Z.lt_le_trans; [apply Hv|]. apply Z.pow_le_mono_r; lia.
Qed.

Lemma set_holds m p t f o w v : byte_mem m -> member t f = Some (o, w) -> 0 <= o -> 0 < w \/ w = 0 /\ o mod 8 = 0 ->
  (forall i, 0 <= i < w -> mbit m p (o + i) <> None) ->
  exists m', set_member m p t f v = Ok m' /\ holds m' p o w v /\ forall i, i < o \/ o + w <= i -> mbit m' p i = mbit m p i.
Proof.
  intros Hm M Ho Hw H. unfold set_member. rewrite M. set (n := Z.to_nat _). cbv zeta.
  assert (R : room m (p + o / 8) (Z.of_nat n)).
  { destruct Hw as [Hw|[Hw E]]; [apply bits_room_pos; auto; lia|apply bits_room; auto; lia]. }
  destruct (get_bits n m (p + o / 8) Hm R) as (x & -> & X & B). rewrite bind_Ok.
  pose proof (n_cover o w ltac:(lia)) as C. fold n in C. pose proof (Z.mod_pos_bound o 8 ltac:(lia)) as Hs.
  pose proof (Z.div_mod o 8 ltac:(lia)) as D. set (s := o mod 8) in *. set (y := Z.lor _ _).
  assert (Y1 : forall i, 0 <= i < w -> Z.testbit y (s + i) = Z.testbit v i).
  { intros i Hi. unfold y. rewrite Z.lor_spec, Z.land_spec, Z.lnot_spec, !Z.shiftl_spec by lia. rewrite Z.land_spec.
    replace (s + i - s) with i by lia. rewrite Z.ones_spec_low by lia. rewrite andb_false_r, andb_true_r. reflexivity. }
  assert (Y2 : forall j, 0 <= j -> j < s \/ s + w <= j -> Z.testbit y j = Z.testbit x j).
  { intros j Hj Hi. unfold y. rewrite Z.lor_spec, Z.land_spec, Z.lnot_spec, !Z.shiftl_spec by lia. rewrite Z.land_spec.
    assert (T : Z.testbit (Z.ones w) (j - s) = false).
    { destruct Hi; [apply Z.testbit_neg_r; lia|apply Z.ones_spec_high; lia]. }
    rewrite T, andb_false_r, orb_false_r, andb_true_r. reflexivity. }
  destruct (put_le_ok n m (p + o / 8) y R) as (m' & E & P & S). rewrite E. exists m'. split; [reflexivity|].
  assert (P' : forall j, 0 <= j < 8 * Z.of_nat n -> mbit m' (p + o / 8) j = Some (Z.testbit y j)) by (intros; eapply bytes_bits; eauto).
  split.
  - intros i Hi. rewrite <- mbit_shift. fold s. rewrite P' by lia. f_equal. apply Y1. exact Hi.
  - intros i Hi. replace i with (o + (i - o)) by lia. rewrite <- !(mbit_shift _ p o). fold s. set (j := s + (i - o)).
    destruct (Z_lt_dec j 0) as [L|L]; [|destruct (Z_lt_dec j (8 * Z.of_nat n))].
    + unfold mbit. rewrite S; [reflexivity|]. assert (j / 8 < 0) by (apply Z.div_lt_upper_bound; lia). lia.
    + rewrite P' by lia. rewrite B by lia. f_equal. apply Y2; unfold j in *; lia.
    + unfold mbit. rewrite S; [reflexivity|]. assert (Z.of_nat n <= j / 8) by (apply Z.div_le_lower_bound; lia). lia.
Qed.

(* ---- masks ---- *)
Lemma small_bit a n i : 0 <= n <= i -> 0 <= a < 2 ^ n -> Z.testbit a i = false.
Proof.
  intros Hn Ha. apply Z.testbit_false; [lia|]. rewrite Z.div_small; [reflexivity|]. split; [lia|].
  eapply Z.lt_le_trans; [apply Ha|apply Z.pow_le_mono_r; lia].
Qed.
Lemma lor_add a b n : 0 <= n -> 0 <= a < 2 ^ n -> Z.lor a (Z.shiftl b n) = a + b * 2 ^ n.
Proof.
  intros Hn Ha. rewrite <- Z.shiftl_mul_pow2 by lia.
  assert (L : Z.land a (Z.shiftl b n) = 0).
  { apply Z.bits_inj'. intros i Hi. rewrite Z.land_spec, Z.shiftl_spec, Z.bits_0 by lia. destruct (Z_lt_dec i n).
    - rewrite (Z.testbit_neg_r b) by lia. apply andb_false_r.
    - rewrite (small_bit a n) by lia. reflexivity. }
  rewrite Z.add_nocarry_lxor, Z.lxor_lor by exact L. reflexivity.
Qed.
Lemma type_bits n p : 0 <= n < 16 -> 0 <= p < 4096 -> Z.land (4096 * n + p) S_IFMT = 4096 * n.
Proof.
  intros Hn Hp. replace (4096 * n + p) with (p + n * 2 ^ 12) by (change (2 ^ 12) with 4096; lia). rewrite <- lor_add by (try change (2 ^ 12) with 4096; lia).
  change S_IFMT with (Z.shiftl (Z.ones 4) 12). rewrite Z.land_lor_distr_l, <- Z.shiftl_land, Z.land_ones by lia.
  change (2 ^ 4) with 16. rewrite Z.mod_small by lia. rewrite (Z.shiftl_mul_pow2 n) by lia.
  replace (Z.land p (Z.shiftl (Z.ones 4) 12)) with 0; [rewrite Z.lor_0_l; change (2 ^ 12) with 4096; lia|].
  symmetry. apply Z.bits_inj'. intros i Hi. rewrite Z.land_spec, Z.shiftl_spec, Z.bits_0 by lia. destruct (Z_lt_dec i 12).
  - rewrite (Z.testbit_neg_r (Z.ones 4)) by lia. apply andb_false_r.
  - rewrite (small_bit p 12) by (try change (2 ^ 12) with 4096; lia). reflexivity.
Qed.
Lemma ioc_sum a b c d : 0 <= a < 4 -> 0 <= b < 256 -> 0 <= c < 256 -> 0 <= d < 16384 ->
  IOC a b c d = c + b * 2 ^ 8 + d * 2 ^ 16 + a * 2 ^ 30.
Proof.
  intros Ha Hb Hc Hd. unfold IOC, u32, u64. rewrite (Z.shiftl_mul_pow2 a 30), (Z.shiftl_mul_pow2 d 16) by lia.
  change (2 ^ 30) with 1073741824. change (2 ^ 16) with 65536. rewrite !Z.mod_small by lia.
  change 1073741824 with (2 ^ 30). change 65536 with (2 ^ 16). rewrite <- (Z.shiftl_mul_pow2 a 30), <- (Z.shiftl_mul_pow2 d 16) by lia.
  rewrite (Z.lor_comm (Z.lor (Z.shiftl a 30) (Z.shiftl b 8)) c), (Z.lor_comm (Z.shiftl a 30) (Z.shiftl b 8)), Z.lor_assoc.
  rewrite <- Z.lor_assoc, (Z.lor_comm (Z.shiftl a 30)), Z.lor_assoc.
  rewrite (lor_add c b 8) by (change (2 ^ 8) with 256; lia).
  rewrite (lor_add _ d 16) by (change (2 ^ 16) with 65536; change (2 ^ 8) with 256; lia).
  rewrite (lor_add _ a 30) by (change (2 ^ 16) with 65536; change (2 ^ 8) with 256; change (2 ^ 30) with 1073741824; lia).
  rewrite !Z.shiftl_mul_pow2 by lia. reflexivity.
Qed.
Lemma ioc_fields a b c d : 0 <= a < 4 -> 0 <= b < 256 -> 0 <= c < 256 -> 0 <= d < 16384 ->
  let x := c + b * 2 ^ 8 + d * 2 ^ 16 + a * 2 ^ 30 in ioc_nr x = c /\ ioc_type x = b /\ ioc_size x = d /\ ioc_dir x = a.
Proof.
  intros Ha Hb Hc Hd. unfold ioc_nr, ioc_type, ioc_size, ioc_dir. cbv zeta.
  change (2 ^ 8) with 256. change (2 ^ 16) with 65536. change (2 ^ 30) with 1073741824. change (2 ^ 14) with 16384.
  assert (E1 : (c + b * 256 + d * 65536 + a * 1073741824) / 256 = b + d * 256 + a * 4194304) by (symmetry; apply Z.div_unique with c; lia).
  assert (E2 : (c + b * 256 + d * 65536 + a * 1073741824) / 65536 = d + a * 16384) by (symmetry; apply Z.div_unique with (c + b * 256); lia).
  assert (E3 : (c + b * 256 + d * 65536 + a * 1073741824) / 1073741824 = a) by (symmetry; apply Z.div_unique with (c + b * 256 + d * 65536); lia).
  rewrite E1, E2, E3. repeat split; symmetry.
  - apply Z.mod_unique with (b + d * 256 + a * 4194304); lia.
  - apply Z.mod_unique with (d + a * 16384); lia.
  - apply Z.mod_unique with a; lia.
  - symmetry. apply Z.mod_small. lia.
Qed.
