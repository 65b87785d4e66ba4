(* C178: octets of the IP header, lengths of ethernet frames, flags of routes.  C179: limits of the integer types. *)
From Verif Require Import Base BaseLemmas IpoModel.
Ltac Zify.zify_post_hook ::= Z.div_mod_to_equations.

Definition octets : list Z := map Z.of_nat (seq 0 256).
Lemma octet_in x : 0 <= x < 256 -> In x octets.
Proof. intros H. apply in_map_iff. exists (Z.to_nat x). split; [lia|]. apply in_seq. lia. Qed.

(* The type of service octet is a code point of six bits followed by two bits for congestion; its
   first three bits are the precedence and the class; the four bits from the second lowest on are the
   old type of service.  The macros return these fields in place. *)
Theorem C178_tos : forall x, 0 <= x < 256 ->
  IPTOS_ECN x = x mod 4 /\ IPTOS_DSCP x = 4 * (x / 4) /\ x = IPTOS_DSCP x + IPTOS_ECN x /\
  IPTOS_CLASS x = 32 * (x / 32) /\ IPTOS_PREC x = 32 * (x / 32) /\ IPTOS_TOS x = 2 * (x / 2 mod 16).
Proof.
  set (f := fun x => (IPTOS_ECN x =? x mod 4) && (IPTOS_DSCP x =? 4 * (x / 4)) && (x =? IPTOS_DSCP x + IPTOS_ECN x) &&
    (IPTOS_CLASS x =? 32 * (x / 32)) && (IPTOS_PREC x =? 32 * (x / 32)) && (IPTOS_TOS x =? 2 * (x / 2 mod 16))).
  assert (F : forallb f octets = true) by (vm_compute; reflexivity).
  intros x H. pose proof (proj1 (forallb_forall _ _) F x (octet_in x H)) as G. unfold f in G.
  repeat (apply andb_prop in G as [G ?]). repeat match goal with A : (_ =? _) = true |- _ => apply Z.eqb_eq in A end. auto 10.
Qed.
Print Assumptions C178_tos.
(* The constants: assured forwarding class i with drop precedence j is the code point 8i + 2j,
   expedited forwarding is 46, class selector i is the code point 8i, the precedence is i from 7 (network
   control) down to 0; every code point leaves the congestion bits 0, so that one of the four may be
   added; the four service bits are the four that IPTOS_TOS returns, each one its own. *)
Theorem C178_points :
  (forall i j, (i < 4)%nat -> (j < 3)%nat -> exists l, nth_error DSCP_AF i = Some l /\
     nth_error l j = Some (4 * (8 * (Z.of_nat i + 1) + 2 * (Z.of_nat j + 1)))) /\
  DSCP_EF = 4 * 46 /\
  (forall i, (i < 8)%nat -> nth_error CLASS_CS i = Some (4 * (8 * Z.of_nat i)) /\ nth_error PREC i = Some (32 * (7 - Z.of_nat i))) /\
  (forall d c, In d (DSCP_EF :: concat DSCP_AF ++ CLASS_CS) -> 0 <= c < 4 -> IPTOS_DSCP (d + c) = d /\ IPTOS_ECN (d + c) = c) /\
  (forall b, (b < 4)%nat -> nth_error TOS_BITS b = Some (2 ^ (4 - Z.of_nat b))) /\
  (forall s, 0 <= s < 16 -> exists p q r t, (p = 0 \/ p = 1) /\ (q = 0 \/ q = 1) /\ (r = 0 \/ r = 1) /\ (t = 0 \/ t = 1) /\
     IPTOS_TOS (2 * s) = p * nth 0 TOS_BITS 0 + q * nth 1 TOS_BITS 0 + r * nth 2 TOS_BITS 0 + t * nth 3 TOS_BITS 0).
Proof.
  split; [|split; [reflexivity|split; [|split; [|split]]]].
  - intros i j I J. do 4 (destruct i as [|i]; [eexists; split; [reflexivity|do 3 (destruct j as [|j]; [reflexivity|]); lia]|]). lia.
  - intros i I. do 8 (destruct i as [|i]; [split; reflexivity|]). lia.
  - intros d c D C.
    assert (F : forallb (fun d => forallb (fun c => (IPTOS_DSCP (d + c) =? d) && (IPTOS_ECN (d + c) =? c)) [0; 1; 2; 3])
      (DSCP_EF :: concat DSCP_AF ++ CLASS_CS) = true) by (vm_compute; reflexivity).
    pose proof (proj1 (forallb_forall _ _) F d D) as G. cbv beta in G.
    assert (I : In c [0; 1; 2; 3]) by (cbn; lia).
    pose proof (proj1 (forallb_forall _ _) G c I) as K. apply andb_prop in K as [K L]. apply Z.eqb_eq in K, L. auto.
  - intros b B. do 4 (destruct b as [|b]; [reflexivity|]). lia.
  - intros s S. destruct (C178_tos (2 * s)) as (_ & _ & _ & _ & _ & ->); [lia|]. cbn [nth TOS_BITS].
    exists (s / 8), (s / 4 mod 2), (s / 2 mod 2), (s mod 2). lia.
Qed.
Print Assumptions C178_points.
(* The type octet of an option: one bit for "copied into all fragments", two bits of class, five bits of number;
   the names have the bit, the class and the number of RFC 791 and RFC 2113. *)
Definition rfc_options : list (Z * Z * Z) :=
  [(0, 0, 0); (0, 0, 1); (0, 0, 7); (0, 2, 4); (1, 0, 2); (1, 0, 3); (1, 0, 8); (1, 0, 9); (1, 0, 20)].
Theorem C178_options :
  (forall o, 0 <= o < 256 -> IPOPT_COPIED o = 128 * (o / 128) /\ IPOPT_CLASS o = 32 * (o / 32 mod 4) /\ IPOPT_NUMBER o = o mod 32 /\
     o = IPOPT_COPIED o + IPOPT_CLASS o + IPOPT_NUMBER o) /\
  map (fun o => (IPOPT_COPIED o / 128, IPOPT_CLASS o / 32, IPOPT_NUMBER o)) OPTIONS = rfc_options /\
  (forall o, 0 <= o < 256 -> In (IPOPT_CLASS o) OPT_CLASSES).
Proof.
  assert (A : forall o, 0 <= o < 256 -> IPOPT_COPIED o = 128 * (o / 128) /\ IPOPT_CLASS o = 32 * (o / 32 mod 4) /\ IPOPT_NUMBER o = o mod 32).
  { set (f := fun o => (IPOPT_COPIED o =? 128 * (o / 128)) && (IPOPT_CLASS o =? 32 * (o / 32 mod 4)) && (IPOPT_NUMBER o =? o mod 32)).
    assert (F : forallb f octets = true) by (vm_compute; reflexivity).
    intros o H. pose proof (proj1 (forallb_forall _ _) F o (octet_in o H)) as G. unfold f in G.
    repeat (apply andb_prop in G as [G ?]). repeat match goal with A : (_ =? _) = true |- _ => apply Z.eqb_eq in A end. auto. }
  split; [|split; [vm_compute; reflexivity|]]; intros o H; destruct (A o H) as (B & C & D).
  - split; [exact B|split; [exact C|split; [exact D|lia]]].
  - rewrite C. unfold OPT_CLASSES. cbn [In]. lia.
Qed.
Print Assumptions C178_options.

(* ETHER_IS_VALID_LEN accepts the lengths of the frames that consist of the header of 14 bytes, of
   ETHERMIN (46) to 1500 bytes of data and of the checksum of 4 bytes, and no other *)
Theorem C178_length : forall n, ETHER_IS_VALID_LEN n = true <-> exists d, 46 <= d <= 1500 /\ n = 14 + d + 4.
Proof.
  intros n. unfold ETHER_IS_VALID_LEN, ETHER_MIN_LEN, ETHER_MAX_LEN, ETH_ZLEN, ETH_FRAME_LEN, ETHER_CRC_LEN. rewrite andb_true_iff, !Z.leb_le.
  split; [intros H; exists (n - 18); lia|intros (d & H & ->); lia].
Qed.
Print Assumptions C178_length.
Theorem C178_ethermin : forall d, 0 <= d -> ETHER_IS_VALID_LEN (ETH_HLEN + d + ETHER_CRC_LEN) = true <-> ETHERMIN <= d <= ETH_DATA_LEN.
Proof.
  intros d H. rewrite C178_length. unfold ETH_HLEN, ETHER_CRC_LEN, ETHERMIN, ETHER_MIN_LEN, ETH_ZLEN, ETH_HLEN, ETHER_CRC_LEN, ETH_DATA_LEN.
  split; [intros (x & X & E); lia|intros X; exists d; lia].
Qed.
Print Assumptions C178_ethermin.

(* the flags of the address class are five different bits, the mask has exactly these *)
Theorem C178_flags : forall i, 0 <= i ->
  Z.testbit RTF_LOCAL i = (i =? 31) /\ Z.testbit RTF_INTERFACE i = (i =? 30) /\ Z.testbit RTF_MULTICAST i = (i =? 29) /\
  Z.testbit RTF_BROADCAST i = (i =? 28) /\ Z.testbit RTF_NAT i = (i =? 27) /\ Z.testbit RTF_ADDRCLASSMASK i = ((27 <=? i) && (i <? 32)).
Proof.
  intros i Hi.
  change RTF_LOCAL with (2 ^ 31). change RTF_INTERFACE with (2 ^ 30). change RTF_MULTICAST with (2 ^ 29). change RTF_BROADCAST with (2 ^ 28). change RTF_NAT with (2 ^ 27).
  rewrite !Z.pow2_bits_eqb by lia. rewrite !(Z.eqb_sym i). repeat split; auto.
  change RTF_ADDRCLASSMASK with (Z.shiftl (Z.ones 5) 27). rewrite Z.shiftl_spec by lia.
  destruct (Z.leb_spec 27 i); cbn [andb].
  - destruct (Z.ltb_spec i 32); [apply Z.ones_spec_low; lia|apply Z.ones_spec_high; lia].
  - apply Z.testbit_neg_r. lia.
Qed.
Print Assumptions C178_flags.
(* RT_LOCALADDR: of the five bits of the address class exactly LOCAL and INTERFACE are set *)
Theorem C178_local : forall flags, 0 <= flags < 2 ^ 32 -> RT_LOCALADDR flags = true <-> flags / 2 ^ 27 = 24.
Proof.
  intros f H. unfold RT_LOCALADDR. rewrite Z.eqb_eq.
  assert (E : Z.land f RTF_ADDRCLASSMASK = f / 2 ^ 27 * 2 ^ 27).
  { rewrite <- Z.shiftr_div_pow2, <- Z.shiftl_mul_pow2 by lia. apply Z.bits_inj'. intros i I. rewrite Z.land_spec, Z.shiftl_spec by lia.
    change RTF_ADDRCLASSMASK with (Z.shiftl (Z.ones 5) 27). rewrite Z.shiftl_spec by lia.
    destruct (Z.ltb_spec i 27). { rewrite (Z.testbit_neg_r _ (i - 27)) by lia. rewrite (Z.testbit_neg_r (Z.shiftr f 27)) by lia. apply andb_false_r. }
    rewrite Z.shiftr_spec by lia. replace (i - 27 + 27) with i by lia.
    destruct (Z.ltb_spec i 32). { rewrite Z.ones_spec_low by lia. apply andb_true_r. }
    rewrite Z.ones_spec_high by lia. rewrite andb_false_r. symmetry. destruct (Z.eqb_spec f 0) as [->|]; [apply Z.bits_0|].
    apply Z.bits_above_log2; [lia|]. apply Z.log2_lt_pow2; [lia|]. apply Z.lt_le_trans with (2 ^ 32); [lia|]. apply Z.pow_le_mono_r; lia. }
  rewrite E. change (Z.lor RTF_LOCAL RTF_INTERFACE) with (24 * 2 ^ 27). change (2 ^ 27) with 134217728. lia.
Qed.
Print Assumptions C178_local.
(* RT_ADDRCLASS shifts by 23 where the class begins at bit 27: what it returns is not only the class.
   Two flags of the same class give different values, and none of them is the class. *)
Theorem C178_class_refuted : exists f g, 0 <= f < 2 ^ 32 /\ 0 <= g < 2 ^ 32 /\ Z.land f RTF_ADDRCLASSMASK = Z.land g RTF_ADDRCLASSMASK /\
  RT_ADDRCLASS f <> RT_ADDRCLASS g /\ RT_ADDRCLASS f <> f / 2 ^ 27 /\ RT_ADDRCLASS g <> g / 2 ^ 27.
Proof. exists 3221225472, (3221225472 + 8388608). vm_compute. repeat split; discriminate. Qed.
Print Assumptions C178_class_refuted.
(* what it does return *)
Theorem C178_class_partial : forall f, 0 <= f < 2 ^ 32 -> RT_ADDRCLASS f = 16 * (f / 2 ^ 27) + f / 2 ^ 23 mod 16.
Proof. intros f H. unfold RT_ADDRCLASS. rewrite u32_small by lia. rewrite Z.shiftr_div_pow2 by lia. change (2 ^ 23) with 8388608. change (2 ^ 27) with 134217728. lia. Qed.
Print Assumptions C178_class_partial.

Example C178_case : IPTOS_DSCP 187 = DSCP_EF /\ IPTOS_ECN 187 = 3 /\ IPOPT_CLASS 68 = 64 /\ IPOPT_NUMBER 148 = 20 /\
  ETHER_IS_VALID_LEN 64 = true /\ ETHER_IS_VALID_LEN 63 = false /\ ETHER_IS_VALID_LEN 1518 = true /\ ETHER_IS_VALID_LEN 1519 = false /\
  RT_LOCALADDR 3221225473 = true /\ RT_LOCALADDR 3758096384 = false.
Proof. vm_compute. repeat split. Qed.

(* C179: a value is kept by the signed type of 8 * 2^i bits iff it lies between the two limits, and by the
   unsigned type iff it lies between 0 and the limit; the limits are values of the type themselves *)
Definition signed (bits v : Z) : Z := (v + 2 ^ (bits - 1)) mod 2 ^ bits - 2 ^ (bits - 1).
Definition unsigned (bits v : Z) : Z := v mod 2 ^ bits.
Theorem C179_limits : forall i v, (i < 4)%nat -> exists lo hi top, 
  nth_error INTN_MIN i = Some lo /\ nth_error INTN_MAX i = Some hi /\ nth_error UINTN_MAX i = Some top /\
  (signed (8 * 2 ^ Z.of_nat i) v = v <-> lo <= v <= hi) /\ (unsigned (8 * 2 ^ Z.of_nat i) v = v <-> 0 <= v <= top).
Proof.
  intros i v H. unfold signed, unsigned.
  destruct i as [|[|[|[|i]]]]; [| | | |lia]; (eexists; eexists; eexists; split; [reflexivity|split; [reflexivity|split; [reflexivity|]]]).
  - change (2 ^ (8 * 2 ^ Z.of_nat 0 - 1)) with 128. change (2 ^ (8 * 2 ^ Z.of_nat 0)) with 256. lia.
  - change (2 ^ (8 * 2 ^ Z.of_nat 1 - 1)) with 32768. change (2 ^ (8 * 2 ^ Z.of_nat 1)) with 65536. lia.
  - change (2 ^ (8 * 2 ^ Z.of_nat 2 - 1)) with 2147483648. change (2 ^ (8 * 2 ^ Z.of_nat 2)) with 4294967296. lia.
  - change (2 ^ (8 * 2 ^ Z.of_nat 3 - 1)) with 9223372036854775808. change (2 ^ (8 * 2 ^ Z.of_nat 3)) with 18446744073709551616. lia.
Qed.
Print Assumptions C179_limits.
Example C179_case : signed 8 127 = 127 /\ signed 8 128 = -128 /\ unsigned 16 65536 = 0.
Proof. vm_compute. auto. Qed.
