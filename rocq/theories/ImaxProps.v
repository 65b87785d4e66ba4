(* C126, C127: strtoimax and term_width. *)
From Verif Require Import Base BaseLemmas ConvModel ConvSpec ConvProofs ConvProofs2 ConvProofs3 ConvProofs4 ConvProofs6 ImaxModel ImaxProofs.
Ltac digs_tac := repeat (constructor; [vm_compute; split; [discriminate|reflexivity]|]); constructor.

(* ---- C126: strtoimax ---- *)
(* Partial: the magnitude fits an int, and the character e after the digits does not
   have the digit value base (which strtoimax accepts as a digit) *)
Lemma nd base e : 2 <= base -> ~ (0 <= digval e < base) -> digval e <> base -> not_digit base e.
Proof. intros. unfold not_digit. lia. Qed.
Theorem C126_strtoimax_partial : forall strict m s base ws neg ds e fuel,
  2 <= base <= 36 -> Forall is_space ws -> digits base ds -> ds <> [] ->
  bytes_at m s (ws ++ minus neg ++ ds ++ [e]) -> 0 <= e < 256 -> ~ (0 <= digval e < base) -> digval e <> base ->
  value base ds <= INT_MAX -> (length (ws ++ minus neg ++ ds) < fuel)%nat ->
  strtoimax strict fuel m s base = Ok (signed neg (value base ds), s + zlen (ws ++ minus neg ++ ds), false).
Proof.
  intros strict m s base ws neg ds e fuel Hb HW D Hne HB Re Ne N2 V Hf. rewrite !app_assoc in HB. apply bytes_at_app in HB as [HB [He _]].
  rewrite <- !app_assoc in *. apply (strtoimax_ok strict m s base ws neg ds e); auto. apply nd; auto; lia.
Qed.
Print Assumptions C126_strtoimax_partial.
Theorem C126_base0_partial : forall strict m s ws neg ds e fuel,
  Forall is_space ws -> 0 <= e < 256 ->
  (bytes_at m s (ws ++ minus neg ++ ds ++ [e]) -> digits 10 ds -> ds <> [] -> hd 0 ds <> 48 ->
     ~ (0 <= digval e < 10) -> digval e <> 10 -> value 10 ds <= INT_MAX -> (length (ws ++ minus neg ++ ds) < fuel)%nat ->
     strtoimax strict fuel m s 0 = Ok (signed neg (value 10 ds), s + zlen (ws ++ minus neg ++ ds), false)) /\
  (bytes_at m s (ws ++ minus neg ++ (48 :: ds) ++ [e]) -> digits 8 ds -> hd e ds <> 120 ->
     ~ (0 <= digval e < 8) -> digval e <> 8 -> value 8 ds <= INT_MAX -> (length (ws ++ minus neg ++ 48%Z :: ds) < fuel)%nat ->
     strtoimax strict fuel m s 0 = Ok (signed neg (value 8 ds), s + zlen (ws ++ minus neg ++ 48 :: ds), false)) /\
  (bytes_at m s (ws ++ minus neg ++ (48 :: 120 :: ds) ++ [e]) -> digits 16 ds ->
     ~ (0 <= digval e < 16) -> digval e <> 16 -> value 16 ds <= INT_MAX -> (length (ws ++ minus neg ++ 48%Z :: 120%Z :: ds) < fuel)%nat ->
     strtoimax strict fuel m s 0 = Ok (signed neg (value 16 ds), s + zlen (ws ++ minus neg ++ 48 :: 120 :: ds), false)).
Proof.
  intros strict m s ws neg ds e fuel HW Re. split; [|split].
  - intros HB D Hne Hh Ne N2 V Hf. rewrite !app_assoc in HB. apply bytes_at_app in HB as [HB [He _]]. rewrite <- !app_assoc in *.
    apply (strtoimax_base0_dec strict m s ws neg ds e); auto. apply nd; auto; lia.
  - intros HB D Hh Ne N2 V Hf. rewrite !app_assoc in HB. apply bytes_at_app in HB as [HB [He _]]. rewrite <- !app_assoc in *.
    apply (strtoimax_base0_oct strict m s ws neg ds e); auto. apply nd; auto; lia.
  - intros HB D Ne N2 V Hf. rewrite !app_assoc in HB. apply bytes_at_app in HB as [HB [He _]]. rewrite <- !app_assoc in *.
    apply (strtoimax_base0_hex strict m s ws neg ds e); auto. apply nd; auto; lia.
Qed.
Print Assumptions C126_base0_partial.
(* overflow is noticed when the first excessive value lies in [2^31, 2^32): base 2 always *)
Theorem C126_saturates_partial : forall m s base ws neg ds d e fuel,
  2 <= base <= 36 -> Forall is_space ws -> digits base (ds ++ [d]) ->
  bytes_at m s (ws ++ minus neg ++ ds ++ d :: e) ->
  value base ds <= INT_MAX -> INT_MAX < value base (ds ++ [d]) < 4294967296 ->
  (length (ws ++ minus neg ++ ds) + 1 < fuel)%nat ->
  strtoimax false fuel m s base = Ok (if neg then INT_MIN else INT_MAX, s + zlen (ws ++ minus neg ++ ds), true).
Proof.
  intros m s base ws neg ds d e fuel Hb HW D HB V V2 Hf. apply Forall_app in D as [D Dd]. apply Forall_cons_iff in Dd as [Dd _].
  rewrite !app_assoc in *. apply bytes_at_app in HB as [HB [He _]].
  pose proof HB as HB'. apply bytes_at_app in HB' as [HB1 HB2]. set (p := ws ++ minus neg) in *.
  destruct ds as [|x ds].
  { exfalso. revert V2. unfold value. cbn [app fold_left]. unfold INT_MAX. lia. }
  assert (Dx : 0 <= digval x) by (apply Forall_cons_iff in D as [? _]; lia).
  assert (LW : (length ws <= length p)%nat) by (unfold p; rewrite app_length; lia).
  revert Hf. rewrite app_length. cbn [length]. intro Hf.
  rewrite (strtoimax_front false m s base ws neg x fuel); auto; try lia; [|apply HB2]. fold p. cbv zeta. destruct (Z.eqb_spec base 0); [lia|]. rewrite bind_Ok.
  pose proof (value_range base (x :: ds) ltac:(lia) D) as VR.
  replace fuel with (length (x :: ds) + S (fuel - length (x :: ds) - 1))%nat by (cbn [length]; lia).
  rewrite imax_loop_ok; auto; try lia. rewrite Z.mul_0_l, Z.add_0_l. rewrite value_snoc in V2.
  rewrite (strtoimax_step_over m _ base neg _ d); auto; try lia.
  - do 3 f_equal. unfold p. zl. lia.
  - revert He. rewrite zlen_app. now rewrite Z.add_assoc.
  - unfold INT_MAX in *. lia.
Qed.
Print Assumptions C126_saturates_partial.
Example C126_case : bytes_at (mem_of [(50, [32; 45; 122; 49; 47; 0])]) 50 ([32] ++ minus true ++ [122; 49] ++ [47]) /\
  Forall is_space [32] /\ digits 36 [122; 49] /\ ~ (0 <= digval 47 < 36) /\ digval 47 <> 36.
Proof. split; [cbn; auto 10|]. split; [constructor; [left; reflexivity|constructor]|]. split; [digs_tac|]. cbn. lia. Qed.
(* the digit of value base is accepted *)
Theorem C126_digit_refuted : exists m s, bytes_at m s [49; 56; 0] /\ ~ (0 <= digval 56 < 8) /\
  forall strict fuel, (3 <= fuel)%nat -> strtoimax strict fuel m s 8 = Ok (16, s + 2, false).
Proof.
  exists (mem_of [(50, [49; 56; 0])]), 50. split; [cbn; auto|]. split; [cbn; lia|].
  intros strict [|[|[|f]]] H; try lia. destruct strict; reflexivity.
Qed.
Print Assumptions C126_digit_refuted.
(* 2^32 in decimal wraps to 0 unnoticed *)
Theorem C126_overflow_refuted : exists m s ds, digits 10 ds /\ value 10 ds = 4294967296 /\ bytes_at m s (ds ++ [0]) /\
  forall fuel, (11 <= fuel)%nat -> strtoimax false fuel m s 10 = Ok (0, s + 10, false) /\ strtoimax true fuel m s 10 = Fault.
Proof.
  exists (mem_of [(50, [52;50;57;52;57;54;55;50;57;54;0])]), 50, [52;50;57;52;57;54;55;50;57;54].
  split; [digs_tac|]. split; [reflexivity|]. split; [cbn; repeat (split; [reflexivity|]); exact I|].
  intros fuel H. do 11 (destruct fuel as [|fuel]; [lia|]). split; reflexivity.
Qed.
Print Assumptions C126_overflow_refuted.

(* ---- C127: term_width ---- *)
(* Missing: values of COLUMNS that are not decimal numbers (or above 2147483599). *)
Theorem C127_width_partial : forall strict fuel m p ds,
  p <> 0 -> str_at m p ds -> digits 10 ds -> ds <> [] -> value 10 ds + 48 <= INT_MAX -> (length ds < fuel)%nat ->
  term_width strict fuel m p = Ok (value 10 ds).
Proof.
  intros strict fuel m p ds Hp S D _ V F. unfold term_width. destruct (Z.eqb_spec p 0); [contradiction|].
  rewrite (width_ok strict ds fuel m p 0 S D) by lia. reflexivity.
Qed.
Print Assumptions C127_width_partial.
(* COLUMNS is not set *)
Theorem C127_unset : forall strict fuel m, term_width strict fuel m 0 = Ok 80.
Proof. reflexivity. Qed.
Print Assumptions C127_unset.
(* COLUMNS="-1": -29 columns; COLUMNS="": no columns *)
Theorem C127_garbage_refuted : exists m p, str_at m p [45; 49] /\ p <> 0 /\ forall strict, term_width strict 9 m p = Ok (-29) /\ term_width strict 9 m (p + 2) = Ok 0.
Proof.
  exists (mem_of [(50, [45; 49; 0])]), 50. split; [vm_compute; repeat split; congruence|]. split; [discriminate|].
  intros [|]; split; reflexivity.
Qed.
Print Assumptions C127_garbage_refuted.
Example C127_case : str_at (mem_of [(50, [49; 51; 50; 0])]) 50 [49; 51; 50] /\ digits 10 [49; 51; 50] /\ value 10 [49; 51; 50] = 132.
Proof. split; [vm_compute; repeat split; congruence|]. split; [digs_tac|reflexivity]. Qed.
