(* C25-C32, C68, C69: number conversions. *)
From Verif Require Import Base BaseLemmas ConvModel ConvSpec ConvProofs ConvProofs2 ConvProofs3 ConvProofs4 ConvProofs5 ConvProofs6.

Lemma digits_small base l : base <= 36 -> digits base l -> Forall (fun b => 1 <= b <= 255) l.
Proof. intros _. apply digits_bytes. Qed.
Ltac rmc := apply room_check; vm_compute; reflexivity.
Ltac digs_tac := repeat (constructor; [vm_compute; split; [discriminate|reflexivity]|]); constructor.

(* ---- C25: atoi ---- *)
(* arithmetic that wraps: every spelling of every int *)
Theorem C25_atoi : forall m c neg ds fuel,
  str_at m c (minus neg ++ ds) -> digits 10 ds ->
  INT_MIN <= signed neg (value 10 ds) <= INT_MAX ->
  zlen (minus neg ++ ds) <= INT_MAX -> (length (minus neg ++ ds) < fuel)%nat ->
  atoi false fuel m c = Ok (signed neg (value 10 ds)).
Proof. intros. apply atoi_ok; auto. discriminate. Qed.
Print Assumptions C25_atoi.
(* overflow undefined: spellings of at most 13 characters, not of INT_MIN *)
Theorem C25_atoi_strict : forall m c neg ds fuel,
  str_at m c (minus neg ++ ds) -> digits 10 ds ->
  INT_MIN < signed neg (value 10 ds) <= INT_MAX ->
  zlen (minus neg ++ ds) <= 13 -> (length (minus neg ++ ds) < fuel)%nat ->
  atoi true fuel m c = Ok (signed neg (value 10 ds)).
Proof. intros. apply atoi_ok; auto; unfold INT_MAX, INT_MIN in *; try lia. Qed.
Print Assumptions C25_atoi_strict.
Example C25_case : str_at (mem_of [(50, [45; 50; 49; 52; 55; 52; 56; 51; 54; 52; 56; 0])]) 50 (minus true ++ [50; 49; 52; 55; 52; 56; 51; 54; 52; 56])
  /\ digits 10 [50; 49; 52; 55; 52; 56; 51; 54; 52; 56] /\ signed true (value 10 [50; 49; 52; 55; 52; 56; 51; 54; 52; 56]) = INT_MIN.
Proof. split; [cbn; repeat (split; [reflexivity|split; [lia|]]); reflexivity|]. split; [digs_tac|reflexivity]. Qed.

(* ---- C26: atol ---- *)
(* Partial: no blanks or '+' in front.  e is the character after the digits. *)
Theorem C26_atol_partial : forall strict m c neg ds e fuel,
  bytes_at m c (minus neg ++ ds ++ [e]) -> digits 10 ds -> ds <> [] -> 0 <= e < 256 -> ~ (0 <= digval e < 10) ->
  LONG_MIN <= signed neg (value 10 ds) <= LONG_MAX -> (strict = true -> signed neg (value 10 ds) <> LONG_MIN) ->
  (length ds < fuel)%nat ->
  atol strict fuel m c = Ok (signed neg (value 10 ds)).
Proof.
  intros strict m c neg ds e fuel HB D Hne Re Ne V Hs Hf. rewrite app_assoc in HB. apply bytes_at_app in HB as [HB [He _]].
  eapply atol_ok; eauto. split; auto. intro H. apply Ne. unfold digval. destruct ((48 <=? e) && (e <=? 57)) eqn:E; lia.
Qed.
Print Assumptions C26_atol_partial.
Example C26_case : bytes_at (mem_of [(50, [45; 57; 48; 120])]) 50 (minus true ++ [57; 48] ++ [120]) /\ digits 10 [57; 48] /\ ~ (0 <= digval 120 < 10).
Proof. split; [cbn; auto|]. split; [digs_tac|cbn; lia]. Qed.
Theorem C26_blank_refuted : exists m c, bytes_at m c [32; 55; 0] /\ forall strict fuel, (1 <= fuel)%nat -> atol strict fuel m c = Ok 0.
Proof. exists (mem_of [(50, [32; 55; 0])]), 50. split; [cbn; auto|]. intros strict [|f] H; [lia|reflexivity]. Qed.
Print Assumptions C26_blank_refuted.
Theorem C26_plus_refuted : exists m c, bytes_at m c [43; 55; 0] /\ forall strict fuel, (1 <= fuel)%nat -> atol strict fuel m c = Ok 0.
Proof. exists (mem_of [(50, [43; 55; 0])]), 50. split; [cbn; auto|]. intros strict [|f] H; [lia|reflexivity]. Qed.
Print Assumptions C26_plus_refuted.

(* ---- C27: uitodec, itodec ---- *)
Theorem C27_uitodec : forall i, 0 <= i < 4294967296 ->
  exists l, numeral 10 i l /\ zlen l <= 10 /\ forall m buf pad, room m buf (zlen l + 1) ->
    exists m', uitodec m i buf 0 0 pad = Ok (m', zlen l) /\ wrote m m' buf l.
Proof. exact uitodec_numeral. Qed.
Print Assumptions C27_uitodec.
Theorem C27_itodec : forall strict i, INT_MIN <= i <= INT_MAX -> (strict = true -> i <> INT_MIN) ->
  exists l, signed_numeral 10 i l /\ zlen l <= 11 /\ forall m buf pad, room m buf (zlen l + 1) ->
    exists m', itodec strict m i buf 0 0 pad = Ok (m', zlen l) /\ wrote m m' buf l.
Proof. exact itodec_numeral. Qed.
Print Assumptions C27_itodec.
Example C27_case : room (mem_of [(100, repeat 7 12)]) 100 (zlen [45; 50; 49; 52; 55; 52; 56; 51; 54; 52; 56] + 1)
  /\ signed_numeral 10 INT_MIN [45; 50; 49; 52; 55; 52; 56; 51; 54; 52; 56].
Proof. split; [rmc|]. exists [50; 49; 52; 55; 52; 56; 51; 54; 52; 56]. split; auto. split; [digs_tac|]. split; [reflexivity|]. split; [discriminate|]. cbn. discriminate. Qed.

(* ---- C28: ultodec, ltodec ---- *)
(* Partial: the value 0 is excluded (it prints nothing) *)
Theorem C28_ultodec_partial : forall i, 0 < i < 18446744073709551616 ->
  exists l, numeral 10 i l /\ zlen l <= 20 /\ forall m buf, room m buf (zlen l + 1) ->
    exists m', ultodec m i buf 0 0 = Ok (m', zlen l) /\ wrote m m' buf l.
Proof.
  intros i Hi. destruct (ultodec_text i 0) as (l & P & _ & L & H); [lia|lia|]. exists l. split; auto.
  destruct (P ltac:(lia)) as (D & V & W & Hh). split; auto. split; auto. split; [intros ->; revert W; zl; lia|].
  intro E. specialize (Hh E). destruct l as [|x [|y r]]; cbn [hd] in E; [discriminate|congruence|]. exfalso. revert Hh. zl. nneg r. lia.
Qed.
Print Assumptions C28_ultodec_partial.
Theorem C28_ltodec_partial : forall strict i, LONG_MIN <= i <= LONG_MAX -> i <> 0 -> (strict = true -> i <> LONG_MIN) ->
  exists l, signed_numeral 10 i l /\ zlen l <= 20 /\ forall m buf, room m buf (zlen l + 1) ->
    exists m', ltodec strict m i buf 0 0 = Ok (m', zlen l) /\ wrote m m' buf l.
Proof. exact ltodec_numeral. Qed.
Print Assumptions C28_ltodec_partial.
(* with a width of 1 to 20 digits: zero-padded, 0 included *)
Theorem C28_ultodec_padded : forall i w, 0 <= i < 18446744073709551616 -> 1 <= w <= 20 ->
  exists l, padded_numeral 10 i w l /\ zlen l <= 20 /\ forall m buf, room m buf (zlen l + 1) ->
    exists m', ultodec m i buf w 0 = Ok (m', zlen l) /\ wrote m m' buf l.
Proof.
  intros i w Hi Hw. destruct (ultodec_text i w) as (l & P & _ & L & H); [lia|lia|]. exists l. split; auto.
  replace w with (Z.max 1 w) by lia. apply P. lia.
Qed.
Print Assumptions C28_ultodec_padded.
Example C28_case : room (mem_of [(100, repeat 7 21)]) 100 21. Proof. rmc. Qed.
(* 0 prints as the empty string *)
Theorem C28_zero_refuted : forall m buf, room m buf 1 ->
  exists m', ultodec m 0 buf 0 0 = Ok (m', 0) /\ str_at m' buf [] /\
  forall strict, ltodec strict m 0 buf 0 0 = Ok (m', 0).
Proof.
  intros m buf R. destruct (ultodec_text 0 0) as (l & _ & E & _ & H); [lia|lia|]. rewrite (E eq_refl eq_refl) in H.
  destruct (H m buf R) as (m' & E' & W & _). exists m'. split; [exact E'|]. split; auto.
Qed.
Print Assumptions C28_zero_refuted.

(* ---- C29: round trips ---- *)
Lemma numeral_str_bytes base l : digits base l -> Forall (fun b => 1 <= b <= 255) l. Proof. apply digits_bytes. Qed.
Theorem C29_int : forall strict i m buf pad, INT_MIN <= i <= INT_MAX -> (strict = true -> i <> INT_MIN) -> room m buf 12 ->
  exists m' n, itodec strict m i buf 0 0 pad = Ok (m', n) /\
    forall fuel, (12 <= fuel)%nat -> atoi strict fuel m' buf = Ok i.
Proof.
  intros strict i m buf pad Hi Hs R. destruct (itodec_numeral strict i Hi Hs) as (l & N & L & H).
  destruct (H m buf pad) as (m' & E & W & _); [eapply room_sub; eauto; lia|]. exists m', (zlen l). split; auto. intros fuel Hf.
  assert (G : exists ds, l = minus (i <? 0) ++ ds /\ digits 10 ds /\ signed (i <? 0) (value 10 ds) = i).
  { unfold signed_numeral in N. destruct (Z.ltb_spec i 0).
    - destruct N as (r & -> & D & V & _). exists r. unfold signed, minus. repeat split; auto; lia.
    - destruct N as (D & V & _). exists l. unfold signed, minus. repeat split; auto. }
  destruct G as (ds & -> & D & V). transitivity (Ok (signed (i <? 0) (value 10 ds)) : res Z); [|now rewrite V]. assert (LN : (length (minus (i <? 0)%Z ++ ds) <= 11)%nat) by (unfold zlen in L; lia).
  apply atoi_ok; auto; try (rewrite V; exact Hi).
  - unfold INT_MAX; lia.
  - lia.
  - intro S. rewrite V. split; [lia|auto].
Qed.
Print Assumptions C29_int.
Theorem C29_long : forall strict i m buf, LONG_MIN <= i <= LONG_MAX -> (strict = true -> i <> LONG_MIN) -> room m buf 21 ->
  exists m' n, ltodec strict m i buf 0 0 = Ok (m', n) /\
    forall fuel, (21 <= fuel)%nat -> atol strict fuel m' buf = Ok i.
Proof.
  intros strict i m buf Hi Hs R. destruct (Z.eq_dec i 0) as [->|H0].
  - destruct (C28_zero_refuted m buf) as (m' & _ & S & E); [eapply room_sub; eauto; lia|]. exists m', 0. split; auto.
    intros fuel Hf. apply (atol_ok strict m' buf false [] 0).
    + exact I.
    + constructor.
    + cbn [minus app]. change (zlen (@nil Z)) with 0. rewrite Z.add_0_r. exact S.
    + split; lia.
    + lia.
    + cbn. unfold LONG_MIN, LONG_MAX. lia.
    + cbn. unfold LONG_MIN. lia.
    + cbn [length]. lia.
  - destruct (ltodec_numeral strict i Hi H0 Hs) as (l & N & L & H).
    destruct (H m buf) as (m' & E & W & _); [eapply room_sub; eauto; lia|]. exists m', (zlen l). split; auto. intros fuel Hf.
    assert (G : exists ds, l = minus (i <? 0) ++ ds /\ digits 10 ds /\ ds <> [] /\ signed (i <? 0) (value 10 ds) = i).
    { unfold signed_numeral in N. destruct (Z.ltb_spec i 0).
      - destruct N as (r & -> & D & V & Hne & _). exists r. unfold signed, minus. repeat split; auto; lia.
      - destruct N as (D & V & Hne & _). exists l. unfold signed, minus. repeat split; auto. }
    destruct G as (ds & -> & D & Hne & V). transitivity (Ok (signed (i <? 0) (value 10 ds)) : res Z); [|now rewrite V].
    assert (LN : (length ds <= 20)%nat) by (unfold zlen in L; rewrite app_length in L; lia).
    apply (atol_ok strict m' buf (i <? 0) ds 0); auto; try (rewrite V; auto); try lia.
    + now apply str_at_bytes.
    + now apply str_at_end.
    + split; lia.
Qed.
Print Assumptions C29_long.
Example C29_case : room (mem_of [(100, repeat 7 21)]) 100 12 /\ room (mem_of [(100, repeat 7 21)]) 100 21. Proof. split; rmc. Qed.

(* ---- C30: hexadecimal ---- *)
Theorem C30_itohex : forall i padding capitals, INT_MIN <= i <= INT_MAX -> 0 <= padding <= 8 ->
  exists l, padded_numeral 16 (u32 i) (Z.max 1 padding) l /\ zlen l <= 8 /\
    (forall b, In b l -> if 0 <? capitals then b < 97 else ~ (65 <= b <= 90)) /\
    forall m buf, room m buf (zlen l + 1) ->
    exists m', _itohex m i buf padding capitals = Ok (m', zlen l) /\ wrote m m' buf l.
Proof. exact itohex_numeral. Qed.
Print Assumptions C30_itohex.
Theorem C30_reads_back : forall strict i padding capitals m buf, INT_MIN <= i <= INT_MAX -> 0 <= padding <= 8 -> room m buf 9 ->
  exists m' n, _itohex m i buf padding capitals = Ok (m', n) /\
    forall fuel, (9 <= fuel)%nat -> strtol strict fuel m' buf 16 = Ok (u32 i, buf + n, false).
Proof.
  intros strict i padding capitals m buf Hi Hp R. destruct (itohex_numeral i padding capitals Hi Hp) as (l & P & L & _ & H).
  destruct (H m buf) as (m' & E & W & _); [eapply room_sub; eauto; lia|]. exists m', (zlen l). split; auto. intros fuel Hf.
  destruct P as (D & V & W1 & _). pose proof (u32_range i).
  rewrite (strtol_ok strict m' buf 16 [] false l 0 fuel); cbn [minus app signed]; auto; try lia.
  - now rewrite V.
  - intros ->. revert W1. zl. lia.
  - now apply str_at_bytes.
  - now apply str_at_end.
  - left. reflexivity.
  - unfold LONG_MAX. lia.
  - unfold zlen in L. lia.
Qed.
Print Assumptions C30_reads_back.
Example C30_case : room (mem_of [(100, repeat 7 9)]) 100 9 /\ padded_numeral 16 (u32 (-241)) 8 [102; 102; 102; 102; 102; 102; 48; 102].
Proof. split; [rmc|]. split; [digs_tac|]. split; [reflexivity|]. split; [vm_compute; discriminate|]. cbn. discriminate. Qed.

(* ---- C31: strtol ---- *)
(* Partial: the magnitude fits a long, and the character e after the digits does not
   have the digit value base (which strtol accepts as a digit) *)
Lemma nd base e : 2 <= base -> ~ (0 <= digval e < base) -> digval e <> base -> not_digit base e.
Proof. intros. unfold not_digit. lia. Qed.
Theorem C31_strtol_partial : forall strict m s base ws neg ds e fuel,
  2 <= base <= 36 -> Forall is_space ws -> digits base ds -> ds <> [] ->
  bytes_at m s (ws ++ minus neg ++ ds ++ [e]) -> 0 <= e < 256 -> ~ (0 <= digval e < base) -> digval e <> base ->
  value base ds <= LONG_MAX -> (length (ws ++ minus neg ++ ds) < fuel)%nat ->
  strtol strict fuel m s base = Ok (signed neg (value base ds), s + zlen (ws ++ minus neg ++ ds), false).
Proof.
  intros strict m s base ws neg ds e fuel Hb HW D Hne HB Re Ne N2 V Hf. rewrite !app_assoc in HB. apply bytes_at_app in HB as [HB [He _]].
  rewrite <- !app_assoc in *. apply (strtol_ok strict m s base ws neg ds e); auto. apply nd; auto; lia.
Qed.
Print Assumptions C31_strtol_partial.
Theorem C31_base0_partial : forall strict m s ws neg ds e fuel,
  Forall is_space ws -> 0 <= e < 256 ->
  (bytes_at m s (ws ++ minus neg ++ ds ++ [e]) -> digits 10 ds -> ds <> [] -> hd 0 ds <> 48 ->
     ~ (0 <= digval e < 10) -> digval e <> 10 -> value 10 ds <= LONG_MAX -> (length (ws ++ minus neg ++ ds) < fuel)%nat ->
     strtol strict fuel m s 0 = Ok (signed neg (value 10 ds), s + zlen (ws ++ minus neg ++ ds), false)) /\
  (bytes_at m s (ws ++ minus neg ++ (48 :: ds) ++ [e]) -> digits 8 ds -> hd e ds <> 120 ->
     ~ (0 <= digval e < 8) -> digval e <> 8 -> value 8 ds <= LONG_MAX -> (length (ws ++ minus neg ++ 48%Z :: ds) < fuel)%nat ->
     strtol strict fuel m s 0 = Ok (signed neg (value 8 ds), s + zlen (ws ++ minus neg ++ 48 :: ds), false)) /\
  (bytes_at m s (ws ++ minus neg ++ (48 :: 120 :: ds) ++ [e]) -> digits 16 ds ->
     ~ (0 <= digval e < 16) -> digval e <> 16 -> value 16 ds <= LONG_MAX -> (length (ws ++ minus neg ++ 48%Z :: 120%Z :: ds) < fuel)%nat ->
     strtol strict fuel m s 0 = Ok (signed neg (value 16 ds), s + zlen (ws ++ minus neg ++ 48 :: 120 :: ds), false)).
Proof.
  intros strict m s ws neg ds e fuel HW Re. split; [|split].
  - intros HB D Hne Hh Ne N2 V Hf. rewrite !app_assoc in HB. apply bytes_at_app in HB as [HB [He _]]. rewrite <- !app_assoc in *.
    apply (strtol_base0_dec strict m s ws neg ds e); auto. apply nd; auto; lia.
  - intros HB D Hh Ne N2 V Hf. rewrite !app_assoc in HB. apply bytes_at_app in HB as [HB [He _]]. rewrite <- !app_assoc in *.
    apply (strtol_base0_oct strict m s ws neg ds e); auto. apply nd; auto; lia.
  - intros HB D Ne N2 V Hf. rewrite !app_assoc in HB. apply bytes_at_app in HB as [HB [He _]]. rewrite <- !app_assoc in *.
    apply (strtol_base0_hex strict m s ws neg ds e); auto. apply nd; auto; lia.
Qed.
Print Assumptions C31_base0_partial.
(* overflow is noticed when the first excessive value lies in [2^63, 2^64): base 2 always *)
Theorem C31_saturates_partial : forall m s base ws neg ds d e fuel,
  2 <= base <= 36 -> Forall is_space ws -> digits base (ds ++ [d]) ->
  bytes_at m s (ws ++ minus neg ++ ds ++ d :: e) ->
  value base ds <= LONG_MAX -> LONG_MAX < value base (ds ++ [d]) < 18446744073709551616 ->
  (length (ws ++ minus neg ++ ds) + 1 < fuel)%nat ->
  strtol false fuel m s base = Ok (if neg then LONG_MIN else LONG_MAX, s + zlen (ws ++ minus neg ++ ds), true).
Proof.
  intros m s base ws neg ds d e fuel Hb HW D HB V V2 Hf. apply Forall_app in D as [D Dd]. apply Forall_cons_iff in Dd as [Dd _].
  rewrite !app_assoc in *. apply bytes_at_app in HB as [HB [He _]].
  pose proof HB as HB'. apply bytes_at_app in HB' as [HB1 HB2]. set (p := ws ++ minus neg) in *.
  destruct ds as [|x ds].
  { exfalso. revert V2. unfold value. cbn [app fold_left]. unfold LONG_MAX. lia. }
  assert (Dx : 0 <= digval x) by (apply Forall_cons_iff in D as [? _]; lia).
  assert (LW : (length ws <= length p)%nat) by (unfold p; rewrite app_length; lia).
  revert Hf. rewrite app_length. cbn [length]. intro Hf.
  rewrite (strtol_front false m s base ws neg x fuel); auto; try lia; [|apply HB2]. fold p. cbv zeta. destruct (Z.eqb_spec base 0); [lia|]. rewrite bind_Ok.
  pose proof (value_range base (x :: ds) ltac:(lia) D) as VR.
  replace fuel with (length (x :: ds) + S (fuel - length (x :: ds) - 1))%nat by (cbn [length]; lia).
  rewrite strtol_loop_ok; auto; try lia. rewrite Z.mul_0_l, Z.add_0_l. rewrite value_snoc in V2.
  rewrite (strtol_step_over m _ base neg _ d); auto; try lia.
  - do 3 f_equal. unfold p. zl. lia.
  - revert He. rewrite zlen_app. now rewrite Z.add_assoc.
  - unfold LONG_MAX in *. lia.
Qed.
Print Assumptions C31_saturates_partial.
Example C31_case : bytes_at (mem_of [(50, [32; 45; 122; 49; 47; 0])]) 50 ([32] ++ minus true ++ [122; 49] ++ [47]) /\
  Forall is_space [32] /\ digits 36 [122; 49] /\ ~ (0 <= digval 47 < 36) /\ digval 47 <> 36.
Proof. split; [cbn; auto 10|]. split; [constructor; [left; reflexivity|constructor]|]. split; [digs_tac|]. cbn. lia. Qed.
(* the digit of value base is accepted *)
Theorem C31_digit_refuted : exists m s, bytes_at m s [49; 56; 0] /\ ~ (0 <= digval 56 < 8) /\
  forall strict fuel, (3 <= fuel)%nat -> strtol strict fuel m s 8 = Ok (16, s + 2, false).
Proof.
  exists (mem_of [(50, [49; 56; 0])]), 50. split; [cbn; auto|]. split; [cbn; lia|].
  intros strict [|[|[|f]]] H; try lia. destruct strict; reflexivity.
Qed.
Print Assumptions C31_digit_refuted.
(* 2^64 in decimal wraps to 0 unnoticed *)
Theorem C31_overflow_refuted : exists m s ds, digits 10 ds /\ value 10 ds = 18446744073709551616 /\ bytes_at m s (ds ++ [0]) /\
  forall fuel, (21 <= fuel)%nat -> strtol false fuel m s 10 = Ok (0, s + 20, false) /\ strtol true fuel m s 10 = Fault.
Proof.
  exists (mem_of [(50, [49;56;52;52;54;55;52;52;48;55;51;55;48;57;53;53;49;54;49;54;0])]), 50, [49;56;52;52;54;55;52;52;48;55;51;55;48;57;53;53;49;54;49;54].
  split; [digs_tac|]. split; [reflexivity|]. split; [cbn; repeat (split; [reflexivity|]); exact I|].
  intros fuel H. do 21 (destruct fuel as [|fuel]; [lia|]). split; reflexivity.
Qed.
Print Assumptions C31_overflow_refuted.

(* ---- C32: binary, octal ---- *)
(* Partial: the binary digits are right; where the blanks come is not (see below) *)
Definition no_blanks (l : list Z) : list Z := filter (fun b => negb (b =? 32)) l.
Theorem C32_itobin_partial : forall i prec groups, INT_MIN <= i <= INT_MAX -> 0 <= prec <= 32 ->
  u32 i <> 0 \/ 1 <= prec \/ 32 < groups ->
  exists l, padded_numeral 2 (u32 i) (Z.max 1 prec) (no_blanks l) /\ zlen l <= 64 /\ (32 < groups -> no_blanks l = l) /\
    forall m buf, room m buf (zlen l + 1) ->
    exists m', _itobin m i buf prec groups = Ok (m', zlen l) /\ wrote m m' buf l.
Proof. exact itobin_text. Qed.
Print Assumptions C32_itobin_partial.
Example C32_case : u32 (-5) <> 0 /\ room (mem_of [(100, repeat 7 65)]) 100 65. Proof. split; [discriminate|rmc]. Qed.
(* 0 with the default groups of itobin prints one blank *)
Theorem C32_itobin_zero_refuted : exists m buf m', room m buf 65 /\ _itobin m 0 buf 0 32 = Ok (m', 1) /\ str_at m' buf [32].
Proof.
  exists (mem_of [(100, repeat 7 65)]), 100. eexists. split; [rmc|]. split; [vm_compute; reflexivity|].
  cbn. repeat split; lia.
Qed.
Print Assumptions C32_itobin_zero_refuted.
(* groups of 8: 768 prints as "1 10000000 0" *)
Theorem C32_itobin_groups_refuted : exists m buf m', room m buf 65 /\ _itobin m 768 buf 0 8 = Ok (m', 12) /\
  str_at m' buf [49; 32; 49; 48; 48; 48; 48; 48; 48; 48; 32; 48].
Proof.
  exists (mem_of [(100, repeat 7 65)]), 100. eexists. split; [rmc|]. split; [vm_compute; reflexivity|].
  cbn. repeat split; lia.
Qed.
Print Assumptions C32_itobin_groups_refuted.
(* Partial: the octal digits come after one unspecified byte (tmp0 is the uninitialised
   array of the function); INT_MIN and 0 excluded *)
Theorem C32_itooct_partial : forall strict i, INT_MIN < i <= INT_MAX -> i <> 0 ->
  exists d n, numeral 8 (Z.abs i) d /\ 0 <= n < 16 /\ zlen d = n /\ forall fuel tmp0 m buf, (16 <= fuel)%nat ->
    room m buf (zlen (minus (i <? 0) ++ 0 :: d ++ [0])) ->
    exists m', itooct strict fuel tmp0 m i buf = Ok (m', zlen (minus (i <? 0) ++ 0 :: d)) /\
      bytes_at m' buf (minus (i <? 0) ++ ubyte (tmp0 n) :: d ++ [0]) /\
      same_outside m m' buf (zlen (minus (i <? 0) ++ 0 :: d ++ [0])).
Proof. exact itooct_text. Qed.
Print Assumptions C32_itooct_partial.
Theorem C32_itooct_refuted : forall strict tmp0 m buf, room m buf 4 ->
  exists m', itooct strict 16 tmp0 m 8 buf = Ok (m', 3) /\ ~ exists l, numeral 8 8 l /\ str_at m' buf l.
Proof.
  intros strict tmp0 m buf R. destruct (itooct_text strict 8) as (d & n & N & Hn & L & H); [unfold INT_MIN, INT_MAX; lia|lia|].
  assert (U : forall l, numeral 8 8 l -> l = [49; 48]).
  { clear. intros l (D & V & Hne & Hh). assert (DV : forall b, 0 <= digval b < 8 -> b = 48 + digval b /\ (digval b = 0 -> b = 48)).
    { intros b Hb. unfold digval in *. destruct ((48 <=? b) && (b <=? 57)) eqn:A; [lia|].
      destruct ((65 <=? b) && (b <=? 90)) eqn:B; [lia|]. destruct ((97 <=? b) && (b <=? 122)) eqn:C; lia. }
    destruct l as [|x [|y [|z r]]]; [congruence| | |].
    - apply Forall_cons_iff in D as [Dx _]. unfold value in V. cbn [fold_left] in V. lia.
    - apply Forall_cons_iff in D as [Dx D]. apply Forall_cons_iff in D as [Dy _]. unfold value in V. cbn [fold_left] in V.
      destruct (DV x Dx), (DV y Dy). f_equal; [lia|f_equal; lia].
    - apply Forall_cons_iff in D as [Dx D]. assert (x = 48).
      { destruct (Z.eq_dec (digval x) 0); [now apply DV|]. exfalso. rewrite value_cons in V.
        pose proof (value_range 8 (y :: z :: r) ltac:(lia) D). revert V. zl. nneg r. pose proof (Z.pow_le_mono_r 8 2 (zlen r + 1 + 1) ltac:(lia) ltac:(lia)).
        change (8 ^ 2) with 64 in *. nia. }
      subst x. specialize (Hh eq_refl). discriminate. }
  rewrite (U d N) in *. cbn [minus Z.ltb Z.compare app] in H. destruct (H 16%nat tmp0 m buf) as (m' & E & B & _); [lia|exact R|].
  exists m'. split; [exact E|]. intros (l & Nl & S). rewrite (U l Nl) in S. cbn [bytes_at str_at] in *. destruct B as (B0 & B1 & B2 & _).
  destruct S as (S0 & _ & S1 & _). congruence.
Qed.
Print Assumptions C32_itooct_refuted.
(* INT_MIN: the digit loop never ends and runs out of the 16 byte array *)
Theorem C32_itooct_min_refuted : forall strict tmp0 m buf fuel, (20 <= fuel)%nat -> room m buf 20 -> itooct strict fuel tmp0 m INT_MIN buf = Fault.
Proof.
  intros strict tmp0 m buf fuel Hf R. unfold itooct, put, store. cbn [Z.eqb Z.ltb Z.compare INT_MIN]. rewrite bind_Ok.
  destruct strict; [reflexivity|]. unfold iar. rewrite bind_Ok. rewrite Z.add_0_r. specialize (R buf ltac:(lia)). destruct (m buf); [|congruence].
  rewrite !bind_Ok. do 20 (destruct fuel as [|fuel]; [lia|]). reflexivity.
Qed.
Print Assumptions C32_itooct_min_refuted.

(* ---- C68: no undefined signed arithmetic ---- *)
(* Partial: the conversions with overflow undefined never fault on values other than
   INT_MIN / LONG_MIN *)
Theorem C68_partial : forall m buf pad i, room m buf 22 -> 
  (INT_MIN < i <= INT_MAX -> exists m' n, itodec true m i buf 0 0 pad = Ok (m', n)) /\
  (LONG_MIN < i <= LONG_MAX -> exists m' n, ltodec true m i buf 0 0 = Ok (m', n)).
Proof.
  intros m buf pad i R. split; intro H.
  - destruct (C29_int true i m buf pad) as (m' & n & E & _); eauto; unfold INT_MIN in *; try lia. eapply room_sub; eauto; lia.
  - destruct (C29_long true i m buf) as (m' & n & E & _); eauto; unfold LONG_MIN in *; try lia. eapply room_sub; eauto; lia.
Qed.
Print Assumptions C68_partial.
Theorem C68_refuted : forall m buf pad, room m buf 22 ->
  itodec true m INT_MIN buf 0 0 pad = Fault /\ ltodec true m LONG_MIN buf 0 0 = Fault.
Proof.
  intros m buf pad R. unfold itodec, ltodec, put, store. rewrite Z.add_0_r. specialize (R buf ltac:(lia)). destruct (m buf); [|congruence].
  split; reflexivity.
Qed.
Print Assumptions C68_refuted.
(* atoi "00000000000001" computes an unused power of ten that overflows *)
Theorem C68_atoi_refuted : exists m c ds, str_at m c ds /\ digits 10 ds /\ value 10 ds = 1 /\
  forall fuel, (15 <= fuel)%nat -> atoi true fuel m c = Fault /\ atoi false fuel m c = Ok 1.
Proof.
  exists (mem_of [(50, [48;48;48;48;48;48;48;48;48;48;48;48;48;49;0])]), 50, [48;48;48;48;48;48;48;48;48;48;48;48;48;49].
  split; [cbn; repeat (split; [reflexivity|split; [lia|]]); reflexivity|]. split; [digs_tac|]. split; [reflexivity|].
  intros fuel H. do 15 (destruct fuel as [|fuel]; [lia|]). split; reflexivity.
Qed.
Print Assumptions C68_atoi_refuted.

(* ---- C69: width ---- *)
(* Partial: 0 and widths above 9 excluded *)
Theorem C69_width_partial : forall i prec pad, 0 < i < 4294967296 -> 0 <= prec <= 9 -> -128 <= pad <= 127 ->
  exists n l, numeral 10 i l /\ prec <= Z.of_nat n + zlen l /\ (n <> 0%nat -> Z.of_nat n + zlen l = prec) /\
    forall m buf, room m buf (Z.of_nat n + zlen l + 1) ->
    exists m', uitodec m i buf prec 0 pad = Ok (m', Z.of_nat n + zlen l) /\
      wrote m m' buf (repeat (ubyte (if pad =? 0 then 32 else pad)) n ++ l).
Proof. exact uitodec_padded. Qed.
Print Assumptions C69_width_partial.
Example C69_case : room (mem_of [(100, repeat 7 10)]) 100 (Z.of_nat 3 + zlen [52; 50] + 1) /\ numeral 10 42 [52; 50].
Proof. split; [rmc|]. split; [digs_tac|]. split; [reflexivity|]. split; [discriminate|]. cbn. discriminate. Qed.
(* 0 in a width: no digit at all *)
Theorem C69_zero_refuted : exists m buf m', room m buf 10 /\ uitodec m 0 buf 3 0 0 = Ok (m', 3) /\ str_at m' buf [32; 32; 32].
Proof.
  exists (mem_of [(100, repeat 7 20)]), 100. eexists. split; [rmc|]. split; [vm_compute; reflexivity|]. cbn. repeat split; lia.
Qed.
Print Assumptions C69_zero_refuted.
(* width 10: the first fill character is a blank whatever pad is *)
Theorem C69_ten_refuted : exists m buf m', room m buf 11 /\ uitodec m 5 buf 10 0 48 = Ok (m', 10) /\
  str_at m' buf [32; 48; 48; 48; 48; 48; 48; 48; 48; 53].
Proof.
  exists (mem_of [(100, repeat 7 20)]), 100. eexists. split; [rmc|]. split; [vm_compute; reflexivity|]. cbn. repeat split; lia.
Qed.
Print Assumptions C69_ten_refuted.
