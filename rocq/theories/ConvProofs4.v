(* ltodec; hexadecimal, binary and octal output. *)
From Verif Require Import Base BaseLemmas ConvModel ConvSpec ConvProofs ConvProofs2 ConvProofs3.
Ltac Zify.zify_post_hook ::= Z.div_mod_to_equations.

Lemma ltodec_numeral strict i : LONG_MIN <= i <= LONG_MAX -> i <> 0 -> (strict = true -> i <> LONG_MIN) ->
  exists l, signed_numeral 10 i l /\ zlen l <= 20 /\ forall m buf, room m buf (zlen l + 1) ->
    exists m', ltodec strict m i buf 0 0 = Ok (m', zlen l) /\ wrote m m' buf l.
Proof.
  unfold LONG_MIN, LONG_MAX. intros Hi H0 Hs. unfold signed_numeral, ltodec.
  assert (G : forall v l, padded_numeral 10 v (Z.max 1 0) l -> numeral 10 v l).
  { intros v l (D & V & L & Hh). split; auto. split; auto. split; [destruct l; [revert L; zl; lia|discriminate]|].
    intro H. pose proof (Hh H) as E. destruct l as [|x [|y r]]; cbn [hd] in *; try congruence. revert E. zl. nneg r. lia. }
  destruct (Z.ltb_spec i 0) as [Hneg|Hpos].
  - destruct (ultodec_text (- i) 0) as (l & P & _ & L & H); [lia|lia|]. specialize (P ltac:(lia)). exists (45 :: l).
    assert (L' : zlen l <= 19).
    { destruct (Z.le_gt_cases (zlen l) 19) as [|Hg]; auto. exfalso. destruct P as (D & V & _ & Hh). 
      destruct l as [|x r]; [revert Hg; zl; lia|]. cbn [hd] in Hh. apply Forall_cons_iff in D as [Dx Dr].
      assert (Hx : digval x <> 0). { intro E. assert (x = 48) by (unfold digval in E; repeat (destruct (_ && _) eqn:? in E); lia). specialize (Hh H1). revert Hh. zl. lia. }
      assert (GV : forall r a, Forall (fun b => 0 <= digval b < 10) r -> 0 <= a -> a * 10 ^ zlen r <= fold_left (fun v b => 10 * v + digval b) r a).
      { clear. induction r as [|b r IH]; intros a HF Ha; cbn [fold_left]; zl; [lia|]. apply Forall_cons_iff in HF as [? ?].
        nneg r. rewrite Z.pow_add_r by lia. etransitivity; [|apply IH; auto; lia]. pose proof (Z.pow_pos_nonneg 10 (zlen r)). nia. }
      unfold value in V. cbn [fold_left] in V. specialize (GV r (10 * 0 + digval x) Dr ltac:(lia)). rewrite V in GV.
      revert Hg. zl. intro. pose proof (Z.pow_le_mono_r 10 19 (zlen r) ltac:(lia) ltac:(lia)).
      change (10 ^ 19) with 10000000000000000000 in *. nia. }
    split; [eauto|]. split; [zl; lia|].
    intros m buf R. revert R. zl. intro R. nneg l. rewrite (put_ok m buf 0 45 (zlen l + 1 + 1)) by (auto; lia).
    rewrite bind_Ok.
    assert (E2 : (let* j := lar strict (- i) in (let* (m2, r) := ultodec (wr m (buf + 0) [45]) (u64 j) (buf + 1) 0 0 in Ok (m2, r + 1)))
       = (let* (m2, r) := ultodec (wr m (buf + 0) [45]) (- i) (buf + 1) 0 0 in Ok (m2, r + 1))).
    { assert (E : lar strict (- i) = Ok (- i) \/ lar strict (- i) = Ok (-9223372036854775808) /\ i = -9223372036854775808).
      { unfold lar. destruct strict.
        - left. apply lop_ok. unfold LONG_MIN, LONG_MAX. specialize (Hs eq_refl). lia.
        - destruct (Z.eq_dec i (-9223372036854775808)) as [->|]; [right; auto|left; f_equal; unfold s64; lia]. }
      destruct E as [E|[E ->]]; rewrite E, bind_Ok; [rewrite u64_small by lia|]; reflexivity. }
    rewrite E2. destruct (H (wr m (buf + 0) [45]) (buf + 1)) as (m' & E3 & W).
    { apply wr_room. eapply room_sub; [exact R|lia|lia]. }
    rewrite E3, bind_Ok. exists m'. split; auto. eapply wrote_cons; [lia| |exact W]. cbn [wr]. now rewrite Z.add_0_r.
  - destruct (ultodec_text i 0) as (l & P & _ & L & H); [lia|lia|]. specialize (P ltac:(lia)). exists l. split; auto. split; [lia|].
    intros m buf R. rewrite u64_small by lia. auto.
Qed.

Lemma ok2 {A B} (a a' : A) (b b' : B) : a = a' -> b = b' -> Ok (a, b) = Ok (a', b').
Proof. intros -> ->. reflexivity. Qed.
(* ---- hexadecimal ---- *)
Lemma nibble_eq u b a : 0 <= u < 4294967296 -> (b = 0 \/ b = 1) -> (a = 0 \/ a = 1 \/ a = 2 \/ a = 3) ->
  nibble u b a = u / 16 ^ (2 * a + 1 - b) mod 16.
Proof.
  intros Hu Hb Ha. unfold nibble. rewrite u32_small by auto.
  assert (G : forall msk s t, 0 <= s -> 0 <= t -> (forall n, 0 <= n < 8 -> Z.testbit msk (n + s) = (n <? 4)) -> s = t ->
     Z.land u msk / 2 ^ s mod 2 ^ 8 = u / 2 ^ t mod 2 ^ 4).
  { intros msk s t Hs _ Hm <-. rewrite <- !Z.shiftr_div_pow2, <- !Z.land_ones by lia. apply Z.bits_inj'. intros n Hn.
    rewrite !Z.land_spec, !Z.shiftr_spec, Z.land_spec, !Z.testbit_ones by lia.
    destruct (Z.ltb_spec n 8).
    - rewrite Hm by lia. destruct (Z.ltb_spec n 4), (Z.testbit u (n + s)), (Z.leb_spec 0 n); auto; lia.
    - destruct (Z.ltb_spec n 4); [lia|]. rewrite !andb_false_r. reflexivity. }
  assert (C : forall n, 0 <= n < 8 -> n = 0 \/ n = 1 \/ n = 2 \/ n = 3 \/ n = 4 \/ n = 5 \/ n = 6 \/ n = 7) by (intros; lia).
  destruct Hb as [-> | ->]; destruct Ha as [->|[->|[->| ->]]]; cbn [Z.eqb];
    rewrite ?Z.div_div by lia;
    match goal with |- Z.land u ?k / ?d mod 256 = u / ?e mod 16 =>
      change 16 with (2 ^ 4) at 2; change 256 with (2 ^ 8);
      let s := eval compute in (Z.log2 d) in let t := eval compute in (Z.log2 e) in
      change d with (2 ^ s); change e with (2 ^ t); apply (G k s t); [lia|lia| |reflexivity];
      intros n Hn; apply C in Hn; destruct Hn as [->|[->|[->|[->|[->|[->|[->| ->]]]]]]]; reflexivity
    | _ => idtac end.
Qed.

Definition hch (caps d : Z) : Z := if d <? 10 then d + 48 else d + caps.
Lemma hch_good caps : caps = 55 \/ caps = 87 -> good_ch (hch caps) 16.
Proof.
  intros Hc d Hd. unfold hch, digval. destruct (Z.ltb_spec d 10).
  - destruct ((48 <=? d + 48) && (d + 48 <=? 57)) eqn:E; lia.
  - destruct Hc as [-> | ->].
    + destruct ((48 <=? d + 55) && (d + 55 <=? 57)) eqn:E; [lia|]. destruct ((65 <=? d + 55) && (d + 55 <=? 90)) eqn:E1; lia.
    + destruct ((48 <=? d + 87) && (d + 87 <=? 57)) eqn:E; [lia|]. destruct ((65 <=? d + 87) && (d + 87 <=? 90)) eqn:E1; [lia|].
      destruct ((97 <=? d + 87) && (d + 87 <=? 122)) eqn:E2; lia.
Qed.
Lemma hex_loop_ok caps ns : caps = 55 \/ caps = 87 -> Forall (fun d => 0 <= d < 16) ns -> forall m buf p j n,
  room m buf n -> 0 <= p -> p + zlen (emit (hch caps) j 48 ns) <= n ->
  hex_loop ns m buf p (- Z.of_nat j) caps =
  Ok (wr m (buf + p) (emit (hch caps) j 48 ns), p + zlen (emit (hch caps) j 48 ns)).
Proof.
  intros Hc. induction ns as [|d ns IH]; intros HF m buf p j n R Hp Hn.
  - cbn [hex_loop emit wr]. zl. now rewrite Z.add_0_r.
  - apply Forall_cons_iff in HF as [Hd HF]. cbn [hex_loop].
    assert (Z0 : forall l, emit (hch caps) 0 48 l = map (hch caps) l).
    { induction l as [|x l IHl]; auto. cbn [emit]. destruct (Z.eqb_spec x 0); auto. subst. cbn [map]. now rewrite IHl. }
    assert (Hh : 0 <= hch caps d < 256) by (unfold hch; destruct (d <? 10); lia).
    assert (Print : forall r, r = emit (hch caps) 0 48 ns -> p + 1 + zlen r <= n ->
      (let* m1 := put m buf p (if d <? 10 then d + 48 else d + caps) in hex_loop ns m1 buf (p + 1) 0 caps) =
      Ok (wr m (buf + p) (hch caps d :: r), p + (zlen r + 1))).
    { intros r -> Hr. fold (hch caps d). nneg (emit (hch caps) 0 48 ns). rewrite (put_ok m buf p _ n) by (auto; lia). rewrite bind_Ok.
      change 0 with (- Z.of_nat 0). rewrite (IH HF _ _ _ _ n); [|now apply wr_room|lia|lia]. cbn [wr].
      apply ok2; [f_equal; lia|lia]. }
    destruct j as [|j].
    + change (- Z.of_nat 0) with 0. cbn [Z.eqb negb andb].
      assert (E : emit (hch caps) 0 48 (d :: ns) = hch caps d :: emit (hch caps) 0 48 ns) by now rewrite !Z0.
      rewrite E in *. revert Hn. zl. intro Hn. apply Print; auto. lia.
    + destruct (Z.eqb_spec (- Z.of_nat (S j)) 0); [lia|]. cbn [negb andb emit] in *.
      destruct (Z.eqb_spec d 0); cbn [negb].
      * destruct (Z.eqb_spec (- Z.of_nat (S j)) 0); [lia|]. replace (- Z.of_nat (S j) + 1) with (- Z.of_nat j) by lia.
        apply (IH HF _ _ _ _ n); auto.
      * cbn [Z.eqb map]. revert Hn. cbn [map]. zl. intro Hn. apply Print; [now rewrite Z0|lia].
Qed.

Lemma itohex_numeral i padding capitals : INT_MIN <= i <= INT_MAX -> 0 <= padding <= 8 ->
  exists l, padded_numeral 16 (u32 i) (Z.max 1 padding) l /\ zlen l <= 8 /\
    (forall b, In b l -> if 0 <? capitals then b < 97 else ~ (65 <= b <= 90)) /\
    forall m buf, room m buf (zlen l + 1) ->
    exists m', _itohex m i buf padding capitals = Ok (m', zlen l) /\ wrote m m' buf l.
Proof.
  intros Hi Hp. pose proof (u32_range i) as Hu. set (caps := if 0 <? capitals then 55 else 87).
  assert (Hc : caps = 55 \/ caps = 87) by (unfold caps; destruct (0 <? capitals); auto).
  set (w := Z.to_nat (Z.max 1 padding)). set (l := emit (hch caps) (8 - w) 48 (digs 16 8 (u32 i))).
  assert (P : padded_numeral 16 (u32 i) (Z.max 1 padding) l).
  { replace (Z.max 1 padding) with (Z.of_nat w) by lia. apply (emit_padded (hch caps)); [now apply hch_good|lia|exact Hu|lia]. }
  exists l. split; auto.
  assert (Hl : zlen l <= 8).
  { unfold l. rewrite emit_eq. zl. rewrite zlen_repeat, zlen_map, skipn_zlen by apply lz_le. pose proof (lz_le (digs 16 8 (u32 i))).
    rewrite digs_length in *. unfold zlen. rewrite digs_length. lia. }
  split; auto. split.
  { intros b Hb. unfold l in Hb. rewrite emit_eq in Hb. apply in_app_or in Hb as [Hb|Hb].
    - apply repeat_spec in Hb. subst. destruct (0 <? capitals); lia.
    - apply in_map_iff in Hb as (d & <- & Hd).
      assert (0 <= d < 16) by (eapply (proj1 (Forall_forall _ _) (Forall_skipn_digs 16 _ 8 (u32 i) ltac:(lia))); eauto).
      unfold hch, caps. destruct (0 <? capitals), (Z.ltb_spec d 10); lia. }
  intros m buf R. exists (wr m buf (l ++ [0])).
  split; [|apply wrote_wr; destruct P; eapply digits_bytes; eauto].
  unfold _itohex. fold caps. rewrite iop_ok by (unfold INT_MIN, INT_MAX; lia). rewrite bind_Ok.
  assert (E : [nibble i 0 3; nibble i 1 3; nibble i 0 2; nibble i 1 2; nibble i 0 1; nibble i 1 1; nibble i 0 0; nibble i 1 0] = digs 16 8 (u32 i)).
  { assert (N : forall b a, nibble i b a = nibble (u32 i) b a) by (intros; unfold nibble, u32; now rewrite Zmod_mod).
    rewrite !N, !nibble_eq by (auto; lia). reflexivity. }
  rewrite E. replace (if padding - 8 <? -7 then -7 else padding - 8) with (- Z.of_nat (8 - w)) by (destruct (Z.ltb_spec (padding - 8) (-7)); lia).
  nneg l. rewrite (hex_loop_ok caps _ Hc (digs_range 16 8 (u32 i) ltac:(lia)) _ _ _ _ (zlen l + 1)); auto; try lia; [|fold l; lia].
  fold l. rewrite bind_Ok. rewrite (put_ok _ buf _ 0 (zlen l + 1)) by (try lia; now apply wr_room). rewrite bind_Ok, wr_app.
  cbn [wr]. rewrite Z.add_0_r. reflexivity.
Qed.

(* ---- binary ---- *)
Fixpoint bint (l : list Z) (j : nat) (g groups : Z) : list Z :=
  match l with
  | [] => []
  | d :: r =>
      let sep j' := if (Nat.eqb j' 0) && (groups <=? g + 1) then 32 :: bint r j' 0 groups else bint r j' (g + 1) groups in
      match j with
      | O => dch d :: sep O
      | S j' => if d =? 0 then sep j' else dch d :: sep O
      end
  end.
Lemma bint_length l : forall j g groups, zlen (bint l j g groups) <= 2 * zlen l.
Proof.
  induction l as [|d l IH]; intros j g groups; cbn [bint]; zl; [lia|].
  assert (S : forall j', zlen (if Nat.eqb j' 0 && (groups <=? g + 1) then 32 :: bint l j' 0 groups else bint l j' (g + 1) groups) <= 2 * zlen l + 1).
  { intro j'. destruct (_ && _); zl; [pose proof (IH j' 0 groups)|pose proof (IH j' (g + 1) groups)]; lia. }
  destruct j as [|j]; [|destruct (d =? 0)]; zl; [pose proof (S O)|pose proof (S j)|pose proof (S O)]; lia.
Qed.
Definition nonblank (l : list Z) : list Z := filter (fun b => negb (b =? 32)) l.
Lemma bint_nonblank l : Forall (fun d => 0 <= d < 2) l -> forall j g groups, nonblank (bint l j g groups) = emit dch j 48 l.
Proof.
  assert (Z0 : forall l, emit dch 0 48 l = map dch l).
  { clear. induction l as [|x l IHl]; auto. cbn [emit]. destruct (Z.eqb_spec x 0); auto. subst. cbn [map]. now rewrite IHl. }
  induction l as [|d l IH]; intros HF j g groups; auto. apply Forall_cons_iff in HF as [Hd HF]. cbn [bint].
  assert (S : forall j', nonblank (if Nat.eqb j' 0 && (groups <=? g + 1) then 32 :: bint l j' 0 groups else bint l j' (g + 1) groups) = emit dch j' 48 l).
  { intro j'. destruct (_ && _); unfold nonblank; cbn [filter Z.eqb negb]; apply IH; auto. }
  assert (N : forall r, nonblank (dch d :: r) = dch d :: nonblank r).
  { intro r. unfold nonblank. cbn [filter]. unfold dch at 1. destruct (Z.eqb_spec (48 + d) 32); [lia|reflexivity]. }
  destruct j as [|j].
  - rewrite N, S, !Z0. reflexivity.
  - cbn [emit]. destruct (Z.eqb_spec d 0); [apply S|]. rewrite N, S, Z0. reflexivity.
Qed.
Lemma bint_plain l : forall j g groups, g + zlen l < groups -> bint l j g groups = emit dch j 48 l.
Proof.
  assert (Z0 : forall l, emit dch 0 48 l = map dch l).
  { clear. induction l as [|x l IHl]; auto. cbn [emit]. destruct (Z.eqb_spec x 0); auto. subst. cbn [map]. now rewrite IHl. }
  induction l as [|d l IH]; intros j g groups Hg; auto. revert Hg. zl. intro Hg. nneg l. cbn [bint].
  destruct (Z.leb_spec groups (g + 1)); [lia|]. rewrite !andb_false_r. rewrite !IH by lia. rewrite Z0. cbn [emit].
  destruct j; [|rewrite andb_false_r, IH by lia; reflexivity]. destruct (Z.eqb_spec d 0); [subst; now rewrite Z0|reflexivity].
Qed.

Lemma top_bit u : 0 <= u < 4294967296 -> (Z.land u 2147483648 =? 0) = (u <? 2147483648).
Proof.
  intro Hu. change 2147483648 with (2 ^ 31). assert (E : Z.testbit u 31 = negb (u <? 2 ^ 31)).
  { destruct (Z.ltb_spec u (2 ^ 31)) as [L|L]; cbn [negb].
    - apply Z.testbit_false; [lia|]. rewrite Z.div_small by lia. reflexivity.
    - apply Z.testbit_true; [lia|]. change (2 ^ 31) with 2147483648 in *. lia. }
  destruct (Z.ltb_spec u (2 ^ 31)); cbn [negb] in E.
  - apply Z.eqb_eq. apply Z.bits_inj'. intros n Hn. rewrite Z.land_spec, Z.bits_0, Z.pow2_bits_eqb by lia.
    destruct (Z.eqb_spec 31 n); [subst; rewrite E; reflexivity|apply andb_false_r].
  - apply Z.eqb_neq. intro C. assert (B : Z.testbit (Z.land u (2 ^ 31)) 31 = false) by (rewrite C; apply Z.bits_0).
    rewrite Z.land_spec, E, Z.pow2_bits_true in B by lia. discriminate.
Qed.

Lemma bin_loop_ok k : forall m i buf p j g groups v n, (k <= 32)%nat ->
  u32 i = v * 2 ^ (32 - Z.of_nat k) -> 0 <= v < 2 ^ Z.of_nat k -> room m buf n -> 0 <= p ->
  p + zlen (bint (digs 2 k v) j g groups) <= n ->
  bin_loop k m i buf p (- Z.of_nat j) g groups =
  Ok (wr m (buf + p) (bint (digs 2 k v) j g groups), p + zlen (bint (digs 2 k v) j g groups)).
Proof.
  induction k as [|k IH]; intros m i buf p j g groups v n Hk Hi Hv R Hp Hn.
  - cbn [bin_loop digs bint wr]. zl. now rewrite Z.add_0_r.
  - cbn [bin_loop]. pose proof (Z.pow_pos_nonneg 2 (Z.of_nat k) ltac:(lia) ltac:(lia)) as P0.
    rewrite (digs_S 2 k v) in * by (auto; lia).
    assert (E2 : 2 ^ Z.of_nat (S k) = 2 * 2 ^ Z.of_nat k) by (rewrite <- Z.pow_succ_r by lia; f_equal; lia).
    assert (E31 : 2 ^ Z.of_nat k * 2 ^ (32 - Z.of_nat (S k)) = 2147483648).
    { rewrite <- Z.pow_add_r by lia. change 2147483648 with (2 ^ 31). f_equal. lia. }
    pose proof (Z.pow_pos_nonneg 2 (32 - Z.of_nat (S k)) ltac:(lia) ltac:(lia)) as Q0.
    assert (EQ : 2 ^ (32 - Z.of_nat k) = 2 * 2 ^ (32 - Z.of_nat (S k))) by (rewrite <- Z.pow_succ_r by lia; f_equal; lia).
    rewrite E2 in Hv. set (h := 2 ^ Z.of_nat k) in *. set (q := 2 ^ (32 - Z.of_nat (S k))) in *.
    set (d := v / h) in *. set (r := v mod h) in *. assert (Ed : v = d * h + r) by (unfold d, r; lia).
    assert (Hr : 0 <= r < h) by (unfold r; apply Z.mod_pos_bound; lia).
    assert (Hd : 0 <= d < 2) by (unfold d; split; [apply Z.div_pos; lia|apply Z.div_lt_upper_bound; lia]).
    clearbody d r.
    rewrite (top_bit (u32 i)) by apply u32_range.
    assert (T : (u32 i <? 2147483648) = (d =? 0)).
    { rewrite Hi, Ed. destruct (Z.eqb_spec d 0) as [->|]; [apply Z.ltb_lt|apply Z.ltb_ge; replace d with 1 by lia]; nia. }
    rewrite T.
    assert (N : u32 (s32 (i * 2)) = r * 2 ^ (32 - Z.of_nat k)).
    { assert (A : u32 (s32 (i * 2)) = (2 * u32 i) mod 4294967296) by (unfold u32, s32; lia).
      rewrite A, Hi, EQ. replace (2 * (v * q)) with (r * (2 * q) + d * 4294967296) by nia.
      rewrite Z.mod_add by lia. apply Z.mod_small. nia. }
    assert (Sep : forall m1 p1 j', room m1 buf n -> 0 <= p1 ->
      p1 + zlen (if Nat.eqb j' 0 && (groups <=? g + 1) then 32 :: bint (digs 2 k r) j' 0 groups else bint (digs 2 k r) j' (g + 1) groups) <= n ->
      (if (- Z.of_nat j' =? 0) && (groups <=? g + 1) then
         let* m2 := put m1 buf p1 32 in bin_loop k m2 (s32 (i * 2)) buf (p1 + 1) (- Z.of_nat j') 0 groups
       else bin_loop k m1 (s32 (i * 2)) buf p1 (- Z.of_nat j') (g + 1) groups) =
      Ok (wr m1 (buf + p1) (if Nat.eqb j' 0 && (groups <=? g + 1) then 32 :: bint (digs 2 k r) j' 0 groups else bint (digs 2 k r) j' (g + 1) groups),
        p1 + zlen (if Nat.eqb j' 0 && (groups <=? g + 1) then 32 :: bint (digs 2 k r) j' 0 groups else bint (digs 2 k r) j' (g + 1) groups))).
    { intros m1 p1 j' R1 Hp1 Hn1. replace (- Z.of_nat j' =? 0) with (Nat.eqb j' 0) by (destruct (Nat.eqb_spec j' 0), (Z.eqb_spec (- Z.of_nat j') 0); auto; lia).
      destruct (Nat.eqb j' 0 && (groups <=? g + 1)).
      - revert Hn1. zl. intro Hn1. nneg (bint (digs 2 k r) j' 0 groups). rewrite (put_ok m1 buf p1 32 n) by (auto; lia). rewrite bind_Ok.
        rewrite (IH _ _ _ _ _ _ _ r n); [|lia|exact N|lia|now apply wr_room|lia|lia]. cbn [wr]. apply ok2; [f_equal; lia|lia].
      - apply (IH _ _ _ _ _ _ _ r n); auto; lia. }
    cbn [bint] in *. destruct j as [|j].
    + change (- Z.of_nat 0) with 0 in *. cbn [Z.eqb].
      assert (A : (if negb (d =? 0) then let* m1 := put m buf p 49 in Ok (m1, p + 1, 0) else let* m1 := put m buf p 48 in Ok (m1, p + 1, 0))
        = (let* m1 := put m buf p (dch d) in Ok (m1, p + 1, 0))).
      { unfold dch. destruct (Z.eqb_spec d 0) as [->|]; cbn [negb]; [reflexivity|]. replace d with 1 by lia. reflexivity. }
      rewrite A. revert Hn. rewrite zlen_cons. set (t := if Nat.eqb 0 0 && (groups <=? g + 1) then _ else _). intro Hn. nneg t.
      rewrite (put_ok m buf p _ n) by (auto; unfold dch; lia). rewrite !bind_Ok. cbn [Z.eqb].
      specialize (Sep (wr m (buf + p) [dch d]) (p + 1) O (wr_room _ _ _ _ _ R) ltac:(lia)). change (- Z.of_nat 0) with 0 in Sep. fold t in Sep.
      cbn [Z.eqb] in Sep. rewrite Sep by lia. cbn [wr]. apply ok2; [f_equal; lia|lia].
    + destruct (Z.eqb_spec (- Z.of_nat (S j)) 0); [lia|]. destruct (Z.eqb_spec d 0); cbn [negb].
      * rewrite bind_Ok. replace (- Z.of_nat (S j) + 1) with (- Z.of_nat j) by lia. apply Sep; auto.
      * revert Hn. rewrite zlen_cons. set (t := if Nat.eqb 0 0 && (groups <=? g + 1) then _ else _). intro Hn. nneg t.
        rewrite (put_ok m buf p _ n) by (auto; lia). rewrite !bind_Ok. cbn [Z.eqb]. 
        specialize (Sep (wr m (buf + p) [49]) (p + 1) O (wr_room _ _ _ _ _ R) ltac:(lia)). change (- Z.of_nat 0) with 0 in Sep. fold t in Sep.
        cbn [Z.eqb] in Sep. rewrite Sep by lia. cbn [wr]. unfold dch. replace (48 + d) with 49 by lia. apply ok2; [f_equal; lia|lia].
Qed.
