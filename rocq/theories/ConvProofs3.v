(* Output conversions: the results stated with numerals. *)
From Verif Require Import Base BaseLemmas ConvModel ConvSpec ConvProofs ConvProofs2.
Ltac Zify.zify_post_hook ::= Z.div_mod_to_equations.

Lemma ok3 {A B C} (a a' : A) (b b' : B) (c c' : C) : a = a' -> b = b' -> c = c' -> Ok (a, b, c) = Ok (a', b', c').
Proof. intros -> -> ->. reflexivity. Qed.
Lemma digits_bytes base l : digits base l -> Forall (fun b => 1 <= b <= 255) l.
Proof.
  apply Forall_impl. intros b H. unfold digval in H.
  destruct ((48 <=? b) && (b <=? 57)) eqn:A; [lia|].
  destruct ((65 <=? b) && (b <=? 90)) eqn:B; [lia|].
  destruct ((97 <=? b) && (b <=? 122)) eqn:C; lia.
Qed.
Lemma wrote_or m m' buf l : Forall (fun b => 1 <= b <= 255) l -> l <> [] ->
  m' = wr m buf (l ++ [0]) \/ m' = wr (upd m buf 48) buf (l ++ [0]) -> wrote m m' buf l.
Proof.
  intros HF Hne [-> | ->]; [now apply wrote_wr|]. destruct (wrote_wr (upd m buf 48) buf l HF) as [A B].
  split; auto. intros x Hx. rewrite B by auto. apply upd_other.
  assert (0 < zlen l) by (destruct l; [congruence|]; zl; nneg l; lia). lia.
Qed.

Lemma uit_text_numeral i trail : 0 <= i < 4294967296 -> numeral 10 i (uit_text i 0 trail) /\ zlen (uit_text i 0 trail) <= 10.
Proof.
  intro Hi. unfold uit_text. destruct (Z.leb_spec 1000000000 i) as [Hb|Hs].
  - set (q := i / 1000000000). assert (Hq : 1 <= q <= 4) by (unfold q; lia).
    assert (E : q :: digs 10 9 (i mod 1000000000) = digs 10 10 i).
    { rewrite (digs_S 10 9) by (change (10 ^ Z.of_nat 10) with 10000000000; lia). reflexivity. }
    change (dch q :: map dch (digs 10 9 (i mod 1000000000))) with (map dch (q :: digs 10 9 (i mod 1000000000))).
    assert (L : lz (q :: digs 10 9 (i mod 1000000000)) = 0%nat) by (cbn [lz]; destruct (Z.eqb_spec q 0); lia).
    split.
    + rewrite E in *. pose proof (sig_numeral dch 10 10 i dch_good ltac:(lia)) as N. rewrite L in N. apply N.
      change (10 ^ Z.of_nat 10) with 10000000000. lia.
    + rewrite zlen_map. zl. unfold zlen. rewrite digs_length. lia.
  - destruct (Z.eqb_spec i 0) as [->|Hn]; cbn [andb Z.eqb].
    + split; [|reflexivity || (unfold zlen; cbn; lia)]. unfold numeral. repeat split; try discriminate; auto.
      constructor; [cbn; lia|constructor].
    + change (Z.to_nat 0) with 0%nat. rewrite Nat.sub_0_r. rewrite emit_eq. pose proof (lz_digs_pos i ltac:(lia)).
      replace (lz (digs 10 9 i) - 9)%nat with 0%nat by lia. cbn [repeat app]. split.
      * apply sig_numeral; [apply dch_good|lia|]. change (10 ^ Z.of_nat 9) with 1000000000. lia.
      * rewrite zlen_map, skipn_zlen by apply lz_le. unfold zlen. rewrite digs_length. lia.
Qed.

Lemma uitodec_numeral i : 0 <= i < 4294967296 ->
  exists l, numeral 10 i l /\ zlen l <= 10 /\ forall m buf pad, room m buf (zlen l + 1) ->
    exists m', uitodec m i buf 0 0 pad = Ok (m', zlen l) /\ wrote m m' buf l.
Proof.
  intro Hi. 
  assert (T : forall t1 t2, uit_text i 0 t1 = uit_text i 0 t2).
  { intros t1 t2. reflexivity. }
  destruct (uit_text_numeral i 0 Hi) as [N L]. exists (uit_text i 0 0). split; auto. split; auto.
  intros m buf pad R. destruct (uitodec_text m i buf 0 pad Hi ltac:(lia)) as (m' & E & W).
  { rewrite (T _ 0). exact R. }
  rewrite (T _ 0) in E, W. exists m'. split; auto. destruct N as (D & _ & Hne & _). apply wrote_or; auto.
  eapply digits_bytes; eauto.
Qed.

Lemma wrote_cons m m1 m' buf b l : 1 <= b <= 255 -> m1 = upd m buf b -> wrote m1 m' (buf + 1) l -> wrote m m' buf (b :: l).
Proof.
  intros Hb -> [A B]. split.
  - cbn [str_at]. split; [|split; auto]. rewrite B by lia. apply upd_same.
  - intros x Hx. revert Hx. zl. intro Hx. nneg l. rewrite B by lia. apply upd_other. lia.
Qed.

Lemma itodec_numeral strict i : INT_MIN <= i <= INT_MAX -> (strict = true -> i <> INT_MIN) ->
  exists l, signed_numeral 10 i l /\ zlen l <= 11 /\ forall m buf pad, room m buf (zlen l + 1) ->
    exists m', itodec strict m i buf 0 0 pad = Ok (m', zlen l) /\ wrote m m' buf l.
Proof.
  unfold INT_MIN, INT_MAX. intros Hi Hs. unfold signed_numeral, itodec.
  destruct (Z.ltb_spec i 0) as [Hneg|Hpos].
  - destruct (uitodec_numeral (- i)) as (l & N & L & H); [lia|]. exists (45 :: l). split; [eauto|]. split; [zl; lia|].
    intros m buf pad R. revert R. zl. intro R. nneg l. rewrite (put_ok m buf 0 45 (zlen l + 1 + 1)) by (auto; lia).
    rewrite bind_Ok.
    assert (E : iar strict (- i) = Ok (- i) \/ iar strict (- i) = Ok (-2147483648) /\ i = -2147483648).
    { unfold iar. destruct strict.
      - left. apply iop_ok. unfold INT_MIN, INT_MAX. specialize (Hs eq_refl). lia.
      - destruct (Z.eq_dec i (-2147483648)) as [->|]; [right; auto|left; f_equal; unfold s32; lia]. }
    assert (E2 : (let* j := iar strict (- i) in (let* (m2, r) := uitodec (wr m (buf + 0) [45]) (u32 j) (buf + 1) 0 0 pad in Ok (m2, r + 1)))
       = (let* (m2, r) := uitodec (wr m (buf + 0) [45]) (- i) (buf + 1) 0 0 pad in Ok (m2, r + 1))).
    { destruct E as [E|[E ->]]; rewrite E, bind_Ok; [rewrite u32_small by lia|]; reflexivity. }
    rewrite E2. destruct (H (wr m (buf + 0) [45]) (buf + 1) pad) as (m' & E3 & W).
    { apply wr_room. eapply room_sub; [exact R|lia|lia]. }
    rewrite E3, bind_Ok. exists m'. split; auto. eapply wrote_cons; [lia| |exact W]. cbn [wr]. now rewrite Z.add_0_r.
  - destruct (uitodec_numeral i) as (l & N & L & H); [lia|]. exists l. split; auto. split; [lia|].
    intros m buf pad R. rewrite u32_small by lia. auto.
Qed.

(* ---- padding ---- *)
Lemma uitodec_padded i prec pad : 0 < i < 4294967296 -> 0 <= prec <= 9 -> -128 <= pad <= 127 ->
  exists n l, numeral 10 i l /\ prec <= Z.of_nat n + zlen l /\ (n <> 0%nat -> Z.of_nat n + zlen l = prec) /\
    forall m buf, room m buf (Z.of_nat n + zlen l + 1) ->
    exists m', uitodec m i buf prec 0 pad = Ok (m', Z.of_nat n + zlen l) /\
      wrote m m' buf (repeat (ubyte (if pad =? 0 then 32 else pad)) n ++ l).
Proof.
  intros Hi Hp Hpad. set (trail := ubyte (if pad =? 0 then 32 else pad)).
  assert (Ht : 1 <= trail <= 255) by (unfold trail, ubyte; destruct (Z.eqb_spec pad 0); lia).
  assert (G : exists n l, uit_text i prec trail = repeat trail n ++ l /\ numeral 10 i l /\ prec <= Z.of_nat n + zlen l /\ (n <> 0%nat -> Z.of_nat n + zlen l = prec)).
  { destruct (Z.leb_spec 1000000000 i) as [Hb|Hs].
    - destruct (uit_text_numeral i trail ltac:(lia)) as [N _].
      assert (E : uit_text i prec trail = uit_text i 0 trail).
      { unfold uit_text. destruct (Z.leb_spec 1000000000 i); [auto|lia]. }
      exists 0%nat, (uit_text i prec trail). rewrite E. split; auto. split; auto. split; [|congruence].
      unfold uit_text. destruct (Z.leb_spec 1000000000 i); [|lia]. zl. rewrite zlen_map. unfold zlen. rewrite digs_length. lia.
    - unfold uit_text. destruct (Z.leb_spec 1000000000 i); [lia|]. destruct (Z.eqb_spec i 0); [lia|]. cbn [andb].
      rewrite emit_eq. pose proof (lz_digs_pos i ltac:(lia)) as Hl. eexists _, _. split; [reflexivity|].
      split; [apply sig_numeral; [apply dch_good|lia|change (10 ^ Z.of_nat 9) with 1000000000; lia]|].
      rewrite zlen_map, skipn_zlen by apply lz_le. unfold zlen. rewrite digs_length. lia. }
  destruct G as (n & l & E & N & L1 & L2). exists n, l. split; auto. split; auto. split; auto.
  intros m buf R. destruct (uitodec_text m i buf prec pad ltac:(lia) Hp) as (m' & E' & W).
  { fold trail. rewrite E. zl. rewrite zlen_repeat. exact R. }
  fold trail in E', W. rewrite E in E', W. revert E'. zl. rewrite zlen_repeat. intro E'. exists m'. split; auto.
  destruct N as (D & _ & Hne & _). apply wrote_or; auto.
  - apply Forall_app. split; [|eapply digits_bytes; eauto]. apply Forall_forall. intros x Hx. apply repeat_spec in Hx. subst. auto.
  - destruct n; [auto|discriminate].
Qed.

(* ---- ultodec ---- *)
Lemma ult_digit_ok fuel : forall ui l b, 0 < l -> 0 <= ui < Z.of_nat fuel * l -> ult_digit fuel ui l b = Ok (ui mod l, b + ui / l).
Proof.
  induction fuel as [|f IH]; intros ui l b Hl Hu; [lia|]. cbn [ult_digit]. destruct (Z.leb_spec l ui).
  - rewrite IH by lia. replace (ui - l) with (ui + (-1) * l) by lia. rewrite Z.mod_add, Z.div_add by lia. do 2 f_equal. lia.
  - rewrite Z.mod_small, Z.div_small by lia. do 2 f_equal. lia.
Qed.

Lemma pow10_div k : 10 ^ Z.of_nat (S k) / 10 = 10 ^ Z.of_nat k.
Proof. rewrite pow10_S. rewrite Z.mul_comm. apply Z.div_mul. lia. Qed.

Lemma ult_started k : forall m buf ui c prec n, (k <= 19)%nat -> 0 <= ui < 10 ^ Z.of_nat k ->
  room m buf n -> Z.of_nat k <= n ->
  ult_loop k m buf ui (10 ^ Z.of_nat k / 10) true c prec 0 =
  Ok (wr m buf (map dch (digs 10 k ui)), buf + Z.of_nat k, c + Z.of_nat k).
Proof.
  induction k as [|k IH]; intros m buf ui c prec n Hk Hu R Hn.
  - cbn [ult_loop digs map wr]. apply ok3; [reflexivity|lia|lia].
  - rewrite pow10_div. cbn [ult_loop]. assert (A : (if Z.of_nat (S k) <=? prec then true else true) = true) by (destruct (_ <=? _); auto).
    rewrite A. cbn [orb]. pose proof (pow10_pos k). rewrite digs_S by (auto; lia). rewrite pow10_S in Hu.
    rewrite ult_digit_ok by lia. rewrite bind_Ok. change (negb (0 =? 0)) with false. cbn [andb]. rewrite bind_Ok.
    assert (Hq : 0 <= ui / 10 ^ Z.of_nat k < 10) by (split; [apply Z.div_pos; lia|apply Z.div_lt_upper_bound; lia]).
    pose proof (Z.mod_pos_bound ui (10 ^ Z.of_nat k) ltac:(lia)).
    rewrite (put_ok m buf 0 _ n) by (auto; lia). rewrite bind_Ok.
    rewrite (IH _ _ _ _ _ (n - 1)); try lia.
    2:{ apply wr_room. eapply room_sub; eauto; lia. }
    cbn [map wr]. rewrite Z.add_0_l, Z.add_0_r. unfold dch at 2. apply ok3; [reflexivity|lia|lia].
Qed.

Lemma ult_waiting k : forall m buf ui c prec n, (k <= 19)%nat -> 0 <= ui < 10 ^ Z.of_nat k -> 0 <= prec ->
  room m buf n -> zlen (emit dch (k - Z.to_nat prec) 48 (digs 10 k ui)) <= n ->
  ult_loop k m buf ui (10 ^ Z.of_nat k / 10) false c prec 0 =
  Ok (wr m buf (emit dch (k - Z.to_nat prec) 48 (digs 10 k ui)),
      buf + zlen (emit dch (k - Z.to_nat prec) 48 (digs 10 k ui)), c + zlen (emit dch (k - Z.to_nat prec) 48 (digs 10 k ui))).
Proof.
  induction k as [|k IH]; intros m buf ui c prec n Hk Hu Hp R Hn.
  - cbn [ult_loop digs emit wr]. zl. apply ok3; [reflexivity|lia|lia].
  - pose proof (pow10_pos k) as P0. pose proof (pow10_mono k 18 ltac:(lia)) as P8. change (10 ^ Z.of_nat 18) with 1000000000000000000 in P8.
    rewrite pow10_div. cbn [ult_loop]. pose proof Hu as Hu'. rewrite digs_S in * by (auto; lia). rewrite pow10_S in Hu.
    set (d := 10 ^ Z.of_nat k) in *.
    assert (Hq : 0 <= ui / d < 10) by (split; [apply Z.div_pos; lia|apply Z.div_lt_upper_bound; lia]).
    pose proof (Z.mod_pos_bound ui d P0) as Hm.
    assert (Hs : (0 <=? s64 (u64 (ui - d))) = (d <=? ui)) 
      by (clear - Hu P0 P8; clearbody d; unfold s64, u64; destruct (Z.leb_spec d ui); lia).
    rewrite Hs.
    assert (Started : forall out, out = map dch (ui / d :: digs 10 k (ui mod d)) -> zlen out <= n ->
      (let* (ui1, b) := ult_digit 20 ui d 0 in
       let* (m1, buf1, c1) := if negb (0 =? 0) && (Z.of_nat (S k) mod 3 =? 0)
         then let* m1 := put m buf 0 0 in Ok (m1, buf + 1, c + 1) else Ok (m, buf, c) in
       let* m2 := put m1 buf1 0 (48 + b) in
       ult_loop k m2 (buf1 + 1) ui1 (d / 10) true (c1 + 1) prec 0) =
      Ok (wr m buf out, buf + zlen out, c + zlen out)).
    { intros out -> Ho. rewrite ult_digit_ok by lia. rewrite bind_Ok. change (negb (0 =? 0)) with false. cbn [andb]. rewrite bind_Ok.
      revert Ho. rewrite zlen_map. zl. unfold zlen at 1. rewrite digs_length. intro Ho.
      rewrite (put_ok m buf 0 _ n) by (auto; lia). rewrite bind_Ok.
      unfold d at 3. rewrite (ult_started k _ _ _ _ _ (n - 1)); try lia.
      2:{ apply wr_room. eapply room_sub; eauto; lia. }
      cbn [map wr]. rewrite Z.add_0_l, Z.add_0_r. unfold dch at 2. unfold zlen. rewrite digs_length. apply ok3; [reflexivity|lia|lia]. }
    destruct (Z.leb_spec (Z.of_nat (S k)) prec) as [Hw|Hw].
    + (* within the width: everything is printed *)
      cbn [orb]. replace (S k - Z.to_nat prec)%nat with 0%nat in * by lia.
      assert (E : emit dch 0 48 (ui / d :: digs 10 k (ui mod d)) = map dch (ui / d :: digs 10 k (ui mod d))).
      { assert (G : forall l, emit dch 0 48 l = map dch l).
        { induction l as [|x l IHl]; auto. cbn [emit]. destruct (Z.eqb_spec x 0); auto. subst. cbn [map]. now rewrite IHl. }
        apply G. }
      rewrite E in *. apply Started; auto.
    + cbn [orb]. replace (S k - Z.to_nat prec)%nat with (S (k - Z.to_nat prec))%nat in * by lia.
      destruct (Z.leb_spec d ui) as [Hge|Hlt].
      * assert (Hq1 : ui / d <> 0) by (intro E; apply Z.div_small_iff in E; lia).
        cbn [emit] in *. destruct (Z.eqb_spec (ui / d) 0); [lia|]. apply Started; auto.
      * assert (E0 : ui / d = 0) by (apply Z.div_small; lia). assert (E1 : ui mod d = ui) by (apply Z.mod_small; lia).
        rewrite E0, E1 in *. cbn [emit Z.eqb] in *. apply (IH _ _ _ _ _ n); auto; lia.
Qed.

(* the text ultodec prints for limiter 0 *)
Definition ult_text (ui prec : Z) : list Z :=
  let v := if 10000000000000000000 <=? ui then ui - 10000000000000000000 else ui in
  if (10000000000000000000 <=? ui) || (20 <=? prec)
  then (if 10000000000000000000 <=? ui then 49 else 48) :: map dch (digs 10 19 v)
  else emit dch (19 - Z.to_nat prec) 48 (digs 10 19 v).

Lemma ult_text_padded ui prec : 0 <= ui < 18446744073709551616 -> 0 <= prec <= 20 ->
  zlen (ult_text ui prec) <= 20 /\
  (0 < ui \/ 0 < prec -> padded_numeral 10 ui (Z.max 1 prec) (ult_text ui prec)).
Proof.
  intros Hu Hp. unfold ult_text. cbv zeta. set (lead := (10000000000000000000 <=? ui) || (20 <=? prec)).
  set (v := if 10000000000000000000 <=? ui then ui - 10000000000000000000 else ui).
  set (l := if lead then (if 10000000000000000000 <=? ui then 49 else 48) :: map dch (digs 10 19 v)
            else emit dch (19 - Z.to_nat prec) 48 (digs 10 19 v)).
  assert (Hv : 0 <= v < 10000000000000000000) by (unfold v; destruct (Z.leb_spec 10000000000000000000 ui); lia).
  change 10000000000000000000 with (10 ^ Z.of_nat 19) in Hv.
  assert (Hl : zlen l <= 20).
  { unfold l. destruct lead; [zl; rewrite zlen_map; unfold zlen; rewrite digs_length; lia|].
    rewrite emit_eq. zl. rewrite zlen_repeat, zlen_map, skipn_zlen by apply lz_le. pose proof (lz_le (digs 10 19 v)).
    rewrite digs_length in *. unfold zlen. rewrite digs_length. lia. }
  assert (HP : 0 < ui \/ 0 < prec -> padded_numeral 10 ui (Z.max 1 prec) l).
  { intro Hc. unfold l, lead. destruct (Z.leb_spec 10000000000000000000 ui) as [Hb|Hb]; cbn [orb].
    - destruct (value_map dch 10 (digs 10 19 v) dch_good) as [V D]; [apply digs_range; lia|].
      rewrite dvalue_digs, Z.mod_small in V by lia.
      assert (E : value 10 (49 :: map dch (digs 10 19 v)) = ui).
      { change (49 :: map dch (digs 10 19 v)) with (map dch (1 :: digs 10 19 v)).
        destruct (value_map dch 10 (1 :: digs 10 19 v) dch_good) as [V2 _]; [constructor; [lia|apply digs_range; lia]|].
        rewrite V2, dvalue_cons, dvalue_digs, Z.mod_small by lia. unfold zlen. rewrite digs_length.
        unfold v. destruct (Z.leb_spec 10000000000000000000 ui); [|lia]. change (10 ^ Z.of_nat 19) with 10000000000000000000. lia. }
      split; [constructor; [cbn; lia|exact D]|]. split; [exact E|]. split; [zl; rewrite zlen_map; unfold zlen; rewrite digs_length; lia|].
      cbn [hd]. intro; lia.
    - assert (Ev : v = ui) by (unfold v; destruct (Z.leb_spec 10000000000000000000 ui); lia). rewrite Ev in *.
      destruct (Z.leb_spec 20 prec) as [H20|H20].
      + destruct (value_map dch 10 (digs 10 19 ui) dch_good) as [V D]; [apply digs_range; lia|].
        rewrite dvalue_digs, Z.mod_small in V by lia.
        split; [constructor; [cbn; lia|exact D]|]. split; [|split; zl; rewrite zlen_map; unfold zlen; rewrite digs_length; lia].
        change (48 :: map dch (digs 10 19 ui)) with (repeat 48 1 ++ map dch (digs 10 19 ui)). now rewrite value_zeros.
      + destruct (Z.eq_dec prec 0) as [->|Hp0].
        * change (Z.to_nat 0) with 0%nat. rewrite Nat.sub_0_r. rewrite emit_eq.
          pose proof (lz_le (digs 10 19 ui)) as HL. rewrite digs_length in HL.
          replace (lz (digs 10 19 ui) - 19)%nat with 0%nat by lia. cbn [repeat app].
          destruct (sig_numeral dch 10 19 ui dch_good ltac:(lia) ltac:(lia)) as (D & V & Hne & Hh).
          split; auto. split; auto. revert Hne Hh. generalize (map dch (skipn (lz (digs 10 19 ui)) (digs 10 19 ui))).
          intros r Hne Hh. split.
          -- destruct r; [congruence|]. zl. nneg r. lia.
          -- intro H. apply Hh in H. rewrite H. reflexivity.
        * replace (Z.max 1 prec) with (Z.of_nat (Z.to_nat prec)) by lia.
          apply (emit_padded dch 10 19 ui (Z.to_nat prec) dch_good); lia. }
  split; [exact Hl|exact HP].
Qed.

Lemma ultodec_text ui prec : 0 <= ui < 18446744073709551616 -> 0 <= prec <= 20 ->
  exists l, (0 < ui \/ 0 < prec -> padded_numeral 10 ui (Z.max 1 prec) l) /\ (ui = 0 -> prec = 0 -> l = []) /\ zlen l <= 20 /\
    forall m buf, room m buf (zlen l + 1) -> exists m', ultodec m ui buf prec 0 = Ok (m', zlen l) /\ wrote m m' buf l.
Proof.
  intros Hu Hp. destruct (ult_text_padded ui prec Hu Hp) as (Hl & HP). unfold ult_text in Hl, HP. cbv zeta in Hl, HP. revert Hl HP.
  set (lead := (10000000000000000000 <=? ui) || (20 <=? prec)).
  set (v := if 10000000000000000000 <=? ui then ui - 10000000000000000000 else ui).
  set (l := if lead then (if 10000000000000000000 <=? ui then 49 else 48) :: map dch (digs 10 19 v)
            else emit dch (19 - Z.to_nat prec) 48 (digs 10 19 v)).
  intros Hl HP.
  assert (Hv : 0 <= v < 10000000000000000000) by (unfold v; destruct (Z.leb_spec 10000000000000000000 ui); lia).
  change 10000000000000000000 with (10 ^ Z.of_nat 19) in Hv.
  exists l. split; [exact HP|]. split.
  { intros E1 E2. unfold l, lead, v. subst. reflexivity. }
  split; [exact Hl|].
  intros m buf R.
  assert (HF : Forall (fun b => 1 <= b <= 255) l).
  { destruct (Z.eq_dec ui 0) as [->|]; [destruct (Z.eq_dec prec 0) as [->|]|].
    - replace l with (@nil Z) by reflexivity. constructor.
    - destruct HP as (D & _); [lia|]. eapply digits_bytes; eauto.
    - destruct HP as (D & _); [lia|]. eapply digits_bytes; eauto. }
  pose proof (wrote_wr m buf l HF) as W. exists (wr m buf (l ++ [0])). split; [|exact W].
  unfold ultodec. change 1000000000000000000 with (10 ^ Z.of_nat 19 / 10).
  assert (Lead : forall b u, l = b :: map dch (digs 10 19 v) -> 0 <= b < 256 -> u = v ->
    (let* (m1, buf1, ui1, a1, c1) := (let* m1 := put m buf 0 b in Ok (m1, buf + 1, u, true, 1)) in
     let* (m2, buf2, c2) := ult_loop 19 m1 buf1 ui1 (10 ^ Z.of_nat 19 / 10) a1 c1 prec 0 in
     let* m3 := put m2 buf2 0 0 in Ok (m3, c2)) = Ok (wr m buf (l ++ [0]), zlen l)).
  { intros b u El Hb ->. rewrite El in *. revert R. zl. rewrite zlen_map. unfold zlen at 1. rewrite digs_length. intro R.
    rewrite (put_ok m buf 0 b (Z.of_nat 19 + 1 + 1)) by (auto; lia). rewrite !bind_Ok.
    assert (S19 := ult_started 19 (wr m (buf + 0) [b]) (buf + 1) v 1 prec (Z.of_nat 19 + 1) ltac:(lia) Hv).
    rewrite S19 by (try lia; apply wr_room; eapply room_sub; eauto; lia). rewrite bind_Ok. rewrite (put_ok _ (buf + 1 + Z.of_nat 19) 0 0 1) by (try lia; repeat apply wr_room; eapply room_sub; eauto; lia).
    rewrite bind_Ok. cbn [app wr]. rewrite wr_app, zlen_map. unfold zlen. rewrite digs_length. cbn [wr]. rewrite !Z.add_0_r.
    reflexivity. }
  unfold l, lead in *. destruct (Z.leb_spec 10000000000000000000 ui) as [Hb|Hb].
  - cbn [orb] in *. apply Lead; auto; lia.
  - cbn [orb] in *. assert (Ev : v = ui) by (unfold v; destruct (Z.leb_spec 10000000000000000000 ui); lia).
    destruct (Z.leb_spec 20 prec).
    + apply Lead; auto; lia.
    + rewrite bind_Ok. rewrite Ev in *. rewrite (ult_waiting 19 _ _ _ _ _ (zlen (emit dch (19 - Z.to_nat prec) 48 (digs 10 19 ui)) + 1)); auto; try lia.
      rewrite bind_Ok. rewrite (put_ok _ (buf + _) 0 0 1); [| |lia|lia].
      2:{ apply wr_room. eapply room_sub; [exact R|nneg (emit dch (19 - Z.to_nat prec) 48 (digs 10 19 ui)); lia|lia]. }
      rewrite bind_Ok, wr_app. cbn [wr]. rewrite !Z.add_0_r, Z.add_0_l. reflexivity.
Qed.
