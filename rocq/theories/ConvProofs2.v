(* Proofs for uitodec, itodec, ultodec, ltodec, _itohex, _itobin, itooct. *)
From Verif Require Import Base BaseLemmas ConvModel ConvSpec ConvProofs.
Ltac Zify.zify_post_hook ::= Z.div_mod_to_equations.

Definition dch (d : Z) : Z := 48 + d.
Lemma dch_good : good_ch dch 10. Proof. exact good_ch_dec. Qed.

Lemma put_gen m buf p c n : room m buf n -> 0 <= p < n -> put m buf p c = Ok (wr m (buf + p) [ubyte c]).
Proof. intros R H. unfold put. rewrite (store_room m buf n) by (auto; lia). reflexivity. Qed.
Lemma ubyte_small c : 0 <= c < 256 -> ubyte c = c.
Proof. intro. unfold ubyte. now apply Z.mod_small. Qed.

Lemma pow10_pos k : 0 < 10 ^ Z.of_nat k. Proof. apply Z.pow_pos_nonneg; lia. Qed.
Lemma pow10_S k : 10 ^ Z.of_nat (S k) = 10 * 10 ^ Z.of_nat k.
Proof. replace (Z.of_nat (S k)) with (Z.of_nat k + 1) by lia. rewrite Z.pow_add_r by lia. lia. Qed.
Lemma pow10_mono k n : (k <= n)%nat -> 10 ^ Z.of_nat k <= 10 ^ Z.of_nat n.
Proof. intro. apply Z.pow_le_mono_r; lia. Qed.

Lemma digs_S base k v : 0 < base -> 0 <= v < base ^ Z.of_nat (S k) ->
  digs base (S k) v = v / base ^ Z.of_nat k :: digs base k (v mod base ^ Z.of_nat k).
Proof.
  intros Hb Hv. cbn [digs]. rewrite digs_mod by auto. f_equal. apply Z.mod_small.
  replace (Z.of_nat (S k)) with (Z.of_nat k + 1) in Hv by lia. rewrite Z.pow_add_r in Hv by lia.
  pose proof (Z.pow_pos_nonneg base (Z.of_nat k) Hb ltac:(lia)).
  split; [apply Z.div_pos; lia|]. apply Z.div_lt_upper_bound; lia.
Qed.

(* ---- uitodec ---- *)
Lemma uit_digit_ok i d : 0 < d <= 100000000 -> 0 <= i < 10 * d ->
  uit_digit i d = if i <? d then None else Some (i / d, i mod d).
Proof.
  intros Hd Hi. unfold uit_digit.
  assert (E : s32 (u32 (i - d)) = i - d) by (unfold s32, u32; lia). rewrite E.
  destruct (Z.ltb_spec (i - d) 0), (Z.ltb_spec i d); try lia; auto.
  assert (K : forall q, 0 <= i - q * d < d -> Some (i / d, i mod d) = Some (q, i - q * d)).
  { intros q Hq. rewrite <- (Z.div_unique i d q (i - q * d)) by lia. rewrite <- (Z.mod_unique i d q (i - q * d)) by lia. reflexivity. }
  destruct (Z.leb_spec 0 (i - d - d * 4)); cbn [andb].
  - destruct (Z.leb_spec 0 (i - d - d * 4 - d * 4)).
    + rewrite (K 9) by lia. do 2 f_equal. lia.
    + destruct (Z.leb_spec 0 (i - d - d * 4 - d * 2)); destruct (Z.leb_spec 0 (i - d - d * 4 - d)) in *;
      repeat match goal with |- context [0 <=? ?x] => destruct (Z.leb_spec 0 x) end;
      first [rewrite (K 5) by lia|rewrite (K 6) by lia|rewrite (K 7) by lia|rewrite (K 8) by lia|exfalso; lia]; do 2 f_equal; lia.
  - repeat match goal with |- context [0 <=? ?x] => destruct (Z.leb_spec 0 x) end;
      first [rewrite (K 1) by lia|rewrite (K 2) by lia|rewrite (K 3) by lia|rewrite (K 4) by lia|exfalso; lia]; do 2 f_equal; lia.
Qed.

Fixpoint pw (k : nat) : list Z := match k with O => [] | S k' => 10 ^ Z.of_nat k' :: pw k' end.
Lemma uit_skip0 ds : forall m buf i p prec tr trail,
  uit_loop ds m buf i p prec tr 0 trail = uit_loop (filter (fun d => negb (d =? 0)) ds) m buf i p prec tr 0 trail.
Proof.
  induction ds as [|d ds IH]; intros; cbn [uit_loop filter]; auto.
  destruct (Z.eqb_spec d 0); cbn [negb].
  - change (negb (0 =? 0)) with false. cbn [andb]. apply IH.
  - cbn [uit_loop]. destruct (Z.eqb_spec d 0); [lia|].
    destruct (uit_digit i d) as [[k i']|]; cbn [Z.eqb].
    + destruct (put m buf p _); cbn [bind]; auto.
    + destruct (prec =? 0); auto. destruct (put m buf p _); cbn [bind]; auto.
Qed.

Lemma uit_started k : forall m buf i p trail n, (k <= 9)%nat -> 0 <= i < 10 ^ Z.of_nat k ->
  room m buf n -> 0 <= p -> p + Z.of_nat k <= n ->
  uit_loop (pw k) m buf i p 0 false 0 trail = Ok (wr m (buf + p) (map dch (digs 10 k i)), p + Z.of_nat k).
Proof.
  induction k as [|k IH]; intros m buf i p trail n Hk Hi R Hp Hn.
  - cbn [pw uit_loop digs map wr]. do 2 f_equal. lia.
  - pose proof (pow10_pos k) as P0. pose proof (pow10_mono k 8 ltac:(lia)) as P8. change (10 ^ Z.of_nat 8) with 100000000 in P8.
    rewrite digs_S by (auto; lia). rewrite pow10_S in Hi. cbn [pw uit_loop].
    set (d := 10 ^ Z.of_nat k) in *. destruct (Z.eqb_spec d 0); [lia|].
    rewrite uit_digit_ok by lia.
    assert (Hq : 0 <= i / d < 10) by (split; [apply Z.div_pos; lia|apply Z.div_lt_upper_bound; lia]).
    pose proof (Z.mod_pos_bound i d P0) as Hm.
    assert (G : forall v i1, v = dch (i / d) -> i1 = i mod d ->
      (let* m1 := put m buf p v in uit_loop (pw k) m1 buf i1 (p + 1) 0 false 0 trail) =
      Ok (wr m (buf + p) (map dch (i / d :: digs 10 k (i mod d))), p + Z.of_nat (S k))).
    { intros v i1 -> ->. unfold dch at 1. rewrite (put_ok m buf p _ n) by (auto; lia). rewrite bind_Ok.
      rewrite (IH _ _ _ _ _ n); try lia; [|now apply wr_room].
      cbn [map wr]. replace (buf + (p + 1)) with (buf + p + 1) by lia. fold (dch (i / d)). do 2 f_equal. lia. }
    destruct (Z.ltb_spec i d); cbn [Z.eqb]; apply G; auto.
    + unfold dch. rewrite Z.div_small by lia. reflexivity.
    + rewrite Z.mod_small by lia. reflexivity.
Qed.

Lemma uit_waiting k : forall m buf i p j trail n, (k <= 9)%nat -> 0 <= i < 10 ^ Z.of_nat k ->
  room m buf n -> 0 <= p -> p + zlen (emit dch j (ubyte trail) (digs 10 k i)) <= n ->
  uit_loop (pw k) m buf i p (- Z.of_nat j) true 0 trail =
  Ok (wr m (buf + p) (emit dch j (ubyte trail) (digs 10 k i)), p + zlen (emit dch j (ubyte trail) (digs 10 k i))).
Proof.
  induction k as [|k IH]; intros m buf i p j trail n Hk Hi R Hp Hn.
  - cbn [pw uit_loop digs emit wr]. zl. do 2 f_equal. lia.
  - pose proof (pow10_pos k) as P0. pose proof (pow10_mono k 8 ltac:(lia)) as P8. change (10 ^ Z.of_nat 8) with 100000000 in P8.
    pose proof Hi as Hi'. rewrite digs_S in * by (auto; lia). rewrite pow10_S in Hi.
    set (d := 10 ^ Z.of_nat k) in *.
    assert (Hq : 0 <= i / d < 10) by (split; [apply Z.div_pos; lia|apply Z.div_lt_upper_bound; lia]).
    pose proof (Z.mod_pos_bound i d P0) as Hm.
    destruct (Z.ltb_spec i d) as [Hlt|Hge].
    + (* a leading zero *)
      assert (E0 : i / d = 0) by (apply Z.div_small; lia). assert (E1 : i mod d = i) by (apply Z.mod_small; lia).
      rewrite E0, E1 in *. cbn [pw uit_loop emit] in *. fold d. destruct (Z.eqb_spec d 0); [lia|].
      rewrite uit_digit_ok by lia. destruct (Z.ltb_spec i d); [|lia].
      cbn [Z.eqb] in *. destruct j as [|j].
      * change (- Z.of_nat 0) with 0. cbn [Z.eqb]. revert Hn. zl. intro Hn.
        rewrite (put_gen m buf p _ n) by (auto; match goal with |- context [zlen ?l] => idtac | _ => idtac end; pose proof (zlen_nonneg (emit dch 0 (ubyte trail) (digs 10 k i))); lia).
        rewrite bind_Ok. rewrite (IH _ _ _ _ 0%nat _ n); try lia; [|now apply wr_room].
        cbn [wr]. replace (buf + (p + 1)) with (buf + p + 1) by lia. do 2 f_equal. lia.
      * destruct (Z.eqb_spec (- Z.of_nat (S j)) 0); [lia|].
        replace (- Z.of_nat (S j) + 1) with (- Z.of_nat j) by lia. apply (IH _ _ _ _ j _ n); auto; lia.
    + assert (Hq1 : i / d <> 0) by (intro E; apply Z.div_small_iff in E; lia).
      revert Hn. cbn [emit]. destruct (Z.eqb_spec (i / d) 0); [lia|]. intro Hn.
      cbn [pw uit_loop]. fold d. destruct (Z.eqb_spec d 0); [lia|]. rewrite uit_digit_ok by lia.
      destruct (Z.ltb_spec i d); [lia|]. cbn [Z.eqb]. revert Hn. rewrite zlen_map. zl.
      unfold zlen at 1 2. rewrite digs_length. intro Hn.
      rewrite (put_ok m buf p _ n) by (auto; lia). rewrite bind_Ok.
      rewrite (uit_started k _ _ _ _ _ n); try lia; [|now apply wr_room].
      cbn [map wr]. unfold dch at 2. replace (buf + (p + 1)) with (buf + p + 1) by lia. do 2 f_equal. lia.
Qed.

Lemma uit_div_filter : filter (fun d => negb (d =? 0)) uit_div = pw 9.
Proof. reflexivity. Qed.

(* the text uitodec prints for limiter 0 and 0 <= prec <= 9 *)
Definition uit_text (i prec trail : Z) : list Z :=
  if 1000000000 <=? i then dch (i / 1000000000) :: map dch (digs 10 9 (i mod 1000000000))
  else if (i =? 0) && (prec =? 0) then [48]
  else emit dch (9 - Z.to_nat prec) trail (digs 10 9 i).

Lemma lz_digs_pos i : 0 < i < 1000000000 -> (lz (digs 10 9 i) < 9)%nat.
Proof.
  intro H. pose proof (lz_le (digs 10 9 i)) as L. rewrite digs_length in L.
  destruct (Nat.eq_dec (lz (digs 10 9 i)) 9) as [E|]; [|lia].
  apply (lz_all_iff 10 9 i) in E; try lia.
Qed.

Ltac zc := unfold zlen in *; cbn [length] in *; lia.
Lemma uitodec_text m i buf prec pad : 0 <= i < 4294967296 -> 0 <= prec <= 9 ->
  let trail := ubyte (if pad =? 0 then 32 else pad) in
  room m buf (zlen (uit_text i prec trail) + 1) ->
  exists m', uitodec m i buf prec 0 pad = Ok (m', zlen (uit_text i prec trail)) /\
    (m' = wr m buf (uit_text i prec trail ++ [0]) \/ m' = wr (upd m buf 48) buf (uit_text i prec trail ++ [0])).
Proof.
  intros Hi Hp trail R. unfold uitodec. rewrite iop_ok by (unfold INT_MIN, INT_MAX; lia). rewrite bind_Ok.
  unfold uit_text in *. destruct (Z.leb_spec 1000000000 i) as [Hbig|Hsmall].
  - destruct (Z.eqb_spec i 0); [lia|]. rewrite bind_Ok. revert R. zl. rewrite zlen_map.
    unfold zlen at 1. rewrite digs_length. intro R.
    set (q := i / 1000000000). assert (Hq : 1 <= q <= 4) by (unfold q; lia).
    assert (E : (if 2000000000 <=? i
       then let i1 := i - 2000000000 in
        if 1000000000 <=? i1 then if 2000000000 <=? i1
            then let* m2 := put m buf 0 52 in Ok (m2, i1 - 2000000000, 1, 0, false)
            else let* m2 := put m buf 0 51 in Ok (m2, i1 - 1000000000, 1, 0, false)
        else let* m2 := put m buf 0 50 in Ok (m2, i1, 1, 0, false)
       else let* m2 := put m buf 0 49 in Ok (m2, i - 1000000000, 1, 0, false)) =
      Ok (wr m (buf + 0) [dch q], i mod 1000000000, 1, 0, false)).
    { cbv zeta. unfold q, dch.
      repeat match goal with |- context [?a <=? ?x] => destruct (Z.leb_spec a x) end;
      rewrite (put_ok m buf 0 _ (Z.of_nat 9 + 1 + 1)) by (auto; lia); rewrite bind_Ok;
      match goal with |- Ok (wr _ _ [?c], ?x, _, _, _) = Ok (wr _ _ [?c'], ?x', _, _, _) =>
        replace c' with c by lia; replace x' with x by lia; reflexivity end. }
    cbv zeta in E. rewrite E, bind_Ok. rewrite uit_skip0, uit_div_filter.
    rewrite (uit_started 9 _ _ _ _ _ (Z.of_nat 9 + 1 + 1)); try lia; [|now apply wr_room].
    rewrite bind_Ok. destruct (Z.eqb_spec (1 + Z.of_nat 9) 0); [lia|]. rewrite bind_Ok.
    rewrite (put_ok _ buf (1 + Z.of_nat 9) 0 (Z.of_nat 9 + 1 + 1)) by (try lia; repeat apply wr_room; auto).
    rewrite bind_Ok. eexists. split; [f_equal; f_equal; zl; rewrite zlen_map; unfold zlen; rewrite digs_length; lia|]. left.
    cbn [app wr]. rewrite wr_app, zlen_map. unfold zlen. rewrite digs_length.
    rewrite !Z.add_0_r. replace (buf + 1 + Z.of_nat 9) with (buf + (1 + Z.of_nat 9)) by lia. reflexivity.
  - destruct (Z.eqb_spec (prec - 10) 0); [lia|]. change (10 ^ Z.of_nat 9) with 1000000000 in *.
    assert (Hsub : - Z.of_nat (9 - Z.to_nat prec) = prec - 10 + 1) by lia.
    destruct (Z.eqb_spec i 0) as [->|Hne].
    + (* zero *)
      assert (Hroom : 1 <= zlen (if (true && (prec =? 0))%bool then [48] else emit dch (9 - Z.to_nat prec) trail (digs 10 9 0))).
      { destruct (Z.eqb_spec prec 0); cbn [andb]; [zc|]. rewrite emit_eq.
        replace (lz (digs 10 9 0)) with 9%nat by reflexivity. zl. rewrite zlen_repeat. nneg (map dch (skipn 9 (digs 10 9 0))). lia. }
      rewrite (put_ok m buf 0 48 (zlen (if (true && (prec =? 0))%bool then [48] else emit dch (9 - Z.to_nat prec) trail (digs 10 9 0)) + 1)) by (auto; lia).
      rewrite !bind_Ok. rewrite uit_skip0, uit_div_filter, <- Hsub. cbn [andb] in *.
      destruct (Z.eqb_spec prec 0) as [->|Hp0].
      * rewrite (uit_waiting 9 _ _ _ _ _ _ (zlen [48] + 1)); [|lia|change (10 ^ Z.of_nat 9) with 1000000000; lia|now apply wr_room|lia|].
        2:{ change (emit dch (9 - Z.to_nat 0) (ubyte (if pad =? 0 then 32 else pad)) (digs 10 9 0)) with (@nil Z). zc. }
        change (emit dch (9 - Z.to_nat 0) (ubyte (if pad =? 0 then 32 else pad)) (digs 10 9 0)) with (@nil Z).
        rewrite bind_Ok. change (0 + zlen (@nil Z)) with 0. cbn [Z.eqb wr].
        rewrite Z.add_0_r. rewrite (put_ok _ buf 0 48 (zlen [48] + 1)) by (try (zc); repeat apply room_upd; auto).
        rewrite !bind_Ok. rewrite (put_ok _ buf 1 0 (zlen [48] + 1)) by (try (zc); repeat (apply room_upd || apply wr_room); auto).
        rewrite bind_Ok. eexists. split; [reflexivity|]. right. cbn [wr app]. rewrite Z.add_0_r. reflexivity.
      * rewrite (uit_waiting 9 _ _ _ _ _ _ (zlen (emit dch (9 - Z.to_nat prec) trail (digs 10 9 0)) + 1));
          [|lia|change (10 ^ Z.of_nat 9) with 1000000000; lia|now apply wr_room|lia|fold trail; lia].
        fold trail. rewrite bind_Ok. rewrite Z.add_0_l.
        destruct (Z.eqb_spec (zlen (emit dch (9 - Z.to_nat prec) trail (digs 10 9 0))) 0); [lia|].
        rewrite bind_Ok. rewrite (put_ok _ buf _ 0 (zlen (emit dch (9 - Z.to_nat prec) trail (digs 10 9 0)) + 1)) by (try lia; repeat apply wr_room; auto).
        rewrite bind_Ok. eexists. split; [reflexivity|]. right. rewrite wr_app. cbn [wr]. rewrite !Z.add_0_r. reflexivity.
    + cbn [andb] in *. rewrite !bind_Ok. rewrite uit_skip0, uit_div_filter, <- Hsub.
      assert (Hpos : 1 <= zlen (emit dch (9 - Z.to_nat prec) trail (digs 10 9 i))).
      { rewrite emit_eq. zl. rewrite zlen_map, skipn_zlen by (apply lz_le). unfold zlen. rewrite digs_length.
        pose proof (lz_digs_pos i ltac:(lia)). rewrite repeat_length. lia. }
      rewrite (uit_waiting 9 _ _ _ _ _ _ (zlen (emit dch (9 - Z.to_nat prec) trail (digs 10 9 i)) + 1)); auto; try lia; try (fold trail; lia).
      fold trail. rewrite bind_Ok, Z.add_0_l.
      destruct (Z.eqb_spec (zlen (emit dch (9 - Z.to_nat prec) trail (digs 10 9 i))) 0); [lia|].
      rewrite bind_Ok. rewrite (put_ok _ buf _ 0 (zlen (emit dch (9 - Z.to_nat prec) trail (digs 10 9 i)) + 1)) by (try lia; repeat apply wr_room; auto).
      rewrite bind_Ok. eexists. split; [reflexivity|]. left. rewrite wr_app. cbn [wr]. rewrite !Z.add_0_r. reflexivity.
Qed.
