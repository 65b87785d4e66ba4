(* Decimal output with a character between groups of three digits. *)
From Verif Require Import Base BaseLemmas ConvModel ConvSpec ConvProofs ConvProofs2 ConvProofs3 ConvProofs4.
Ltac Zify.zify_post_hook ::= Z.div_mod_to_equations.

Definition sep (k : nat) : bool := (0 <? k)%nat && (k mod 3 =? 0)%nat.
Lemma group_cons c d r : group c (d :: r) = d :: (if sep (length r) then c :: group c r else group c r).
Proof. reflexivity. Qed.
Lemma group_len c l : zlen l <= zlen (group c l) <= 2 * zlen l.
Proof.
  induction l as [|d l IH]; [cbn [group]; zl; lia|]. rewrite group_cons.
  destruct (sep (length l)); rewrite !zlen_cons; lia.
Qed.
Lemma group_nil c l : l <> [] -> group c l <> [].
Proof. destruct l; [congruence|]. rewrite group_cons. discriminate. Qed.
Lemma group_forall (P : Z -> Prop) c l : P c -> Forall P l -> Forall P (group c l).
Proof.
  intros Hc. induction 1 as [|d l Hd Hl IH]; [constructor|]. rewrite group_cons.
  destruct (sep (length l)); auto.
Qed.

(* the divisors for k digits, with the marks *)
Fixpoint dl (k : nat) : list Z :=
  match k with
  | O => []
  | S j => 10 ^ Z.of_nat j :: (if sep j then 0 :: dl j else dl j)
  end.
Lemma uit_div_dl : uit_div = 0 :: dl 9. Proof. reflexivity. Qed.

Section uit.
Variable c : Z.
Hypothesis Hc : c <> 0.

Lemma uit_mark ds m buf i p tr trail n : room m buf n -> 0 <= p < n ->
  uit_loop (0 :: ds) m buf i p 0 tr c trail =
  uit_loop ds (wr m (buf + p) [ubyte c]) buf i (p + 1) 0 tr c trail.
Proof.
  intros R Hp. cbn [uit_loop]. change (0 =? 0) with true. cbv iota.
  destruct (Z.eqb_spec c 0); [congruence|]. cbn [negb andb].
  rewrite (put_gen m buf p c n), bind_Ok by auto. reflexivity.
Qed.

Lemma uit_started_l k : forall m buf i p trail n, (k <= 9)%nat -> 0 <= i < 10 ^ Z.of_nat k ->
  room m buf n -> 0 <= p ->
  let out := group (ubyte c) (map dch (digs 10 k i)) in
  p + zlen out <= n ->
  uit_loop (dl k) m buf i p 0 false c trail = Ok (wr m (buf + p) out, p + zlen out).
Proof.
  induction k as [|k IH]; intros m buf i p trail n Hk Hi R Hp out Hn.
  - unfold out. cbn [dl uit_loop digs map wr group]. zl. do 2 f_equal. lia.
  - pose proof (pow10_pos k) as P0. pose proof (pow10_mono k 8 ltac:(lia)) as P8.
    change (10 ^ Z.of_nat 8) with 100000000 in P8.
    unfold out in *. clear out. rewrite digs_S in * by (auto; lia). rewrite pow10_S in Hi.
    cbn [map] in *. rewrite group_cons in *. rewrite map_length, digs_length in *.
    cbn [dl uit_loop]. set (d := 10 ^ Z.of_nat k) in *. destruct (Z.eqb_spec d 0); [lia|].
    rewrite uit_digit_ok by lia.
    assert (Hq : 0 <= i / d < 10) by (split; [apply Z.div_pos; lia|apply Z.div_lt_upper_bound; lia]).
    pose proof (Z.mod_pos_bound i d P0) as Hm.
    set (g := group (ubyte c) (map dch (digs 10 k (i mod d)))) in *.
    pose proof (zlen_nonneg g) as Ng.
    assert (G : forall v i1, v = dch (i / d) -> i1 = i mod d ->
      (let* m1 := put m buf p v in
       uit_loop (if sep k then 0 :: dl k else dl k) m1 buf i1 (p + 1) 0 false c trail) =
      Ok (wr m (buf + p) (dch (i / d) :: (if sep k then ubyte c :: g else g)),
          p + zlen (dch (i / d) :: (if sep k then ubyte c :: g else g)))).
    { intros v i1 -> ->. revert Hn. destruct (sep k); rewrite !zlen_cons; intro Hn.
      - unfold dch at 1. rewrite (put_ok m buf p _ n) by (auto; lia). rewrite bind_Ok.
        rewrite (uit_mark _ _ _ _ _ _ _ n) by (try lia; now apply wr_room).
        rewrite (IH _ _ _ _ _ n); try lia; [|repeat apply wr_room; auto|fold g; lia].
        cbn [wr]. fold g. fold (dch (i / d)).
        replace (buf + (p + 1 + 1)) with (buf + p + 1 + 1) by lia.
        replace (buf + (p + 1)) with (buf + p + 1) by lia. do 2 f_equal. lia.
      - unfold dch at 1. rewrite (put_ok m buf p _ n) by (auto; lia). rewrite bind_Ok.
        rewrite (IH _ _ _ _ _ n); try lia; [|repeat apply wr_room; auto|fold g; lia].
        cbn [wr]. fold g. fold (dch (i / d)).
        replace (buf + (p + 1)) with (buf + p + 1) by lia. do 2 f_equal. lia. }
    destruct (Z.ltb_spec i d); cbn [Z.eqb]; apply G; auto.
    + unfold dch. rewrite Z.div_small by lia. reflexivity.
    + rewrite Z.mod_small by lia. reflexivity.
Qed.

Lemma uit_waiting_l k : forall m buf i p trail n, (k <= 9)%nat -> 0 <= i < 10 ^ Z.of_nat k ->
  room m buf n -> 0 <= p ->
  let out := group (ubyte c) (map dch (skipn (lz (digs 10 k i)) (digs 10 k i))) in
  p + zlen out <= n ->
  uit_loop (dl k) m buf i p (- Z.of_nat k) true c trail = Ok (wr m (buf + p) out, p + zlen out).
Proof.
  induction k as [|k IH]; intros m buf i p trail n Hk Hi R Hp out Hn.
  - unfold out. cbn [dl uit_loop digs lz skipn map wr group]. zl. do 2 f_equal. lia.
  - pose proof (pow10_pos k) as P0. pose proof (pow10_mono k 8 ltac:(lia)) as P8.
    change (10 ^ Z.of_nat 8) with 100000000 in P8.
    pose proof Hi as Hi'. unfold out in *. clear out. rewrite digs_S in * by (auto; lia).
    rewrite pow10_S in Hi. set (d := 10 ^ Z.of_nat k) in *.
    assert (Hq : 0 <= i / d < 10) by (split; [apply Z.div_pos; lia|apply Z.div_lt_upper_bound; lia]).
    pose proof (Z.mod_pos_bound i d P0) as Hm.
    destruct (Z.ltb_spec i d) as [Hlt|Hge].
    + assert (E0 : i / d = 0) by (apply Z.div_small; lia).
      assert (E1 : i mod d = i) by (apply Z.mod_small; lia).
      rewrite E0, E1 in *. cbn [lz Z.eqb skipn] in *. cbn [dl uit_loop]. fold d.
      destruct (Z.eqb_spec d 0); [lia|]. rewrite uit_digit_ok by lia.
      destruct (Z.ltb_spec i d); [|lia].
      destruct (Z.eqb_spec (- Z.of_nat (S k)) 0); [lia|].
      replace (- Z.of_nat (S k) + 1) with (- Z.of_nat k) by lia.
      destruct (sep k) eqn:Es.
      * cbn [uit_loop]. change (0 =? 0) with true. cbv iota.
        assert (Ek : (- Z.of_nat k =? 0) = false).
        { apply Z.eqb_neq. unfold sep in Es. apply andb_prop in Es. destruct Es as (Es & _).
          apply Nat.ltb_lt in Es. lia. }
        rewrite Ek, andb_false_r. apply (IH _ _ _ _ _ n); auto; lia.
      * apply (IH _ _ _ _ _ n); auto; lia.
    + assert (Hq1 : i / d <> 0) by (intro E; apply Z.div_small_iff in E; lia).
      revert Hn. cbn [lz]. destruct (Z.eqb_spec (i / d) 0); [lia|]. cbn [skipn]. intro Hn.
      assert (ED : i / d :: digs 10 k (i mod d) = digs 10 (S k) i) by (symmetry; apply digs_S; auto; lia).
      rewrite ED in *.
      pose proof (uit_started_l (S k) m buf i p trail n Hk Hi' R Hp Hn) as ST.
      rewrite <- ST. cbn [dl uit_loop]. fold d. destruct (Z.eqb_spec d 0); [lia|].
      rewrite uit_digit_ok by lia. destruct (Z.ltb_spec i d); [lia|]. reflexivity.
Qed.

Lemma uitodec_group i : 0 <= i < 4294967296 ->
  exists l, numeral 10 i l /\ zlen l <= 10 /\
    forall m buf pad, room m buf (zlen (group (ubyte c) l) + 1) ->
    exists m', uitodec m i buf 0 c pad = Ok (m', zlen (group (ubyte c) l)) /\
      (m' = wr m buf (group (ubyte c) l ++ [0]) \/ m' = wr (upd m buf 48) buf (group (ubyte c) l ++ [0])).
Proof.
  intros Hi. exists (uit_text i 0 0). destruct (uit_text_numeral i 0 Hi) as (N & L).
  split; [exact N|]. split; [exact L|]. intros m buf pad R. unfold uitodec.
  rewrite iop_ok by (unfold INT_MIN, INT_MAX; lia). rewrite bind_Ok.
  unfold uit_text in *. rewrite uit_div_dl. destruct (Z.leb_spec 1000000000 i) as [Hbig|Hsmall].
  - destruct (Z.eqb_spec i 0); [lia|]. rewrite bind_Ok.
    set (q := i / 1000000000) in *. assert (Hq : 1 <= q <= 4) by (unfold q; lia).
    rewrite group_cons in *. rewrite map_length, digs_length in *. change (sep 9) with true in *. cbv iota in *.
    set (g := group (ubyte c) (map dch (digs 10 9 (i mod 1000000000)))) in *.
    pose proof (zlen_nonneg g) as Ng. rewrite !zlen_cons in R.
    assert (E : (if 2000000000 <=? i
       then let i1 := i - 2000000000 in
        if 1000000000 <=? i1 then if 2000000000 <=? i1
            then let* m2 := put m buf 0 52 in Ok (m2, i1 - 2000000000, 1, 0, false)
            else let* m2 := put m buf 0 51 in Ok (m2, i1 - 1000000000, 1, 0, false)
        else let* m2 := put m buf 0 50 in Ok (m2, i1, 1, 0, false)
       else let* m2 := put m buf 0 49 in Ok (m2, i - 1000000000, 1, 0, false)) =
      Ok (wr m (buf + 0) [dch q], i mod 1000000000, 1, 0, false)).
    { cbv zeta. unfold q, dch.
      repeat match goal with |- context [?a <=? ?x] => destruct (Z.leb_spec a x) end;
      rewrite (put_ok m buf 0 _ (zlen g + 1 + 1 + 1)) by (auto; lia); rewrite bind_Ok;
      match goal with |- Ok (wr _ _ [?c], ?x, _, _, _) = Ok (wr _ _ [?c'], ?x', _, _, _) =>
        replace c' with c by lia; replace x' with x by lia; reflexivity end. }
    cbv zeta in E. rewrite E, bind_Ok.
    rewrite (uit_mark _ _ _ _ _ _ _ (zlen g + 1 + 1 + 1)) by (try lia; now apply wr_room).
    rewrite (uit_started_l 9 _ _ _ _ _ (zlen g + 1 + 1 + 1)); try lia;
      [|repeat apply wr_room; auto|fold g; lia].
    fold g. rewrite bind_Ok. destruct (Z.eqb_spec (1 + 1 + zlen g) 0); [lia|]. rewrite bind_Ok.
    rewrite (put_ok _ buf _ 0 (zlen g + 1 + 1 + 1)) by (try lia; repeat apply wr_room; auto).
    rewrite bind_Ok. eexists. split; [f_equal; f_equal; rewrite !zlen_cons; lia|]. left.
    cbn [app wr]. rewrite wr_app. cbn [wr]. rewrite !Z.add_0_r.
    replace (buf + (1 + 1)) with (buf + 1 + 1) by lia.
    replace (buf + (1 + 1 + zlen g)) with (buf + 1 + 1 + zlen g) by lia. reflexivity.
  - cbn [Z.sub]. change (0 - 10) with (-10). change (-10 =? 0) with false. cbv iota.
    change (-10 + 1) with (- Z.of_nat 9). change (0 =? 0) with true in *.
    destruct (Z.eqb_spec i 0) as [->|Hne]; cbn [andb] in *.
    + change (group (ubyte c) [48]) with [48] in *. change (zlen [48] + 1) with 2 in R.
      rewrite (put_ok m buf 0 48 2) by (auto; lia). rewrite !bind_Ok.
      assert (SK : forall m0, room m0 buf 2 -> uit_loop (0 :: dl 9) m0 buf 0 0 (- Z.of_nat 9) true c (if pad =? 0 then 32 else pad) = Ok (m0, 0)).
      { intros m0 R0. remember (dl 9) as dd eqn:Ed. cbn [uit_loop]. change (0 =? 0) with true. change (- Z.of_nat 9 =? 0) with false.
        cbv iota. rewrite andb_false_r, Ed. rewrite (uit_waiting_l 9 _ _ _ _ _ 2); auto; lia. }
      rewrite SK, bind_Ok by (now apply wr_room). cbn [Z.eqb]. rewrite (put_ok _ buf 0 48 2) by (try lia; now apply wr_room).
      rewrite !bind_Ok. rewrite (put_ok _ buf 1 0 2) by (try lia; repeat apply wr_room; auto).
      rewrite bind_Ok. eexists. split; [reflexivity|]. right. cbn [wr app]. rewrite Z.add_0_r. reflexivity.
    + rewrite !bind_Ok. change (Z.to_nat 0) with 0%nat in *. rewrite Nat.sub_0_r in *. rewrite emit_eq in *.
      pose proof (lz_digs_pos i ltac:(lia)) as Hlz.
      replace (lz (digs 10 9 i) - 9)%nat with 0%nat in * by lia. cbn [repeat app] in *.
      set (g := group (ubyte c) (map dch (skipn (lz (digs 10 9 i)) (digs 10 9 i)))) in *.
      assert (Hg : 1 <= zlen g).
      { pose proof (group_len (ubyte c) (map dch (skipn (lz (digs 10 9 i)) (digs 10 9 i)))) as GL.
        fold g in GL. rewrite zlen_map, skipn_zlen in GL by apply lz_le. unfold zlen in GL.
        rewrite digs_length in GL. unfold zlen. lia. }
      assert (SK : forall m0 p, uit_loop (0 :: dl 9) m0 buf i p (- Z.of_nat 9) true c (if pad =? 0 then 32 else pad)
                 = uit_loop (dl 9) m0 buf i p (- Z.of_nat 9) true c (if pad =? 0 then 32 else pad)).
      { intros m0 p. remember (dl 9) as dd eqn:Ed. cbn [uit_loop]. change (0 =? 0) with true. change (- Z.of_nat 9 =? 0) with false.
        cbv iota. rewrite andb_false_r. reflexivity. }
      rewrite SK.
      rewrite (uit_waiting_l 9 _ _ _ _ _ (zlen g + 1)); auto; try (fold g); try lia.
      fold g. rewrite bind_Ok, Z.add_0_l.
      destruct (Z.eqb_spec (zlen g) 0); [lia|].
      rewrite bind_Ok. rewrite (put_ok _ buf _ 0 (zlen g + 1)) by (try lia; repeat apply wr_room; auto).
      rewrite bind_Ok. eexists. split; [reflexivity|]. left. rewrite wr_app. cbn [wr]. rewrite !Z.add_0_r. reflexivity.
Qed.
End uit.

Lemma ubyte_pos c : c <> 0 -> -128 <= c <= 127 -> 1 <= ubyte c <= 255.
Proof. unfold ubyte. lia. Qed.

Lemma uitodec_grouped c i : c <> 0 -> -128 <= c <= 127 -> 0 <= i < 4294967296 ->
  exists l, numeral 10 i l /\ zlen l <= 10 /\
    forall m buf pad, room m buf (zlen (group (ubyte c) l) + 1) ->
    exists m', uitodec m i buf 0 c pad = Ok (m', zlen (group (ubyte c) l)) /\
      wrote m m' buf (group (ubyte c) l).
Proof.
  intros Hc Rc Hi. destruct (uitodec_group c Hc i Hi) as (l & N & L & H). exists l. split; [exact N|].
  split; [exact L|]. intros m buf pad R. destruct (H m buf pad R) as (m' & E & W). exists m'. split; [exact E|].
  destruct N as (D & _ & Hne & _). apply wrote_or; auto.
  - apply group_forall; [now apply ubyte_pos|]. eapply digits_bytes; eauto.
  - now apply group_nil.
Qed.

Lemma itodec_grouped strict c i : c <> 0 -> -128 <= c <= 127 -> INT_MIN <= i <= INT_MAX ->
  (strict = true -> i <> INT_MIN) ->
  exists l, numeral 10 (Z.abs i) l /\ forall m buf pad,
    let t := (if i <? 0 then [45] else []) ++ group (ubyte c) l in
    room m buf (zlen t + 1) ->
    exists m', itodec strict m i buf 0 c pad = Ok (m', zlen t) /\ wrote m m' buf t.
Proof.
  unfold INT_MIN, INT_MAX. intros Hc Rc Hi Hs. unfold itodec.
  destruct (uitodec_grouped c (Z.abs i) Hc Rc ltac:(lia)) as (l & N & L & H). exists l. split; [exact N|].
  intros m buf pad. cbv zeta.
  destruct (Z.ltb_spec i 0) as [Hneg|Hpos]; cbn [app].
  - intro R. revert R. zl. intro R. nneg (group (ubyte c) l).
    rewrite (put_ok m buf 0 45 (zlen (group (ubyte c) l) + 1 + 1)) by (auto; lia).
    rewrite bind_Ok.
    assert (E : iar strict (- i) = Ok (- i) \/ iar strict (- i) = Ok (-2147483648) /\ i = -2147483648).
    { unfold iar. destruct strict.
      - left. apply iop_ok. unfold INT_MIN, INT_MAX. specialize (Hs eq_refl). lia.
      - destruct (Z.eq_dec i (-2147483648)) as [->|]; [right; auto|left; f_equal; unfold s32; lia]. }
    assert (E2 : (let* j := iar strict (- i) in (let* (m2, r) := uitodec (wr m (buf + 0) [45]) (u32 j) (buf + 1) 0 c pad in Ok (m2, r + 1)))
       = (let* (m2, r) := uitodec (wr m (buf + 0) [45]) (Z.abs i) (buf + 1) 0 c pad in Ok (m2, r + 1))).
    { destruct E as [E|[E ->]]; rewrite E, bind_Ok; [|reflexivity].
      replace (u32 (- i)) with (Z.abs i) by (unfold u32; lia). reflexivity. }
    rewrite E2. destruct (H (wr m (buf + 0) [45]) (buf + 1) pad) as (m' & E3 & W).
    { apply wr_room. eapply room_sub; [exact R|lia|lia]. }
    rewrite E3, bind_Ok. exists m'. split; auto. eapply wrote_cons; [lia| |exact W]. cbn [wr]. now rewrite Z.add_0_r.
  - intro R. replace (u32 i) with (Z.abs i) by (unfold u32; lia). auto.
Qed.

(* ---- ultodec ---- *)
(* the character before every group of three, also in front *)
Fixpoint mark (c : Z) (l : list Z) : list Z :=
  match l with
  | [] => []
  | d :: r => if (S (length r) mod 3 =? 0)%nat then c :: d :: mark c r else d :: mark c r
  end.
Lemma mark_group c l : mark c l = if sep (length l) then c :: group c l else group c l.
Proof.
  induction l as [|d r IH]; [reflexivity|]. cbn [mark length]. rewrite group_cons, IH.
  assert (E : sep (S (length r)) = (S (length r) mod 3 =? 0)%nat) by reflexivity.
  rewrite E. destruct (sep (length r)), (_ =? _)%nat; reflexivity.
Qed.
Lemma mark_len c l : zlen l <= zlen (mark c l).
Proof.
  induction l as [|d r IH]; [cbn [mark]; lia|]. cbn [mark].
  destruct (_ =? _)%nat; rewrite !zlen_cons; lia.
Qed.
Lemma mark_cons c d r : mark c (d :: r) = if (S (length r) mod 3 =? 0)%nat then c :: d :: mark c r else d :: mark c r.
Proof. reflexivity. Qed.

Lemma mod3 k : (Z.of_nat k mod 3 =? 0) = (k mod 3 =? 0)%nat.
Proof.
  change 3 with (Z.of_nat 3). rewrite <- Nat2Z.inj_mod.
  destruct (Nat.eqb_spec (k mod 3) 0) as [E|E]; [rewrite E; reflexivity|]. apply Z.eqb_neq. lia.
Qed.

Section ult.
Variable c : Z.
Hypothesis Hc : c <> 0.

Lemma ult_step k m buf ui cnt prec n : (k < 19)%nat -> 0 <= ui < 10 * 10 ^ Z.of_nat k ->
  room m buf n ->
  let out := if (S k mod 3 =? 0)%nat then [ubyte c; dch (ui / 10 ^ Z.of_nat k)] else [dch (ui / 10 ^ Z.of_nat k)] in
  zlen out <= n ->
  (let* (ui1, b) := ult_digit 20 ui (10 ^ Z.of_nat k) 0 in
   let* (m1, buf1, c1) :=
     if negb (c =? 0) && (Z.of_nat (S k) mod 3 =? 0)
     then let* m1 := put m buf 0 c in Ok (m1, buf + 1, cnt + 1) else Ok (m, buf, cnt) in
   let* m2 := put m1 buf1 0 (48 + b) in
   ult_loop k m2 (buf1 + 1) ui1 (10 ^ Z.of_nat k / 10) true (c1 + 1) prec c) =
  ult_loop k (wr m buf out) (buf + zlen out) (ui mod 10 ^ Z.of_nat k) (10 ^ Z.of_nat k / 10) true (cnt + zlen out) prec c.
Proof.
  intros Hk Hu R out Hn. pose proof (pow10_pos k) as P0.
  assert (Hq : 0 <= ui / 10 ^ Z.of_nat k < 10) by (split; [apply Z.div_pos; lia|apply Z.div_lt_upper_bound; lia]).
  rewrite ult_digit_ok by lia. rewrite bind_Ok. rewrite mod3.
  destruct (Z.eqb_spec c 0); [congruence|]. cbn [negb andb]. unfold out in *. clear out.
  destruct (S k mod 3 =? 0)%nat.
  - revert Hn. zl. intro Hn. rewrite (put_gen m buf 0 c n), !bind_Ok by (auto; lia).
    rewrite (put_ok _ (buf + 1) 0 _ (n - 1)); [|apply wr_room; eapply room_sub; eauto; lia|lia|lia].
    rewrite bind_Ok. cbn [wr]. unfold dch. rewrite !Z.add_0_r, Z.add_0_l. f_equal; lia.
  - revert Hn. zl. intro Hn. rewrite bind_Ok. rewrite (put_ok m buf 0 _ n) by (auto; lia).
    rewrite bind_Ok. cbn [wr]. unfold dch. rewrite !Z.add_0_r, Z.add_0_l. f_equal; lia.
Qed.

Lemma ult_started_l k : forall m buf ui cnt prec n, (k <= 19)%nat -> 0 <= ui < 10 ^ Z.of_nat k ->
  room m buf n -> let out := mark (ubyte c) (map dch (digs 10 k ui)) in zlen out <= n ->
  ult_loop k m buf ui (10 ^ Z.of_nat k / 10) true cnt prec c =
  Ok (wr m buf out, buf + zlen out, cnt + zlen out).
Proof.
  induction k as [|k IH]; intros m buf ui cnt prec n Hk Hu R out Hn; unfold out in *; clear out.
  - cbn [ult_loop digs map wr mark]. zl. apply ok3; [reflexivity|lia|lia].
  - rewrite pow10_div. cbn [ult_loop].
    assert (A : (if Z.of_nat (S k) <=? prec then true else true) = true) by (destruct (_ <=? _); auto).
    rewrite A. cbn [orb]. pose proof (pow10_pos k) as P0. rewrite digs_S in * by (auto; lia). rewrite pow10_S in Hu.
    pose proof (Z.mod_pos_bound ui (10 ^ Z.of_nat k) ltac:(lia)) as Hm.
    cbn [map] in *. rewrite mark_cons in *. rewrite map_length, digs_length in *.
    set (g := mark (ubyte c) (map dch (digs 10 k (ui mod 10 ^ Z.of_nat k)))) in *. nneg g.
    rewrite (ult_step k m buf ui cnt prec n) by (auto; try lia; revert Hn; destruct (S k mod 3 =? 0)%nat; zl; lia).
    revert Hn. destruct (S k mod 3 =? 0)%nat; zl; intro Hn.
    + rewrite (IH _ _ _ _ _ (n - 2)); try lia; [|apply wr_room; eapply room_sub; eauto; lia|fold g; lia].
      fold g. cbn [wr]. replace (buf + 1 + 1) with (buf + 2) by lia. apply ok3; [reflexivity|lia|lia].
    + rewrite (IH _ _ _ _ _ (n - 1)); try lia; [|apply wr_room; eapply room_sub; eauto; lia|fold g; lia].
      fold g. cbn [wr]. apply ok3; [reflexivity|lia|lia].
Qed.

Lemma ult_waiting_l k : forall m buf ui cnt prec n, (k <= 19)%nat -> 0 <= ui < 10 ^ Z.of_nat k -> 0 <= prec ->
  room m buf n -> let out := mark (ubyte c) (emit dch (k - Z.to_nat prec) 48 (digs 10 k ui)) in zlen out <= n ->
  ult_loop k m buf ui (10 ^ Z.of_nat k / 10) false cnt prec c =
  Ok (wr m buf out, buf + zlen out, cnt + zlen out).
Proof.
  induction k as [|k IH]; intros m buf ui cnt prec n Hk Hu Hp R out Hn; unfold out in *; clear out.
  - cbn [ult_loop digs emit wr mark]. zl. apply ok3; [reflexivity|lia|lia].
  - pose proof (pow10_pos k) as P0. pose proof (pow10_mono k 18 ltac:(lia)) as P8. change (10 ^ Z.of_nat 18) with 1000000000000000000 in P8.
    assert (Started : emit dch (S k - Z.to_nat prec) 48 (digs 10 (S k) ui) = map dch (digs 10 (S k) ui) ->
      (let* (ui1, b) := ult_digit 20 ui (10 ^ Z.of_nat k) 0 in
       let* (m1, buf1, c1) := if negb (c =? 0) && (Z.of_nat (S k) mod 3 =? 0)
         then let* m1 := put m buf 0 c in Ok (m1, buf + 1, cnt + 1) else Ok (m, buf, cnt) in
       let* m2 := put m1 buf1 0 (48 + b) in
       ult_loop k m2 (buf1 + 1) ui1 (10 ^ Z.of_nat k / 10) true (c1 + 1) prec c) =
      Ok (wr m buf (mark (ubyte c) (emit dch (S k - Z.to_nat prec) 48 (digs 10 (S k) ui))),
          buf + zlen (mark (ubyte c) (emit dch (S k - Z.to_nat prec) 48 (digs 10 (S k) ui))),
          cnt + zlen (mark (ubyte c) (emit dch (S k - Z.to_nat prec) 48 (digs 10 (S k) ui))))).
    { intro E. rewrite E in *. rewrite <- (ult_started_l (S k) m buf ui cnt prec n Hk Hu R Hn).
      rewrite pow10_div. cbn [ult_loop].
      assert (A : (if Z.of_nat (S k) <=? prec then true else true) = true) by (destruct (_ <=? _); auto).
      rewrite A. reflexivity. }
    rewrite pow10_div. cbn [ult_loop].
    assert (Hs : (0 <=? s64 (u64 (ui - 10 ^ Z.of_nat k))) = (10 ^ Z.of_nat k <=? ui)).
    { rewrite pow10_S in Hu. clear - Hu P0 P8. set (d := 10 ^ Z.of_nat k) in *. clearbody d.
      unfold s64, u64; destruct (Z.leb_spec d ui); lia. }
    rewrite Hs. destruct (Z.leb_spec (Z.of_nat (S k)) prec) as [Hw|Hw].
    + cbn [orb]. apply Started. replace (S k - Z.to_nat prec)%nat with 0%nat by lia.
      generalize (digs 10 (S k) ui). induction l as [|x l IHl]; auto. cbn [emit].
      destruct (Z.eqb_spec x 0); auto. subst. cbn [map]. now rewrite IHl.
    + cbn [orb]. destruct (Z.leb_spec (10 ^ Z.of_nat k) ui) as [Hge|Hlt].
      * apply Started. rewrite digs_S by (auto; lia).
        assert (Hq1 : ui / 10 ^ Z.of_nat k <> 0) by (intro E; apply Z.div_small_iff in E; lia).
        replace (S k - Z.to_nat prec)%nat with (S (k - Z.to_nat prec))%nat by lia.
        cbn [emit]. destruct (Z.eqb_spec (ui / 10 ^ Z.of_nat k) 0); [lia|]. reflexivity.
      * clear Started. rewrite digs_S in * by (auto; lia).
        rewrite (Z.div_small ui), (Z.mod_small ui) in * by lia.
        replace (S k - Z.to_nat prec)%nat with (S (k - Z.to_nat prec))%nat in * by lia.
        cbn [emit Z.eqb] in *. apply (IH _ _ _ _ _ n); auto; lia.
Qed.

Lemma ultodec_mark ui prec : 0 <= ui < 18446744073709551616 -> 0 <= prec <= 20 ->
  let out := mark (ubyte c) (ult_text ui prec) in
  forall m buf, room m buf (zlen out + 1) ->
  ultodec m ui buf prec c = Ok (wr m buf (out ++ [0]), zlen out).
Proof.
  intros Hu Hp out m buf R. unfold out, ult_text in *. clear out. cbv zeta in *.
  set (v := if 10000000000000000000 <=? ui then ui - 10000000000000000000 else ui) in *.
  assert (Hv : 0 <= v < 10000000000000000000) by (unfold v; destruct (Z.leb_spec 10000000000000000000 ui); lia).
  change 10000000000000000000 with (10 ^ Z.of_nat 19) in Hv.
  unfold ultodec. change 1000000000000000000 with (10 ^ Z.of_nat 19 / 10).
  assert (Lead : forall b u out, out = mark (ubyte c) (b :: map dch (digs 10 19 v)) -> room m buf (zlen out + 1) -> 0 <= b < 256 -> u = v ->
    (let* (m1, buf1, ui1, a1, c1) := (let* m1 := put m buf 0 b in Ok (m1, buf + 1, u, true, 1)) in
     let* (m2, buf2, c2) := ult_loop 19 m1 buf1 ui1 (10 ^ Z.of_nat 19 / 10) a1 c1 prec c in
     let* m3 := put m2 buf2 0 0 in Ok (m3, c2)) =
    Ok (wr m buf (out ++ [0]), zlen out)).
  { intros b u out -> R' Hb ->. rewrite mark_cons in *. rewrite map_length, digs_length in *. change (20 mod 3 =? 0)%nat with false in *. cbv iota in *.
    set (g := mark (ubyte c) (map dch (digs 10 19 v))) in *. revert R'. zl. intro R'. nneg g.
    rewrite (put_ok m buf 0 b (zlen g + 1 + 1)) by (auto; lia). rewrite !bind_Ok.
    rewrite (ult_started_l 19 _ _ _ _ _ (zlen g + 1)); auto; try (fold g; lia); [|apply wr_room; eapply room_sub; eauto; lia].
    fold g. rewrite bind_Ok. rewrite (put_ok _ (buf + 1 + zlen g) 0 0 1); [| |lia|lia].
    2:{ repeat apply wr_room. eapply room_sub; eauto; lia. }
    rewrite bind_Ok. cbn [app wr]. rewrite wr_app. cbn [wr]. rewrite !Z.add_0_r. apply ok2; [reflexivity|lia]. }
  destruct (Z.leb_spec 10000000000000000000 ui) as [Hb|Hb].
  - cbn [orb] in *. match goal with |- context [zlen ?o] => remember o as out eqn:Eo end.
    eapply Lead. exact Eo. exact R. split; [discriminate|reflexivity]. reflexivity.
  - cbn [orb] in *. assert (Ev : v = ui) by (unfold v; destruct (Z.leb_spec 10000000000000000000 ui); lia).
    destruct (Z.leb_spec 20 prec).
    + match goal with |- context [zlen ?o] => remember o as out eqn:Eo end.
      eapply Lead. exact Eo. exact R. split; [discriminate|reflexivity]. symmetry; exact Ev.
    + clear Lead. rewrite bind_Ok. rewrite Ev in *.
      set (g := mark (ubyte c) (emit dch (19 - Z.to_nat prec) 48 (digs 10 19 ui))) in *. nneg g.
      rewrite (ult_waiting_l 19 _ _ _ _ _ (zlen g + 1)); auto; try (fold g; lia).
      fold g. rewrite bind_Ok. rewrite (put_ok _ (buf + _) 0 0 1); [| |lia|lia].
      2:{ apply wr_room. eapply room_sub; [exact R|lia|lia]. }
      rewrite bind_Ok, wr_app. cbn [wr]. rewrite !Z.add_0_r, Z.add_0_l. reflexivity.
Qed.
End ult.
