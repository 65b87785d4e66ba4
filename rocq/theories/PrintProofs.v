From Verif Require Import Base BaseLemmas ConvModel ConvSpec ConvProofs ConvProofs2 ConvProofs3 ConvProofs4 PrintModel PrintSpec.
Ltac Zify.zify_post_hook ::= Z.div_mod_to_equations.

Definition mapped (m m' : mem) : Prop := forall x, m x <> None -> m' x <> None.
Lemma mapped_refl m : mapped m m. Proof. intros x H; exact H. Qed.
Lemma mapped_trans a b c : mapped a b -> mapped b c -> mapped a c.
Proof. intros H1 H2 x H. apply H2, H1, H. Qed.
Lemma mapped_upd m a v : mapped m (upd m a v).
Proof. intros x H. unfold upd. destruct (x =? a); [discriminate|exact H]. Qed.
Lemma mapped_room m m' p n : mapped m m' -> room m p n -> room m' p n.
Proof. intros H R x Hx. apply H, R, Hx. Qed.
Lemma so_upd m m1 p n a v : same_outside m m1 p n -> p <= a < p + n -> same_outside m (upd m1 a v) p n.
Proof. intros H Ha. eapply same_outside_trans; [exact H|apply same_outside_upd; exact Ha]. Qed.
Lemma put_ok m buf p c n : room m buf n -> 0 <= p < n -> put m buf p c = Ok (upd m (buf + p) (ubyte c)).
Proof. intros R H. unfold put. now rewrite (store_room m buf n) by (auto; lia). Qed.

(* ---- how much the conversions write ---- *)
Definition uit_count (lim : Z) (ds : list Z) : Z :=
  zlen (filter (fun d => negb (d =? 0) || negb (lim =? 0)) ds).
Lemma uit_loop_bound lim trail : forall ds m buf i p prec tr n, 0 <= p -> p + uit_count lim ds <= n -> room m buf n ->
  exists m' p', uit_loop ds m buf i p prec tr lim trail = Ok (m', p') /\ p <= p' <= p + uit_count lim ds /\
    same_outside m m' (buf + p) (uit_count lim ds) /\ mapped m m'.
Proof.
  induction ds as [|d ds IH]; intros m buf i p prec tr n Hp Hn R; cbn [uit_loop].
  - exists m, p. unfold uit_count. cbn [filter]. change (zlen (@nil Z)) with 0. repeat split; auto using mapped_refl; lia.
  - assert (Hc0 : 0 <= uit_count lim ds) by apply zlen_nonneg.
    assert (Hc : uit_count lim (d :: ds) = uit_count lim ds + (if negb (d =? 0) || negb (lim =? 0) then 1 else 0)).
    { unfold uit_count. cbn [filter]. destruct (negb (d =? 0) || negb (lim =? 0)); zl; lia. }
    assert (Skip : forall i prec tr, exists m' p', uit_loop ds m buf i p prec tr lim trail = Ok (m', p') /\ p <= p' <= p + uit_count lim (d :: ds) /\
      same_outside m m' (buf + p) (uit_count lim (d :: ds)) /\ mapped m m').
    { intros i0 prec0 tr0. destruct (IH m buf i0 p prec0 tr0 n Hp) as (m' & p' & E & B & S & M); [destruct (negb (d =? 0) || negb (lim =? 0)); lia|exact R|].
      exists m', p'. split; [exact E|]. split; [destruct (negb (d =? 0) || negb (lim =? 0)); lia|]. split; [|exact M].
      eapply same_outside_weaken; [exact S| |]; destruct (negb (d =? 0) || negb (lim =? 0)); lia. }
    assert (Puts : negb (d =? 0) || negb (lim =? 0) = true -> forall c i prec tr, exists m' p', 
      (let* m1 := put m buf p c in uit_loop ds m1 buf i (p + 1) prec tr lim trail) = Ok (m', p') /\ p <= p' <= p + uit_count lim (d :: ds) /\
      same_outside m m' (buf + p) (uit_count lim (d :: ds)) /\ mapped m m').
    { intros Ht c i0 prec0 tr0. rewrite Ht in Hc. rewrite (put_ok m buf p c n R) by lia. rewrite bind_Ok.
      destruct (IH (upd m (buf + p) (ubyte c)) buf i0 (p + 1) prec0 tr0 n) as (m' & p' & E & B & S & M); [lia|lia|apply room_upd; exact R|].
      exists m', p'. split; [exact E|]. split; [lia|]. split.
      - apply (same_outside_trans _ (upd m (buf + p) (ubyte c))); [apply same_outside_upd; lia|].
        eapply same_outside_weaken; [exact S| |]; lia.
      - eapply mapped_trans; [apply mapped_upd|exact M]. }
    destruct (d =? 0) eqn:Ed.
    + destruct (negb (lim =? 0) && (prec =? 0)) eqn:El.
      * apply Puts. apply andb_prop in El as [-> _]. reflexivity.
      * apply Skip.
    + destruct (match uit_digit i d with
          | None => (48, i, prec, tr)
          | Some (k, i') => (48 + k, i', 0, false)
          end) as [[[c i1] prec1] tr1].
      destruct (prec1 =? 0); [apply Puts; reflexivity|apply Skip].
Qed.

Lemma uitodec_bound m i buf prec lim pd : INT_MIN + 10 <= prec <= INT_MAX ->
  let k := if lim =? 0 then 10 else 13 in room m buf (k + 1) ->
  exists m' n, uitodec m i buf prec lim pd = Ok (m', n) /\ 0 <= n <= k /\ same_outside m m' buf (k + 1) /\ mapped m m' /\ m' (buf + n) = Some 0.
Proof.
  intros Hprec k R. unfold uitodec. rewrite iop_ok by (unfold INT_MIN, INT_MAX in *; lia). rewrite bind_Ok.
  assert (Hk : k = 1 + uit_count lim uit_div) by (unfold k, uit_count, uit_div; destruct (lim =? 0); reflexivity).
  assert (Hk9 : 9 <= uit_count lim uit_div) by (revert Hk; unfold k; destruct (lim =? 0); lia).
  assert (H1 : exists m1, (if i =? 0 then put m buf 0 48 else Ok m) = Ok m1 /\ same_outside m m1 buf (k + 1) /\ mapped m m1).
  { destruct (i =? 0).
    - rewrite (put_ok m buf 0 48 (k + 1) R) by lia. eexists. split; [reflexivity|]. split; [apply same_outside_upd; lia|apply mapped_upd].
    - exists m. split; [reflexivity|]. split; [apply same_outside_refl|apply mapped_refl]. }
  destruct H1 as (m1 & -> & S1 & M1). rewrite bind_Ok.
  pose proof (mapped_room _ _ _ _ M1 R) as R1.
  match goal with |- context [bind ?X _] => set (X0 := X) end.
  assert (H2 : exists m2 i2 p2 prec2 tr2, X0 = Ok (m2, i2, p2, prec2, tr2) /\ 0 <= p2 <= 1 /\ same_outside m m2 buf (k + 1) /\ mapped m m2).
  { assert (P : forall (c i' p' : Z) (t' : bool), exists m2 i2 p2 prec2 tr2, (let* m2 := put m1 buf 0 c in Ok (m2, i', 1, p', t')) = Ok (m2, i2, p2, prec2, tr2) /\ 0 <= p2 <= 1 /\ same_outside m m2 buf (k + 1) /\ mapped m m2).
    { intros c i' p' t'. rewrite (put_ok m1 buf 0 c (k + 1) R1) by lia. rewrite bind_Ok.
      do 5 eexists. split; [reflexivity|]. split; [lia|]. split.
      - eapply same_outside_trans; [exact S1|apply same_outside_upd; lia].
      - eapply mapped_trans; [exact M1|apply mapped_upd]. }
    unfold X0. destruct (1000000000 <=? i); [destruct (2000000000 <=? i); [destruct (1000000000 <=? i - 2000000000); [destruct (2000000000 <=? i - 2000000000)|]|]|destruct (prec - 10 =? 0)]; try apply P.
    do 5 eexists. split; [reflexivity|]. split; [lia|]. split; assumption. }
  destruct H2 as (m2 & i2 & p2 & prec2 & tr2 & -> & P2 & S2 & M2). rewrite bind_Ok. cbn beta iota.
  destruct (uit_loop_bound lim (if pd =? 0 then 32 else pd) uit_div m2 buf i2 p2 prec2 tr2 k) as (m3 & p3 & -> & P3 & S3 & M3).
  { lia. } { lia. } { eapply mapped_room; [exact M2|]. eapply room_sub; [exact R| |]; lia. }
  rewrite bind_Ok. cbn beta iota.
  assert (M03 : mapped m m3) by (eapply mapped_trans; eassumption).
  assert (S03 : same_outside m m3 buf (k + 1)).
  { eapply same_outside_trans; [exact S2|]. eapply same_outside_weaken; [exact S3| |]; lia. }
  pose proof (mapped_room _ _ _ _ M03 R) as R3.
  destruct (p3 =? 0) eqn:E0.
  - rewrite (put_ok m3 buf 0 48 (k + 1) R3) by lia. rewrite !bind_Ok. cbn beta iota.
    rewrite (put_ok _ buf 1 0 (k + 1) (room_upd _ _ _ _ _ R3)) by lia. rewrite bind_Ok.
    do 2 eexists. split; [reflexivity|]. split; [lia|]. split; [|split; [|apply upd_same]].
    + eapply same_outside_trans; [exact S03|]. apply (same_outside_trans _ (upd m3 (buf + 0) (ubyte 48))); apply same_outside_upd; lia.
    + eapply mapped_trans; [exact M03|]. eapply mapped_trans; [apply mapped_upd|apply mapped_upd].
  - rewrite bind_Ok. cbn beta iota. rewrite (put_ok m3 buf p3 0 (k + 1) R3) by lia. rewrite bind_Ok.
    do 2 eexists. split; [reflexivity|]. split; [lia|]. split; [|split; [|apply upd_same]].
    + eapply same_outside_trans; [exact S03|]. apply same_outside_upd; lia.
    + eapply mapped_trans; [exact M03|apply mapped_upd].
Qed.

Lemma itodec_bound strict m i buf prec pd : INT_MIN <= i <= INT_MAX -> (strict = true -> i <> INT_MIN) -> 
  INT_MIN + 10 <= prec <= INT_MAX -> room m buf 12 ->
  exists m' n, itodec strict m i buf prec 0 pd = Ok (m', n) /\ 0 <= n <= 11 /\ same_outside m m' buf 12 /\ mapped m m' /\ m' (buf + n) = Some 0.
Proof.
  intros Hi Hs Hp R. unfold itodec. destruct (i <? 0) eqn:E.
  - rewrite (put_ok m buf 0 45 12 R) by lia. rewrite bind_Ok.
    assert (J : exists j, iar strict (- i) = Ok j).
    { unfold iar. destruct strict; [|eexists; reflexivity]. rewrite iop_ok; [eexists; reflexivity|]. specialize (Hs eq_refl). unfold INT_MIN, INT_MAX in *. lia. }
    destruct J as [j ->]. rewrite bind_Ok.
    destruct (uitodec_bound (upd m (buf + 0) (ubyte 45)) (u32 j) (buf + 1) prec 0 pd Hp) as (m' & n & E1 & N & S & M & Z0).
    { cbv zeta. change (0 =? 0) with true. cbv iota. apply room_upd. eapply room_sub; [exact R| |]; lia. }
    cbn [Z.eqb] in *. rewrite E1, bind_Ok. cbn beta iota. exists m', (n + 1). split; [reflexivity|]. split; [lia|]. split; [|split].
    + eapply same_outside_trans; [|eapply same_outside_weaken; [exact S| |]; lia]. apply same_outside_upd; lia.
    + eapply mapped_trans; [apply mapped_upd|exact M].
    + rewrite <- Z0. f_equal. lia.
  - destruct (uitodec_bound m (u32 i) buf prec 0 pd Hp) as (m' & n & E1 & N & S & M & Z0).
    { cbv zeta. change (0 =? 0) with true. cbv iota. eapply room_sub; [exact R| |]; lia. }
    cbn [Z.eqb] in *. rewrite E1. exists m', n. split; [reflexivity|]. split; [lia|]. split; [|split; assumption].
    eapply same_outside_weaken; [exact S| |]; lia.
Qed.

Lemma ult_loop_bound lim prec : forall k m buf ui a c n, (k <= 19)%nat -> 0 <= ui < 10 ^ Z.of_nat k -> 
  room m buf n -> Z.of_nat k + Z.of_nat k / 3 <= n -> 
  exists m' buf' c', ult_loop k m buf ui (10 ^ Z.of_nat k / 10) a c prec lim = Ok (m', buf', c') /\
    buf' - buf = c' - c /\ 0 <= buf' - buf <= Z.of_nat k + Z.of_nat k / 3 /\ same_outside m m' buf (Z.of_nat k + Z.of_nat k / 3) /\ mapped m m'.
Proof.
  induction k as [|k IH]; intros m buf ui a c n Hk Hu R Hn; cbn [ult_loop].
  - do 3 eexists. split; [reflexivity|]. split; [lia|]. split; [cbn; lia|]. split; [apply same_outside_refl|apply mapped_refl].
  - rewrite pow10_div. pose proof (pow10_pos k). rewrite pow10_S in Hu.
    assert (H18 : 10 ^ Z.of_nat k <= 10 ^ 18) by (apply Z.pow_le_mono_r; lia). change (10 ^ 18) with 1000000000000000000 in H18.
    set (a1 := if Z.of_nat (S k) <=? prec then true else a). clearbody a1.
    destruct (a1 || (0 <=? s64 (u64 (ui - 10 ^ Z.of_nat k)))) eqn:E.
    + rewrite ult_digit_ok by lia. rewrite bind_Ok. cbn beta iota.
      pose proof (Z.mod_pos_bound ui (10 ^ Z.of_nat k) ltac:(lia)) as Hm.
      set (q := 48 + (0 + ui / 10 ^ Z.of_nat k)). clearbody q. set (u1 := ui mod 10 ^ Z.of_nat k) in *. clearbody u1.
      destruct (negb (lim =? 0) && (Z.of_nat (S k) mod 3 =? 0)) eqn:El.
      * apply andb_prop in El as [_ El].
        rewrite (put_ok m buf 0 lim n R) by lia. rewrite !bind_Ok. cbn beta iota.
        assert (Rq : room (upd m (buf + 0) (ubyte lim)) (buf + 1) (n - 1)) by (apply room_upd; eapply room_sub; [exact R| |]; lia).
        rewrite (put_ok _ (buf + 1) 0 q (n - 1) Rq) by lia. rewrite bind_Ok.
        match goal with |- context [ult_loop k ?mm (buf + 1 + 1) u1 _ true ?cc prec lim] => destruct (IH mm (buf + 1 + 1) u1 true cc (n - 2)) as (m' & buf' & c' & E1 & E2 & E3 & E4 & E5) end.
        -- lia.
        -- lia.
        -- apply room_upd, room_upd. eapply room_sub; [exact R| |]; lia.
        -- lia.
        -- rewrite E1. do 3 eexists. split; [reflexivity|]. split; [lia|]. split; [lia|]. split.
           ++ eapply same_outside_trans; [|eapply same_outside_weaken; [exact E4| |]; lia].
              apply so_upd; [apply same_outside_upd; lia|lia].
           ++ eapply mapped_trans; [|exact E5]. eapply mapped_trans; apply mapped_upd.
      * rewrite !bind_Ok. cbn beta iota. rewrite (put_ok m buf 0 q n R) by lia. rewrite bind_Ok.
        match goal with |- context [ult_loop k ?mm (buf + 1) u1 _ true ?cc prec lim] => destruct (IH mm (buf + 1) u1 true cc (n - 1)) as (m' & buf' & c' & E1 & E2 & E3 & E4 & E5) end.
        -- lia.
        -- lia.
        -- apply room_upd. eapply room_sub; [exact R| |]; lia.
        -- lia.
        -- rewrite E1. do 3 eexists. split; [reflexivity|]. split; [lia|]. split; [lia|]. split.
           ++ eapply same_outside_trans; [|eapply same_outside_weaken; [exact E4| |]; lia]. apply same_outside_upd; lia.
           ++ eapply mapped_trans; [|exact E5]. apply mapped_upd.
    + apply orb_false_elim in E as [-> E].
      assert (ui < 10 ^ Z.of_nat k). { destruct (Z.lt_ge_cases ui (10 ^ Z.of_nat k)); [assumption|]. rewrite u64_small, s64_small in E by (unfold LONG_MIN, LONG_MAX; lia). lia. }
      destruct (IH m buf ui false c n) as (m' & buf' & c' & E1 & E2 & E3 & E4 & E5); [lia|lia|exact R|lia|].
      rewrite E1. do 3 eexists. split; [reflexivity|]. split; [lia|]. split; [lia|]. split; [|exact E5].
      eapply same_outside_weaken; [exact E4| |]; lia.
Qed.

Lemma ultodec_bound m ui buf prec lim : 0 <= ui < 18446744073709551616 -> room m buf 27 ->
  exists m' n, ultodec m ui buf prec lim = Ok (m', n) /\ 0 <= n <= 26 /\ same_outside m m' buf 27 /\ mapped m m' /\ m' (buf + n) = Some 0.
Proof.
  intros Hu R. unfold ultodec.
  match goal with |- context [bind ?X _] => set (X0 := X) end.
  assert (H1 : exists m1 ui1 a1 c1, X0 = Ok (m1, buf + c1, ui1, a1, c1) /\ 0 <= c1 <= 1 /\ 0 <= ui1 < 10000000000000000000 /\ same_outside m m1 buf 27 /\ mapped m m1).
  { unfold X0. destruct (10000000000000000000 <=? ui) eqn:E; [|destruct (20 <=? prec)].
    - rewrite (put_ok m buf 0 49 27 R) by lia. rewrite bind_Ok. do 4 eexists. split; [reflexivity|]. split; [lia|]. split; [lia|].
      split; [apply same_outside_upd; lia|apply mapped_upd].
    - rewrite (put_ok m buf 0 48 27 R) by lia. rewrite bind_Ok. do 4 eexists. split; [reflexivity|]. split; [lia|]. split; [lia|].
      split; [apply same_outside_upd; lia|apply mapped_upd].
    - exists m, ui, false, 0. split; [do 2 f_equal; rewrite Z.add_0_r; reflexivity|]. split; [lia|]. split; [lia|].
      split; [apply same_outside_refl|apply mapped_refl]. }
  destruct H1 as (m1 & ui1 & a1 & c1 & -> & C1 & U1 & S1 & M1). rewrite bind_Ok. cbn beta iota.
  destruct (ult_loop_bound lim prec 19 m1 (buf + c1) ui1 a1 c1 25) as (m2 & buf2 & c2 & E1 & E2 & E3 & E4 & E5).
  - lia.
  - change (10 ^ Z.of_nat 19) with 10000000000000000000. exact U1.
  - eapply mapped_room; [exact M1|]. eapply room_sub; [exact R| |]; lia.
  - cbn. lia.
  - change (10 ^ Z.of_nat 19 / 10) with 1000000000000000000 in E1. rewrite E1, bind_Ok. cbn beta iota.
    change (Z.of_nat 19 + Z.of_nat 19 / 3) with 25 in *.
    assert (M02 : mapped m m2) by (eapply mapped_trans; eassumption).
    assert (R2 : room m2 buf2 1). { eapply mapped_room; [exact M02|]. eapply room_sub; [exact R| |]; lia. }
    rewrite (put_ok m2 buf2 0 0 1 R2) by lia. rewrite bind_Ok. do 2 eexists. split; [reflexivity|]. split; [lia|]. split; [|split].
    + eapply same_outside_trans; [exact S1|]. eapply same_outside_trans; [eapply same_outside_weaken; [exact E4| |]; lia|]. apply same_outside_upd. lia.
    + eapply mapped_trans; [exact M02|apply mapped_upd].
    + replace (buf + c2) with (buf2 + 0) by lia. apply upd_same.
Qed.

Lemma ltodec_bound strict m i buf prec lim : LONG_MIN <= i <= LONG_MAX -> (strict = true -> i <> LONG_MIN) -> room m buf 28 ->
  exists m' n, ltodec strict m i buf prec lim = Ok (m', n) /\ 0 <= n <= 27 /\ same_outside m m' buf 28 /\ mapped m m' /\ m' (buf + n) = Some 0.
Proof.
  intros Hi Hs R. unfold ltodec. destruct (i <? 0) eqn:E.
  - rewrite (put_ok m buf 0 45 28 R) by lia. rewrite bind_Ok.
    assert (J : exists j, lar strict (- i) = Ok j).
    { unfold lar. destruct strict; [|eexists; reflexivity]. rewrite lop_ok; [eexists; reflexivity|]. specialize (Hs eq_refl). unfold LONG_MIN, LONG_MAX in *. lia. }
    destruct J as [j ->]. rewrite bind_Ok.
    destruct (ultodec_bound (upd m (buf + 0) (ubyte 45)) (u64 j) (buf + 1) prec lim (u64_range j)) as (m' & n & E1 & N & S & M & Z0).
    { apply room_upd. eapply room_sub; [exact R| |]; lia. }
    rewrite E1, bind_Ok. cbn beta iota. exists m', (n + 1). split; [reflexivity|]. split; [lia|]. split; [|split].
    + eapply same_outside_trans; [|eapply same_outside_weaken; [exact S| |]; lia]. apply same_outside_upd; lia.
    + eapply mapped_trans; [apply mapped_upd|exact M].
    + rewrite <- Z0. f_equal. lia.
  - destruct (ultodec_bound m (u64 i) buf prec lim (u64_range i)) as (m' & n & E1 & N & S & M & Z0).
    { eapply room_sub; [exact R| |]; lia. }
    rewrite E1. exists m', n. split; [reflexivity|]. split; [lia|]. split; [|split; assumption].
    eapply same_outside_weaken; [exact S| |]; lia.
Qed.

Lemma hex_loop_bound caps : forall ns m buf p pd n, 0 <= p -> p + zlen ns <= n -> room m buf n ->
  exists m' p', hex_loop ns m buf p pd caps = Ok (m', p') /\ p <= p' <= p + zlen ns /\ same_outside m m' (buf + p) (zlen ns) /\ mapped m m'.
Proof.
  induction ns as [|d ns IH]; intros m buf p pd n Hp Hn R; cbn [hex_loop]; zl.
  - do 2 eexists. split; [reflexivity|]. split; [lia|]. split; [apply same_outside_refl|apply mapped_refl].
  - nneg ns. set (pd1 := if negb (pd =? 0) && negb (d =? 0) then 0 else pd). clearbody pd1. destruct (pd1 =? 0).
    + rewrite (put_ok m buf p _ n R) by lia. rewrite bind_Ok.
      match goal with |- context [hex_loop ns ?mm buf (p + 1) pd1 caps] => destruct (IH mm buf (p + 1) pd1 n) as (m' & p' & E & B & S & M) end; [lia|lia|apply room_upd; exact R|].
      rewrite E. do 2 eexists. split; [reflexivity|]. split; [lia|]. split.
      * eapply same_outside_trans; [|eapply same_outside_weaken; [exact S| |]; lia]. apply same_outside_upd; lia.
      * eapply mapped_trans; [apply mapped_upd|exact M].
    + destruct (IH m buf p (pd1 + 1) n) as (m' & p' & E & B & S & M); [lia|lia|exact R|].
      rewrite E. do 2 eexists. split; [reflexivity|]. split; [lia|]. split; [|exact M]. eapply same_outside_weaken; [exact S| |]; lia.
Qed.

Lemma itohex_bound m i buf pd caps : INT_MIN + 8 <= pd <= INT_MAX -> room m buf 9 ->
  exists m' n, _itohex m i buf pd caps = Ok (m', n) /\ 0 <= n <= 8 /\ same_outside m m' buf 9 /\ mapped m m' /\ m' (buf + n) = Some 0.
Proof.
  intros Hp R. unfold _itohex. rewrite iop_ok by (unfold INT_MIN, INT_MAX in *; lia). rewrite bind_Ok.
  match goal with |- context [hex_loop ?ns m buf 0 ?q ?cc] => destruct (hex_loop_bound cc ns m buf 0 q 8) as (m' & p' & E & B & S & M) end.
  - lia.
  - unfold zlen; cbn [length]; lia.
  - eapply room_sub; [exact R| |]; lia.
  - rewrite E, bind_Ok. cbn beta iota. match type of B with context [zlen ?l] => change (zlen l) with 8 in * end.
    rewrite (put_ok m' buf p' 0 9) by (try lia; eapply mapped_room; eassumption). rewrite bind_Ok.
    do 2 eexists. split; [reflexivity|]. split; [lia|]. split; [|split; [|apply upd_same]].
    + eapply same_outside_trans; [eapply same_outside_weaken; [exact S| |]; lia|]. apply same_outside_upd. lia.
    + eapply mapped_trans; [exact M|apply mapped_upd].
Qed.
