From Verif Require Import Base BaseLemmas StreamModel StreamSpec.
Ltac Zify.zify_post_hook ::= Z.div_mod_to_equations.

Definition cont (s : stream) : list Z := content (word s) (input s).
Definition wok (s : stream) : Prop := INT_MIN <= word s <= INT_MAX.

Lemma mask24 w : Z.land (u32 w) 0x00ffffff = w mod 16777216.
Proof.
  change 0x00ffffff with (Z.ones 24). rewrite Z.land_ones by lia.
  change (2 ^ 24) with 16777216. unfold u32. lia.
Qed.
Lemma shr24 w : Z.shiftr w 24 = w / 16777216.
Proof. rewrite Z.shiftr_div_pow2 by lia. reflexivity. Qed.

Lemma fgetc_ok s x s' : wok s -> Forall (fun c => 0 <= c < 256) (cont s) -> fgetc s = (x, s') ->
  (cont s = [] /\ x = 0 /\ s' = s) \/
  (cont s = ubyte x :: cont s' /\ wok s').
Proof.
  intros Hw Hf E. unfold fgetc in E. rewrite shr24, mask24 in E.
  unfold cont, content, pushed, wok in *.
  destruct (word s / 16777216 =? 0) eqn:H0; cbn [negb app] in *.
  - destruct s as [w inp]. cbn [word input] in *. destruct inp as [|b r]; cbn [read1] in E.
    + left. inversion E; subst. auto.
    + right. inversion E; subst. cbn [word input]. rewrite H0. cbn [app].
      apply Forall_cons_iff in Hf as [Hb _]. unfold ubyte. rewrite Z.mod_small by lia. auto.
  - right. inversion E; subst. cbn [word input].
    assert (s32 (word s mod 16777216) = word s mod 16777216) as -> by (apply s32_small; unfold INT_MIN, INT_MAX; lia).
    assert ((word s mod 16777216) / 16777216 =? 0 = true) as -> by lia. cbn [app].
    unfold ubyte. split; [reflexivity|unfold INT_MIN, INT_MAX; lia].
Qed.

Lemma text_bytes l : text l -> Forall (fun c => 0 <= c < 256) l.
Proof. unfold text. apply Forall_impl. lia. Qed.

(* fgetc on a stream of non-zero bytes *)
Lemma fgetc_text s : wok s -> text (cont s) ->
  match cont s with
  | [] => fgetc s = (0, s)
  | c :: r => exists x s', fgetc s = (x, s') /\ ubyte x = c /\ cont s' = r /\ wok s'
  end.
Proof.
  intros Hw Ht. destruct (fgetc s) as [x s'] eqn:E.
  destruct (fgetc_ok s x s' Hw (text_bytes _ Ht) E) as [(H1 & H2 & H3) | (H1 & H2)].
  - rewrite H1. subst. reflexivity.
  - rewrite H1. exists x, s'. auto.
Qed.

Lemma line_len n l : zlen (line n l) <= Z.of_nat n.
Proof.
  revert l; induction n; intros l; cbn [line]; [zl; lia|].
  destruct l as [|c r]; [zl; lia|]. destruct (c =? 10); zl; [lia|]. specialize (IHn r). lia.
Qed.

Definition fgets_rest (fuel : nat) (m : mem) (s : stream) (buf size ret : Z) :=
    let* r := fgets_loop fuel m s buf size in
    let '(m, s, b, z) := r in
    if z then Ok (m, s, ret, b)
    else
      let* m := store m (b + 1) 0 in
      Ok (m, s, ret, b + 1).

Lemma str_at_nil m p : m p = Some 0 -> str_at m p [].
Proof. intros H. exact H. Qed.

Lemma fgets_rest_ok : forall fuel m s buf size ret,
  wok s -> text (cont s) -> INT_MIN < size <= INT_MAX -> (Z.to_nat (size - 1) < fuel)%nat ->
  room m (buf + 1) (zlen (line (Z.to_nat (size - 1)) (cont s)) + 1) ->
  exists m' s',
    let l := line (Z.to_nat (size - 1)) (cont s) in
    fgets_rest fuel m s buf size ret = Ok (m', s', ret, buf + 1 + zlen l) /\
    str_at m' (buf + 1) l /\ same_outside m m' (buf + 1) (zlen l + 1) /\
    cont s = l ++ cont s' /\ wok s'.
Proof.
  induction fuel; intros m s buf size ret Hw Ht Hs Hf Hr; [lia|].
  unfold fgets_rest. cbn [fgets_loop]. rewrite iop_ok by (unfold INT_MIN, INT_MAX in *; lia).
  rewrite bind_Ok. destruct (0 <? size - 1) eqn:H0.
  2:{ assert (Z.to_nat (size - 1) = O) as E by lia. rewrite E in *. cbn [line] in *.
      rewrite bind_Ok. change (zlen (@nil Z)) with 0 in *. rewrite (store_room _ _ _ _ _ Hr) by lia. rewrite bind_Ok.
      exists (upd m (buf + 1) 0), s. cbn zeta. repeat split.
      - f_equal. f_equal. lia.
      - apply str_at_nil, upd_same.
      - apply same_outside_upd. lia.
      - apply Hw.
      - apply Hw. }
  destruct (Z.to_nat (size - 1)) as [|n] eqn:En; [lia|].
  pose proof (fgetc_text s Hw Ht) as HF. destruct (cont s) as [|c r] eqn:Ec.
  - rewrite HF. change (ubyte 0) with 0. cbn [line] in *. change (zlen (@nil Z)) with 0 in *.
    rewrite (store_room _ _ _ _ _ Hr) by lia. rewrite bind_Ok. cbn [Z.eqb]. rewrite bind_Ok.
    exists (upd m (buf + 1) 0), s. cbn zeta. repeat split.
    + do 2 f_equal. lia.
    + apply str_at_nil, upd_same.
    + apply same_outside_upd. lia.
    + rewrite Ec. reflexivity.
    + apply Hw.
    + apply Hw.
  - destruct HF as (x & s1 & E1 & E2 & E3 & E4). rewrite E1, E2.
    apply Forall_cons_iff in Ht as [Hc Ht]. cbn [line] in *.
    assert (Hl : 0 <= zlen (if c =? 10 then [10] else c :: line n r)) by apply zlen_nonneg.
    rewrite (store_room _ _ _ _ _ Hr) by lia. rewrite bind_Ok.
    assert (c =? 0 = false) as -> by lia.
    set (size' := if c =? 10 then 0 else size - 1) in *.
    assert (Hl' : (if c =? 10 then [10] else c :: line n r) = c :: line (Z.to_nat (size' - 1)) (cont s1)).
    { unfold size'. destruct (c =? 10) eqn:E10.
      - change (Z.to_nat (0 - 1)) with O. cbn [line]. f_equal. lia.
      - rewrite E3. f_equal. f_equal. lia. }
    destruct (IHfuel (upd m (buf + 1) c) s1 (buf + 1) size' ret) as (m' & s' & G1 & G2 & G3 & G4 & G5).
    + exact E4.
    + rewrite E3. exact Ht.
    + unfold size'. unfold INT_MIN, INT_MAX in *. destruct (c =? 10); lia.
    + unfold size'. destruct (c =? 10); lia.
    + apply room_upd. rewrite Hl' in Hr, Hl. rewrite zlen_cons in Hr.
      eapply room_sub; [exact Hr| |]; lia.
    + exists m', s'. cbn zeta in *. rewrite Hl' in *. rewrite zlen_cons in *.
      unfold fgets_rest in G1. rewrite G1. split; [|split; [|split; [|split]]].
      * do 2 f_equal. lia.
      * split; [|split].
        -- rewrite (G3 (buf + 1)) by lia. apply upd_same.
        -- lia.
        -- exact G2.
      * apply (same_outside_trans _ (upd m (buf + 1) c)).
        -- apply same_outside_upd. lia.
        -- eapply same_outside_weaken; [exact G3| |]; lia.
      * cbn [app]. f_equal. rewrite <- G4. symmetry. exact E3.
      * exact G5.
Qed.

Lemma fgets_ok fuel m s buf size : wok s -> text (cont s) -> 1 <= size <= INT_MAX ->
  (Z.to_nat size <= fuel)%nat -> cont s <> [] ->
  room m buf (zlen (line (Z.to_nat size) (cont s)) + 1) ->
  exists m' s',
    let l := line (Z.to_nat size) (cont s) in
    fgets_raw fuel m s buf size = Ok (m', s', buf, buf + zlen l) /\
    str_at m' buf l /\ same_outside m m' buf (zlen l + 1) /\ cont s = l ++ cont s' /\ wok s'.
Proof.
  intros Hw Ht Hs Hf Hne Hr. unfold fgets_raw.
  pose proof (fgetc_text s Hw Ht) as HF. destruct (cont s) as [|c r] eqn:Ec; [congruence|].
  destruct HF as (x & s1 & E1 & E2 & E3 & E4). rewrite E1, E2.
  apply Forall_cons_iff in Ht as [Hc Ht].
  set (size' := if c =? 10 then 0 else size) in *.
  assert (Hl' : line (Z.to_nat size) (c :: r) = c :: line (Z.to_nat (size' - 1)) (cont s1)).
  { destruct (Z.to_nat size) as [|n] eqn:En; [lia|]. cbn [line]. unfold size'. destruct (c =? 10) eqn:E10.
    - change (Z.to_nat (0 - 1)) with O. cbn [line]. f_equal. lia.
    - rewrite E3. f_equal. f_equal. lia. }
  cbn zeta. rewrite Hl' in *. rewrite zlen_cons in *.
  nneg (line (Z.to_nat (size' - 1)) (cont s1)).
  rewrite (store_room _ _ _ _ _ Hr) by lia. rewrite bind_Ok.
  assert (c =? 0 = false) as -> by lia.
  destruct (fgets_rest_ok fuel (upd m buf c) s1 buf size' buf) as (m' & s' & G1 & G2 & G3 & G4 & G5).
  - exact E4.
  - rewrite E3. exact Ht.
  - unfold size'. unfold INT_MIN, INT_MAX in *. destruct (c =? 10); lia.
  - unfold size'. destruct (c =? 10); lia.
  - apply room_upd. eapply room_sub; [exact Hr| |]; lia.
  - cbn zeta in *. unfold fgets_rest in G1. exists m', s'. rewrite G1. split; [|split; [|split; [|split]]].
    + do 2 f_equal. lia.
    + split; [|split].
      * rewrite (G3 buf) by lia. apply upd_same.
      * lia.
      * exact G2.
    + apply (same_outside_trans _ (upd m buf c)).
      * apply same_outside_upd. lia.
      * eapply same_outside_weaken; [exact G3| |]; lia.
    + cbn [app]. f_equal. rewrite <- G4. symmetry. exact E3.
    + exact G5.
Qed.

Lemma fgets_eof fuel m s buf size : cont s = [] -> wok s -> room m buf 1 ->
  fgets_raw fuel m s buf size = Ok (upd m buf 0, s, 0, buf).
Proof.
  intros He Hw Hr. unfold fgets_raw.
  pose proof (fgetc_text s Hw) as HF. rewrite He in HF. rewrite HF by constructor.
  change (ubyte 0) with 0. rewrite (store_room _ _ _ _ _ Hr) by lia. reflexivity.
Qed.

(* a line that is longer than size-1 overruns the buffer *)
Lemma fgets_overrun fuel m s buf size : wok s -> text (cont s) -> 1 <= size <= INT_MAX ->
  (Z.to_nat size <= fuel)%nat -> m (buf + size) = None ->
  zlen (line (Z.to_nat size) (cont s)) = size -> room m buf size ->
  fgets_raw fuel m s buf size = Fault.
Proof.
  intros Hw Ht Hs Hf Hn Hl Hr.
  assert (Hne : cont s <> []). { intros E. rewrite E in Hl. destruct (Z.to_nat size); cbn [line] in Hl; change (zlen (@nil Z)) with 0 in Hl; lia. }
  (* on a memory with one more byte the call succeeds and stores there *)
  revert Hr Hn. generalize dependent m. intros m Hr Hn.
  assert (G : forall fuel m s b k, wok s -> text (cont s) -> INT_MIN < k <= INT_MAX -> (Z.to_nat (k - 1) < fuel)%nat ->
    0 < k -> zlen (line (Z.to_nat (k - 1)) (cont s)) = k - 1 -> b + k = buf + size -> room m buf size -> m (buf + size) = None -> buf <= b ->
    fgets_rest fuel m s b k buf = Fault).
  { clear - Hs. induction fuel; intros m s b k Hw Ht Hk Hf Hk0 Hl Hb Hr Hn Hbb; [lia|].
    unfold fgets_rest. cbn [fgets_loop]. rewrite iop_ok by (unfold INT_MIN, INT_MAX in *; lia).
    rewrite bind_Ok. destruct (0 <? k - 1) eqn:H0.
    2:{ rewrite bind_Ok. replace (b + 1) with (buf + size) by lia. unfold store. rewrite Hn. reflexivity. }
    destruct (Z.to_nat (k - 1)) as [|n] eqn:En; [lia|].
    pose proof (fgetc_text s Hw Ht) as HF. destruct (cont s) as [|c r] eqn:Ec.
    { cbn [line] in Hl. change (zlen (@nil Z)) with 0 in Hl. lia. }
    destruct HF as (x & s1 & E1 & E2 & E3 & E4). rewrite E1, E2.
    apply Forall_cons_iff in Ht as [Hc Ht]. cbn [line] in Hl.
    rewrite (store_room _ _ _ _ _ Hr) by lia. rewrite bind_Ok.
    assert (c =? 0 = false) as -> by lia.
    set (k' := if c =? 10 then 0 else k - 1) in *.
    destruct (c =? 10) eqn:E10.
    - change (zlen [10]) with 1 in Hl. subst k'. destruct fuel; [lia|].
      cbn [fgets_loop]. change (iop (0 - 1)) with (Ok (-1)). rewrite bind_Ok. change (0 <? -1) with false. cbv iota. rewrite bind_Ok. cbn beta iota zeta.
      unfold store. rewrite upd_other by lia. replace (b + 1 + 1) with (buf + size) by lia. rewrite Hn. reflexivity.
    - subst k'. rewrite zlen_cons in Hl. apply (IHfuel (upd m (b + 1) c) s1 (b + 1) (k - 1)).
      + exact E4.
      + rewrite E3. exact Ht.
      + unfold INT_MIN, INT_MAX in *. lia.
      + lia.
      + lia.
      + rewrite E3. replace (Z.to_nat (k - 1 - 1)) with n by lia. lia.
      + lia.
      + apply room_upd. exact Hr.
      + rewrite upd_other by lia. exact Hn.
      + lia. }
  unfold fgets_raw.
  pose proof (fgetc_text s Hw Ht) as HF. destruct (cont s) as [|c r] eqn:Ec; [congruence|].
  destruct HF as (x & s1 & E1 & E2 & E3 & E4). rewrite E1, E2.
  apply Forall_cons_iff in Ht as [Hc Ht].
  rewrite (store_room _ _ _ _ _ Hr) by lia. rewrite bind_Ok.
  assert (c =? 0 = false) as -> by lia.
  destruct (Z.to_nat size) as [|n] eqn:En; [lia|]. cbn [line] in Hl. destruct (c =? 10) eqn:E10.
  - change (zlen [10]) with 1 in Hl. destruct fuel; [lia|].
    cbn [fgets_loop]. change (iop (0 - 1)) with (Ok (-1)). rewrite bind_Ok. change (0 <? -1) with false. cbv iota. rewrite bind_Ok. cbn beta iota zeta.
    unfold store. rewrite upd_other by lia. replace (buf + 1) with (buf + size) by lia. rewrite Hn. reflexivity.
  - rewrite zlen_cons in Hl. apply (G fuel (upd m buf c) s1 buf size).
    + exact E4.
    + rewrite E3. exact Ht.
    + unfold INT_MIN. lia.
    + lia.
    + lia.
    + rewrite E3. replace (Z.to_nat (size - 1)) with n by lia. lia.
    + lia.
    + apply room_upd. exact Hr.
    + rewrite upd_other by lia. exact Hn.
    + lia.
Qed.

Lemma chomp_len l : zlen (chomp l) <= zlen l.
Proof. induction l as [|c r IH]; cbn [chomp]; [lia|]. destruct (c =? 10); zl; nneg r; lia. Qed.

Lemma fgetsp_ok : forall fuel m s buf size, wok s -> text (cont s) -> 1 <= size <= INT_MAX ->
  (Z.to_nat size <= fuel)%nat ->
  room m buf (zlen (chomp (line (Z.to_nat (size - 1)) (cont s))) + 1) ->
  exists m' s',
    let l := line (Z.to_nat (size - 1)) (cont s) in
    fgetsp fuel m s buf size = Ok (m', s', buf + zlen (chomp l)) /\
    str_at m' buf (chomp l) /\ same_outside m m' buf (zlen (chomp l) + 1) /\ cont s = l ++ cont s' /\ wok s'.
Proof.
  induction fuel; intros m s buf size Hw Ht Hs Hf Hr; [lia|].
  cbn [fgetsp]. rewrite iop_ok by (unfold INT_MIN, INT_MAX in *; lia). rewrite bind_Ok.
  destruct (0 <? size - 1) eqn:H0.
  2:{ assert (Z.to_nat (size - 1) = O) as E by lia. rewrite E in *. cbn [line chomp] in *.
      change (zlen (@nil Z)) with 0 in *. rewrite (store_room _ _ _ _ _ Hr) by lia. rewrite bind_Ok.
      exists (upd m buf 0), s. cbn zeta. split; [|split; [|split; [|split]]].
      - do 2 f_equal. lia.
      - apply str_at_nil, upd_same.
      - apply same_outside_upd. lia.
      - reflexivity.
      - exact Hw. }
  destruct (Z.to_nat (size - 1)) as [|n] eqn:En; [lia|].
  pose proof (fgetc_text s Hw Ht) as HF. destruct (cont s) as [|c r] eqn:Ec.
  - rewrite HF. change (ubyte 0) with 0. cbn [line chomp] in *. change (zlen (@nil Z)) with 0 in *.
    rewrite (store_room _ _ _ _ _ Hr) by lia. rewrite bind_Ok. cbn [Z.eqb].
    exists (upd m buf 0), s. cbn zeta. split; [|split; [|split; [|split]]].
    + do 2 f_equal. lia.
    + apply str_at_nil, upd_same.
    + apply same_outside_upd. lia.
    + rewrite Ec. reflexivity.
    + exact Hw.
  - destruct HF as (x & s1 & E1 & E2 & E3 & E4). rewrite E1, E2.
    apply Forall_cons_iff in Ht as [Hc Ht]. cbn [line] in *.
    destruct (c =? 10) eqn:E10.
    + change (zlen (chomp [10])) with 0 in *. change (chomp [10]) with (@nil Z).
      rewrite (store_room _ _ _ _ _ Hr) by lia. rewrite bind_Ok.
      rewrite (store_some _ buf c) by apply upd_same. rewrite bind_Ok.
      exists (upd (upd m buf c) buf 0), s1. cbn zeta. split; [|split; [|split; [|split]]].
      * do 2 f_equal. change (zlen (chomp [10])) with 0. lia.
      * apply str_at_nil, upd_same.
      * change (zlen (chomp [10])) with 0. apply (same_outside_trans _ (upd m buf c)); apply same_outside_upd; lia.
      * rewrite E3. cbn [app]. f_equal. lia.
      * exact E4.
    + cbn [chomp] in *. rewrite E10 in *. rewrite zlen_cons in *. nneg (chomp (line n r)).
      rewrite (store_room _ _ _ _ _ Hr) by lia. rewrite bind_Ok.
      assert (c =? 0 = false) as -> by lia.
      assert (En' : Z.to_nat (size - 1 - 1) = n) by lia.
      destruct (IHfuel (upd m buf c) s1 (buf + 1) (size - 1)) as (m' & s' & G1 & G2 & G3 & G4 & G5).
      * exact E4.
      * rewrite E3. exact Ht.
      * lia.
      * lia.
      * rewrite E3, En'. apply room_upd. eapply room_sub; [exact Hr| |]; lia.
      * cbn zeta in *. rewrite E3, En' in *. exists m', s'. rewrite G1.
        split; [|split; [|split; [|split]]].
        -- do 2 f_equal. lia.
        -- split; [|split].
           ++ rewrite (G3 buf) by lia. apply upd_same.
           ++ lia.
           ++ exact G2.
        -- apply (same_outside_trans _ (upd m buf c)).
           ++ apply same_outside_upd. lia.
           ++ eapply same_outside_weaken; [exact G3| |]; lia.
        -- cbn [app]. f_equal. exact G4.
        -- exact G5.
Qed.
