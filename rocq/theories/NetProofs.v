From Verif Require Import Base BaseLemmas ConvModel ConvSpec ConvProofs ConvProofs3 ConvProofs4 NetModel NetSpec.
Ltac Zify.zify_post_hook ::= Z.div_mod_to_equations.

Lemma lxor_swap a b : Z.lxor (Z.lxor a b) (Z.lxor b (Z.lxor a b)) = b.
Proof.
  rewrite (Z.lxor_comm b), (Z.lxor_assoc a b b), Z.lxor_nilpotent, Z.lxor_0_r.
  rewrite (Z.lxor_comm a b), Z.lxor_assoc, Z.lxor_nilpotent, Z.lxor_0_r. auto.
Qed.
Lemma lxor_swap2 a b : Z.lxor b (Z.lxor a b) = a.
Proof. rewrite (Z.lxor_comm b), Z.lxor_assoc, Z.lxor_nilpotent, Z.lxor_0_r. auto. Qed.

Lemma htonl_eq i : htonl i = word4 (wbyte i 3) (wbyte i 2) (wbyte i 1) (wbyte i 0).
Proof. unfold htonl. now rewrite !lxor_swap, !lxor_swap2. Qed.
Lemma htons_eq i : htons i = wbyte i 1 + 256 * wbyte i 0.
Proof. unfold htons. now rewrite lxor_swap, lxor_swap2. Qed.

Lemma wbyte_range w n : 0 <= wbyte w n < 256.
Proof. apply Z.mod_pos_bound. lia. Qed.
Lemma wbyte0 w : wbyte w 0 = w mod 256.
Proof. unfold wbyte. change (256 ^ 0) with 1. now rewrite Z.div_1_r. Qed.
Lemma wbyte1 w : wbyte w 1 = w / 256 mod 256. Proof. reflexivity. Qed.
Lemma wbyte2 w : wbyte w 2 = w / 256 / 256 mod 256.
Proof. unfold wbyte. rewrite Z.div_div by lia. reflexivity. Qed.
Lemma wbyte3 w : wbyte w 3 = w / 256 / 256 / 256 mod 256.
Proof. unfold wbyte. rewrite !Z.div_div by lia. reflexivity. Qed.
Lemma le_bytes4 w : le_bytes 4 w = [wbyte w 0; wbyte w 1; wbyte w 2; wbyte w 3].
Proof. cbn [le_bytes]. now rewrite wbyte0, wbyte1, wbyte2, wbyte3. Qed.
Lemma le_bytes2 w : le_bytes 2 w = [wbyte w 0; wbyte w 1].
Proof. cbn [le_bytes]. now rewrite wbyte0, wbyte1. Qed.
Lemma le_word4 a b c d : le_word [a; b; c; d] = word4 a b c d.
Proof. unfold word4. cbn [le_word]. lia. Qed.
Lemma word4_wbyte a b c d : 0 <= a < 256 -> 0 <= b < 256 -> 0 <= c < 256 -> 0 <= d < 256 ->
  le_bytes 4 (word4 a b c d) = [a; b; c; d].
Proof.
  intros. rewrite <- le_word4. cbn [le_bytes le_word].
  assert (D : forall x y, 0 <= x < 256 -> (x + 256 * y) / 256 = y) by (intros; lia).
  assert (M : forall x y, 0 <= x < 256 -> (x + 256 * y) mod 256 = x) by (intros; lia).
  repeat (rewrite ?D, ?M by lia). reflexivity.
Qed.
Lemma le_word_bytes k : forall w, 0 <= w < 256 ^ Z.of_nat k -> le_word (le_bytes k w) = w.
Proof.
  induction k as [|k IH]; intros w Hw.
  - change (256 ^ Z.of_nat 0) with 1 in Hw. cbn. lia.
  - cbn [le_bytes le_word]. replace (Z.of_nat (S k)) with (1 + Z.of_nat k) in Hw by lia.
    rewrite Z.pow_add_r, Z.pow_1_r in Hw by lia.
    rewrite IH; [lia|]. set (P := 256 ^ Z.of_nat k) in *. clearbody P. lia.
Qed.
Lemma le_word_range l : Forall (fun b => 0 <= b < 256) l -> 0 <= le_word l < 256 ^ zlen l.
Proof.
  induction 1 as [|b l Hb Hl IH]; [vm_compute; split; [discriminate|reflexivity]|]. cbn [le_word]. zl. nneg l. rewrite Z.pow_add_r, Z.pow_1_r by lia. lia.
Qed.
Lemma le_bytes_range k : forall w, Forall (fun b => 0 <= b < 256) (le_bytes k w).
Proof. induction k; intro w; cbn [le_bytes]; constructor; auto. apply Z.mod_pos_bound. lia. Qed.
Lemma le_bytes_word l : Forall (fun b => 0 <= b < 256) l -> le_bytes (length l) (le_word l) = l.
Proof.
  induction 1 as [|b l Hb Hl IH]; [reflexivity|]. cbn [le_word length le_bytes].
  replace ((b + 256 * le_word l) mod 256) with b by lia.
  replace ((b + 256 * le_word l) / 256) with (le_word l) by lia. now rewrite IH.
Qed.

(* ---- inet_ntoa ---- *)
(* m' holds l at a; only [a,a+n) changed since m *)
Definition part (m m' : mem) (a n : Z) (l : list Z) : Prop :=
  bytes_at m' a l /\ same_outside m m' a n /\ room m' a n.
Lemma part_put m m' a n l p c : part m m' a n l -> p = a + zlen l -> zlen l < n -> 0 <= c < 256 ->
  exists m2, put m' p 0 c = Ok m2 /\ part m m2 a n (l ++ [c]).
Proof.
  intros (B & S & R) -> Hl Hc. nneg l. exists (upd m' (a + zlen l) c). split.
  - unfold put. rewrite Z.add_0_r, (store_room m' a n) by (auto; lia). unfold ubyte. now rewrite Z.mod_small by lia.
  - split; [|split].
    + apply bytes_at_app. split; [apply bytes_at_upd; auto; lia|]. cbn. split; auto. apply upd_same.
    + intros x Hx. rewrite upd_other by lia. auto.
    + now apply room_upd.
Qed.
Lemma part_app m m' a n l r : part m m' a n (l ++ r) -> part m m' a n l.
Proof. intros (B & S & R). apply bytes_at_app in B. split; [|split]; tauto. Qed.
(* overwrite the last byte *)
Lemma part_last m m' a n l b p c : part m m' a n (l ++ [b]) -> p = a + zlen l -> zlen l < n -> 0 <= c < 256 ->
  exists m2, put m' p 0 c = Ok m2 /\ part m m2 a n (l ++ [c]).
Proof. intros H. apply part_app in H. now apply part_put. Qed.

Lemma ntoa_tens_ok m a n l fuel : zlen l < n -> forall c m' p t, part m m' a n (l ++ [48 + t]) -> p = a + zlen l ->
  0 <= t -> 0 <= c -> t + c / 10 <= 9 -> c / 10 < Z.of_nat fuel ->
  exists m2, ntoa_tens fuel m' p c = Ok (m2, c mod 10) /\ part m m2 a n (l ++ [48 + (t + c / 10)]).
Proof.
  intros Hl. induction fuel as [|k IH]; intros c m' p t P -> Ht Hc Hs Hf; [lia|]. cbn [ntoa_tens].
  destruct (Z.ltb_spec 9 c).
  - assert (L : m' (a + zlen l) = Some (48 + t)).
    { destruct P as (B & _). apply bytes_at_app in B. cbn in B. tauto. }
    unfold ldc. rewrite (load_some _ _ _ L), !bind_Ok, schar_low by lia.
    destruct (part_last m m' a n l (48 + t) (a + zlen l) (48 + t + 1) P eq_refl Hl ltac:(lia)) as (m2 & E & P2).
    rewrite E, bind_Ok. unfold ubyte. rewrite Z.mod_small by lia.
    replace (48 + t + 1) with (48 + (t + 1)) in P2 by lia.
    destruct (IH (c - 10) m2 (a + zlen l) (t + 1) P2) as (m3 & E3 & P3); try lia. clear IH.
    exists m3. split; [rewrite E3; apply f_equal; f_equal; lia|]. replace (t + c / 10) with (t + 1 + (c - 10) / 10) by lia. auto.
  - exists m'. replace (c mod 10) with c by lia. replace (t + c / 10) with t by lia. auto.
Qed.

(* what one byte prints as *)
Definition btext (c : Z) : list Z :=
  (if 9 <? c then (if 199 <? c then [50] else if 99 <? c then [49] else []) ++ [48 + c mod 100 / 10] else [])
  ++ [48 + c mod 10].
Lemma btext_ok c : 0 <= c < 256 -> numeral 10 c (btext c) /\ zlen (btext c) <= 3.
Proof.
  intro Hc.
  assert (G : forallb (fun i => let c := Z.of_nat i in
     (value 10 (btext c) =? c) && forallb (fun b => (48 <=? b) && (b <=? 57)) (btext c)
     && (zlen (btext c) <=? 3) && (1 <=? zlen (btext c)) && (negb (hd 0 (btext c) =? 48) || (zlen (btext c) =? 1))) (seq 0 256) = true)
    by (vm_compute; reflexivity).
  rewrite forallb_forall in G. specialize (G (Z.to_nat c)). cbn zeta in G. rewrite Z2Nat.id in G by lia.
  assert (I : In (Z.to_nat c) (seq 0 256)) by (apply in_seq; lia). specialize (G I). clear I.
  rewrite !andb_true_iff in G. destruct G as ((((V & D) & L) & N) & H).
  split; [|lia]. split; [|split; [lia|split]].
  - unfold digits. rewrite forallb_forall in D. apply Forall_forall. intros b Hb. specialize (D b Hb).
    unfold digval. rewrite D. lia.
  - intro E. rewrite E in N. vm_compute in N. discriminate.
  - intro E. rewrite E in H. cbn [Z.eqb Pos.eqb negb orb] in H.
    destruct (btext c) as [|x [|y r]]; [vm_compute in N; discriminate| |].
    + cbn in E. now subst.
    + revert H. zl. nneg r. lia.
Qed.

Lemma ntoa_byte_ok m a n m' p l c fuel : part m m' a n l -> p = a + zlen l - 1 -> 0 <= c < 256 -> (10 <= fuel)%nat ->
  zlen l + zlen (btext c) < n ->
  exists m2, ntoa_byte fuel m' p c = Ok (m2, p + 1 + zlen (btext c)) /\ part m m2 a n (l ++ btext c ++ [46]).
Proof.
  intros P Hp Hc Hf Hn. unfold ntoa_byte. replace (p + 1) with (a + zlen l) by lia. clear p Hp.
  assert (H1 : exists m2 h, (if 199 <? c then let* m := put m' (a + zlen l) 0 50 in Ok (m, a + zlen l + 1, ubyte (c - 200))
        else if 99 <? c then let* m := put m' (a + zlen l) 0 49 in Ok (m, a + zlen l + 1, ubyte (c - 100))
        else Ok (m', a + zlen l, c)) = Ok (m2, a + zlen (l ++ h), c mod 100)
      /\ part m m2 a n (l ++ h) /\ h = (if 199 <? c then [50] else if 99 <? c then [49] else [])).
  { revert Hn. unfold btext. nneg l. destruct (Z.ltb_spec 9 c), (Z.ltb_spec 199 c), (Z.ltb_spec 99 c); try lia; zl; intro Hn.
    - destruct (part_put m m' a n l (a + zlen l) 50 P) as (m2 & E & P2); try lia.
      rewrite E, bind_Ok. exists m2, [50]. split; [|auto]. zl. unfold ubyte.
      apply ok3; [auto|lia|lia].
    - destruct (part_put m m' a n l (a + zlen l) 49 P) as (m2 & E & P2); try lia.
      rewrite E, bind_Ok. exists m2, [49]. split; [|auto]. zl. unfold ubyte.
      apply ok3; [auto|lia|lia].
    - exists m', []. rewrite app_nil_r. split; [|auto]. apply ok3; [auto|lia|lia].
    - exists m', []. rewrite app_nil_r. split; [|auto]. apply ok3; [auto|lia|].
      rewrite Z.mod_small; lia. }
  assert (H2 : exists m2 h, (if 9 <? c then
      let* (m, p, c) := if 199 <? c then let* m := put m' (a + zlen l) 0 50 in Ok (m, a + zlen l + 1, ubyte (c - 200))
        else if 99 <? c then let* m := put m' (a + zlen l) 0 49 in Ok (m, a + zlen l + 1, ubyte (c - 100))
        else Ok (m', a + zlen l, c) in
      let* m := put m p 0 48 in
      let* (m, c) := ntoa_tens fuel m p c in
      Ok (m, p + 1, c)
    else Ok (m', a + zlen l, c)) = Ok (m2, a + zlen (l ++ h), c mod 10)
      /\ part m m2 a n (l ++ h) /\ btext c = h ++ [48 + c mod 10]).
  { unfold btext in *. destruct (Z.ltb_spec 9 c).
    - destruct H1 as (m2 & h & E & P2 & Hh). rewrite <- Hh in *. rewrite E, bind_Ok.
      revert Hn. zl. intro Hn. nneg h. nneg l.
      destruct (part_put m m2 a n (l ++ h) (a + zlen (l ++ h)) 48 P2) as (m3 & E3 & P3); zl; try lia.
      revert E3. zl. intro E3. rewrite E3, bind_Ok.
      destruct (ntoa_tens_ok m a n (l ++ h) fuel ltac:(zl; lia) (c mod 100) m3 (a + (zlen l + zlen h)) 0 P3)
        as (m4 & E4 & P4); zl; try lia.
      rewrite E4, bind_Ok. exists m4, (h ++ [48 + c mod 100 / 10]). split.
      + apply ok3; [auto|zl; lia|lia].
      + rewrite app_assoc. split; auto.
    - exists m', []. rewrite !app_nil_r. split; [|auto]. apply ok3; auto; lia. }
  clear H1. destruct H2 as (m2 & h & E & P2 & T). rewrite E, bind_Ok. rewrite T in *.
  revert Hn. zl. intro Hn. nneg h. nneg l.
  destruct (part_put m m2 a n (l ++ h) (a + zlen (l ++ h)) (48 + c mod 10) P2) as (m3 & E3 & P3); zl; try lia.
  revert E3. zl. intro E3. rewrite E3, bind_Ok.
  destruct (part_put m m3 a n ((l ++ h) ++ [48 + c mod 10]) (a + (zlen l + zlen h) + 1) 46 P3) as (m4 & E4 & P4); zl; try lia.
  rewrite E4, bind_Ok. exists m4. split; [apply ok2; auto; zl; lia|]. now rewrite !app_assoc in *.
Qed.
