(* _itobin and itooct. *)
From Verif Require Import Base BaseLemmas ConvModel ConvSpec ConvProofs ConvProofs2 ConvProofs3 ConvProofs4.
Ltac Zify.zify_post_hook ::= Z.div_mod_to_equations.

Lemma dch_good2 : good_ch dch 2.
Proof. intros d Hd. apply dch_good. lia. Qed.
Lemma dch_good8 : good_ch dch 8.
Proof. intros d Hd. apply dch_good. lia. Qed.

Lemma numeral_padded base v l : 1 < base -> numeral base v l -> padded_numeral base v 1 l.
Proof.
  intros Hb (D & V & Hne & Hh). split; auto. split; auto. split.
  - destruct l; [congruence|]. zl. nneg l. lia.
  - intro H. rewrite (Hh H). reflexivity.
Qed.

Lemma bint_range l : Forall (fun d => 0 <= d < 2) l -> forall j g groups, Forall (fun b => 1 <= b <= 255) (bint l j g groups).
Proof.
  induction l as [|d l IH]; intros HF j g groups; cbn [bint]; auto. apply Forall_cons_iff in HF as [Hd HF].
  assert (S : forall j', Forall (fun b => 1 <= b <= 255) (if Nat.eqb j' 0 && (groups <=? g + 1) then 32 :: bint l j' 0 groups else bint l j' (g + 1) groups)).
  { intro j'. destruct (_ && _); [constructor; [lia|]|]; auto. }
  assert (D : 1 <= dch d <= 255) by (unfold dch; lia).
  destruct j as [|j]; [constructor; auto|]. destruct (d =? 0); [auto|constructor; auto].
Qed.

Lemma bin_text i prec groups : 0 <= prec <= 32 ->
  exists t, nonblank t = emit dch (Z.to_nat (32 - prec)) 48 (digs 2 32 (u32 i)) /\ (32 < groups -> nonblank t = t) /\ zlen t <= 64 /\
    Forall (fun b => 1 <= b <= 255) t /\
    forall m buf n, room m buf n -> zlen t <= n -> bin_loop 32 m i buf 0 (prec - 32) 0 groups = Ok (wr m buf t, zlen t).
Proof.
  intro Hp. pose proof (u32_range i) as Hu. exists (bint (digs 2 32 (u32 i)) (Z.to_nat (32 - prec)) 0 groups).
  assert (DR : Forall (fun d => 0 <= d < 2) (digs 2 32 (u32 i))) by (apply digs_range; lia).
  assert (LD : zlen (digs 2 32 (u32 i)) = 32) by (unfold zlen; rewrite digs_length; lia).
  split; [now apply bint_nonblank|]. split.
  { intro Hg. rewrite bint_nonblank by auto. symmetry. apply bint_plain. lia. }
  split; [rewrite bint_length, LD; lia|]. split; [now apply bint_range|].
  intros m buf n R Hn. replace (prec - 32) with (- Z.of_nat (Z.to_nat (32 - prec))) by lia.
  assert (E : u32 i = u32 i * 2 ^ (32 - Z.of_nat 32)) by (replace (2 ^ (32 - Z.of_nat 32)) with 1 by reflexivity; lia).
  assert (Hu' : 0 <= u32 i < 2 ^ Z.of_nat 32) by (replace (2 ^ Z.of_nat 32) with 4294967296 by reflexivity; lia).
  rewrite (bin_loop_ok 32 m i buf 0 (Z.to_nat (32 - prec)) 0 groups (u32 i) n (le_n 32) E Hu' R (Z.le_refl 0)) by lia.
  now rewrite Z.add_0_r, Z.add_0_l.
Qed.
Lemma bin_emit_zero v : v = 0 -> emit dch (Z.to_nat (32 - 0)) 48 (digs 2 32 v) = [].
Proof. intros ->. reflexivity. Qed.
Lemma bin_emit_padded v prec : 0 <= v < 4294967296 -> 0 <= prec <= 32 -> v <> 0 \/ 1 <= prec ->
  padded_numeral 2 v (Z.max 1 prec) (emit dch (Z.to_nat (32 - prec)) 48 (digs 2 32 v)).
Proof.
  intros Hu Hp Hc. assert (Hu' : 0 <= v < 2 ^ Z.of_nat 32) by (replace (2 ^ Z.of_nat 32) with 4294967296 by reflexivity; lia).
  destruct (Z.eq_dec prec 0) as [->|].
  - replace (Z.to_nat (32 - 0)) with 32%nat by reflexivity. rewrite emit_eq. pose proof (lz_le (digs 2 32 v)) as L. rewrite digs_length in L.
    replace (lz (digs 2 32 v) - 32)%nat with 0%nat by lia. cbn [repeat app]. apply numeral_padded; [lia|].
    apply sig_numeral; [apply dch_good2|lia|lia].
  - replace (Z.to_nat (32 - prec)) with (32 - Z.to_nat prec)%nat by lia. replace (Z.max 1 prec) with (Z.of_nat (Z.to_nat prec)) by lia.
    apply (emit_padded dch 2 32 v (Z.to_nat prec) dch_good2); [lia|exact Hu'|lia].
Qed.

Lemma itobin_text i prec groups : INT_MIN <= i <= INT_MAX -> 0 <= prec <= 32 ->
  u32 i <> 0 \/ 1 <= prec \/ 32 < groups ->
  exists l, padded_numeral 2 (u32 i) (Z.max 1 prec) (nonblank l) /\ zlen l <= 64 /\ (32 < groups -> nonblank l = l) /\
    forall m buf, room m buf (zlen l + 1) ->
    exists m', _itobin m i buf prec groups = Ok (m', zlen l) /\ wrote m m' buf l.
Proof.
  intros Hi Hp Hc. pose proof (u32_range i) as Hu. destruct (bin_text i prec groups Hp) as (t & NB & PL & Hlen & BR & Loop).
  destruct (Z.eq_dec (u32 i) 0) as [U0|U0]; [destruct (Z.eq_dec prec 0) as [P0|P0]|].
  - (* value 0, no width: only with groups > 32 *)
    assert (Hg : 32 < groups) by lia.
    assert (T0 : t = []) by (rewrite <- PL, NB by auto; rewrite P0; now apply bin_emit_zero).
    exists [48]. split; [|split; [vm_compute; discriminate|split; [reflexivity|]]].
    + rewrite U0, P0. split; [constructor; [cbn; lia|constructor]|]. split; [reflexivity|]. split; [vm_compute; discriminate|]. intros _. reflexivity.
    + change (zlen [48]) with 1. intros m buf R. exists (wr m buf ([48] ++ [0])). split; [|apply wrote_wr; constructor; [lia|constructor]].
      unfold _itobin. rewrite iop_ok by (unfold INT_MIN, INT_MAX; lia). rewrite bind_Ok.
      rewrite (Loop m buf (1 + 1)) by (auto; rewrite T0; zl; lia). rewrite T0, bind_Ok. cbn [wr]. change (zlen (@nil Z) =? 0) with true.
      cbv iota. rewrite (put_ok m buf 0 48 (1 + 1)) by (auto; lia). rewrite !bind_Ok.
      rewrite (put_ok _ buf 1 0 (1 + 1)) by (try lia; now apply wr_room). rewrite bind_Ok. cbn [wr app]. rewrite Z.add_0_r. reflexivity.
  - exists t. assert (P : padded_numeral 2 (u32 i) (Z.max 1 prec) (nonblank t)) by (rewrite NB; apply bin_emit_padded; auto; lia).
    split; auto. split; auto. split; auto.
    intros m buf R. exists (wr m buf (t ++ [0])). split; [|now apply wrote_wr].
    unfold _itobin. rewrite iop_ok by (unfold INT_MIN, INT_MAX; lia). rewrite bind_Ok.
    rewrite (Loop m buf (zlen t + 1)) by (auto; lia). rewrite bind_Ok.
    assert (T1 : 1 <= zlen t).
    { destruct t as [|x t']; [|zl; nneg t'; lia]. destruct P as (_ & _ & L & _). revert L. cbn [nonblank filter]. zl. lia. }
    destruct (Z.eqb_spec (zlen t) 0); [lia|]. rewrite bind_Ok. rewrite (put_ok _ buf (zlen t) 0 (zlen t + 1)) by (try lia; now apply wr_room).
    rewrite bind_Ok, wr_app. cbn [wr]. reflexivity.
  - exists t. assert (P : padded_numeral 2 (u32 i) (Z.max 1 prec) (nonblank t)) by (rewrite NB; apply bin_emit_padded; auto; lia).
    split; auto. split; auto. split; auto.
    intros m buf R. exists (wr m buf (t ++ [0])). split; [|now apply wrote_wr].
    unfold _itobin. rewrite iop_ok by (unfold INT_MIN, INT_MAX; lia). rewrite bind_Ok.
    rewrite (Loop m buf (zlen t + 1)) by (auto; lia). rewrite bind_Ok.
    assert (T1 : 1 <= zlen t).
    { destruct t as [|x t']; [|zl; nneg t'; lia]. destruct P as (_ & _ & L & _). revert L. cbn [nonblank filter]. zl. lia. }
    destruct (Z.eqb_spec (zlen t) 0); [lia|]. rewrite bind_Ok. rewrite (put_ok _ buf (zlen t) 0 (zlen t + 1)) by (try lia; now apply wr_room).
    rewrite bind_Ok, wr_app. cbn [wr]. reflexivity.
Qed.

(* ---- octal ---- *)
Lemma oct_digits_ok fuel : forall i tmp p, 0 <= i < 8 ^ Z.of_nat (pred fuel) -> 0 <= p -> p + Z.of_nat fuel <= 17 -> (1 <= fuel)%nat ->
  exists n tmp', oct_digits fuel i tmp p = Ok (tmp', p + Z.of_nat n) /\ (n < fuel)%nat /\
    i < 8 ^ Z.of_nat n /\ (n <> 0%nat -> 8 ^ (Z.of_nat n - 1) <= i) /\
    (forall x, p <= x < p + Z.of_nat n -> tmp' x = dch (i / 8 ^ (x - p) mod 8)) /\
    (forall x, ~ (p <= x < p + Z.of_nat n) -> tmp' x = tmp x).
Proof.
  induction fuel as [|f IH]; intros i tmp p Hi Hp Hf H1; [lia|]. cbn [oct_digits]. destruct (Z.eqb_spec i 0) as [->|Hn].
  - exists 0%nat, tmp. rewrite Z.add_0_r. repeat split; auto; try lia.
  - destruct f as [|f]; [cbn in Hi; lia|]. destruct (Z.ltb_spec p 16); [|lia]. rewrite Z.shiftr_div_pow2 by lia. change (2 ^ 3) with 8.
    cbn [pred] in *. assert (E8 : 8 ^ Z.of_nat (S f) = 8 * 8 ^ Z.of_nat f) by (rewrite <- Z.pow_succ_r by lia; f_equal; lia).
    destruct (IH (i / 8) (fun x => if x =? p then Z.land i 7 + 48 else tmp x) (p + 1)) as (n & tmp' & E & L & A & B & C & D); try lia.
    exists (S n), tmp'. rewrite E. split; [do 2 f_equal; lia|]. split; [lia|].
    assert (P : 8 ^ Z.of_nat (S n) = 8 * 8 ^ Z.of_nat n) by (rewrite <- Z.pow_succ_r by lia; f_equal; lia).
    split; [lia|]. split.
    { intros _. replace (Z.of_nat (S n) - 1) with (Z.of_nat n) by lia. destruct n as [|n]; [cbn; lia|].
      specialize (B ltac:(lia)). replace (Z.of_nat (S n) - 1) with (Z.of_nat n) in B by lia.
      assert (P2 : 8 ^ Z.of_nat (S n) = 8 * 8 ^ Z.of_nat n) by (rewrite <- Z.pow_succ_r by lia; f_equal; lia). lia. }
    split.
    + intros x Hx. destruct (Z.eq_dec x p) as [->|].
      * rewrite D by lia. rewrite Z.eqb_refl, Z.sub_diag, Z.pow_0_r, Z.div_1_r. change 7 with (Z.ones 3). rewrite Z.land_ones by lia.
        change (2 ^ 3) with 8. unfold dch. lia.
      * rewrite C by lia. f_equal. rewrite Z.div_div by (try lia; apply Z.pow_pos_nonneg; lia). f_equal. f_equal.
        rewrite <- Z.pow_succ_r by lia. f_equal. lia.
    + intros x Hx. rewrite D by lia. destruct (Z.eqb_spec x p); [lia|reflexivity].
Qed.

Lemma oct_copy_ok i tmp k : (k <= 16)%nat -> 0 <= i -> (forall x, 0 <= x < Z.of_nat k -> tmp x = dch (i / 8 ^ x mod 8)) ->
  forall m buf n, room m buf n -> Z.of_nat k <= n ->
  oct_copy k m buf tmp = Ok (wr m buf (map dch (digs 8 k i)), buf + Z.of_nat k).
Proof.
  induction k as [|k IH]; intros Hk Hi H m buf n R Hn.
  - cbn [oct_copy digs map wr]. now rewrite Z.add_0_r.
  - cbn [oct_copy]. destruct (Z.ltb_spec (Z.of_nat k) 16); [|lia]. rewrite H by lia.
    pose proof (Z.mod_pos_bound (i / 8 ^ Z.of_nat k) 8 ltac:(lia)).
    rewrite (put_ok m buf 0 _ n) by (auto; unfold dch; lia). rewrite bind_Ok.
    rewrite (IH ltac:(lia) Hi) with (n := n - 1); try lia.
    + cbn [digs map wr]. rewrite Z.add_0_r. apply ok2; [reflexivity|lia].
    + intros x Hx. apply H. lia.
    + apply wr_room. eapply room_sub; eauto; lia.
Qed.

Lemma oct_numeral i n : 0 < i -> i < 8 ^ Z.of_nat n -> (n <> 0%nat -> 8 ^ (Z.of_nat n - 1) <= i) -> numeral 8 i (map dch (digs 8 n i)).
Proof.
  intros Hi H1 H2. destruct n as [|n]; [cbn in H1; lia|]. specialize (H2 ltac:(lia)). replace (Z.of_nat (S n) - 1) with (Z.of_nat n) in H2 by lia.
  destruct (value_map dch 8 (digs 8 (S n) i) dch_good8) as [V D]; [apply digs_range; lia|].
  split; auto. split; [rewrite V, dvalue_digs, Z.mod_small by lia; reflexivity|]. split; [discriminate|].
  pose proof (Z.pow_pos_nonneg 8 (Z.of_nat n) ltac:(lia) ltac:(lia)) as P.
  assert (E : 8 ^ Z.of_nat (S n) = 8 * 8 ^ Z.of_nat n) by (rewrite <- Z.pow_succ_r by lia; f_equal; lia).
  cbn [digs map hd]. assert (Q : 1 <= i / 8 ^ Z.of_nat n < 8) by (split; [apply Z.div_le_lower_bound; lia|apply Z.div_lt_upper_bound; lia]).
  rewrite Z.mod_small by lia. unfold dch at 1. lia.
Qed.

(* what itooct writes for i <> 0 *)
Lemma itooct_text strict i : INT_MIN < i <= INT_MAX -> i <> 0 ->
  exists d n, numeral 8 (Z.abs i) d /\ 0 <= n < 16 /\ zlen d = n /\ forall fuel tmp0 m buf, (16 <= fuel)%nat -> 
    room m buf (zlen (minus (i <? 0) ++ 0 :: d ++ [0])) ->
    exists m', itooct strict fuel tmp0 m i buf = Ok (m', zlen (minus (i <? 0) ++ 0 :: d)) /\
      bytes_at m' buf (minus (i <? 0) ++ ubyte (tmp0 n) :: d ++ [0]) /\
      same_outside m m' buf (zlen (minus (i <? 0) ++ 0 :: d ++ [0])).
Proof.
  unfold INT_MIN, INT_MAX. intros Hi H0. set (v := Z.abs i).
  assert (Mono : forall f g r i tmp p, oct_digits f i tmp p = Ok r -> (f <= g)%nat -> oct_digits g i tmp p = Ok r).
  { clear. induction f as [|f IH]; intros g r i tmp p H Hg; [discriminate|]. destruct g as [|g]; [lia|]. cbn [oct_digits] in *.
    destruct (i =? 0); auto. destruct (p <? 16); auto. apply IH; auto. lia. }
  destruct (oct_digits_ok 16 v (fun _ => 0) 0) as (n & _ & _ & Hn & A & B & _ & _); try lia.
  { change (8 ^ Z.of_nat (pred 16)) with 35184372088832. lia. }
  pose proof (oct_numeral v n ltac:(lia) A B) as N.
  exists (map dch (digs 8 n v)), (Z.of_nat n). split; auto. split; [lia|]. split; [unfold zlen; rewrite map_length, digs_length; lia|].
  intros fuel tmp0 m buf Hf R.
  destruct (oct_digits_ok 16 v tmp0 0) as (n' & tmp' & E & Hn' & A' & B' & C & D); try lia.
  { change (8 ^ Z.of_nat (pred 16)) with 35184372088832. lia. }
  assert (EN : n' = n).
  { destruct (Nat.lt_trichotomy n n') as [Hlt|[|Hlt]]; auto; exfalso.
    - specialize (B' ltac:(lia)). pose proof (Z.pow_le_mono_r 8 (Z.of_nat n) (Z.of_nat n' - 1) ltac:(lia) ltac:(lia)). lia.
    - specialize (B ltac:(lia)). pose proof (Z.pow_le_mono_r 8 (Z.of_nat n') (Z.of_nat n - 1) ltac:(lia) ltac:(lia)). lia. }
  subst n'. apply (Mono _ fuel) in E; [|lia].
  set (d := map dch (digs 8 n v)) in *. assert (Ld : zlen d = Z.of_nat n) by (unfold d, zlen; rewrite map_length, digs_length; lia).
  assert (Copy : forall m2 buf2, room m2 buf2 (Z.of_nat n + 2) ->
    (let* (tmp, p) := oct_digits fuel v tmp0 0 in
     let* (m3, buf3) := oct_copy (S (Z.to_nat p)) m2 buf2 tmp in
     let* m4 := put m3 buf3 0 0 in Ok (m4, p)) = Ok (wr m2 buf2 (ubyte (tmp0 (Z.of_nat n)) :: d ++ [0]), Z.of_nat n)).
  { intros m2 buf2 R2. rewrite E, bind_Ok, Z.add_0_l, Nat2Z.id. cbn [oct_copy]. destruct (Z.ltb_spec (Z.of_nat n) 16); [|lia].
    rewrite D by lia. rewrite (put_gen m2 buf2 0 _ (Z.of_nat n + 2)) by (auto; lia). rewrite bind_Ok.
    rewrite (oct_copy_ok v tmp' n ltac:(lia) ltac:(lia)) with (n := Z.of_nat n + 1); try lia.
    2:{ intros x Hx. rewrite C by lia. now rewrite Z.sub_0_r. }
    2:{ apply wr_room. eapply room_sub; eauto; lia. }
    rewrite bind_Ok. fold d. rewrite (put_ok _ (buf2 + 1 + Z.of_nat n) 0 0 1); [|repeat apply wr_room; eapply room_sub; eauto; lia|lia|lia].
    rewrite bind_Ok. cbn [wr]. rewrite wr_app, Ld. cbn [wr]. rewrite !Z.add_0_r. reflexivity. }
  assert (Reassoc : forall m2 buf2 c r, (let* (tmp, p) := oct_digits fuel v tmp0 0 in
     let* (m3, buf3) := oct_copy (S (Z.to_nat p)) m2 buf2 tmp in
     let* m4 := put m3 buf3 0 0 in Ok (m4, p)) = Ok r ->
    (let* (tmp, p) := oct_digits fuel v tmp0 0 in
     let c3 := c + p in
     let* (m3, buf3) := oct_copy (S (Z.to_nat p)) m2 buf2 tmp in
     let* m4 := put m3 buf3 0 0 in Ok (m4, c3 + 1)) = Ok (fst r, c + snd r + 1)).
  { intros m2 buf2 c r. destruct (oct_digits fuel v tmp0 0) as [[tmp p]| |]; cbn [bind]; try discriminate.
    destruct (oct_copy (S (Z.to_nat p)) m2 buf2 tmp) as [[m3 buf3]| |]; cbn [bind]; try discriminate.
    destruct (put m3 buf3 0 0); cbn [bind]; try discriminate. intro H. injection H as <-. reflexivity. }
  unfold itooct. destruct (Z.eqb_spec i 0); [lia|]. rewrite bind_Ok.
  unfold minus in *. destruct (Z.ltb_spec i 0).
  - revert R. cbn [app]. zl. rewrite Ld. intro R.
    replace (iar strict (- i)) with (Ok v : res Z) by (unfold iar, v; destruct strict; [symmetry; rewrite iop_ok; [f_equal; lia|unfold INT_MIN, INT_MAX; lia]|f_equal; unfold s32; lia]).
    rewrite bind_Ok. rewrite (put_ok m buf 0 45 (Z.of_nat n + 1 + 1 + 1)) by (auto; lia). rewrite !bind_Ok.
    erewrite Reassoc; [|apply Copy; apply wr_room; eapply room_sub; eauto; lia]. cbn [fst snd].
    eexists. split; [apply ok2; [reflexivity|lia]|]. rewrite Z.add_0_r. 
    change (wr (wr m buf [45]) (buf + 1) (ubyte (tmp0 (Z.of_nat n)) :: d ++ [0])) with (wr m buf (45 :: ubyte (tmp0 (Z.of_nat n)) :: d ++ [0])).
    split; [apply wr_bytes|].
    match goal with |- same_outside _ _ _ ?k => replace k with (zlen (45 :: ubyte (tmp0 (Z.of_nat n)) :: d ++ [0])) by (zl; lia) end. apply wr_outside.
  - revert R. cbn [app]. zl. rewrite Ld. intro R. rewrite bind_Ok. assert (Ev : v = i) by lia. rewrite <- Ev.
    erewrite Reassoc; [|apply Copy; eapply room_sub; [exact R|lia|lia]]. cbn [fst snd].
    eexists. split; [apply ok2; [reflexivity|lia]|].
    split; [apply wr_bytes|].
    match goal with |- same_outside _ _ _ ?k => replace k with (zlen (ubyte (tmp0 (Z.of_nat n)) :: d ++ [0])) by (zl; lia) end. apply wr_outside.
Qed.
