From Verif Require Import Base BaseLemmas SortModel SortSpec.
Ltac Zify.zify_post_hook ::= Z.div_mod_to_equations.

Lemma loads_ok m l : forall a, bytes_at m a l -> loads (length l) m a = Ok l.
Proof.
  induction l as [|b l IH]; intros a H; cbn [loads length]; auto. destruct H as [H1 H2].
  rewrite (load_some _ _ _ H1), bind_Ok, IH, bind_Ok by auto. auto.
Qed.
Lemma stores_ok l : forall m a, room m a (zlen l) ->
  exists m', stores m a l = Ok m' /\ bytes_at m' a l /\ same_outside m m' a (zlen l) /\ (forall p n, room m p n -> room m' p n).
Proof.
  induction l as [|b l IH]; intros m a R; cbn [stores].
  - exists m. repeat split; auto. 
  - revert R. zl. intro R. nneg l. rewrite (store_room m a (zlen l + 1)), bind_Ok by (auto; lia).
    destruct (IH (upd m a b) (a + 1)) as (m' & E & B & S & Q).
    { apply room_upd. eapply room_sub; eauto; lia. }
    exists m'. split; auto. split; [|split].
    + cbn [bytes_at]. split; auto. rewrite S by lia. apply upd_same.
    + intros x Hx. rewrite S by lia. apply upd_other. lia.
    + intros p n K. apply Q. now apply room_upd.
Qed.

Lemma xorl_swap y : forall x, length x = length y -> xor_swap x y = (y, x).
Proof.
  unfold xor_swap, xorl. induction y as [|b y IH]; intros [|a x] H; try discriminate; [reflexivity|].
  cbn in H. specialize (IH x ltac:(lia)). apply pair_equal_spec in IH as [I1 I2]. cbn [combine map fst snd].
  rewrite I1 in *. rewrite I2. 
  assert (E : Z.lxor a (Z.lxor b a) = b). { rewrite (Z.lxor_comm b), <- Z.lxor_assoc, Z.lxor_nilpotent. apply Z.lxor_0_l. }
  rewrite E. f_equal. f_equal. rewrite (Z.lxor_comm b a), Z.lxor_assoc, Z.lxor_nilpotent. apply Z.lxor_0_r.
Qed.
Lemma bytes_room m a l : bytes_at m a l -> room m a (zlen l).
Proof.
  intros H x Hx. destruct (nth_error l (Z.to_nat (x - a))) eqn:E.
  - apply (bytes_at_nth m a l) in E; auto. replace (a + Z.of_nat (Z.to_nat (x - a))) with x in E by lia. congruence.
  - apply nth_error_None in E. unfold zlen in Hx. lia.
Qed.

(* two disjoint blocks exchanged, nothing else changed *)
Definition exchanged (m m' : mem) (a b : Z) (x y : list Z) : Prop :=
  bytes_at m' a y /\ bytes_at m' b x /\
  (forall z, ~ (a <= z < a + zlen x) -> ~ (b <= z < b + zlen x) -> m' z = m z).

Lemma swap_word_ok m a b x y : bytes_at m a x -> bytes_at m b y -> length x = length y -> apart a (zlen x) b (zlen x) ->
  exists m', swap_word (length x) m a b = Ok m' /\ exchanged m m' a b x y.
Proof.
  intros Hx Hy L A. assert (ZL : zlen y = zlen x) by (unfold zlen; lia). unfold swap_word.
  rewrite (loads_ok m x) by auto. rewrite L, (loads_ok m y), !bind_Ok, xorl_swap by auto.
  destruct (stores_ok y m a) as (m1 & E1 & B1 & S1 & R1). { rewrite ZL. now apply bytes_room. }
  rewrite E1, bind_Ok. destruct (stores_ok x m1 b) as (m2 & E2 & B2 & S2 & R2). { apply R1. rewrite <- ZL. now apply bytes_room. }
  exists m2. split; auto. unfold apart in A. split; [|split; auto].
  - apply bytes_at_ext with m1; auto. intros z Hz. apply S2. lia.
  - intros z Z1 Z2. rewrite S2, S1 by lia. auto.
Qed.
Lemma swap_bytes_ok x : forall m a b y, bytes_at m a x -> bytes_at m b y -> length x = length y -> apart a (zlen x) b (zlen x) ->
  exists m', swap_bytes (length x) m a b = Ok m' /\ exchanged m m' a b x y.
Proof.
  induction x as [|c x IH]; intros m a b [|d y] Hx Hy L A; try discriminate; cbn [swap_bytes length].
  - exists m. split; auto. split; cbn; auto.
  - cbn in L. revert A. zl. unfold apart. intro A. nneg x. cbn [bytes_at] in Hx, Hy.
    destruct (swap_word_ok m a b [c] [d]) as (m1 & E & B1 & B2 & S); try (cbn; tauto); [unfold apart; zl; lia|].
    revert S. zl. intro S. cbn [length] in E. rewrite E, bind_Ok.
    assert (ZL : zlen y = zlen x) by (unfold zlen; lia).
    destruct (IH m1 (a + 1) (b + 1) y) as (m2 & E2 & B3 & B4 & S2); try lia.
    + apply bytes_at_ext with m; [tauto|]. intros z Hz. apply S; lia.
    + apply bytes_at_ext with m; [tauto|]. intros z Hz. apply S; lia.
    + unfold apart. lia.
    + exists m2. split; auto. cbn [bytes_at] in *. split; [|split].
      * split; auto. rewrite S2 by lia. tauto.
      * split; auto. rewrite S2 by lia. tauto.
      * zl. intros z Z1 Z2. rewrite S2, S by lia. auto.
Qed.
Lemma swap_ok m a b w x y : bytes_at m a x -> bytes_at m b y -> zlen x = w -> zlen y = w -> apart a w b w -> 0 <= w <= INT_MAX ->
  exists m', swap m a b w = Ok m' /\ exchanged m m' a b x y.
Proof.
  intros Hx Hy Lx Ly A Hw. assert (L : length x = length y) by (unfold zlen in *; lia).
  assert (L2 : length x = Z.to_nat w) by (unfold zlen in *; lia).
  unfold swap. rewrite s32_small by (unfold INT_MIN, INT_MAX in *; lia). rewrite <- Lx in A.
  destruct (Z.eqb_spec w 4) as [->|]. { change 4%nat with (Z.to_nat 4). rewrite <- L2. now apply swap_word_ok. }
  destruct (Z.eqb_spec w 8) as [->|]. { change 8%nat with (Z.to_nat 8). rewrite <- L2. now apply swap_word_ok. }
  destruct (Z.ltb_spec w 0); [lia|]. rewrite <- L2. now apply swap_bytes_ok.
Qed.

(* ---- arrays ---- *)
Lemma concat_len w (arr : list (list Z)) : Forall (fun e => zlen e = w) arr -> zlen (concat arr) = w * zlen arr.
Proof. induction 1 as [|e arr He Ha IH]; cbn [concat]; zl; lia. Qed.
Lemma array_split m base w p e r : array_at m base w (p ++ e :: r) ->
  array_at m base w p /\ bytes_at m (base + w * zlen p) e /\ zlen e = w /\ array_at m (base + w * (zlen p + 1)) w r.
Proof.
  intros (B & F). rewrite Forall_app in F. destruct F as [F1 F2]. apply Forall_cons_iff in F2 as [F2 F3].
  rewrite concat_app in B. cbn [concat] in B. rewrite !bytes_at_app in B. rewrite (concat_len w p F1) in B.
  destruct B as (B1 & B2 & B3). split; [split; auto|]. split; auto. split; auto. split; auto.
  replace (base + w * (zlen p + 1)) with (base + w * zlen p + zlen e) by lia. auto.
Qed.
Lemma array_join m base w p e r : array_at m base w p -> bytes_at m (base + w * zlen p) e -> zlen e = w ->
  array_at m (base + w * (zlen p + 1)) w r -> array_at m base w (p ++ e :: r).
Proof.
  intros (B1 & F1) B2 L (B3 & F3). split; [|apply Forall_app; auto].
  rewrite concat_app. cbn [concat]. rewrite !bytes_at_app, (concat_len w p F1). split; auto. split; auto.
  replace (base + w * zlen p + zlen e) with (base + w * (zlen p + 1)) by lia. auto.
Qed.
Lemma array_ext m m' base w arr : array_at m base w arr ->
  (forall x, base <= x < base + w * zlen arr -> m' x = m x) -> array_at m' base w arr.
Proof.
  intros (B & F) H. split; auto. apply bytes_at_ext with m; auto. rewrite (concat_len w) by auto. auto.
Qed.

Lemma array_swap m base w p x q y r : 0 < w <= INT_MAX -> array_at m base w (p ++ x :: q ++ y :: r) ->
  exists m', swap m (base + w * zlen p) (base + w * (zlen p + 1 + zlen q)) w = Ok m'
    /\ array_at m' base w (p ++ y :: q ++ x :: r)
    /\ same_outside m m' base (w * zlen (p ++ x :: q ++ y :: r)).
Proof.
  intros Hw A. apply array_split in A as (Ap & Bx & Lx & A). apply array_split in A as (Aq & By & Ly & Ar).
  nneg p. nneg q. nneg r.
  replace (base + w * (zlen p + 1) + w * zlen q) with (base + w * (zlen p + 1 + zlen q)) in By by lia.
  replace (base + w * (zlen p + 1) + w * (zlen q + 1)) with (base + w * (zlen p + 1 + zlen q + 1)) in Ar by lia.
  assert (0 <= w * zlen q) by nia. assert (0 <= w * zlen p) by nia. assert (0 <= w * zlen r) by nia.
  destruct (swap_ok m (base + w * zlen p) (base + w * (zlen p + 1 + zlen q)) w x y) as (m' & E & B1 & B2 & S); auto; try lia.
  { unfold apart. lia. }
  rewrite Lx in S. exists m'. split; auto. split.
  - apply array_join; auto.
    + apply array_ext with m; auto. intros z Hz. apply S; lia.
    + apply array_join; auto.
      * apply array_ext with m; auto. intros z Hz. apply S; lia.
      * replace (base + w * (zlen p + 1) + w * zlen q) with (base + w * (zlen p + 1 + zlen q)) by lia. auto.
      * replace (base + w * (zlen p + 1) + w * (zlen q + 1)) with (base + w * (zlen p + 1 + zlen q + 1)) by lia.
        apply array_ext with m; auto. intros z Hz. apply S; lia.
  - intros z Hz. revert Hz. zl. intro Hz. apply S; lia.
Qed.

Section sort.
Variable comp : list Z -> list Z -> Z.
Variables base w : Z.
Hypothesis Hw : 0 < w <= INT_MAX.

Lemma loads_w m a e : bytes_at m a e -> zlen e = w -> loads (Z.to_nat w) m a = Ok e.
Proof. intros B L. rewrite <- L, zlen_nat. now apply loads_ok. Qed.
Lemma call_comp_ok m p x q y r : array_at m base w (p ++ x :: q ++ y :: r) ->
  call_comp comp m w (base + w * zlen p) (base + w * (zlen p + 1 + zlen q)) = Ok (comp x y).
Proof.
  intro A. apply array_split in A as (Ap & Bx & Lx & A). apply array_split in A as (Aq & By & Ly & Ar).
  unfold call_comp. replace (base + w * (zlen p + 1) + w * zlen q) with (base + w * (zlen p + 1 + zlen q)) in By by lia.
  rewrite (loads_w _ _ _ Bx Lx), bind_Ok, (loads_w _ _ _ By Ly). auto.
Qed.

(* split at two positions *)
Lemma split2 {A} (l : list A) i g : (0 < g)%nat -> (i + g < length l)%nat ->
  exists p x q y r, l = p ++ x :: q ++ y :: r /\ length p = i /\ (length p + 1 + length q = i + g)%nat.
Proof.
  intros Hg H. destruct (nth_error l i) as [x|] eqn:E; [|apply nth_error_None in E; lia].
  apply nth_error_split in E as (p & t & -> & Hp). rewrite app_length in H. cbn in H.
  destruct (nth_error t (g - 1)) as [y|] eqn:E; [|apply nth_error_None in E; lia].
  apply nth_error_split in E as (q & r & -> & Hq). exists p, x, q, y, r. split; auto. split; auto. lia.
Qed.
Lemma perm_swap2 {A} (p q r : list A) x y : Permutation (p ++ x :: q ++ y :: r) (p ++ y :: q ++ x :: r).
Proof.
  apply Permutation_app_head. transitivity (x :: y :: q ++ r).
  - constructor. symmetry. apply Permutation_middle.
  - rewrite perm_swap. constructor. apply Permutation_middle.
Qed.

(* sifting, any gap *)
Lemma sift_perm g fuel : (0 < g)%nat -> forall m arr i, array_at m base w arr -> (i + g < length arr)%nat ->
  w * zlen arr <= LONG_MAX -> (i < fuel)%nat ->
  exists m' arr', sift comp fuel m base w (w * Z.of_nat g) (w * Z.of_nat i) = Ok m' /\ array_at m' base w arr'
    /\ Permutation arr arr' /\ same_outside m m' base (w * zlen arr).
Proof.
  intro Hg. induction fuel as [|k IH]; intros m arr i A Hi HL Hf; [lia|]. cbn [sift].
  destruct (split2 arr i g Hg Hi) as (p & x & q & y & r & -> & Hp & Hq).
  replace (w * Z.of_nat i + base) with (base + w * zlen p) by (unfold zlen; lia).
  replace (base + w * zlen p + w * Z.of_nat g) with (base + w * (zlen p + 1 + zlen q)) by (unfold zlen; lia).
  rewrite (call_comp_ok m p x q y r A), bind_Ok. destruct (Z.leb_spec (comp x y) 0).
  - exists m, (p ++ x :: q ++ y :: r). split; auto. split; auto. split; auto. apply same_outside_refl.
  - destruct (array_swap m base w p x q y r Hw A) as (m2 & E & A2 & S). rewrite E, bind_Ok.
    destruct (Z.ltb_spec (w * Z.of_nat i) (w * Z.of_nat g)).
    + exists m2, (p ++ y :: q ++ x :: r). split; auto. split; auto. split; auto. apply perm_swap2.
    + assert (g <= i)%nat by nia. rewrite lop_ok, bind_Ok.
      2:{ unfold LONG_MAX, LONG_MIN in *. revert HL. unfold zlen. intro. nia. }
      replace (w * Z.of_nat i - w * Z.of_nat g) with (w * Z.of_nat (i - g)) by (rewrite Nat2Z.inj_sub by lia; lia).
      assert (EL : length (p ++ y :: q ++ x :: r) = length (p ++ x :: q ++ y :: r))
        by (rewrite !app_length; cbn; rewrite !app_length; cbn; lia).
      destruct (IH m2 _ (i - g)%nat A2) as (m3 & arr3 & E3 & A3 & P3 & S3); unfold zlen in *; rewrite ?EL in *; try lia.
      exists m3, arr3. split; auto. split; auto. split.
      * transitivity (p ++ y :: q ++ x :: r); auto. apply perm_swap2.
      * eapply same_outside_trans; eauto.
Qed.
Lemma pass_perm g fuel : (0 < g)%nat -> forall n m arr i, array_at m base w arr -> (g <= i)%nat ->
  w * zlen arr + w * Z.of_nat g + w <= LONG_MAX -> (length arr - i < n)%nat -> (length arr < fuel)%nat ->
  exists m' arr', pass comp n fuel m base w (w * Z.of_nat g) (w * zlen arr) (w * Z.of_nat i) = Ok m' /\ array_at m' base w arr'
    /\ Permutation arr arr' /\ same_outside m m' base (w * zlen arr).
Proof.
  intro Hg. induction n as [|n IH]; intros m arr i A Hi HL Hn Hf; cbn [pass]; [lia|].
  destruct (Z.ltb_spec (w * Z.of_nat i) (w * zlen arr)) as [Hlt|Hge].
  - assert (i < length arr)%nat by (unfold zlen in Hlt; nia).
    assert (0 <= w * Z.of_nat i <= w * zlen arr) by nia. assert (0 <= w * Z.of_nat g <= w * Z.of_nat i) by nia.
    rewrite lop_ok, bind_Ok by (unfold LONG_MIN, LONG_MAX in *; lia).
    replace (w * Z.of_nat i - w * Z.of_nat g) with (w * Z.of_nat (i - g)) by (rewrite Nat2Z.inj_sub by lia; lia).
    destruct (sift_perm g fuel Hg m arr (i - g)%nat A) as (m2 & arr2 & E & A2 & P2 & S2); try lia.
    rewrite E, bind_Ok, lop_ok, bind_Ok by (unfold LONG_MIN, LONG_MAX in *; lia).
    replace (w * Z.of_nat i + w) with (w * Z.of_nat (S i)) by lia.
    pose proof (Permutation_length P2) as PL. assert (ZL : zlen arr2 = zlen arr) by (unfold zlen; lia).
    destruct (IH m2 arr2 (S i) A2) as (m3 & arr3 & E3 & A3 & P3 & S3); rewrite ?ZL in *; try lia.
    exists m3, arr3. split; auto. split; auto. split; [now transitivity arr2|]. eapply same_outside_trans; eauto.
  - exists m, arr. split; auto. split; auto. split; auto. apply same_outside_refl.
Qed.

(* gap 1: insertion from the right end; lists of the sorted part are reversed *)
Fixpoint ins (rl : list (list Z)) (x : list Z) : list (list Z) :=
  match rl with [] => [x] | y :: t => if comp y x <=? 0 then x :: y :: t else y :: ins t x end.
Lemma ins_perm rl x : Permutation (ins rl x) (x :: rl).
Proof.
  induction rl as [|y t IH]; cbn [ins]; auto. destruct (comp y x <=? 0); auto.
  rewrite IH. apply perm_swap.
Qed.
Lemma sift_ins fuel : forall rl y x r m, array_at m base w (rev rl ++ y :: x :: r) ->
  w * zlen (rev rl ++ y :: x :: r) <= LONG_MAX -> (length rl < fuel)%nat ->
  exists m', sift comp fuel m base w (w * 1) (w * zlen rl) = Ok m' /\ array_at m' base w (rev (ins (y :: rl) x) ++ r)
    /\ same_outside m m' base (w * zlen (rev rl ++ y :: x :: r)).
Proof.
  induction fuel as [|k IH]; intros rl y x r m A HL Hf; [lia|]. cbn [sift ins]. nneg rl.
  replace (w * zlen rl + base) with (base + w * zlen (rev rl)) by (rewrite zlen_rev; lia).
  replace (base + w * zlen (rev rl) + w * 1) with (base + w * (zlen (rev rl) + 1 + zlen (@nil (list Z)))) by (zl; lia).
  rewrite (call_comp_ok m (rev rl) y [] x r A), bind_Ok. destruct (Z.leb_spec (comp y x) 0).
  - exists m. split; auto. cbn [rev]. rewrite <- !app_assoc. cbn [app]. split; auto. apply same_outside_refl.
  - destruct (array_swap m base w (rev rl) y [] x r Hw A) as (m2 & E & A2 & S). rewrite E, bind_Ok. cbn [app] in A2, S.
    destruct rl as [|z t].
    + destruct (Z.ltb_spec (w * zlen (@nil (list Z))) (w * 1)) as [_|C]; [|exfalso; revert C; zl; lia].
      exists m2. split; auto.
    + revert HL. zl. nneg t. intro HL. destruct (Z.ltb_spec (w * (zlen t + 1)) (w * 1)) as [C|_]; [nia|].
      rewrite zlen_rev in HL. revert HL. zl. nneg r. intro HL.
      rewrite lop_ok, bind_Ok by (unfold LONG_MAX, LONG_MIN in *; nia).
      replace (w * (zlen t + 1) - w * 1) with (w * zlen t) by lia.
      destruct (IH t z x (y :: r) m2) as (m3 & E3 & A3 & S3).
      * cbn [rev] in A2. rewrite <- app_assoc in A2. exact A2.
      * zl. rewrite zlen_rev. lia.
      * cbn in Hf. lia.
      * exists m3. split; auto. split.
        { cbn [rev]. rewrite <- app_assoc. exact A3. }
        { eapply same_outside_trans; [exact S|]. revert S3. zl. rewrite !zlen_rev. zl.
          replace (zlen t + (zlen r + 1 + 1 + 1)) with (zlen t + 1 + (zlen r + 1 + 1)) by lia. auto. }
Qed.

(* the reversed part is in decreasing order *)
Definition desc (rl : list (list Z)) : Prop := ForallOrdPairs (fun a b => comp b a <= 0) rl.
Lemma ins_desc rl x : total_preorder comp (x :: rl) -> desc rl -> desc (ins rl x).
Proof.
  intros [T1 T2] D. unfold desc in *. induction D as [|y t Hy D IH]; cbn [ins].
  - repeat constructor.
  - assert (IH' : ForallOrdPairs (fun a b => comp b a <= 0) (ins t x)).
    { apply IH.
      - intros a b Ha Hb. apply T1; cbn in *; tauto.
      - intros a b c Ha Hb Hc. apply T2; cbn in *; tauto. }
    destruct (Z.leb_spec (comp y x) 0) as [C|C].
    + constructor; [|now constructor]. constructor; auto. rewrite Forall_forall in *. intros b Hb.
      apply (T2 b y x); cbn; auto.
    + constructor; auto. rewrite Forall_forall in *. intros b Hb.
      apply (Permutation_in _ (ins_perm t x)) in Hb. destruct Hb as [<-|Hb]; auto.
      destruct (T1 x y); cbn; auto. lia.
Qed.
Lemma desc_sorted rl : desc rl -> sorted comp (rev rl).
Proof.
  intros D. unfold desc in D. induction D as [|y t Hy D IH]; cbn [rev].
  - intros i j a b _ H. destruct i; discriminate.
  - intros i j a b Hij Ha Hb. assert (j < length (rev t ++ [y]))%nat by (apply nth_error_Some; congruence).
    rewrite app_length in H. cbn in H. destruct (Nat.eq_dec j (length (rev t))) as [->|].
    + rewrite nth_error_app2, Nat.sub_diag in Hb by lia. cbn in Hb. inversion Hb; subst.
      rewrite nth_error_app1 in Ha by lia. apply nth_error_In in Ha. apply in_rev in Ha. rewrite Forall_forall in Hy. apply Hy, Ha.
    + rewrite nth_error_app1 in Ha, Hb by lia. apply (IH i j); auto.
Qed.
Lemma preorder_sub l l' : total_preorder comp l -> incl l' l -> total_preorder comp l'.
Proof. intros [T1 T2] I. split; [intros; apply T1; auto|intros x y z Hx Hy Hz A B; apply (T2 x y z); auto]. Qed.

Lemma pass_sort fuel : forall n m rl r, array_at m base w (rev rl ++ r) -> rl <> [] ->
  w * zlen (rev rl ++ r) + w <= LONG_MAX -> (length r < n)%nat -> (length (rev rl ++ r) < fuel)%nat ->
  exists m' rl', pass comp n fuel m base w (w * 1) (w * zlen (rev rl ++ r)) (w * zlen rl) = Ok m' /\ array_at m' base w (rev rl')
    /\ Permutation (rev rl ++ r) (rev rl') /\ same_outside m m' base (w * zlen (rev rl ++ r))
    /\ (total_preorder comp (rev rl ++ r) -> desc rl -> desc rl').
Proof.
  induction n as [|n IH]; intros m rl r A Hne HL Hn Hf; cbn [pass]; [lia|].
  destruct r as [|x r].
  - rewrite app_nil_r in *. rewrite zlen_rev. destruct (Z.ltb_spec (w * zlen rl) (w * zlen rl)); [lia|].
    exists m, rl. split; auto. split; auto. split; auto. split; auto. apply same_outside_refl.
  - destruct rl as [|y t]; [congruence|]. clear Hne.
    assert (ZL : zlen (rev (y :: t) ++ x :: r) = zlen t + 1 + (zlen r + 1)) by (zl; rewrite zlen_rev; zl; lia).
    rewrite ZL in *. nneg t. nneg r. zl. assert (0 <= w * zlen t) by nia. assert (0 <= w * zlen r) by nia.
    destruct (Z.ltb_spec (w * (zlen t + 1)) (w * (zlen t + 1 + (zlen r + 1)))) as [_|C]; [|nia].
    rewrite lop_ok, bind_Ok by (unfold LONG_MAX, LONG_MIN in *; nia).
    replace (w * (zlen t + 1) - w * 1) with (w * zlen t) by lia.
    assert (A' : array_at m base w (rev t ++ y :: x :: r)) by (cbn [rev] in A; rewrite <- app_assoc in A; exact A).
    assert (ZL' : zlen (rev t ++ y :: x :: r) = zlen t + 1 + (zlen r + 1)) by (zl; rewrite zlen_rev; lia).
    destruct (sift_ins fuel t y x r m A') as (m2 & E & A2 & S).
    { rewrite ZL'. unfold LONG_MAX in *; nia. }
    { rewrite app_length, rev_length in Hf. cbn in Hf. lia. }
    rewrite E, bind_Ok. rewrite lop_ok, bind_Ok by (unfold LONG_MAX, LONG_MIN in *; nia).
    pose proof (ins_perm (y :: t) x) as PI. pose proof (Permutation_length PI) as PL. cbn [length] in PL.
    assert (PA : Permutation (rev (y :: t) ++ x :: r) (rev (ins (y :: t) x) ++ r)).
    { rewrite <- Permutation_middle. rewrite <- !Permutation_rev. rewrite PI. reflexivity. }
    assert (ZL2 : zlen (rev (ins (y :: t) x) ++ r) = zlen t + 1 + (zlen r + 1)).
    { rewrite zlen_app, zlen_rev. unfold zlen. rewrite PL. lia. }
    destruct (IH m2 (ins (y :: t) x) r A2) as (m3 & rl3 & E3 & A3 & P3 & S3 & D3).
    + destruct (ins (y :: t) x); [cbn in PL; lia|congruence].
    + rewrite ZL2. lia.
    + cbn in Hn. lia.
    + rewrite <- (Permutation_length PA). auto.
    + rewrite ZL2 in *. exists m3, rl3. split; [|split; [auto|split]].
      * rewrite <- E3. f_equal. unfold zlen. rewrite PL. lia.
      * now rewrite PA.
      * rewrite ZL' in S. split; [eapply same_outside_trans; eauto|].
        intros T D. apply D3.
        { eapply preorder_sub; eauto. intros e He. eapply Permutation_in; [symmetry; exact PA|auto]. }
        { apply ins_desc; auto. eapply preorder_sub; eauto. intros e He. apply in_or_app.
          rewrite <- in_rev. destruct He as [<-|He]; cbn; auto.  }
Qed.

(* the gaps *)
Fixpoint G (k : nat) : Z := match k with O => 0 | S k => 3 * G k + 1 end.
Lemma G_ge k : Z.of_nat k <= G k. Proof. induction k; cbn [G]; lia. Qed.
Lemma G_quot k : Z.quot (G (S k)) 3 = G k.
Proof. pose proof (G_ge k). cbn [G]. rewrite Z.quot_div_nonneg by lia. lia. Qed.
Lemma gap_up_ok nel fuel : 0 <= nel -> 3 * nel + 1 <= LONG_MAX -> forall k, nel - G k < Z.of_nat fuel -> (0 < fuel)%nat -> (k = O \/ G k < nel) ->
  exists k', (k <= k')%nat /\ gap_up fuel nel (3 * G k) = Ok (G (S k')) /\ (G (S k) < nel -> (k < k')%nat) /\ (k' = O \/ G k' < nel).
Proof.
  intros Hn HL. induction fuel as [|f IH]; intros k Hf Hp Hk; [lia|]. cbn [gap_up]. pose proof (G_ge k).
  rewrite lop_ok, bind_Ok by (unfold LONG_MAX, LONG_MIN in *; destruct Hk; subst; cbn [G] in *; lia).
  change (3 * G k + 1) with (G (S k)). destruct (Z.ltb_spec (G (S k)) nel).
  - rewrite lop_ok, bind_Ok by (unfold LONG_MAX, LONG_MIN in *; cbn [G] in *; lia). rewrite (Z.mul_comm _ 3).
    destruct (IH (S k)) as (k' & H1 & H2 & H3 & H4); [cbn [G] in *; lia|cbn [G] in *; lia|auto|].
    exists k'. split; [lia|]. split; auto.
  - exists k. split; auto. split; auto. split; [lia|auto].
Qed.

Lemma passes_ok fuel : forall g k m arr, array_at m base w arr -> (k < g)%nat -> (k = O \/ G k < zlen arr) ->
  w * zlen arr + w * zlen arr + w <= LONG_MAX -> (length arr < fuel)%nat ->
  exists m' arr', passes comp g fuel m base w (w * zlen arr) (G (S k)) = Ok m' /\ array_at m' base w arr'
    /\ Permutation arr arr' /\ same_outside m m' base (w * zlen arr)
    /\ (k <> O -> total_preorder comp arr -> sorted comp arr').
Proof.
  induction g as [|g IH]; intros k m arr A Hg Hk HL Hf; [lia|]. cbn [passes]. rewrite G_quot.
  destruct k as [|k].
  - change (G 0 =? 0) with true. cbv iota. exists m, arr. split; auto. split; auto. split; auto. split; [apply same_outside_refl|]. congruence.
  - destruct Hk as [Hk|Hk]; [discriminate|]. pose proof (G_ge (S k)). destruct (Z.eqb_spec (G (S k)) 0); [lia|].
    assert (0 < w * G (S k) < w * zlen arr) by nia.
    rewrite lop_ok, bind_Ok by (unfold LONG_MAX, LONG_MIN in *; lia).
    destruct k as [|k].
    + change (G 1) with 1 in *. destruct arr as [|x [|y r]]; [revert Hk; zl; lia|revert Hk; zl; lia|].
      destruct (pass_sort fuel fuel m [x] (y :: r)) as (m2 & rl2 & E & A2 & P2 & S2 & D2); auto.
      { congruence. } { cbn [rev app]. lia. } { cbn in Hf |- *. lia. }
      cbn [rev app] in *. change (zlen [x]) with 1 in E. rewrite E, bind_Ok.
      destruct g as [|g]; [lia|]. cbn [passes]. change (1 ÷ 3 =? 0) with true. cbv iota.
      exists m2, (rev rl2). split; auto. split; auto. split; auto. split; auto. intros _ T.
      apply desc_sorted, D2; auto. unfold desc. repeat constructor.
    + set (gn := Z.to_nat (G (S (S k)))). assert (Eg : G (S (S k)) = Z.of_nat gn) by (unfold gn; lia).
      destruct (pass_perm gn fuel ltac:(lia) fuel m arr gn A) as (m2 & arr2 & E & A2 & P2 & S2); try lia.
      rewrite Eg, E, bind_Ok, <- Eg. pose proof (Permutation_length P2) as PL.
      assert (ZL : zlen arr2 = zlen arr) by (unfold zlen; lia).
      destruct (IH (S k) m2 arr2 A2) as (m3 & arr3 & E3 & A3 & P3 & S3 & D3); rewrite ?ZL in *; try lia.
      { right. pose proof (G_ge (S k)). cbn [G] in *. lia. }
      exists m3, arr3. split; auto. split; auto. split; [now transitivity arr2|]. split; [eapply same_outside_trans; eauto|].
      intros _ T. apply D3; auto. eapply preorder_sub; eauto. intros e He. eapply Permutation_in; [symmetry; exact P2|auto].
Qed.

Lemma qsort_ok fuel m arr : array_at m base w arr -> 2 * (w * zlen arr) + w <= LONG_MAX -> 3 * zlen arr + 1 <= LONG_MAX ->
  (length arr + 1 < fuel)%nat ->
  exists m' arr', qsort comp fuel m base (zlen arr) w = Ok m' /\ array_at m' base w arr'
    /\ Permutation arr arr' /\ same_outside m m' base (w * zlen arr) /\ (total_preorder comp arr -> sorted comp arr').
Proof.
  intros A HL HL3 Hf. nneg arr. unfold qsort. rewrite lop_ok, bind_Ok by (unfold LONG_MAX, LONG_MIN in *; nia).
  destruct (gap_up_ok (zlen arr) fuel) with (k := O) as (k & _ & E & H2 & H3); auto; try (unfold zlen; cbn [G]; lia).
  change (3 * G 0) with 0 in E. rewrite E, bind_Ok.
  assert (Hk : (k < fuel)%nat). { destruct H3 as [->|H3]; [lia|]. pose proof (G_ge k). unfold zlen in *. lia. }
  destruct (passes_ok fuel fuel k m arr A Hk H3) as (m2 & arr2 & E2 & A2 & P2 & S2 & D2); try lia.
  exists m2, arr2. split; auto. split; auto. split; auto. split; auto. intro T. destruct k as [|k].
  - cbn [G] in H2. assert (zlen arr <= 1) by (destruct (Z.ltb_spec (3 * 0 + 1) (zlen arr)); lia).
    pose proof (Permutation_length P2). intros i j x y Hij Hx Hy.
    assert (j < length arr2)%nat by (apply nth_error_Some; congruence). unfold zlen in *. lia.
  - apply D2; auto.
Qed.
End sort.

(* ---- bsearch ---- *)
Section search.
Variable cmpk : list Z -> Z.
Variables base w : Z.
Hypothesis Hw : 0 < w.

Lemma bsearch_ok m fuel : forall p t s, array_at m base w (p ++ t ++ s) -> w * zlen (p ++ t ++ s) <= LONG_MAX -> zlen (p ++ t ++ s) <= LONG_MAX ->
  Forall (fun e => 0 < cmpk e) p -> Forall (fun e => cmpk e < 0) s -> partitioned cmpk t -> (length t < fuel)%nat ->
  exists r, bsearch_loop cmpk fuel m (base + w * zlen p) (zlen t) w = Ok r /\
   ((exists i e, nth_error (p ++ t ++ s) i = Some e /\ cmpk e = 0 /\ r = base + w * Z.of_nat i)
    \/ (r = 0 /\ Forall (fun e => cmpk e <> 0) (p ++ t ++ s))).
Proof.
  induction fuel as [|k IH]; intros p t s A HL HL2 Fp Fs Pt Hf; [lia|]. cbn [bsearch_loop].
  destruct (Z.eqb_spec (zlen t) 0) as [E0|N0].
  - exists 0. split; auto. right. split; auto. destruct t; [|revert E0; zl; nneg t; lia]. cbn [app].
    apply Forall_app. split; [eapply Forall_impl; [|exact Fp]|eapply Forall_impl; [|exact Fs]]; cbn; intros; lia.
  - nneg t. nneg p. nneg s. assert (0 <= w * zlen t) by nia. assert (0 <= w * zlen p) by nia. assert (0 <= w * zlen s) by nia.
    rewrite !Z.shiftr_div_pow2 by lia. change (2 ^ 1) with 2.
    set (h := zlen t / 2). assert (Hh : 0 <= h < zlen t) by (unfold h; lia).
    destruct (nth_error t (Z.to_nat h)) as [e|] eqn:En; [|apply nth_error_None in En; unfold zlen in *; lia].
    apply nth_error_split in En as (a & b & Et & La). assert (Za : zlen a = h) by (unfold zlen; lia).
    assert (Zb : zlen t = h + 1 + zlen b) by (rewrite Et; zl; lia). nneg b.
    revert HL HL2. zl. intros HL HL2.
    rewrite lop_ok, bind_Ok by (unfold LONG_MAX, LONG_MIN in *; nia).
    assert (Sp : p ++ t ++ s = (p ++ a) ++ e :: b ++ s) by (rewrite Et; now rewrite <- !app_assoc).
    rewrite Sp in *. pose proof A as A0. apply array_split in A as (_ & Be & Le & _). revert Be. zl. rewrite Za. intro Be.
    replace (base + w * zlen p + h * w) with (base + w * (zlen p + h)) by lia.
    replace (Z.to_nat w) with (length e) by (unfold zlen in *; lia).
    rewrite (loads_ok m e _ Be), bind_Ok.
    destruct (Z.eqb_spec (cmpk e) 0) as [Ez|Ez].
    + exists (base + w * (zlen p + h)). split; auto. left. exists (length (p ++ a)), e.
      rewrite nth_error_app2, Nat.sub_diag by lia. split; auto. split; auto. rewrite app_length. unfold zlen in *. lia.
    + destruct (Z.ltb_spec 0 (cmpk e)) as [Hpos|Hneg].
      * rewrite lop_ok, bind_Ok by (unfold LONG_MAX, LONG_MIN in *; lia). rewrite Z.shiftr_div_pow2 by lia. change (2 ^ 1) with 2.
        assert (A1 : (p ++ a) ++ e :: b ++ s = (p ++ a ++ [e]) ++ b ++ s) by (rewrite <- !app_assoc; reflexivity).
        rewrite A1 in *.
        destruct (IH (p ++ a ++ [e]) b s) as (r & E & R); auto.
        -- zl. nia.
        -- zl. lia.
        -- rewrite !Forall_app. split; auto. split; [|constructor; auto].
           apply Forall_forall. intros x Hx. apply In_nth_error in Hx as (i & Hi).
           assert (i < length a)%nat by (apply nth_error_Some; congruence).
           specialize (Pt i (length a) x e). rewrite Et in Pt.
           rewrite nth_error_app1, nth_error_app2, Nat.sub_diag in Pt by lia. specialize (Pt ltac:(lia) Hi eq_refl).
           rewrite (Z.sgn_pos (cmpk e)) in Pt by lia. destruct (Z.sgn_spec (cmpk x)) as [?|[?|?]]; lia.
        -- intros i j x y Hij Hx Hy. specialize (Pt (length a + 1 + i)%nat (length a + 1 + j)%nat x y). rewrite Et in Pt.
           rewrite !nth_error_app2 in Pt by lia. replace (length a + 1 + i - length a)%nat with (S i) in Pt by lia.
           replace (length a + 1 + j - length a)%nat with (S j) in Pt by lia. cbn [nth_error] in Pt. apply Pt; auto; lia.
        -- rewrite Et, app_length in Hf. cbn in Hf. lia.
        -- exists r. split; auto. rewrite <- E. f_equal; [zl; lia|]. unfold h in *. lia.
      * assert (A1 : (p ++ a) ++ e :: b ++ s = p ++ a ++ e :: b ++ s) by (rewrite <- !app_assoc; reflexivity).
        rewrite A1 in *.
        destruct (IH p a (e :: b ++ s)) as (r & E & R); auto.
        -- zl. nia.
        -- zl. lia.
        -- constructor; [lia|]. apply Forall_app. split; auto.
           apply Forall_forall. intros x Hx. apply In_nth_error in Hx as (i & Hi).
           specialize (Pt (length a) (length a + 1 + i)%nat e x). rewrite Et in Pt.
           rewrite !nth_error_app2, Nat.sub_diag in Pt by lia. replace (length a + 1 + i - length a)%nat with (S i) in Pt by lia.
           specialize (Pt ltac:(lia) eq_refl Hi). rewrite (Z.sgn_neg (cmpk e)) in Pt by lia. destruct (Z.sgn_spec (cmpk x)) as [?|[?|?]]; lia.
        -- intros i j x y Hij Hx Hy. specialize (Pt i j x y). rewrite Et in Pt.
           assert (j < length a)%nat by (apply nth_error_Some; congruence).
           rewrite !nth_error_app1 in Pt by lia. auto.
        -- rewrite Et, app_length in Hf. cbn in Hf. lia.
        -- exists r. split; auto. rewrite <- E. f_equal. unfold h in *. lia.
Qed.
End search.
