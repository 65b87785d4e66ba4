(* Proofs about the insertion sort, ks_combsort, ks_introsort and ks_shuffle
   of contrib/ksort.h. *)
From Verif Require Import Base BaseLemmas KsortModel KsortSpec KsortProofs KsortProofs3.

Section rest.
Context {A : Type}.
Variable lt : A -> A -> bool.
Hypothesis SW : strict_weak lt.
Implicit Types a b : arr A.
Local Notation le := (le lt).

Lemma inner_eq n s : 0 <= s -> n < 18446744073709551616 -> forall f a j, j < n -> is_inner lt f n a s j = q_ins_inner lt f n a s j.
Proof.
  intros Hs Hn. induction f as [|f IH]; intros a j Hj; [reflexivity|]. cbn [is_inner q_ins_inner].
  destruct (Z.ltb_spec s j) as [L|L]; [|reflexivity]. rewrite u64_id by lia. unfold bind at 1 3.
  destruct (less lt n a j (j - 1)) as [[|]| |]; try reflexivity. unfold bind at 1 2. destruct (swap n a j (j - 1)) as [a1| |]; try reflexivity.
  apply IH. lia.
Qed.
Lemma is_loop_ok n s t g : n < 18446744073709551616 -> 0 <= s -> t <= n -> (Z.to_nat (t - s) < g)%nat ->
  forall f a i, s < i -> (Z.to_nat (t - i) < f)%nat -> ord lt s (i - 1) a ->
  exists b, is_loop lt f g n a s t i = Ok b /\ moved s (t - 1) a b /\ ord lt s (t - 1) b.
Proof.
  intros Hn Hs Ht Hg. induction f as [|f IH]; intros a i Hi Hf O; [lia|]. cbn [is_loop]. destruct (Z.ltb_spec i t) as [L|L].
  - rewrite inner_eq by lia. destruct (ins_inner_ok lt SW n s i Hn Hs ltac:(lia) g a i) as (b & R & M & O'); [lia|lia|exact O| | |].
    { intros x y Hx Hy. lia. }
    { intros x y Hx Hy. lia. }
    rewrite R, bind_Ok. destruct (IH b (i + 1)) as (b' & R' & M' & O''); try lia.
    { replace (i + 1 - 1) with i by lia. exact O'. }
    exists b'. split; [exact R'|]. split; [|exact O'']. eapply moved_trans; [|exact M']. apply (moved_sub _ _ _ _ _ _ M); lia.
  - exists a. split; [reflexivity|]. split; [apply moved_refl|]. intros x y Hx Hy. apply O; lia.
Qed.
Lemma insertsort_ok f n a s t : n < 18446744073709551616 -> 0 <= s -> t <= n -> (Z.to_nat (t - s) < f)%nat ->
  exists b, insertsort lt f n a s t = Ok b /\ moved s (t - 1) a b /\ ord lt s (t - 1) b.
Proof.
  intros Hn Hs Ht Hf. unfold insertsort. apply is_loop_ok; try lia. intros x y Hx Hy. lia.
Qed.

(* ---- a measure that grows with every swap of an inversion ---- *)
Section measure.
Variable L0 : list A.
Definition rank (x : A) : Z := zlen (filter (fun y => lt y x) L0).
Lemma rank_bounds x : 0 <= rank x <= zlen L0.
Proof. unfold rank. pose proof (filter_le (fun y => lt y x) L0). unfold zlen. lia. Qed.
Lemma filter_mono (P Q : A -> bool) : (forall x, P x = true -> Q x = true) -> forall l,
  (length (filter P l) <= length (filter Q l))%nat /\ forall x, In x l -> P x = false -> Q x = true -> (length (filter P l) < length (filter Q l))%nat.
Proof.
  intros H. induction l as [|y l [IH1 IH2]]; [split; [auto|intros x []]|]. cbn [filter]. destruct (P y) eqn:E.
  - rewrite (H y E). cbn [length]. split; [lia|]. intros x [->|I] F T; [congruence|]. specialize (IH2 x I F T). lia.
  - split; [destruct (Q y); cbn [length]; lia|]. intros x [->|I] F T; [rewrite T; cbn [length]; lia|]. specialize (IH2 x I F T).
    destruct (Q y); cbn [length]; lia.
Qed.
Lemma rank_lt x y : In x L0 -> lt x y = true -> rank x < rank y.
Proof.
  intros I H. unfold rank, zlen. apply inj_lt.
  apply (filter_mono (fun z => lt z x) (fun z => lt z y)) with (x := x); auto; [|apply (le_refl lt SW x)].
  intros z Hz. destruct (lt z y) eqn:E; [reflexivity|]. apply (lt_le lt SW) in Hz.
  assert (W : le y x) by (apply (le_trans lt SW) with z; [exact E|exact Hz]). unfold KsortProofs.le in W. congruence.
Qed.
(* sum over the indices l, ..., l + k - 1 *)
Fixpoint pot (l : Z) (k : nat) a : Z := match k with O => 0 | S k => l * rank (a l) + pot (l + 1) k a end.
Lemma pot_bounds : forall k l a, 0 <= l -> 0 <= pot l k a <= Z.of_nat k * ((l + Z.of_nat k) * zlen L0).
Proof.
  induction k as [|k IH]; intros l a Hl; [cbn; lia|]. cbn [pot]. specialize (IH (l + 1) a ltac:(lia)).
  pose proof (rank_bounds (a l)) as R. rewrite Nat2Z.inj_succ. replace (l + 1 + Z.of_nat k) with (l + Z.succ (Z.of_nat k)) in IH by lia.
  set (w := (l + Z.succ (Z.of_nat k)) * zlen L0) in *. assert (0 <= l * rank (a l) <= w); [|nia].
  split; [apply Z.mul_nonneg_nonneg; lia|]. unfold w. apply Z.mul_le_mono_nonneg; lia.
Qed.
Lemma pot_ext : forall k l a b, (forall x, l <= x < l + Z.of_nat k -> a x = b x) -> pot l k a = pot l k b.
Proof. induction k as [|k IH]; intros l a b H; [reflexivity|]. cbn [pot]. rewrite (H l) by lia. f_equal. apply IH. intros; apply H; lia. Qed.
Lemma pot_one : forall k l a b i, l <= i < l + Z.of_nat k -> (forall x, x <> i -> b x = a x) -> pot l k b = pot l k a + i * (rank (b i) - rank (a i)).
Proof.
  induction k as [|k IH]; intros l a b i Hi H; [lia|]. cbn [pot]. destruct (Z.eq_dec i l) as [->|N].
  - rewrite (pot_ext k (l + 1) b a) by (intros; apply H; lia). lia.
  - rewrite (H l) by lia. rewrite (IH (l + 1) a b i) by (auto; lia). lia.
Qed.
Lemma pot_swap l k a i j : l <= i -> i < j -> j < l + Z.of_nat k -> In (a j) L0 -> lt (a j) (a i) = true -> pot l k a < pot l k (swp a i j).
Proof.
  intros Hi Hij Hj I H. set (m := fun x => if x =? i then a j else a x).
  rewrite (pot_one k l m (swp a i j) j) by first [lia | intros x Hx; unfold m, swp; destruct (Z.eqb_spec x j); [lia|reflexivity]].
  rewrite (pot_one k l a m i) by first [lia | intros x Hx; unfold m; destruct (Z.eqb_spec x i); [lia|reflexivity]].
  rewrite swp_r. unfold m at 1. rewrite Z.eqb_refl. unfold m. destruct (Z.eqb_spec j i); [lia|].
  pose proof (rank_lt (a j) (a i) I H). nia.
Qed.
End measure.

(* ---- ks_combsort ---- *)
Lemma pass_ok L0 n s c gap : 0 <= s -> s + c <= n -> 0 <= gap -> (1 <= gap \/ c <= 0) ->
  forall f a i sw, s <= i -> (Z.to_nat (s + c - i) < f)%nat -> (forall x, s <= x < s + c -> In (a x) L0) ->
  exists b sw', cs_pass lt f n a gap (s + c - gap) i sw = Ok (b, sw') /\ moved s (s + c - 1) a b /\
    pot L0 0 (Z.to_nat n) a <= pot L0 0 (Z.to_nat n) b /\ (sw = false -> sw' = true -> pot L0 0 (Z.to_nat n) a < pot L0 0 (Z.to_nat n) b).
Proof.
  intros Hs Hc Hg Hg1. induction f as [|f IH]; intros a i sw Hi Hf HL; [lia|]. cbn [cs_pass]. destruct (Z.ltb_spec i (s + c - gap)) as [L|L].
  - rewrite less_ok, bind_Ok by lia. destruct (lt (a (i + gap)) (a i)) eqn:E.
    + rewrite swap_ok, bind_Ok by lia. assert (M0 : moved s (s + c - 1) a (swp a i (i + gap))) by (apply moved_swp; lia).
      destruct (IH (swp a i (i + gap)) (i + 1) true) as (b & sw' & R & M & P1 & P2); try lia.
      { intros x Hx. destruct (moved_in _ _ _ _ x M0) as (y & Hy & ->); [lia|]. apply HL. lia. }
      assert (P : pot L0 0 (Z.to_nat n) a < pot L0 0 (Z.to_nat n) (swp a i (i + gap))) by (apply pot_swap; auto; try lia; apply HL; lia).
      exists b, sw'. split; [exact R|]. split; [eapply moved_trans; eassumption|]. split; lia.
    + apply IH; auto; lia.
  - exists a, sw. split; [reflexivity|]. split; [apply moved_refl|]. split; [lia|]. intros; congruence.
Qed.

Lemma csloop_ok sh L0 n s c g : shrinks sh -> n < 18446744073709551616 -> 0 <= s -> 0 <= c -> s + c <= n -> (Z.to_nat c < g)%nat ->
  forall f a gap, 0 <= gap <= Z.max c 2 -> (gap <= 2 -> gap = c \/ gap = 2) ->
  (Z.to_nat (gap + (Z.of_nat (Z.to_nat n) * ((0 + Z.of_nat (Z.to_nat n)) * zlen L0) - pot L0 0 (Z.to_nat n) a)) < f)%nat ->
  (forall x, s <= x < s + c -> In (a x) L0) ->
  exists b, cs_loop lt sh f g n a s c gap = Ok b /\ moved s (s + c - 1) a b /\ ord lt s (s + c - 1) b.
Proof.
  intros SH Hn Hs Hc Hsc Hg. induction f as [|f IH]; intros a gap Hgap Hsm Hf HL; [lia|]. cbn [cs_loop].
  set (gap1 := if 2 <? gap then _ else gap).
  assert (G : 0 <= gap1 <= gap /\ (1 <= gap1 \/ c <= 0) /\ (2 < gap -> gap1 < gap) /\ (gap1 <= 2 -> gap1 = c \/ gap1 = 2)).
  { unfold gap1. destruct (Z.ltb_spec 2 gap) as [L|L]; [|lia]. destruct (SH gap L) as [S1 S2]. cbv zeta.
    destruct (Z.eqb_spec (sh gap) 9); [|destruct (Z.eqb_spec (sh gap) 10)]; cbn [orb]; lia. }
  clearbody gap1. destruct G as (G1 & G2 & G3 & G4).
  destruct (pass_ok L0 n s c gap1 Hs Hsc ltac:(lia) G2 g a s false) as (b & sw & R & M & P1 & P2); try lia; auto.
  rewrite R, bind_Ok. pose proof (pot_bounds L0 (Z.to_nat n) 0 b ltac:(lia)) as PB.
  assert (HL' : forall x, s <= x < s + c -> In (b x) L0).
  { intros x Hx. destruct (moved_in _ _ _ _ x M) as (y & Hy & ->); [lia|]. apply HL. lia. }
  destruct (sw || (2 <? gap1)) eqn:E.
  - destruct (IH b gap1) as (b' & R' & M' & O'); auto; try lia.
    + destruct sw; [specialize (P2 eq_refl eq_refl); lia|]. destruct (Z.ltb_spec 2 gap1); [lia|discriminate].
    + exists b'. split; [exact R'|]. split; [|exact O']. eapply moved_trans; eassumption.
  - apply orb_false_iff in E as [E1 E2]. destruct (Z.eqb_spec gap1 1) as [E3|N].
    + exists b. split; [reflexivity|]. split; [exact M|]. intros x y Hx Hy. lia.
    + destruct (insertsort_ok g n b s (s + c)) as (b' & R' & M' & O'); try lia.
      exists b'. split; [exact R'|]. split; [|exact O']. eapply moved_trans; eassumption.
Qed.

(* rounds that are enough for n elements *)
Definition rounds (n : Z) : nat := Z.to_nat (n + 3 + n * (n * n)).

Lemma combsort_ok sh f n a s c : shrinks sh -> n < 18446744073709551616 -> 0 <= s -> 0 <= c -> s + c <= n -> (rounds n <= f)%nat ->
  exists b, combsort lt sh f n a s c = Ok b /\ moved s (s + c - 1) a b /\ ord lt s (s + c - 1) b.
Proof.
  intros SH Hn Hs Hc Hsc Hf. unfold combsort.
  assert (N3 : 0 <= n * (n * n)) by (repeat apply Z.mul_nonneg_nonneg; lia).
  apply (csloop_ok sh (elems a 0 (Z.to_nat n))); auto; unfold rounds in Hf; try lia.
  - pose proof (pot_bounds (elems a 0 (Z.to_nat n)) (Z.to_nat n) 0 a ltac:(lia)) as PB.
    unfold zlen in *. rewrite elems_length in *. rewrite Z2Nat.id in * by lia. rewrite Z.add_0_l in *. lia.
  - intros x Hx. rewrite elems_map, map_map. apply in_map_iff. exists (Z.to_nat x). split; [f_equal; lia|]. apply in_seq. lia.
Qed.

(* ---- ks_introsort ---- *)
Lemma depth_exists n : 1 <= n <= 9223372036854775807 -> forall f d, 2 <= d <= 63 -> (Z.to_nat (63 - d) < f)%nat ->
  exists d', intro_depth f n d = Ok d' /\ d <= d' <= 63 /\ n <= 2 ^ d'.
Proof.
  intros Hn. induction f as [|f IH]; intros d Hd Hf; [lia|]. cbn [intro_depth]. destruct (Z.ltb_spec 63 d); [lia|].
  destruct (Z.ltb_spec (2 ^ d) n) as [L|L].
  - destruct (Z.eq_dec d 63) as [->|]; [exfalso; change (2 ^ 63) with 9223372036854775808 in L; lia|].
    destruct (IH (d + 1)) as (d' & R & B & P); try lia. exists d'. split; [exact R|]. split; lia.
  - exists d. split; [reflexivity|]. split; lia.
Qed.

Lemma iup_ok n a rp t : 0 <= t < n -> le rp (a t) -> forall f i, -1 <= i < t -> (Z.to_nat (t - i) < f)%nat ->
  exists i', intro_up lt f n a rp i = Ok i' /\ i < i' <= t.
Proof.
  intros Ht HL. induction f as [|f IH]; intros i Hi Hf; [lia|]. cbn [intro_up]. rewrite get_ok, bind_Ok by lia.
  destruct (lt (a (i + 1)) rp) eqn:E.
  - destruct (Z.eq_dec (i + 1) t) as [Et|N]; [rewrite Et in E; unfold KsortProofs.le in HL; congruence|].
    destruct (IH (i + 1)) as (i' & R & B); try lia. exists i'. split; [exact R|lia].
  - exists (i + 1). split; [reflexivity|lia].
Qed.
Lemma idown_ok n a rp i : 0 <= i -> forall f j, j <= n -> (Z.to_nat (j - i) < f)%nat ->
  exists j', intro_down lt f n a rp i j = Ok j' /\ j' < j.
Proof.
  intros Hi. induction f as [|f IH]; intros j Hj Hf; [lia|]. cbn [intro_down]. destruct (Z.leb_spec i (j - 1)) as [L|L].
  - rewrite get_ok, bind_Ok by lia. destruct (lt rp (a (j - 1))).
    + destruct (IH (j - 1)) as (j' & R & B); try lia. exists j'. split; [exact R|lia].
    + exists (j - 1). split; [reflexivity|lia].
  - exists (j - 1). split; [reflexivity|lia].
Qed.
Lemma ipart_ok n s t rp g : 0 <= s -> t < n -> (Z.to_nat (t - s + 1) < g)%nat -> forall f a i j, s <= i < t -> j <= t -> (Z.to_nat (t - i) < f)%nat ->
  le rp (a t) -> exists b i', intro_part lt f g n a rp i j = Ok (b, i') /\ moved s t a b /\ s < i' <= t.
Proof.
  intros Hs Ht Hg. induction f as [|f IH]; intros a i j Hi Hj Hf HL; [lia|]. cbn [intro_part].
  destruct (iup_ok n a rp t ltac:(lia) HL g i) as (i1 & R1 & B1); try lia. rewrite R1, bind_Ok.
  destruct (idown_ok n a rp i1 ltac:(lia) g j) as (j1 & R2 & B2); try lia. rewrite R2, bind_Ok.
  destruct (Z.leb_spec j1 i1) as [L|L].
  - exists a, i1. split; [reflexivity|]. split; [apply moved_refl|lia].
  - rewrite swap_ok, bind_Ok by lia. destruct (IH (swp a i1 j1) i1 j1) as (b & i' & R & M & B); try lia.
    { rewrite swp_o by lia. exact HL. }
    exists b, i'. split; [exact R|]. split; [|lia]. eapply moved_trans; [|exact M]. apply moved_swp; lia.
Qed.
Lemma split_ok n a s t f : 0 <= s -> s < t -> t < n -> (Z.to_nat (t - s + 1) < f)%nat ->
  exists b i, intro_split lt f n a s t = Ok (b, i) /\ moved s t a b /\ s < i <= t.
Proof.
  intros Hs Hst Ht Hf. unfold intro_split. assert (K : s < s + (t - s) / 2 + 1 <= t).
  { pose proof (Z.div_mod (t - s) 2). pose proof (Z.mod_pos_bound (t - s) 2). pose proof (Z.div_pos (t - s) 2). lia. }
  set (k := s + (t - s) / 2 + 1) in *. clearbody k. cbv zeta. rewrite less_ok, bind_Ok by lia.
  assert (KK : exists k', (if lt (a k) (a s) then let* x := less lt n a k t in Ok (if x then t else k)
      else let* x := less lt n a t s in Ok (if x then s else t)) = Ok k' /\ s <= k' <= t).
  { destruct (lt (a k) (a s)); rewrite less_ok, bind_Ok by lia; eexists; (split; [reflexivity|]); [destruct (lt (a k) (a t))|destruct (lt (a t) (a s))]; lia. }
  destruct KK as (k' & -> & Hk'). rewrite bind_Ok, get_ok, bind_Ok by lia.
  assert (SWP : exists a1, (if k' =? t then Ok a else swap n a k' t) = Ok a1 /\ moved s t a a1 /\ a1 t = a k').
  { destruct (Z.eqb_spec k' t) as [->|]; [exists a; repeat split; apply moved_refl|]. rewrite swap_ok by lia.
    eexists. split; [reflexivity|]. split; [apply moved_swp; lia|apply swp_r]. }
  destruct SWP as (a1 & -> & M1 & E1). rewrite bind_Ok.
  destruct (ipart_ok n s t (a k') f Hs Ht Hf f a1 s t) as (b & i & R & M & B); try lia. { rewrite E1. apply le_refl, SW. }
  rewrite R, bind_Ok, swap_ok, bind_Ok by lia. eexists _, i. split; [reflexivity|]. split; [|lia].
  eapply moved_trans; [exact M1|]. eapply moved_trans; [exact M|]. apply moved_swp; lia.
Qed.

(* weight and size of the pending segments *)
Definition wseg (x : Z * Z * Z) : Z := let '(s, t, _) := x in 2 * (t - s) + 1.
Fixpoint wst (st : list (Z * Z * Z)) : Z := match st with [] => 0 | x :: r => wseg x + wst r end.
Fixpoint st_ok (n : Z) (st : list (Z * Z * Z)) : Prop :=
  match st with
  | [] => True
  | (s, t, d) :: r => 0 <= s <= t /\ t < n /\ 1 <= d /\ (t - s + 1) * 2 ^ zlen r <= n /\ st_ok n r
  end.
Lemma wst_pos n st : st_ok n st -> 0 <= wst st.
Proof. induction st as [|[[s t] d] r IH]; cbn [st_ok wst wseg]; [lia|]. intros (H1 & H2 & H3 & H4 & H5). specialize (IH H5). lia. Qed.

Lemma introloop_ok sh n cap g D : shrinks sh -> n < 18446744073709551616 -> n <= 2 ^ D -> 0 <= D -> D <= cap -> (rounds n <= g)%nat ->
  forall f a s t d st, 0 <= s <= t -> t < n -> (s < t -> 1 <= d) -> (t - s + 1) * 2 ^ zlen st <= n -> st_ok n st ->
  (Z.to_nat (2 * (t - s) + 1 + wst st) < f)%nat ->
  exists b, intro_loop lt sh f g cap n a s t d st = Ok b /\ moved 0 (n - 1) a b /\ ord lt 0 (n - 1) b.
Proof.
  intros SH Hn HD HD0 Hcap Hg. assert (N3 : forall z, 0 <= z -> 0 <= z * (z * z)) by (intros; repeat apply Z.mul_nonneg_nonneg; lia).
  induction f as [|f IH]; intros a s t d st Hs Ht Hd Hz Hst Hf; [lia|]. cbn [intro_loop].
  assert (P2 : 1 <= 2 ^ zlen st) by (pose proof (Z.pow_pos_nonneg 2 (zlen st)); unfold zlen in *; lia).
  pose proof (wst_pos n st Hst) as WP. specialize (N3 n ltac:(lia)). unfold rounds in Hg.
  assert (PUSH : forall s' t', s <= s' -> t' <= t -> 2 * 2 <= t' - s' + 1 -> zlen st < cap).
  { intros s' t' H1 H2 H3. assert (L : 4 * 2 ^ zlen st <= n).
    { apply Z.le_trans with ((t - s + 1) * 2 ^ zlen st); [apply Z.mul_le_mono_nonneg_r; lia|exact Hz]. }
    destruct (Z_lt_dec (zlen st) cap); [auto|exfalso]. assert (2 ^ D <= 2 ^ zlen st) by (apply Z.pow_le_mono_r; lia). lia. }
  assert (HALF : forall m, 0 <= m -> 2 * m <= t - s + 1 -> m * 2 ^ (zlen st + 1) <= n).
  { intros m Hm0 Hm. rewrite Z.pow_add_r by (unfold zlen; lia). change (2 ^ 1) with 2. rewrite (Z.mul_comm (2 ^ zlen st) 2). apply Z.le_trans with ((t - s + 1) * 2 ^ zlen st); [|exact Hz].
    rewrite Z.mul_assoc. apply Z.mul_le_mono_nonneg_r; lia. }
  assert (SUB : forall m, m <= t - s + 1 -> m * 2 ^ zlen st <= n).
  { intros m Hm. apply Z.le_trans with ((t - s + 1) * 2 ^ zlen st); [|exact Hz]. apply Z.mul_le_mono_nonneg_r; lia. }
  destruct (Z.ltb_spec s t) as [L|L].
  - cbv zeta. destruct (Z.eqb_spec (d - 1) 0) as [Ed|Nd].
    + destruct (combsort_ok sh g n a s (t - s + 1)) as (b & R & M & O); auto; try lia. rewrite R, bind_Ok.
      destruct (IH b s s (d - 1) st) as (b' & R' & M' & O'); auto; try lia; [apply SUB; lia|].
      exists b'. split; [exact R'|]. split; [|exact O']. eapply moved_trans; [|exact M']. apply (moved_sub _ _ _ _ _ _ M); lia.
    + destruct (split_ok n a s t g) as (b & i & R & M & B); try lia. rewrite R, bind_Ok.
      assert (FIN : forall s' t' d' st', (exists b', intro_loop lt sh f g cap n b s' t' d' st' = Ok b' /\ moved 0 (n - 1) b b' /\ ord lt 0 (n - 1) b') ->
        exists b', intro_loop lt sh f g cap n b s' t' d' st' = Ok b' /\ moved 0 (n - 1) a b' /\ ord lt 0 (n - 1) b').
      { intros s' t' d' st' (b' & R' & M' & O'). exists b'. split; [exact R'|]. split; [|exact O']. eapply moved_trans; [|exact M']. apply (moved_sub _ _ _ _ _ _ M); lia. }
      destruct (Z.ltb_spec (t - i) (i - s)) as [C|C].
      * destruct (Z.ltb_spec 16 (i - s)) as [Q|Q].
        -- assert (zlen st < cap) by (apply (PUSH s (i - 1)); lia). destruct (Z.ltb_spec (zlen st) cap); [|lia]. rewrite bind_Ok. apply FIN.
           apply IH; cbn [st_ok wst wseg]; rewrite ?zlen_cons.
           ++ destruct (Z.ltb_spec 16 (t - i)); lia.
           ++ lia.
           ++ lia.
           ++ apply HALF; destruct (Z.ltb_spec 16 (t - i)); lia.
           ++ repeat split; auto; try lia. apply SUB; lia.
           ++ destruct (Z.ltb_spec 16 (t - i)); lia.
        -- rewrite bind_Ok. apply FIN. destruct (Z.ltb_spec 16 (t - i)); [lia|]. apply IH; auto; try lia. apply SUB; lia.
      * destruct (Z.ltb_spec 16 (t - i)) as [Q|Q].
        -- assert (zlen st < cap) by (apply (PUSH (i + 1) t); lia). destruct (Z.ltb_spec (zlen st) cap); [|lia]. rewrite bind_Ok. apply FIN.
           apply IH; cbn [st_ok wst wseg]; rewrite ?zlen_cons.
           ++ destruct (Z.ltb_spec 16 (i - s)); lia.
           ++ destruct (Z.ltb_spec 16 (i - s)); lia.
           ++ lia.
           ++ apply HALF; destruct (Z.ltb_spec 16 (i - s)); lia.
           ++ repeat split; auto; try lia. apply SUB; lia.
           ++ destruct (Z.ltb_spec 16 (i - s)); lia.
        -- rewrite bind_Ok. apply FIN. destruct (Z.ltb_spec 16 (i - s)); [lia|]. apply IH; auto; try lia. apply SUB; lia.
  - destruct st as [|[[s1 t1] d1] r].
    + destruct (insertsort_ok g n a 0 n) as (b & R & M & O); try lia. exists b. split; [exact R|]. split; [exact M|exact O].
    + cbn [st_ok wst wseg] in *. destruct Hst as (H1 & H2 & H3 & H4 & H5). apply IH; auto; lia.
Qed.

Lemma introsort_ok sh f n a : shrinks sh -> 0 <= n <= 9223372036854775807 -> (rounds n + 64 <= f)%nat ->
  exists b, introsort lt sh f n a = Ok b /\ moved 0 (n - 1) a b /\ ord lt 0 (n - 1) b.
Proof.
  intros SH Hn Hf. unfold introsort. assert (N3 : 0 <= n * (n * n)) by (repeat apply Z.mul_nonneg_nonneg; lia).
  destruct (Z.ltb_spec n 1) as [L|L].
  { exists a. split; [reflexivity|]. split; [apply moved_refl|]. intros x y Hx Hy. lia. }
  destruct (Z.eqb_spec n 2) as [->|N].
  { rewrite less_ok, bind_Ok by lia. destruct (lt (a 1) (a 0)) eqn:E.
    - rewrite swap_ok by lia. eexists. split; [reflexivity|]. split; [apply moved_swp; lia|]. intros x y Hx Hy.
      replace x with 0 by lia. replace y with 1 by lia. rewrite swp_l, swp_r. now apply lt_le.
    - exists a. split; [reflexivity|]. split; [apply moved_refl|]. intros x y Hx Hy. replace x with 0 by lia. replace y with 1 by lia. exact E. }
  destruct (depth_exists n ltac:(lia) f 2) as (d & R & B & P); try lia. rewrite R, bind_Ok.
  unfold rounds in Hf. apply (introloop_ok sh n (8 * d + 2) f d).
  - exact SH.
  - lia.
  - exact P.
  - lia.
  - lia.
  - unfold rounds. lia.
  - lia.
  - lia.
  - lia.
  - change (2 ^ zlen (@nil (Z * Z * Z))) with 1. lia.
  - exact I.
  - cbn [wst]. assert (n <= n * (n * n)); [|lia]. nia.
Qed.
End rest.

(* ---- ks_shuffle ---- *)
Section shuffling.
Context {A : Type}.
Implicit Types a b : arr A.

Lemma shuffle_ok m : forall js a i, i <= m -> draws i js -> exists b, shuffle m a i js = Ok b /\ moved 0 (i - 1) a b.
Proof.
  induction js as [|j js IH]; intros a i Hi D; cbn [draws] in D; cbn [shuffle].
  - destruct (Z.ltb_spec 1 i); [lia|]. exists a. split; [reflexivity|apply moved_refl].
  - destruct D as (D1 & D2 & D3). destruct (Z.ltb_spec 1 i); [|lia]. replace ((0 <=? j) && (j <? i)) with true by lia.
    rewrite swap_ok, bind_Ok by lia. destruct (IH (swp a j (i - 1)) (i - 1)) as (b & R & M); [lia|exact D3|].
    exists b. split; [exact R|]. apply moved_trans with (swp a j (i - 1)); [apply moved_swp; lia|apply (moved_sub _ _ _ _ _ _ M); lia].
Qed.
Lemma elems_last a z : 0 < z -> elems a 0 (Z.to_nat z) = elems a 0 (Z.to_nat (z - 1)) ++ [a (z - 1)].
Proof.
  intros H. replace (Z.to_nat z) with (Z.to_nat (z - 1) + 1)%nat by lia. rewrite elems_app. cbn [elems].
  do 2 f_equal. f_equal. lia.
Qed.
Lemma elems_in_iff a n x : In x (elems a 0 (Z.to_nat n)) -> exists j, 0 <= j < n /\ a j = x.
Proof. intros H. apply elems_in in H as (i & Hi & ->). exists i. split; [lia|reflexivity]. Qed.

Lemma shuffle_reach m : forall k a i l, i <= m -> Z.to_nat i = k -> Permutation (elems a 0 (Z.to_nat i)) l ->
  exists js b, draws i js /\ shuffle m a i js = Ok b /\ elems b 0 (Z.to_nat i) = l.
Proof.
  induction k as [|k IH]; intros a i l Hi Hk P.
  - exists [], a. rewrite Hk in *. cbn [elems] in *. apply Permutation_nil in P. subst l. split; [cbn; lia|]. split; [|reflexivity].
    cbn [shuffle]. destruct (Z.ltb_spec 1 i); [lia|reflexivity].
  - destruct (Z.eq_dec i 1) as [->|N].
    + exists [], a. change (Z.to_nat 1) with 1%nat in *. cbn [elems] in *. apply Permutation_length_1_inv in P. subst l. split; [cbn; lia|]. split; reflexivity.
    + destruct (exists_last (l := l)) as (l' & x & ->).
      { intros ->. apply Permutation_sym, Permutation_nil in P. apply (f_equal (@length A)) in P. rewrite elems_length in P. cbn in P. lia. }
      assert (I : In x (elems a 0 (Z.to_nat i))) by (apply Permutation_in with (1 := Permutation_sym P); apply in_or_app; right; now left).
      apply elems_in_iff in I as (j & Hj & Ej).
      assert (M : moved 0 (i - 1) a (swp a j (i - 1))) by (apply moved_swp; lia). apply moved_rearranged in M as [M _].
      rewrite (elems_last (swp a j (i - 1))) in M by lia. rewrite swp_r, Ej in M.
      assert (P' : Permutation (elems (swp a j (i - 1)) 0 (Z.to_nat (i - 1))) l').
      { apply Permutation_app_inv_r with (l := [x]). etransitivity; [symmetry; exact M|exact P]. }
      destruct (IH (swp a j (i - 1)) (i - 1) l') as (js & b & D & R & E); [lia|lia|exact P'|].
      exists (j :: js), b. split; [cbn [draws]; repeat split; try lia; exact D|]. split.
      * cbn [shuffle]. destruct (Z.ltb_spec 1 i); [|lia]. replace ((0 <=? j) && (j <? i)) with true by lia. rewrite swap_ok, bind_Ok by lia. exact R.
      * rewrite elems_last by lia. rewrite E. f_equal. f_equal.
        destruct (shuffle_ok m js (swp a j (i - 1)) (i - 1)) as (b2 & R2 & M2); [lia|exact D|]. rewrite R in R2. injection R2 as <-.
        rewrite (moved_out _ _ _ _ (i - 1) M2) by lia. rewrite swp_r. exact Ej.
Qed.

Lemma elems_inj a n i j : NoDup (elems a 0 (Z.to_nat n)) -> 0 <= i < n -> 0 <= j < n -> a i = a j -> i = j.
Proof.
  intros N Hi Hj E. rewrite elems_map, map_map in N.
  assert (X : forall u v, (u < Z.to_nat n)%nat -> (v < Z.to_nat n)%nat -> a (0 + Z.of_nat u) = a (0 + Z.of_nat v) -> u = v).
  { intros u v Hu Hv Q. apply (proj1 (NoDup_nth (map (fun x : nat => a (0 + Z.of_nat x)) (seq 0 (Z.to_nat n))) (a 0)) N).
    - now rewrite map_length, seq_length.
    - now rewrite map_length, seq_length.
    - assert (NT : forall w, (w < Z.to_nat n)%nat -> nth w (map (fun x : nat => a (0 + Z.of_nat x)) (seq 0 (Z.to_nat n))) (a 0) = a (0 + Z.of_nat w)).
      { intros w Hw. change (a 0) with (a (0 + Z.of_nat 0)).
        rewrite (map_nth (fun x : nat => a (0 + Z.of_nat x))). now rewrite seq_nth. }
      now rewrite !NT. }
  specialize (X (Z.to_nat i) (Z.to_nat j)). rewrite !Z2Nat.id in X by lia. specialize (X ltac:(lia) ltac:(lia) E). lia.
Qed.
Lemma shuffle_inj m : forall js js' a i b b', i <= m -> draws i js -> draws i js' -> NoDup (elems a 0 (Z.to_nat i)) ->
  shuffle m a i js = Ok b -> shuffle m a i js' = Ok b' -> elems b 0 (Z.to_nat i) = elems b' 0 (Z.to_nat i) -> js = js'.
Proof.
  induction js as [|j js IH]; intros [|j' js'] a i b b' Hi D D' ND R R' E; cbn [draws] in D, D'; try (exfalso; lia); [reflexivity|].
  destruct D as (D1 & D2 & D3). destruct D' as (_ & D2' & D3'). cbn [shuffle] in R, R'.
  destruct (Z.ltb_spec 1 i); [|lia]. replace ((0 <=? j) && (j <? i)) with true in R by lia. replace ((0 <=? j') && (j' <? i)) with true in R' by lia.
  rewrite swap_ok, bind_Ok in R by lia. rewrite swap_ok, bind_Ok in R' by lia.
  destruct (shuffle_ok m js (swp a j (i - 1)) (i - 1)) as (b1 & R1 & M1); [lia|exact D3|]. rewrite R in R1. injection R1 as <-.
  destruct (shuffle_ok m js' (swp a j' (i - 1)) (i - 1)) as (b1 & R1 & M1'); [lia|exact D3'|]. rewrite R' in R1. injection R1 as <-.
  rewrite (elems_last b), (elems_last b') in E by lia. apply app_inj_tail in E as [E1 E2].
  rewrite (moved_out _ _ _ _ (i - 1) M1), swp_r, (moved_out _ _ _ _ (i - 1) M1'), swp_r in E2 by lia.
  assert (j = j') by (apply (elems_inj a i); auto). subst j'. f_equal.
  apply (IH js' (swp a j (i - 1)) (i - 1) b b'); auto; [lia|].
  assert (M : moved 0 (i - 1) a (swp a j (i - 1))) by (apply moved_swp; lia). apply moved_rearranged in M as [M _].
  apply (Permutation_NoDup M) in ND. rewrite elems_last in ND by lia. apply NoDup_remove_1 in ND. now rewrite app_nil_r in ND.
Qed.
End shuffling.
