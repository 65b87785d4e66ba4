(* Proofs about ks_ksmall of contrib/ksort.h. *)
From Verif Require Import Base BaseLemmas KsortModel KsortSpec KsortProofs.

Section small.
Context {A : Type}.
Variable lt : A -> A -> bool.
Hypothesis SW : strict_weak lt.
Implicit Types a b c : arr A.
Local Notation le := (le lt).

Lemma order_ok n a l r x y : 0 <= l -> r < n -> l <= x <= r -> l <= y <= r -> x <> y ->
  exists b, ks_order lt n a x y = Ok b /\ moved l r a b /\ le (b y) (b x) /\
    ((b x = a x /\ b y = a y) \/ (b x = a y /\ b y = a x)) /\ (forall i, i <> x -> i <> y -> b i = a i).
Proof.
  intros H1 H2 H3 H4 N. unfold ks_order. rewrite less_ok, bind_Ok by lia. destruct (lt (a x) (a y)) eqn:E.
  - rewrite swap_ok by lia. eexists. split; [reflexivity|]. split; [now apply moved_swp|]. rewrite swp_l, swp_r.
    split; [now apply lt_le|]. split; [now right|]. intros i I1 I2. now apply swp_o.
  - exists a. split; [reflexivity|]. split; [apply moved_refl|]. split; [exact E|]. split; [now left|auto].
Qed.

Lemma kup_ok n a low j : 0 <= low < n -> j < n -> le (a low) (a j) ->
  forall f i, 0 <= i + 1 -> i < j -> (Z.to_nat (j - i) < f)%nat ->
  exists i1, ks_up lt f n a low i = Ok i1 /\ i < i1 <= j /\ le (a low) (a i1) /\ forall x, i < x < i1 -> le (a x) (a low).
Proof.
  intros Hl Hj Hle. induction f as [|f IH]; intros i Hi Hij Hf; [lia|]. cbn [ks_up]. rewrite less_ok, bind_Ok by lia.
  destruct (lt (a (i + 1)) (a low)) eqn:E.
  - destruct (Z.eq_dec (i + 1) j) as [<-|N]; [unfold KsortProofs.le in Hle; congruence|].
    destruct (IH (i + 1)) as (i1 & R & B & L & X); try lia. exists i1. split; [exact R|]. split; [lia|]. split; [exact L|].
    intros x Hx. destruct (Z.eq_dec x (i + 1)) as [->|]; [now apply lt_le|apply X; lia].
  - exists (i + 1). split; [reflexivity|]. split; [lia|]. split; [exact E|]. intros; lia.
Qed.
Lemma kdown_ok n a low i : 0 <= low < n -> 0 <= i -> le (a i) (a low) ->
  forall f j, j <= n -> i < j -> (Z.to_nat (j - i) < f)%nat ->
  exists j1, ks_down lt f n a low j = Ok j1 /\ i <= j1 < j /\ le (a j1) (a low) /\ forall x, j1 < x < j -> le (a low) (a x).
Proof.
  intros Hl Hi Hle. induction f as [|f IH]; intros j Hj Hij Hf; [lia|]. cbn [ks_down]. rewrite less_ok, bind_Ok by lia.
  destruct (lt (a low) (a (j - 1))) eqn:E.
  - destruct (Z.eq_dec (j - 1) i) as [<-|N]; [unfold KsortProofs.le in Hle; congruence|].
    destruct (IH (j - 1)) as (j1 & R & B & L & X); try lia. exists j1. split; [exact R|]. split; [lia|]. split; [exact L|].
    intros x Hx. destruct (Z.eq_dec x (j - 1)) as [->|]; [now apply lt_le|apply X; lia].
  - exists (j - 1). split; [reflexivity|]. split; [lia|]. split; [exact E|]. intros; lia.
Qed.

Lemma kpart_ok n low high g : 0 <= low -> high < n -> (Z.to_nat (high - low + 1) < g)%nat ->
  forall f a ll hh, low < ll -> ll <= hh -> hh <= high -> (ll < hh \/ low + 1 < ll /\ hh < high) -> (Z.to_nat (hh - ll + 1) < f)%nat ->
  (forall x, low < x <= ll -> le (a x) (a low)) -> (forall x, hh <= x <= high -> le (a low) (a x)) ->
  exists b l2 h2, ks_part lt f g n a low ll hh = Ok (b, l2, h2) /\ moved (low + 1) high a b /\ low < h2 < l2 /\ l2 <= high /\
    (forall x, low < x < l2 -> le (b x) (b low)) /\ (forall x, h2 < x <= high -> le (b low) (b x)).
Proof.
  intros H0 Hh Hg. induction f as [|f IH]; intros a ll hh L1 L2 L3 L4 Hf U D; [lia|]. cbn [ks_part].
  destruct (kup_ok n a low (if ll <? hh then hh else ll + 1)) with (f := g) (i := ll) as (l2 & R1 & B1 & S1 & X1).
  1-5: destruct (Z.ltb_spec ll hh); try lia; apply D; lia.
  { destruct (Z.ltb_spec ll hh); lia. }
  rewrite R1, bind_Ok.
  destruct (kdown_ok n a low (if ll <? hh then ll else ll - 1)) with (f := g) (j := hh) as (h2 & R2 & B2 & S2 & X2).
  1-5: destruct (Z.ltb_spec ll hh); try lia; apply U; lia.
  { destruct (Z.ltb_spec ll hh); lia. }
  rewrite R2, bind_Ok. assert (U' : forall x, low < x < l2 -> le (a x) (a low)).
  { intros x Hx. destruct (Z_le_dec x ll); [apply U|apply X1]; lia. }
  assert (D' : forall x, h2 < x <= high -> le (a low) (a x)).
  { intros x Hx. destruct (Z_le_dec hh x); [apply D|apply X2]; lia. }
  assert (BB : ll < l2 <= high /\ low < h2 < hh) by (destruct (Z.ltb_spec ll hh); lia).
  destruct (Z.ltb_spec h2 l2) as [Q|Q].
  - exists a, l2, h2. split; [reflexivity|]. split; [apply moved_refl|]. split; [lia|]. split; [lia|]. split; [exact U'|exact D'].
  - rewrite swap_ok, bind_Ok by lia. destruct (IH (swp a l2 h2) l2 h2) as (b & l3 & h3 & R & M & C1 & C2 & C3 & C4); try lia.
    + intros x Hx. rewrite (swp_o a l2 h2 low) by lia. destruct (Z.eq_dec x l2) as [->|N].
      * rewrite swp_l. exact S2.
      * rewrite swp_o by lia. apply U'. lia.
    + intros x Hx. rewrite (swp_o a l2 h2 low) by lia. destruct (Z.eq_dec x h2) as [->|N].
      * rewrite swp_r. exact S1.
      * rewrite swp_o by lia. apply D'. lia.
    + exists b, l3, h3. split; [exact R|]. split; [|repeat split; auto; lia].
      eapply moved_trans; [|exact M]. apply moved_swp; lia.
Qed.

(* one round *)
Lemma kround_ok n a low high g : 0 <= low -> low + 2 <= high -> high < n -> (Z.to_nat (high - low + 1) < g)%nat ->
  let mid := low + (high - low) / 2 in
  exists a1 a2 a3 a4 a5 a6 ll hh,
    ks_order lt n a high mid = Ok a1 /\ ks_order lt n a1 high low = Ok a2 /\ ks_order lt n a2 low mid = Ok a3 /\
    swap n a3 mid (low + 1) = Ok a4 /\ ks_part lt g g n a4 low (low + 1) high = Ok (a5, ll, hh) /\ swap n a5 low hh = Ok a6 /\
    moved low high a a6 /\ low < hh < ll /\ ll <= high /\
    (forall x, low <= x < ll -> le (a6 x) (a6 hh)) /\ (forall x, hh < x <= high -> le (a6 hh) (a6 x)).
Proof.
  intros H0 H1 H2 Hg mid. assert (Hm : low < mid < high).
  { unfold mid. pose proof (Z.div_mod (high - low) 2). pose proof (Z.mod_pos_bound (high - low) 2). lia. }
  clearbody mid.
  destruct (order_ok n a low high high mid) as (a1 & R1 & M1 & L1 & C1 & O1); try lia.
  destruct (order_ok n a1 low high high low) as (a2 & R2 & M2 & L2 & C2 & O2); try lia.
  destruct (order_ok n a2 low high low mid) as (a3 & R3 & M3 & L3 & C3 & O3); try lia.
  assert (LH : le (a2 low) (a2 high) /\ le (a2 mid) (a2 high)).
  { split; [exact L2|]. rewrite (O2 mid) by lia. destruct C2 as [[-> _]|[E1 E2]]; [exact L1|].
    apply (le_trans lt SW) with (a1 high); [exact L1|]. rewrite <- E2. exact L2. }
  assert (LH3 : le (a3 low) (a3 high)).
  { rewrite (O3 high) by lia. destruct C3 as [[-> _]|[-> _]]; apply LH. }
  destruct (kpart_ok n low high g H0 H2 Hg g (swp a3 mid (low + 1)) (low + 1) high) as (a5 & ll & hh & R5 & M5 & B1 & B2 & U & D); try lia.
  { intros x Hx. replace x with (low + 1) by lia. rewrite swp_r, swp_o by lia. exact L3. }
  { intros x Hx. replace x with high by lia. rewrite !swp_o by lia. exact LH3. }
  exists a1, a2, a3, (swp a3 mid (low + 1)), a5, (swp a5 low hh), ll, hh.
  split; [exact R1|]. split; [exact R2|]. split; [exact R3|]. split; [apply swap_ok; lia|]. split; [exact R5|].
  split; [apply swap_ok; lia|]. split; [|split; [lia|]; split; [lia|]; split].
  - eapply moved_trans; [exact M1|]. eapply moved_trans; [exact M2|]. eapply moved_trans; [exact M3|].
    eapply moved_trans with (b := swp a3 mid (low + 1)); [apply moved_swp; lia|]. eapply moved_trans; [apply (moved_sub _ _ _ _ _ _ M5); lia|].
    apply moved_swp; lia.
  - intros x Hx. rewrite swp_r. destruct (Z.eq_dec x low) as [->|N1]; [rewrite swp_l; apply U; lia|].
    destruct (Z.eq_dec x hh) as [->|N2]; [rewrite swp_r; apply le_refl, SW|]. rewrite swp_o by lia. apply U. lia.
  - intros x Hx. rewrite swp_r, swp_o by lia. apply D. lia.
Qed.

(* what is known while the segment low..high is pending *)
Definition kinv (n k low high : Z) a : Prop :=
  (low <= k <= high -> forall x y, 0 <= x < n -> low <= y <= high -> (x < low -> le (a x) (a y)) /\ (high < x -> le (a y) (a x))) /\
  (~ (low <= k <= high) -> forall x, 0 <= x < n -> (x < k -> le (a x) (a k)) /\ (k < x -> le (a k) (a x))).

Lemma kinv_moved n k low high a b : 0 <= low -> high < n -> 0 <= k < n -> moved low high a b -> kinv n k low high a -> kinv n k low high b.
Proof.
  intros H0 H1 Hk M [K1 K2]. split; intros I.
  - intros x y Hx Hy. destruct (moved_in _ _ _ _ y M Hy) as (z & Hz & ->). split; intros Q; rewrite (moved_out _ _ _ _ x M) by lia.
    all: apply (K1 I x z); auto.
  - intros x Hx. rewrite (moved_out _ _ _ _ k M) by lia. destruct (Z_le_dec low x); [destruct (Z_le_dec x high)|].
    + destruct (moved_in _ _ _ _ x M) as (z & Hz & ->); [lia|]. split; intros Q; apply (K2 I z); lia.
    + rewrite (moved_out _ _ _ _ x M) by lia. now apply K2.
    + rewrite (moved_out _ _ _ _ x M) by lia. now apply K2.
Qed.

Lemma ksmall_loop_ok n k g : 0 <= k < n -> (Z.to_nat n < g)%nat ->
  forall f a low high, 0 <= low -> high < n -> (Z.to_nat (high - low + 1) < f)%nat -> kinv n k low high a ->
  exists b, ksmall_loop lt f g n a low high k = Ok (b, b k) /\ moved 0 (n - 1) a b /\
    (forall x, 0 <= x < k -> le (b x) (b k)) /\ (forall x, k < x < n -> le (b k) (b x)).
Proof.
  intros Hk Hg. induction f as [|f IH]; intros a low high H0 H1 Hf K; [lia|]. cbn [ksmall_loop].
  destruct (Z.leb_spec high low) as [L|L].
  { rewrite get_ok, bind_Ok by lia. exists a. split; [reflexivity|]. split; [apply moved_refl|]. destruct K as [K1 K2].
    assert (Z : low <= k <= high \/ ~ (low <= k <= high)) by lia. destruct Z as [I|I].
    - split; intros x Hx; apply (K1 I x k); lia.
    - split; intros x Hx; apply (K2 I x); lia. }
  destruct (Z.eqb_spec high (low + 1)) as [->|N].
  { destruct (order_ok n a low (low + 1) (low + 1) low) as (b & R & M & Q & _ & O); try lia. rewrite R, bind_Ok, get_ok, bind_Ok by lia.
    exists b. split; [reflexivity|]. split; [apply (moved_sub _ _ _ _ _ _ M); lia|].
    apply (kinv_moved _ _ _ _ _ _ H0 H1 Hk M) in K. destruct K as [K1 K2].
    assert (Z : low <= k <= low + 1 \/ ~ (low <= k <= low + 1)) by lia. destruct Z as [I|I].
    - split; intros x Hx.
      + destruct (Z_lt_dec x low); [apply (K1 I x k); lia|]. replace x with low by lia. replace k with (low + 1) by lia. exact Q.
      + destruct (Z_lt_dec (low + 1) x); [apply (K1 I x k); lia|]. replace x with (low + 1) by lia. replace k with low by lia. exact Q.
    - split; intros x Hx; apply (K2 I x); lia. }
  cbv zeta. destruct (kround_ok n a low high g) as (a1 & a2 & a3 & a4 & a5 & b & ll & hh & R1 & R2 & R3 & R4 & R5 & R6 & M & B1 & B2 & U & D); try lia.
  rewrite R1, bind_Ok, R2, bind_Ok, R3, bind_Ok, R4, bind_Ok, R5, bind_Ok, R6, bind_Ok.
  apply (kinv_moved _ _ _ _ _ _ H0 H1 Hk M) in K.
  destruct (IH b (if hh <=? k then ll else low) (if k <=? hh then hh - 1 else high)) as (c & R & M' & C1 & C2).
  - destruct (Z.leb_spec hh k); lia.
  - destruct (Z.leb_spec k hh); lia.
  - destruct (Z.leb_spec hh k); destruct (Z.leb_spec k hh); lia.
  - destruct K as [K1 K2]. assert (Z : low <= k <= high \/ ~ (low <= k <= high)) by lia. destruct Z as [I|I].
    + specialize (K1 I). assert (OUTL : forall x y, 0 <= x < n -> low <= y <= high -> x < low -> le (b x) (b y)) by (intros x y X1 X2 X3; apply (K1 x y X1 X2); exact X3).
      assert (OUTR : forall x y, 0 <= x < n -> low <= y <= high -> high < x -> le (b y) (b x)) by (intros x y X1 X2 X3; apply (K1 x y X1 X2); exact X3).
      assert (C : k < hh \/ k = hh \/ hh < k) by lia. destruct C as [C|[C|C]].
      * replace (hh <=? k) with false by lia. replace (k <=? hh) with true by lia. split; [|lia]. intros _ x y Hx Hy. split; intros Q.
        -- apply OUTL; lia.
        -- destruct (Z_lt_dec high x); [apply OUTR; lia|]. apply (le_trans lt SW) with (b hh); [apply U; lia|].
           destruct (Z.eq_dec x hh) as [->|]; [apply le_refl, SW|apply D; lia].
      * subst k. rewrite Z.leb_refl. split; [lia|]. intros _ x Hx. split; intros Q.
        -- destruct (Z_lt_dec x low); [apply OUTL; lia|apply U; lia].
        -- destruct (Z_lt_dec high x); [apply OUTR; lia|apply D; lia].
      * replace (hh <=? k) with true by lia. replace (k <=? hh) with false by lia. split.
        -- intros J x y Hx Hy. split; intros Q; [|apply OUTR; lia]. destruct (Z_lt_dec x low); [apply OUTL; lia|].
           apply (le_trans lt SW) with (b hh); [apply U; lia|apply D; lia].
        -- intros J x Hx. split; intros Q.
           ++ destruct (Z_lt_dec x low); [apply OUTL; lia|]. apply (le_trans lt SW) with (b hh); [apply U; lia|apply D; lia].
           ++ destruct (Z_lt_dec high x); [apply OUTR; lia|]. apply (le_trans lt SW) with (b hh); [apply U; lia|apply D; lia].
    + split; [|intros _; now apply K2]. destruct (Z.leb_spec hh k); destruct (Z.leb_spec k hh); lia.
  - exists c. split; [exact R|]. split; [|split; assumption]. eapply moved_trans; [|exact M']. apply (moved_sub _ _ _ _ _ _ M); lia.
Qed.

Lemma ksmall_ok f n a k : 0 <= k < n -> (Z.to_nat n < f)%nat ->
  exists b, ksmall lt f n a k = Ok (b, b k) /\ moved 0 (n - 1) a b /\
    (forall x, 0 <= x < k -> le (b x) (b k)) /\ (forall x, k < x < n -> le (b k) (b x)).
Proof.
  intros Hk Hf. unfold ksmall. apply ksmall_loop_ok; try lia. split; [|lia]. intros _ x y Hx Hy. split; lia.
Qed.

(* ---- the k-th element of any sorted rearrangement ---- *)
Lemma elems_app : forall j k a l, elems a l (j + k) = elems a l j ++ elems a (l + Z.of_nat j) k.
Proof.
  induction j as [|j IH]; intros k a l; cbn [elems Nat.add app].
  - f_equal. lia.
  - f_equal. rewrite IH. do 2 f_equal. lia.
Qed.
Lemma elems_in : forall k a l x, In x (elems a l k) -> exists i, l <= i < l + Z.of_nat k /\ x = a i.
Proof.
  induction k as [|k IH]; intros a l x H; [destruct H|]. cbn [elems] in H. destruct H as [<-|H]; [exists l; split; [lia|reflexivity]|].
  destruct (IH a (l + 1) x H) as (i & Hi & E). exists i. split; [lia|exact E].
Qed.
Lemma count_le (P : A -> bool) k : forall l, (forall x, In x l -> P x = k) -> length (filter P l) = if k then length l else 0%nat.
Proof.
  induction l as [|x l IH]; intros H; cbn [filter length]; [now destruct k|]. rewrite (H x) by now left.
  assert (E : length (filter P l) = if k then length l else 0%nat) by (apply IH; intros; apply H; now right).
  destruct k; cbn [length]; congruence.
Qed.
Lemma filter_le (P : A -> bool) : forall l, (length (filter P l) <= length l)%nat.
Proof. induction l as [|x l IH]; cbn [filter length]; [lia|]. destruct (P x); cbn [length]; lia. Qed.
Lemma count_perm (P : A -> bool) l l' : Permutation l l' -> length (filter P l) = length (filter P l').
Proof.
  intros H. induction H; cbn [filter]; try congruence.
  - destruct (P x); cbn [length]; congruence.
  - destruct (P x); destruct (P y); reflexivity.
Qed.
Lemma kth n k b s : 0 <= k < n -> Permutation (elems b 0 (Z.to_nat n)) (elems s 0 (Z.to_nat n)) ->
  (forall x, 0 <= x < k -> le (b x) (b k)) -> (forall x, k < x < n -> le (b k) (b x)) ->
  in_order lt s n -> lt (b k) (s k) = false /\ lt (s k) (b k) = false.
Proof.
  intros Hk HP B1 B2 SS.
  assert (SPL : Z.to_nat n = (S (Z.to_nat k) + Z.to_nat (n - k - 1))%nat) by lia.
  assert (SPL2 : Z.to_nat n = (Z.to_nat k + Z.to_nat (n - k))%nat) by lia.
  assert (S' : forall i j, 0 <= i <= j -> j < n -> le (s i) (s j)).
  { intros i j Hi Hj. destruct (Z.eq_dec i j) as [->|]; [apply le_refl, SW|apply SS; lia]. }
  split.
  - destruct (lt (b k) (s k)) eqn:E; [exfalso|reflexivity]. set (P := fun x => negb (lt (b k) x)).
    pose proof (count_perm P _ _ HP) as C. rewrite SPL, elems_app in C at 1. rewrite SPL2, elems_app in C. rewrite !filter_app, !app_length in C.
    rewrite (count_le P true (elems b 0 (S (Z.to_nat k)))) in C.
    2: { intros x Hx. apply elems_in in Hx as (i & Hi & ->). unfold P. destruct (Z.eq_dec i k) as [->|].
         - pose proof (le_refl lt SW (b k)) as Q. unfold KsortProofs.le in Q. now rewrite Q.
         - assert (Q : le (b i) (b k)) by (apply B1; lia). unfold KsortProofs.le in Q. now rewrite Q. }
    rewrite (count_le P false (elems s (0 + Z.of_nat (Z.to_nat k)) _)) in C.
    2: { intros x Hx. apply elems_in in Hx as (i & Hi & ->). unfold P. destruct (lt (b k) (s i)) eqn:Q; [reflexivity|exfalso].
         assert (W : le (s k) (b k)) by (apply (le_trans lt SW) with (s i); [apply S'; lia|exact Q]).
         unfold KsortProofs.le in W. congruence. }
    pose proof (filter_le P (elems s 0 (Z.to_nat k))) as F. rewrite !elems_length in *. lia.
  - destruct (lt (s k) (b k)) eqn:E; [exfalso|reflexivity]. set (P := fun x => lt x (b k)).
    pose proof (count_perm P _ _ HP) as C. rewrite SPL2, elems_app in C at 1. rewrite SPL, elems_app in C. rewrite !filter_app, !app_length in C.
    rewrite (count_le P false (elems b (0 + Z.of_nat (Z.to_nat k)) _)) in C.
    2: { intros x Hx. apply elems_in in Hx as (i & Hi & ->). unfold P. destruct (Z.eq_dec i k) as [->|]; [apply (le_refl lt SW (b k))|apply B2; lia]. }
    rewrite (count_le P true (elems s 0 (S (Z.to_nat k)))) in C.
    2: { intros x Hx. apply elems_in in Hx as (i & Hi & ->). unfold P. destruct (lt (s i) (b k)) eqn:Q; [reflexivity|exfalso].
         assert (W : le (b k) (s k)) by (apply (le_trans lt SW) with (s i); [exact Q|apply S'; lia]).
         unfold KsortProofs.le in W. congruence. }
    pose proof (filter_le P (elems b 0 (Z.to_nat k))) as F. rewrite !elems_length in *. lia.
Qed.
End small.
