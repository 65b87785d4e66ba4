(* Proofs about ks_mergesort of contrib/ksort.h. *)
From Coq Require Import Sorting.Sorted.
From Verif Require Import Base BaseLemmas KsortModel KsortSpec KsortProofs KsortProofs3.

Section merge.
Context {A : Type}.
Variable lt : A -> A -> bool.
Hypothesis SW : strict_weak lt.
Implicit Types a b c : arr A.
Local Notation le := (le lt).

Fixpoint mrg (l1 l2 : list A) : list A :=
  let fix go l2 :=
    match l1, l2 with
    | [], _ => l2
    | _, [] => l1
    | x :: r1, y :: r2 => if lt y x then y :: go r2 else x :: mrg r1 l2
    end in go l2.
Lemma mrg_nil_l l : mrg [] l = l.
Proof. destruct l; reflexivity. Qed.
Lemma mrg_nil_r l : mrg l [] = l.
Proof. destruct l; reflexivity. Qed.
Lemma mrg_cons x r1 y r2 : mrg (x :: r1) (y :: r2) = if lt y x then y :: mrg (x :: r1) r2 else x :: mrg r1 (y :: r2).
Proof. reflexivity. Qed.

Definition sorted (l : list A) : Prop := StronglySorted le l.
Definition sp (o l : list A) : Prop := Permutation o l /\ stable lt o l /\ sorted l.

Lemma mrg_perm : forall l1 l2, Permutation (l1 ++ l2) (mrg l1 l2).
Proof.
  induction l1 as [|x r1 IH1]; intros l2; [rewrite mrg_nil_l; reflexivity|].
  induction l2 as [|y r2 IH2]; [rewrite mrg_nil_r, app_nil_r; reflexivity|]. rewrite mrg_cons. destruct (lt y x).
  - rewrite <- IH2. symmetry. apply Permutation_middle.
  - cbn [app]. apply perm_skip. apply IH1.
Qed.
Lemma mrg_forall (P : A -> Prop) l1 l2 : Forall P l1 -> Forall P l2 -> Forall P (mrg l1 l2).
Proof. intros H1 H2. apply (Permutation_Forall (mrg_perm l1 l2)). apply Forall_app. now split. Qed.
Lemma sorted_cons x l : sorted (x :: l) <-> sorted l /\ Forall (le x) l.
Proof. split; [intros H; inversion H; auto|intros [H1 H2]; now constructor]. Qed.
Lemma forall_le x y l : le x y -> Forall (le y) l -> Forall (le x) l.
Proof. intros H F. apply (Forall_impl _ (fun z => le_trans lt SW x y z H) F). Qed.
Lemma mrg_sorted : forall l1 l2, sorted l1 -> sorted l2 -> sorted (mrg l1 l2).
Proof.
  induction l1 as [|x r1 IH1]; intros l2 S1 S2; [now rewrite mrg_nil_l|].
  induction l2 as [|y r2 IH2]; [now rewrite mrg_nil_r|]. rewrite mrg_cons.
  apply sorted_cons in S1 as [S1 F1]. apply sorted_cons in S2 as [S2 F2]. destruct (lt y x) eqn:E; apply sorted_cons; split.
  - apply IH2; auto.
  - apply lt_le in E; auto. apply mrg_forall; auto. constructor; [exact E|]. eapply forall_le; eauto.
  - apply IH1; auto. now apply sorted_cons.
  - apply mrg_forall; auto. constructor; [exact E|]. eapply forall_le; eauto.
Qed.
Definition eqv (x y : A) : bool := negb (lt x y) && negb (lt y x).
Lemma filter_none (P : A -> bool) : forall l, Forall (fun y => P y = false) l -> filter P l = [].
Proof. intros l H. induction H as [|y l H _ IH]; cbn [filter]; [reflexivity|]. now rewrite H. Qed.
Lemma mrg_filter z : forall l1 l2, sorted l1 -> sorted l2 -> filter (eqv z) (mrg l1 l2) = filter (eqv z) l1 ++ filter (eqv z) l2.
Proof.
  induction l1 as [|x r1 IH1]; intros l2 S1 S2; [now rewrite mrg_nil_l|].
  induction l2 as [|y r2 IH2]; [now rewrite mrg_nil_r, app_nil_r|]. rewrite mrg_cons.
  pose proof S1 as S1'. pose proof S2 as S2'. apply sorted_cons in S1 as [S1 F1]. apply sorted_cons in S2 as [S2 F2]. destruct (lt y x) eqn:E.
  - cbn [filter]. rewrite IH2 by auto. cbn [filter]. destruct (eqv z y) eqn:Q.
    + assert (Z : filter (eqv z) (x :: r1) = []).
      { apply filter_none. unfold eqv in *. constructor.
        - destruct (lt z x) eqn:E1; [reflexivity|]. exfalso. assert (W : le x y) by (apply (le_trans lt SW) with z; [exact E1|]; unfold KsortProofs.le; destruct (lt y z); [|reflexivity]; rewrite andb_false_r in Q; discriminate).
          unfold KsortProofs.le in W. congruence.
        - apply (Forall_impl _) with (2 := F1). intros w Hw. destruct (lt z w) eqn:E1; [reflexivity|]. exfalso.
          assert (W : le x y) by (apply (le_trans lt SW) with w; [exact Hw|]; apply (le_trans lt SW) with z; [exact E1|]; unfold KsortProofs.le; destruct (lt y z); [|reflexivity]; rewrite andb_false_r in Q; discriminate).
          unfold KsortProofs.le in W. congruence. }
      change (filter (eqv z) (x :: r1)) with (if eqv z x then x :: filter (eqv z) r1 else filter (eqv z) r1) in Z.
      rewrite Z. reflexivity.
    + reflexivity.
  - cbn [filter]. rewrite IH1 by auto. cbn [filter]. destruct (eqv z x); reflexivity.
Qed.
Lemma sp_mrg o1 o2 l1 l2 : sp o1 l1 -> sp o2 l2 -> sp (o1 ++ o2) (mrg l1 l2).
Proof.
  intros (P1 & T1 & S1) (P2 & T2 & S2). split; [|split].
  - etransitivity; [|apply mrg_perm]. now apply Permutation_app.
  - intros z. fold (eqv z). rewrite mrg_filter by auto. rewrite filter_app. f_equal; [apply T1|apply T2].
  - now apply mrg_sorted.
Qed.
Lemma sp_one x : sp [x] [x].
Proof. split; [reflexivity|]. split; [intros z; reflexivity|]. constructor; constructor. Qed.

(* ---- arrays ---- *)
Lemma elems_ext : forall k a b l, (forall x, l <= x < l + Z.of_nat k -> a x = b x) -> elems a l k = elems b l k.
Proof. induction k as [|k IH]; intros a b l H; [reflexivity|]. cbn [elems]. f_equal; [apply H; lia|apply IH; intros; apply H; lia]. Qed.
Lemma elems_S a l z : 0 < z -> elems a l (Z.to_nat z) = a l :: elems a (l + 1) (Z.to_nat (z - 1)).
Proof. intros H. replace (Z.to_nat z) with (S (Z.to_nat (z - 1))) by lia. reflexivity. Qed.
Lemma elems_0 a l z : z <= 0 -> elems a l (Z.to_nat z) = [].
Proof. intros H. replace (Z.to_nat z) with O by lia. reflexivity. Qed.

Lemma copy_ok n a e : e <= n -> forall f b j p, 0 <= j <= n -> 0 <= p -> p + (e - j) <= n -> (Z.to_nat (e - j) < f)%nat ->
  exists b', ms_copy f n a b j e p = Ok (b', p + Z.max 0 (e - j)) /\ elems b' p (Z.to_nat (e - j)) = elems a j (Z.to_nat (e - j)) /\
    forall x, ~ (p <= x < p + (e - j)) -> b' x = b x.
Proof.
  intros He. induction f as [|f IH]; intros b j p Hj Hp Hpe Hf; [lia|]. cbn [ms_copy]. destruct (Z.ltb_spec j e) as [L|L].
  - rewrite get_ok, bind_Ok by lia. rewrite set_ok, bind_Ok by lia.
    destruct (IH (fun x => if x =? p then a j else b x) (j + 1) (p + 1)) as (b' & R & E & O); try lia.
    exists b'. split; [rewrite R; do 2 f_equal; lia|]. split.
    + rewrite (elems_S b' p), (elems_S a j) by lia. f_equal; [rewrite O by lia; now rewrite Z.eqb_refl|]. replace (e - j - 1) with (e - (j + 1)) by lia. exact E.
    + intros x Hx. rewrite O by lia. destruct (Z.eqb_spec x p); [lia|reflexivity].
  - exists b. split; [do 2 f_equal; lia|]. split; [now rewrite !elems_0 by lia|auto].
Qed.

Lemma merge_ok n a ea eb : ea <= n -> eb <= n -> forall f b j k p, 0 <= j <= ea -> 0 <= k -> 0 <= p ->
  p + (ea - j) + Z.max 0 (eb - k) <= n -> (Z.to_nat (ea - j + Z.max 0 (eb - k)) < f)%nat ->
  exists b', ms_merge lt f n a b j ea k eb p = Ok b' /\
    elems b' p (Z.to_nat (ea - j + Z.max 0 (eb - k))) = mrg (elems a j (Z.to_nat (ea - j))) (elems a k (Z.to_nat (eb - k))) /\
    forall x, ~ (p <= x < p + (ea - j) + Z.max 0 (eb - k)) -> b' x = b x.
Proof.
  intros Hea Heb. induction f as [|f IH]; intros b j k p Hj Hk Hp Hs Hf; [lia|]. cbn [ms_merge].
  destruct (Z.ltb_spec j ea) as [L1|L1]; [destruct (Z.ltb_spec k eb) as [L2|L2]|]; cbn [andb].
  - rewrite get_ok, bind_Ok by lia. rewrite get_ok, bind_Ok by lia.
    rewrite (elems_S a j (ea - j)), (elems_S a k (eb - k)) by lia. rewrite mrg_cons.
    destruct (lt (a k) (a j)); rewrite set_ok, bind_Ok by lia.
    + destruct (IH (fun x => if x =? p then a k else b x) j (k + 1) (p + 1)) as (b' & R & E & O); try lia.
      exists b'. split; [exact R|]. split.
      * rewrite (elems_S b' p) by lia. rewrite O by lia. rewrite Z.eqb_refl. f_equal.
        rewrite (elems_S a j (ea - j)) in E by lia. replace (eb - k - 1) with (eb - (k + 1)) by lia. rewrite <- E. f_equal. lia.
      * intros x Hx. rewrite O by lia. destruct (Z.eqb_spec x p); [lia|reflexivity].
    + destruct (IH (fun x => if x =? p then a j else b x) (j + 1) k (p + 1)) as (b' & R & E & O); try lia.
      exists b'. split; [exact R|]. split.
      * rewrite (elems_S b' p) by lia. rewrite O by lia. rewrite Z.eqb_refl. f_equal.
        rewrite (elems_S a k (eb - k)) in E by lia. replace (ea - j - 1) with (ea - (j + 1)) by lia. rewrite <- E. f_equal. lia.
      * intros x Hx. rewrite O by lia. destruct (Z.eqb_spec x p); [lia|reflexivity].
  - destruct (copy_ok n a ea Hea (S f) b j p) as (b1 & R1 & E1 & O1); try lia. rewrite R1, bind_Ok.
    cbn [ms_copy]. destruct (Z.ltb_spec k eb); [lia|]. rewrite bind_Ok. exists b1. split; [reflexivity|].
    rewrite (elems_0 a k) by lia. rewrite mrg_nil_r. replace (ea - j + Z.max 0 (eb - k)) with (ea - j) by lia.
    split; [exact E1|]. intros x Hx. apply O1. lia.
  - cbn [ms_copy]. destruct (Z.ltb_spec j ea); [lia|]. rewrite bind_Ok.
    rewrite (elems_0 a j) by lia. rewrite mrg_nil_l.
    destruct (Z.ltb_spec k eb) as [L2|L2].
    + destruct (copy_ok n a eb Heb (S f) b k p) as (b1 & R1 & E1 & O1); try lia.
      cbn [ms_copy] in R1. destruct (Z.ltb_spec k eb); [|lia]. rewrite R1, bind_Ok.
      exists b1. split; [reflexivity|]. replace (ea - j + Z.max 0 (eb - k)) with (eb - k) by lia. split; [exact E1|]. intros x Hx. apply O1. lia.
    + rewrite bind_Ok. exists b. split; [reflexivity|]. rewrite !elems_0 by lia. split; [reflexivity|auto].
Qed.

(* every block of s elements, from lo on, is sorted *)
Definition blk (s lo n : Z) (a0 a : arr A) : Prop :=
  forall q, lo <= s * q < n -> sp (elems a0 (s * q) (Z.to_nat (Z.min s (n - s * q)))) (elems a (s * q) (Z.to_nat (Z.min s (n - s * q)))).

Lemma pairs_ok n a : n <= 2305843009213693952 -> forall f b i, 0 <= i -> i mod 2 = 0 -> (Z.to_nat (n + 1 - i) < f)%nat ->
  exists b', ms_pairs lt f n a b i i = Ok b' /\ blk 2 i n a b' /\ forall x, ~ (i <= x < n) -> b' x = b x.
Proof.
  intros Hn. induction f as [|f IH]; intros b i Hi Hm Hf; [lia|]. cbn [ms_pairs]. destruct (Z.ltb_spec i n) as [L|L].
  2: { exists b. split; [reflexivity|]. split; [|auto]. intros q Hq. lia. }
  destruct (Z.eqb_spec i (n - 1)) as [E|N].
  - rewrite get_ok, bind_Ok by lia. rewrite set_ok, bind_Ok by lia. destruct f as [|f]; [lia|]. cbn [ms_pairs].
    destruct (Z.ltb_spec (i + 2) n); [lia|]. eexists. split; [reflexivity|]. split.
    + intros q Hq. replace (2 * q) with i by lia. replace (Z.min 2 (n - i)) with 1 by lia. change (Z.to_nat 1) with 1%nat. cbn [elems].
      rewrite Z.eqb_refl. apply sp_one.
    + intros x Hx. destruct (Z.eqb_spec x i); [lia|reflexivity].
  - rewrite get_ok, bind_Ok by lia. rewrite get_ok, bind_Ok by lia.
    assert (G : forall u v, sp [a i; a (i + 1)] [u; v] ->
      exists b', (let* b := set n b i u in let* b := set n b (i + 1) v in ms_pairs lt f n a b (i + 2) (i + 2)) = Ok b' /\
        blk 2 i n a b' /\ forall x, ~ (i <= x < n) -> b' x = b x).
    { intros u v S. rewrite set_ok, bind_Ok by lia. rewrite set_ok, bind_Ok by lia.
      destruct (IH (fun x => if x =? i + 1 then v else if x =? i then u else b x) (i + 2)) as (b' & R & B & O); [lia| |lia|].
      { replace (i + 2) with (i + 1 * 2) by lia. rewrite Z.mod_add by lia. exact Hm. }
      exists b'. split; [exact R|]. split.
      - intros q Hq. destruct (Z.eq_dec (2 * q) i) as [Eq|Nq].
        + rewrite Eq. replace (Z.min 2 (n - i)) with 2 by lia. change (Z.to_nat 2) with 2%nat. cbn [elems].
          rewrite !O by lia. rewrite Z.eqb_refl. destruct (Z.eqb_spec i (i + 1)); [lia|]. rewrite Z.eqb_refl. exact S.
        + apply B. assert (i = 2 * (i / 2)) by (rewrite (Z.div_mod i 2) at 1; lia). lia.
      - intros x Hx. rewrite O by lia. destruct (Z.eqb_spec x (i + 1)); [lia|]. destruct (Z.eqb_spec x i); [lia|reflexivity]. }
    destruct (lt (a (i + 1)) (a i)) eqn:E.
    + apply G. change [a i; a (i + 1)] with ([a i] ++ [a (i + 1)]). replace [a (i + 1); a i] with (mrg [a i] [a (i + 1)]) by (cbn; now rewrite E).
      apply sp_mrg; apply sp_one.
    + apply G. change [a i; a (i + 1)] with ([a i] ++ [a (i + 1)]) at 1. replace [a i; a (i + 1)] with (mrg [a i] [a (i + 1)]) by (cbn; now rewrite E).
      apply sp_mrg; apply sp_one.
Qed.

Lemma blocks_ok n a0 a s g : n <= 2305843009213693952 -> 1 <= s < n -> (Z.to_nat n < g)%nat -> blk s 0 n a0 a ->
  forall f b q, 0 <= q -> (Z.to_nat (n - 2 * s * q) < f)%nat ->
  exists b', ms_blocks lt f g n a b (2 * s * q) s = Ok b' /\ blk (2 * s) (2 * s * q) n a0 b' /\ forall x, ~ (2 * s * q <= x < n) -> b' x = b x.
Proof.
  intros Hn Hs Hg B. induction f as [|f IH]; intros b q Hq Hf; [lia|]. cbn [ms_blocks].
  destruct (Z.ltb_spec (2 * s * q) n) as [L|L].
  2: { exists b. split; [reflexivity|]. split; [|auto]. intros r Hr. lia. }
  pose proof (Z.mul_nonneg_nonneg (2 * s) q) as NN. specialize (NN ltac:(lia) Hq).
  assert (EQ : 2 * s * q + s * 2 = 2 * s * (q + 1)) by lia.
  remember (2 * s * q) as i eqn:Ei. 
  rewrite lop_ok, bind_Ok by (unfold LONG_MIN, LONG_MAX; lia).
  assert (B1 := B (2 * q)). replace (s * (2 * q)) with i in B1 by lia. specialize (B1 ltac:(lia)).
  assert (B2 := B (2 * q + 1)). replace (s * (2 * q + 1)) with (i + s) in B2 by lia.
  assert (M : exists b1, (let* (ea, eb) := (if n <? i + s then Ok (n, 0) else let* i2 := lop (i + s * 2) in Ok (i + s, if n <? i2 then n else i2)) in
      ms_merge lt g n a b i ea (i + s) eb i) = Ok b1 /\
      sp (elems a0 i (Z.to_nat (Z.min (2 * s) (n - i)))) (elems b1 i (Z.to_nat (Z.min (2 * s) (n - i)))) /\
      forall x, ~ (i <= x < Z.min n (i + 2 * s)) -> b1 x = b x).
  { destruct (Z.ltb_spec n (i + s)) as [C|C].
    - rewrite bind_Ok. destruct (merge_ok n a n 0) with (f := g) (b := b) (j := i) (k := i + s) (p := i) as (b1 & R & E & O); try lia.
      exists b1. split; [exact R|]. rewrite (elems_0 a (i + s)), mrg_nil_r in E by lia.
      replace (n - i + Z.max 0 (0 - (i + s))) with (n - i) in E by lia.
      replace (Z.min (2 * s) (n - i)) with (n - i) by lia. replace (Z.min s (n - i)) with (n - i) in B1 by lia. rewrite E.
      split; [exact B1|]. intros x Hx. apply O. lia.
    - rewrite lop_ok, bind_Ok by (unfold LONG_MIN, LONG_MAX; lia). rewrite bind_Ok.
      assert (EB : (if n <? i + s * 2 then n else i + s * 2) = Z.min n (i + s * 2)) by (destruct (Z.ltb_spec n (i + s * 2)); lia).
      rewrite EB. destruct (merge_ok n a (i + s) (Z.min n (i + s * 2))) with (f := g) (b := b) (j := i) (k := i + s) (p := i) as (b1 & R & E & O); try lia.
      exists b1. split; [exact R|]. replace (i + s - i + Z.max 0 (Z.min n (i + s * 2) - (i + s))) with (Z.min (2 * s) (n - i)) in E by lia.
      split; [|intros x Hx; apply O; lia]. rewrite E.
      replace (Z.to_nat (Z.min (2 * s) (n - i))) with (Z.to_nat s + Z.to_nat (Z.min s (n - (i + s))))%nat by lia.
      rewrite elems_app. rewrite Z2Nat.id by lia. apply sp_mrg.
      + replace (i + s - i) with s by lia. replace (Z.min s (n - i)) with s in B1 by lia. exact B1.
      + replace (Z.min n (i + s * 2) - (i + s)) with (Z.min s (n - (i + s))) by lia.
        destruct (Z.eq_dec (i + s) n) as [En|Nn]; [|apply B2; lia].
        rewrite !elems_0 by lia. split; [constructor|]. split; [intros z; reflexivity|constructor]. }
  destruct M as (b1 & R1 & S1 & O1).
  match type of R1 with bind ?X _ = _ => destruct X as [[ea eb]| |] end; try discriminate R1. cbn [bind] in R1. rewrite bind_Ok.
  rewrite R1, bind_Ok. rewrite lop_ok, bind_Ok by (unfold LONG_MIN, LONG_MAX; lia). rewrite EQ.
  destruct (IH b1 (q + 1)) as (b' & R & B' & O); [lia|lia|]. exists b'. split; [exact R|]. split.
  - intros r Hr. destruct (Z.eq_dec r q) as [->|Nr].
    + rewrite <- Ei. assert (X : elems b' i (Z.to_nat (Z.min (2 * s) (n - i))) = elems b1 i (Z.to_nat (Z.min (2 * s) (n - i)))).
      { apply elems_ext. intros x Hx. apply O. lia. }
      rewrite X. exact S1.
    + apply B'. split; [|lia]. assert (q < r). { destruct (Z_lt_dec q r); [auto|]. exfalso.
        assert (2 * s * r <= 2 * s * (q - 1)) by (apply Z.mul_le_mono_nonneg_l; lia). lia. }
      apply Z.mul_le_mono_nonneg_l; lia.
  - intros x Hx. rewrite O by lia. apply O1. lia.
Qed.

Lemma mloop_ok n a0 t0 g : 0 <= n <= 2305843009213693952 -> (Z.to_nat (n + 1) < g)%nat ->
  forall f a b (curr : bool) sh, 0 <= sh -> (Z.to_nat (n - sh) < f)%nat -> blk (2 ^ sh) 0 n a0 a -> (sh = 0 -> a = a0) ->
  (forall x, ~ (0 <= x < n) -> (if curr then b else a) x = a0 x /\ (if curr then a else b) x = t0 x) ->
  exists a' b' (curr' : bool), ms_loop lt f g n a b curr sh = Ok (a', b', curr') /\ sp (elems a0 0 (Z.to_nat n)) (elems a' 0 (Z.to_nat n)) /\
  (forall x, ~ (0 <= x < n) -> (if curr' then b' else a') x = a0 x /\ (if curr' then a' else b') x = t0 x).
Proof.
  intros Hn Hg. induction f as [|f IH]; intros a b curr sh Hsh Hf B A0 O.
  { assert (n <= sh) by lia. destruct (Z.eq_dec n 0) as [->|]; lia. }
  cbn [ms_loop]. assert (P : 1 <= 2 ^ sh) by (pose proof (Z.pow_pos_nonneg 2 sh); lia).
  destruct (Z.ltb_spec (2 ^ sh) n) as [L|L].
  - assert (SH : sh < n). { pose proof (Z.pow_gt_lin_r 2 sh). lia. }
    assert (N : exists b', (if sh =? 0 then ms_pairs lt g n a b 0 0 else ms_blocks lt g g n a b 0 (2 ^ sh)) = Ok b' /\
      blk (2 ^ (sh + 1)) 0 n a0 b' /\ forall x, ~ (0 <= x < n) -> b' x = b x).
    { destruct (Z.eqb_spec sh 0) as [->|Ns].
      - destruct (pairs_ok n a) with (f := g) (b := b) (i := 0) as (b' & R & B' & O'); [lia|lia|reflexivity|lia|].
        exists b'. split; [exact R|]. rewrite <- (A0 eq_refl). split; [exact B'|exact O'].
      - destruct (blocks_ok n a0 a (2 ^ sh) g) with (f := g) (b := b) (q := 0) as (b' & R & B' & O'); try lia; auto.
        rewrite Z.mul_0_r in *. exists b'. split; [exact R|]. rewrite Z.pow_add_r by lia. change (2 ^ 1) with 2. rewrite (Z.mul_comm (2 ^ sh) 2).
        split; [exact B'|exact O']. }
    destruct N as (b' & R & B' & O'). rewrite R, bind_Ok. apply IH; try lia; auto.
    intros x Hx. destruct (O x Hx) as [O1 O2]. destruct curr; cbn [negb]; rewrite O' by auto; split; auto.
  - exists a, b, curr. split; [reflexivity|]. split; [|exact O]. destruct (Z.eq_dec n 0) as [->|Nn].
    + cbn. split; [constructor|]. split; [intros z; reflexivity|constructor].
    + specialize (B 0). rewrite Z.mul_0_r in B. replace (Z.min (2 ^ sh) (n - 0)) with n in B by lia. apply B. lia.
Qed.

Lemma mergesort_ok f n a t : 0 <= n <= 2305843009213693952 -> (Z.to_nat (n + 1) < f)%nat ->
  exists b, mergesort lt f n a t = Ok b /\ sp (elems a 0 (Z.to_nat n)) (elems b 0 (Z.to_nat n)) /\ forall x, ~ (0 <= x < n) -> b x = a x.
Proof.
  intros Hn Hf. unfold mergesort. destruct (mloop_ok n a t f Hn Hf f a t false 0) as (a' & b' & curr & R & S & O); try lia; auto.
  { intros q Hq. change (2 ^ 0) with 1 in *. replace (Z.min 1 (n - 1 * q)) with 1 by lia. apply sp_one. }
  rewrite R, bind_Ok. destruct curr.
  - destruct (copy_ok n a' n) with (f := f) (b := b') (j := 0) (p := 0) as (b & R' & E & O'); try lia.
    rewrite R', bind_Ok. exists b. split; [reflexivity|]. rewrite Z.sub_0_r in E. rewrite E. split; [exact S|].
    intros x Hx. rewrite O' by lia. now apply O.
  - exists a'. split; [reflexivity|]. split; [exact S|]. intros x Hx. now apply O.
Qed.

Lemma sorted_order n b : sorted (elems b 0 (Z.to_nat n)) -> in_order lt b n.
Proof.
  intros S i j Hi Hj. assert (G : forall k l, sorted (elems b l k) -> forall i j, l <= i < j -> j < l + Z.of_nat k -> le (b i) (b j)).
  { induction k as [|k IH]; intros l H i' j' Hi' Hj'; [lia|]. cbn [elems] in H. apply sorted_cons in H as [H F].
    destruct (Z.eq_dec i' l) as [->|N]; [|apply (IH (l + 1)); auto; lia].
    rewrite Forall_forall in F. apply F. clear - Hi' Hj'. assert (E : exists m, j' = l + 1 + Z.of_nat m) by (exists (Z.to_nat (j' - l - 1)); lia).
    destruct E as (m & ->). rewrite elems_map, map_map. apply in_map_iff. exists m. split; [reflexivity|]. apply in_seq. lia. }
  apply (G _ 0 S); lia.
Qed.
End merge.
