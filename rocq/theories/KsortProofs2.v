(* Proofs about ks_heapadjust, ks_heapmake and ks_heapsort of contrib/ksort.h. *)
From Verif Require Import Base BaseLemmas KsortModel KsortSpec KsortProofs.

Ltac Zify.zify_post_hook ::= Z.div_mod_to_equations.

Section heap.
Context {A : Type}.
Variable lt : A -> A -> bool.
Hypothesis SW : strict_weak lt.
Implicit Types a b : arr A.
Local Notation le := (le lt).

Lemma moved_ext l r a b : (forall x, b x = a x) -> moved l r a b.
Proof. intros H. exists (fun x => x), (fun x => x). repeat split; auto. Qed.

Definition par (c : Z) : Z := (c - 1) / 2.
(* the heap property for the parents from lo on *)
Definition heap (lo n : Z) a : Prop := forall c, 0 < c < n -> lo <= par c -> le (a c) (a (par c)).

Lemma heap_down_ok n m lo : 0 <= lo -> n <= m -> m <= 4611686018427387904 ->
  forall f a l tmp i, lo <= i < n -> (Z.to_nat (n - i) < f)%nat ->
  (forall x, x <> i -> l x = a x) -> a i = tmp ->
  (forall c, 0 < c < n -> lo <= par c -> par c <> i -> le (a c) (a (par c))) ->
  (forall c, 0 < c < n -> par c = i -> 0 < i -> lo <= par i -> le (a c) (a (par i))) ->
  exists l' i', heap_down lt f n m l tmp i i = Ok (l', i') /\ 0 <= i' < n /\
    let b := fun x => if x =? i' then tmp else l' x in moved lo (n - 1) a b /\ heap lo n b.
Proof.
  intros Hlo Hnm Hm. induction f as [|f IH]; intros a l tmp i Hi Hf L T H1 H2; [lia|].
  cbn [heap_down]. rewrite lop_ok, bind_Ok by (unfold LONG_MIN, LONG_MAX; lia).
  rewrite lop_ok, bind_Ok by (unfold LONG_MIN, LONG_MAX; lia).
  assert (DONE : (forall c, 0 < c < n -> par c = i -> le (a c) (a i)) ->
    let b := fun x => if x =? i then tmp else l x in moved lo (n - 1) a b /\ heap lo n b).
  { intros HC b. assert (E : forall x, b x = a x) by (intros x; unfold b; destruct (Z.eqb_spec x i) as [->|]; auto).
    split; [now apply moved_ext|]. intros c Hc Hp. rewrite !E. destruct (Z.eq_dec (par c) i) as [E1|N1]; [rewrite E1; auto|auto]. }
  destruct (Z.ltb_spec (i * 2 + 1) n) as [K|K].
  2: { exists l, i. split; [reflexivity|]. split; [lia|]. apply DONE. intros c Hc Hp. unfold par in Hp. lia. }
  assert (KK : exists k, (if i * 2 + 1 =? n - 1 then Ok (i * 2 + 1)
     else let* t := less lt m l (i * 2 + 1) (i * 2 + 1 + 1) in Ok (if t then i * 2 + 1 + 1 else i * 2 + 1)) = Ok k
     /\ par k = i /\ i < k < n /\ forall c, 0 < c < n -> par c = i -> le (a c) (a k)).
  { destruct (Z.eqb_spec (i * 2 + 1) (n - 1)) as [E|N].
    - exists (i * 2 + 1). unfold par. split; [reflexivity|]. split; [lia|]. split; [lia|]. intros c Hc Hp.
      replace c with (i * 2 + 1) by lia. apply le_refl, SW.
    - rewrite less_ok, bind_Ok by lia. rewrite !L by lia. eexists. split; [reflexivity|].
      destruct (lt (a (i * 2 + 1)) (a (i * 2 + 1 + 1))) eqn:E; unfold par; (split; [lia|]); (split; [lia|]); intros c Hc Hp.
      + assert (c = i * 2 + 1 \/ c = i * 2 + 1 + 1) as [->| ->] by lia; [now apply lt_le|apply le_refl, SW].
      + assert (c = i * 2 + 1 \/ c = i * 2 + 1 + 1) as [->| ->] by lia; [apply le_refl, SW|exact E]. }
  destruct KK as (k & -> & Pk & Hk & Mk). rewrite bind_Ok, get_ok, bind_Ok by lia. rewrite L by lia.
  destruct (lt (a k) tmp) eqn:E.
  { exists l, i. split; [reflexivity|]. split; [lia|]. apply DONE. intros c Hc Hp. rewrite T.
    apply (le_trans lt SW) with (a k); [auto|]. now apply lt_le. }
  rewrite set_ok, bind_Ok by lia.
  destruct (IH (swp a i k) (fun x => if x =? i then a k else l x) tmp k) as (l' & i' & R & Hi' & M & HP).
  - lia.
  - lia.
  - intros x Hx. destruct (Z.eqb_spec x i) as [->|]; [now rewrite swp_l|]. rewrite swp_o by lia. now apply L.
  - now rewrite swp_r.
  - intros c Hc Hp Np. destruct (Z.eq_dec (par c) i) as [Ei|Ni].
    + rewrite Ei, swp_l. destruct (Z.eq_dec c k) as [->|Nk]; [rewrite swp_r, T; exact E|].
      rewrite swp_o; [now apply Mk| |lia]. unfold par in Ei. lia.
    + rewrite (swp_o a i k (par c)) by lia. destruct (Z.eq_dec c i) as [->|Nc].
      * rewrite swp_l. apply H2; auto; lia.
      * rewrite swp_o; [now apply H1|lia|]. congruence.
  - intros c Hc Hp Hk0 _. rewrite Pk, swp_l. rewrite swp_o; [|unfold par in *; lia|unfold par in *; lia].
    rewrite <- Hp. apply H1; auto; lia.
  - exists l', i'. split; [exact R|]. split; [lia|]. split; [|exact HP].
    eapply moved_trans; [|exact M]. apply moved_swp; lia.
Qed.

Lemma heapadjust_ok f n m lo i a : 0 <= lo -> n <= m -> m <= 4611686018427387904 -> lo <= i < n -> (Z.to_nat n < f)%nat ->
  (forall c, 0 < c < n -> lo <= par c -> par c <> i -> le (a c) (a (par c))) ->
  (0 < i -> par i < lo) ->
  exists b, heapadjust lt f m i n a = Ok b /\ moved lo (n - 1) a b /\ heap lo n b.
Proof.
  intros Hlo Hnm Hm Hi Hf H1 H2. unfold heapadjust. rewrite get_ok, bind_Ok by lia.
  destruct (heap_down_ok n m lo Hlo Hnm Hm f a a (a i) i) as (l' & i' & R & Hi' & M & HP);
    [lia|lia|reflexivity|reflexivity|exact H1| |].
  { intros c Hc Hp Hi0 HH. specialize (H2 Hi0). lia. }
  rewrite R, bind_Ok, set_ok by lia. eexists. split; [reflexivity|]. split; [exact M|exact HP].
Qed.

Lemma heapmake_loop_ok n g : n <= 4611686018427387904 -> (Z.to_nat n < g)%nat ->
  forall f a i, -1 <= i < n -> 2 * i + 1 <= n -> (Z.to_nat (i + 1) < f)%nat -> heap (i + 1) n a ->
  exists b, heapmake_loop lt f g n a i = Ok b /\ moved 0 (n - 1) a b /\ heap 0 n b.
Proof.
  intros Hn Hg. induction f as [|f IH]; intros a i Hi Hi2 Hf H; [lia|]. cbn [heapmake_loop].
  destruct (Z.eqb_spec i (-1)) as [->|N].
  - exists a. split; [reflexivity|]. split; [apply moved_refl|exact H].
  - destruct (heapadjust_ok g n n i i a) as (b & R & M & HP); try lia.
    { intros c Hc Hp Np. apply H; lia. }
    { unfold par. lia. }
    rewrite R, bind_Ok. destruct (IH b (i - 1)) as (b' & R' & M' & HP'); try lia.
    { replace (i - 1 + 1) with i by lia. exact HP. }
    exists b'. split; [exact R'|]. split; [|exact HP'].
    eapply moved_trans; [|exact M']. apply (moved_sub _ _ _ _ _ _ M); lia.
Qed.

Lemma heapmake_ok f n a : 0 <= n <= 4611686018427387904 -> (Z.to_nat n < f)%nat ->
  exists b, heapmake lt f n a = Ok b /\ moved 0 (n - 1) a b /\ heap 0 n b.
Proof.
  intros Hn Hf. unfold heapmake. apply heapmake_loop_ok; try lia.
  intros c Hc Hp. unfold par in Hp. lia.
Qed.

Lemma heap_max n a : heap 0 n a -> forall k c, 0 <= c < n -> (Z.to_nat c < k)%nat -> le (a c) (a 0).
Proof.
  intros H. induction k as [|k IH]; intros c Hc Hk; [lia|].
  destruct (Z.eq_dec c 0) as [->|N]; [apply le_refl, SW|].
  apply (le_trans lt SW) with (a (par c)).
  - apply H; [lia|]. unfold par. lia.
  - apply IH; unfold par; lia.
Qed.

Lemma heapsort_loop_ok n g : n <= 4611686018427387904 -> (Z.to_nat n < g)%nat ->
  forall f a i, -1 <= i < n -> (Z.to_nat (i + 1) < f)%nat -> heap 0 (i + 1) a ->
  (forall x y, 0 <= x < y -> i < y < n -> le (a x) (a y)) ->
  exists b, heapsort_loop lt f g n a i = Ok b /\ moved 0 (n - 1) a b /\ ord lt 0 (n - 1) b.
Proof.
  intros Hn Hg. induction f as [|f IH]; intros a i Hi Hf H T; [lia|]. cbn [heapsort_loop].
  destruct (Z.ltb_spec 0 i) as [P|P].
  2: { exists a. split; [reflexivity|]. split; [apply moved_refl|]. intros x y Hx Hy. apply T; lia. }
  rewrite swap_ok, bind_Ok by lia.
  destruct (heapadjust_ok g i n 0 0 (swp a 0 i)) as (b & R & M & HP); try lia.
  { intros c Hc Hp Np. rewrite !swp_o by (unfold par in *; lia). apply H; lia. }
  rewrite R, bind_Ok. assert (MA : moved 0 i a b).
  { eapply moved_trans; [|apply (moved_sub _ _ _ _ _ _ M); lia]. apply moved_swp; lia. }
  destruct (IH b (i - 1)) as (b' & R' & M' & O'); try lia.
  - replace (i - 1 + 1) with i by lia. exact HP.
  - intros x y Hx Hy. destruct (Z.eq_dec y i) as [->|Ny].
    + destruct (moved_in _ _ _ _ x MA) as (z & Hz & ->); [lia|].
      rewrite (moved_out _ _ _ _ i M) by lia. rewrite swp_r. apply (heap_max (i + 1) a H (S (Z.to_nat z))); lia.
    + rewrite (moved_out _ _ _ _ y MA) by lia. destruct (Z_le_dec x i).
      * destruct (moved_in _ _ _ _ x MA) as (z & Hz & ->); [lia|]. apply T; lia.
      * rewrite (moved_out _ _ _ _ x MA) by lia. apply T; lia.
  - exists b'. split; [exact R'|]. split; [|exact O']. eapply moved_trans; [|exact M']. apply (moved_sub _ _ _ _ _ _ MA); lia.
Qed.

Lemma heapsort_ok f n a : 0 <= n <= 4611686018427387904 -> (Z.to_nat n < f)%nat -> heap 0 n a ->
  exists b, heapsort lt f n a = Ok b /\ moved 0 (n - 1) a b /\ ord lt 0 (n - 1) b.
Proof.
  intros Hn Hf H. unfold heapsort. apply heapsort_loop_ok; try lia.
  replace (n - 1 + 1) with n by lia. exact H.
Qed.
End heap.
