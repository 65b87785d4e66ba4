(* The program's view follows the block list; whole histories; realloc. *)
From Verif Require Import Base BaseLemmas AllocModel AllocSpec AllocProofs.
Ltac Zify.zify_post_hook ::= Z.div_mod_to_equations.

(* ---- bytes ---- *)
Lemma pow256 o : 0 <= o mod 4 < 4 /\ (256 ^ (o mod 4) = 1 \/ 256 ^ (o mod 4) = 256 \/ 256 ^ (o mod 4) = 65536 \/ 256 ^ (o mod 4) = 16777216).
Proof.
  assert (H : 0 <= o mod 4 < 4) by lia. split; auto.
  assert (o mod 4 = 0 \/ o mod 4 = 1 \/ o mod 4 = 2 \/ o mod 4 = 3) as [E|[E|[E|E]]] by lia; rewrite E; cbn; auto.
Qed.
Lemma getb_ext w w' o : w' (o / 4) = w (o / 4) -> getb w' o = getb w o.
Proof. unfold getb. now intros ->. Qed.
Lemma getb_putb_same w o v : 0 <= v < 256 -> getb (putb w o v) o = v.
Proof.
  intro Hv. unfold putb, getb. rewrite setw_same. destruct (pow256 o) as [_ [E|[E|[E|E]]]]; rewrite E; lia.
Qed.
Lemma putb_mod (u d k j : Z) : 0 <= k < 4 -> 0 <= j < 4 -> j <> k ->
  (u + (d - u / 256 ^ k mod 256) * 256 ^ k) / 256 ^ j mod 256 = u / 256 ^ j mod 256 \/ ~ (0 <= d < 256).
Proof.
  intros Hk Hj Hne.
  assert (k = 0 \/ k = 1 \/ k = 2 \/ k = 3) as [E|[E|[E|E]]] by lia;
  assert (j = 0 \/ j = 1 \/ j = 2 \/ j = 3) as [F|[F|[F|F]]] by lia; subst k j;
  change (256 ^ 0) with 1; change (256 ^ 1) with 256; change (256 ^ 2) with 65536; change (256 ^ 3) with 16777216;
  try lia.
Qed.
Lemma getb_putb_other w o v x : 0 <= v < 256 -> x <> o -> getb (putb w o v) x = getb w x.
Proof.
  intros Hv Hx. unfold putb. destruct (Z.eq_dec (x / 4) (o / 4)) as [E|E].
  - unfold getb. rewrite E, setw_same.
    destruct (putb_mod (w (o / 4)) v (o mod 4) (x mod 4)) as [K|K]; try lia; exact K.
  - apply getb_ext. now apply setw_other.
Qed.

Lemma set_nth_length k v l : length (set_nth k v l) = length l.
Proof. revert k. induction l; destruct k; cbn [set_nth length]; auto. Qed.
Lemma set_nth_same k v l d : (k < length l)%nat -> nth k (set_nth k v l) d = v.
Proof. revert k. induction l; destruct k; cbn [set_nth length nth]; intros; try lia; auto. apply IHl. lia. Qed.
Lemma set_nth_other k j v l d : j <> k -> nth j (set_nth k v l) d = nth j l d.
Proof. revert k j. induction l; destruct k, j; cbn [set_nth nth]; intros; try lia; auto. Qed.

Lemma lookup_in p L l : lookup p L = Some l -> In (p, l) L.
Proof.
  induction L as [|[q l'] L IH]; cbn [lookup]; [discriminate|].
  destruct (Z.eqb_spec q p); intro H; [inversion H; subst; left; auto|right; auto].
Qed.

Lemma Forall2_in_r {A B} (R : A -> B -> Prop) l1 l2 y :
  Forall2 R l1 l2 -> In y l2 -> exists x, In x l1 /\ R x y.
Proof. induction 1; intro I; [easy|]. destruct I as [->|I]; [eexists; split; [left; auto|auto]|]. destruct (IHForall2 I) as (z & ? & ?). exists z. split; [right|]; auto. Qed.
Lemma Forall2_impl_in {A B} (R R' : A -> B -> Prop) l1 l2 :
  Forall2 R l1 l2 -> (forall x y, In x l1 -> In y l2 -> R x y -> R' x y) -> Forall2 R' l1 l2.
Proof. induction 1; intro I; constructor. - apply I; try (left; reflexivity); auto. - apply IHForall2. intros. apply I; try right; auto. Qed.

Lemma map_nodup_inj (f : Z -> Z) l : (forall x y, f x = f y -> x = y) -> NoDup l -> NoDup (map f l).
Proof.
  intros Hf H. induction H as [|x l Hx H IH]; cbn [map]; constructor; auto.
  intro I. apply in_map_iff in I as (y & E & I). apply Hf in E. subst. auto.
Qed.
Lemma nth_firstn_lt k n (ll : list Z) : (k < n)%nat -> nth k (firstn n ll) 0 = nth k ll 0.
Proof.
  revert k ll. induction n; intros; [lia|]. destruct ll; [destruct k; auto|].
  destruct k; cbn [firstn nth]; auto. apply IHn. lia.
Qed.
Lemma view_ok_shrink N w q l (L : view) n : view_ok N w ((q, l) :: L) -> view_ok N w ((q, firstn n l) :: L).
Proof.
  intros (W1 & W2 & W3). assert (Hl : zlen (firstn n l) <= zlen l) by (rewrite zlen_firstn; lia).
  split; [|split; [exact W2|]].
  - intros p m [J|J]; [|apply W1; right; auto]. inversion J. subst p m.
    destruct (W1 q l (or_introl eq_refl)) as (V1 & V2 & V3 & V4). split; auto. split; auto. split; [lia|].
    intros k Hk. rewrite firstn_length in Hk. rewrite nth_firstn_lt by lia. apply V4. lia.
  - intros p m p' m' J J' Hne.
    assert (X : forall a b, In (a, b) ((q, firstn n l) :: L) -> exists c, In (a, c) ((q, l) :: L) /\ zlen b <= zlen c).
    { intros a c [K|K]; [inversion K; subst; exists l; split; [left|]; auto|exists c; split; [right; auto|lia]]. }
    destruct (X _ _ J) as (c & K & Hc). destruct (X _ _ J') as (c' & K' & Hc').
    pose proof (W3 _ _ _ _ K K' Hne). unfold apart in *. nneg m. nneg m'. lia.
Qed.

Section runs.
Variable N : Z.
Hypothesis HN : N mod 4 = 0.
Hypothesis HN2 : 4 <= N < 1073741824.

(* block (b,z) is the program's block (p,l) *)
Definition brel (w : Z -> Z) (bz : Z * Z) (e : Z * list Z) : Prop :=
  fst e = 4 * (fst bz + 1) /\ 1 <= zlen (snd e) /\ snd bz = bsize (zlen (snd e)) /\
  forall k, (k < length (snd e))%nat -> getb w (fst e + Z.of_nat k) = nth k (snd e) 0.

Definition vinv (s : ast) (bs : list blk) (L : view) : Prop :=
  ainv N s bs /\ (bs = [] \/ 64 <= msz s) /\ Forall2 (brel (words s)) (lives (msz s / 4) bs) L.

Lemma bsize_room n k : 1 <= n -> 0 <= k < n -> 4 <= 4 + k < 4 * bsize n.
Proof. unfold bsize. lia. Qed.

Lemma same_payload_view w w' lv L : same_payload w w' lv -> Forall2 (brel w) lv L -> Forall2 (brel w') lv L.
Proof.
  intros Hs H. eapply Forall2_impl_in; [exact H|]. intros [b z] [p l] I1 I2 (H1 & H2 & H3 & H4).
  cbn [fst snd] in *. split; auto. split; auto. split; auto. intros k Hk. cbn [fst snd] in *. rewrite <- H4 by auto. apply getb_ext.
  apply (Hs b z); auto. assert (0 <= Z.of_nat k < zlen l) by (unfold zlen; lia).
  pose proof (bsize_room (zlen l) (Z.of_nat k) H2 H0). lia.
Qed.

Lemma seg_payload w w' a pf bs b z : seg w a pf bs -> In (b, z) (lives a bs) ->
  (forall x, ~ (b < x < b + z) -> w' x = w x) -> seg w' a pf bs.
Proof.
  intros H I E. apply lives_split in I as (l1 & l2 & -> & ->).
  apply seg_app in H as [H1 H2]. apply seg_app. cbn [seg] in *. destruct H2 as (J1 & (p & J2 & J3) & J4 & J5 & J6).
  pose proof (seg_tot0 _ _ _ _ H1). pose proof (seg_tot0 _ _ _ _ J6).
  split; [|split; auto; split; [|split; [auto|split; [discriminate|]]]].
  - apply seg_ext with (w := w); auto. intros. apply E. lia.
  - exists p. rewrite E by lia. auto.
  - apply seg_ext with (w := w); auto. intros. apply E. lia.
Qed.

Lemma ainv_payload s bs b z w' : ainv N s bs -> In (b, z) (lives (msz s / 4) bs) ->
  (forall x, ~ (b < x < b + z) -> w' x = words s x) -> ainv N (mk_ast w' (msz s)) bs.
Proof.
  intros (I1 & I2 & I3 & I4 & I5) I E. unfold ainv. cbn [msz words].
  pose proof (lives_range _ _ _ _ _ _ I4 I). split; auto. split; auto. split; auto. split.
  - eapply seg_payload; eauto.
  - intro. rewrite E by lia. auto.
Qed.

(* ---- malloc ---- *)
Lemma vinv_malloc s bs L n : vinv s bs L -> 1 <= n <= INT_MAX - 8 ->
  (msz s - 4 * bsize n < 64 /\ malloc N s n = Ok (s, 0)) \/
  (64 <= msz s - 4 * bsize n /\ exists w',
     malloc N s n = Ok (mk_ast w' (msz s - 4 * bsize n), msz s - 4 * bsize n + 4) /\
     forall l, zlen l = n ->
       (forall k, (k < length l)%nat -> getb w' (msz s - 4 * bsize n + 4 + Z.of_nat k) = nth k l 0) ->
       vinv (mk_ast w' (msz s - 4 * bsize n)) ((bsize n, false) :: bs) ((msz s - 4 * bsize n + 4, l) :: L)).
Proof.
  intros (HA & HB & HC) Hn.
  destruct (malloc_ok N HN HN2 s bs n HA Hn) as [?|(H1 & w' & H2 & H3 & H4)]; [left; auto|right].
  split; auto. exists w'. split; auto. intros l Hl Hc. split; [exact H3|]. split; [right; cbn [msz]; lia|].
  cbn [msz words lives].
  destruct HA as (I1 & I2 & I3 & I4 & I5).
  constructor.
  - unfold brel. cbn [fst snd]. rewrite Hl. repeat split; auto; lia.
  - assert (E : (msz s - 4 * bsize n) / 4 + bsize n = msz s / 4) by lia. rewrite E.
    eapply same_payload_view; [|exact HC].
    intros b z x Hin Hx. pose proof (lives_range _ _ _ _ _ _ I4 Hin).
    assert (2 <= bsize n) by (unfold bsize; lia). apply H4; lia.
Qed.

Lemma seq_view w p n : 0 <= n ->
  zlen (map (fun k => getb w (p + Z.of_nat k)) (seq 0 (Z.to_nat n))) = n /\
  forall k, (k < length (map (fun k => getb w (p + Z.of_nat k)) (seq 0 (Z.to_nat n))))%nat ->
    getb w (p + Z.of_nat k) = nth k (map (fun k => getb w (p + Z.of_nat k)) (seq 0 (Z.to_nat n))) 0.
Proof.
  intro Hn. rewrite zlen_map, map_length, seq_length. split; [unfold zlen; rewrite seq_length; lia|].
  intros k Hk. set (f := fun k => getb w (p + Z.of_nat k)).
  rewrite nth_indep with (d' := f 0%nat) by (rewrite map_length, seq_length; auto).
  rewrite map_nth, seq_nth by auto. reflexivity.
Qed.

(* ---- free ---- *)
Lemma view_split s bs L p l : vinv s bs L -> In (p, l) L ->
  exists l1 z l2 La Lb, bs = l1 ++ (z, false) :: l2 /\ L = La ++ (p, l) :: Lb /\
    p = 4 * (msz s / 4 + tot l1 + 1) /\ z = bsize (zlen l) /\ 1 <= zlen l /\
    remove p L = La ++ Lb /\
    Forall2 (brel (words s)) (lives (msz s / 4) l1 ++ lives (msz s / 4 + tot l1 + z) l2) (La ++ Lb) /\
    (forall k, (k < length l)%nat -> getb (words s) (p + Z.of_nat k) = nth k l 0) /\
    (La = [] <-> lives (msz s / 4) l1 = []) /\ (forall q m, In (q, m) La -> q < p).
Proof.
  intros (HA & HB & HC) I. destruct (Forall2_in_r _ _ _ _ HC I) as ([b z] & J & (K1 & K2 & K3 & K4)). cbn [fst snd] in *.
  destruct HA as (I1 & I2 & I3 & I4 & I5).
  destruct (lives_split _ _ _ _ J) as (l1 & l2 & -> & ->).
  rewrite lives_app in HC. cbn [lives] in HC.
  apply Forall2_app_inv_l in HC as (La & Lr & F1 & F2 & ->).
  remember ((msz s / 4 + tot l1, z) :: lives (msz s / 4 + tot l1 + z) l2) as ll eqn:Ell.
  destruct F2 as [|bz e lv Lb F2 F3]; [discriminate|]. inversion Ell. subst bz lv. clear Ell.
  apply seg_app in I4 as [S1 S2]. cbn [seg] in S2. destruct S2 as (Hz & _ & _ & _ & S2).
  assert (Ea : forall q m, In (q, m) La -> q < p).
  { intros q m Hq. destruct (Forall2_in_r _ _ _ _ F1 Hq) as ([b' z'] & J' & (K' & _)). cbn [fst] in K'.
    pose proof (lives_range _ _ _ _ _ _ S1 J'). lia. }
  assert (Eb : forall q m, In (q, m) Lb -> p < q).
  { intros q m Hq. destruct (Forall2_in_r _ _ _ _ F3 Hq) as ([b' z'] & J' & (K' & _)). cbn [fst] in K'.
    pose proof (lives_range _ _ _ _ _ _ S2 J'). lia. }
  assert (He : e = (p, l)).
  { destruct F2 as (K' & _). cbn [fst] in K'.
    apply in_app_or in I as [I|[I|I]]; auto; [apply Ea in I; lia|apply Eb in I; lia]. }
  subst e. exists l1, z, l2, La, Lb. repeat split; auto.
  - unfold remove. rewrite filter_app. cbn [filter fst]. rewrite Z.eqb_refl. cbn [negb].
    assert (FL : forall M : view, (forall q m, In (q, m) M -> q <> p) -> filter (fun e => negb (fst e =? p)) M = M).
    { induction M as [|[q m] M IH]; intro HM; auto. cbn [filter fst].
      destruct (Z.eqb_spec q p); [exfalso; apply (HM q m); [left|]; auto|]. cbn [negb]. f_equal. apply IH.
      intros. apply (HM q0 m0). right; auto. }
    rewrite !FL; auto; [intros q m Hq; apply Eb in Hq; lia|intros q m Hq; apply Ea in Hq; lia].
  - apply Forall2_app; auto.
  - intros ->. inversion F1. auto.
  - intro E. rewrite E in F1. inversion F1. auto.
Qed.

Definition both_free (l1 l2 : list blk) : Prop := lastf None l1 = Some true /\ exists z1 l3, l2 = (z1, true) :: l3.

Lemma vinv_free strict s bs L p l : vinv s bs L -> In (p, l) L ->
  (strict = true -> exists L', L = (p, l) :: L') ->
  exists s' bs', free strict N s p = Ok s' /\ vinv s' bs' (remove p L) /\ msz s <= msz s'.
Proof.
  intros HV I Hst. destruct (view_split _ _ _ _ _ HV I) as (l1 & z & l2 & La & Lb & -> & EL & Ep & Ez & El & Er & F & _ & Ene & Elow).
  destruct HV as (HA & HB & HC). rewrite Er.
  assert (H64 : 64 <= msz s) by (destruct HB as [E|]; auto; destruct l1; discriminate).
  destruct l1 as [|e1 l1'].
  - (* lowest block *)
    cbn [app tot lives] in *. replace (4 * (msz s / 4 + 0 + 1)) with (msz s + 4) in Ep by (destruct HA; lia).
    destruct (free_bottom N HN HN2 strict s z l2 HA) as (ms' & H1 & Hms & l' & H2 & H3).
    exists (mk_ast (words s) ms'), l'. rewrite Ep. split; auto. rewrite Z.add_0_r in F.
    split; [|exact Hms]. split; auto. split; [right; cbn [msz]; lia|]. cbn [msz words]. rewrite H3. exact F.
  - assert (Hne : e1 :: l1' <> []) by discriminate. remember (e1 :: l1') as l1 eqn:E1.
    assert (Hmid : forall z1 l3, l2 = (z1, true) :: l3 -> strict = false \/ lastf None l1 = Some false).
    { intros. destruct strict; auto. destruct (Hst eq_refl) as (L' & EL').
      assert (La = []) as EA.
      { destruct La as [|a La]; auto. exfalso. rewrite EL in EL'. inversion EL'. subst a.
        specialize (Elow p l (or_introl eq_refl)). lia. }
      apply Ene in EA. subst l1. destruct e1 as [ze fe]. assert (fe = false) as -> by (eapply ainv_head; eauto; exact HA).
      cbn [lives] in EA. discriminate. }
    destruct (free_mid N HN HN2 strict s l1 z l2 HA Hne Hmid) as (w' & bs' & H1 & H2 & H3 & H4).
    exists (mk_ast w' (msz s)), bs'. rewrite Ep. split; auto. split; [|cbn [msz]; lia]. split; auto.
    split; [right; cbn [msz]; auto|]. cbn [msz words]. rewrite H3 in *. eapply same_payload_view; eauto.
Qed.

(* ---- writes by the program ---- *)
Lemma Forall2_map_r {A B C} (R : A -> C -> Prop) (f : B -> C) l1 l2 :
  Forall2 (fun a b => R a (f b)) l1 l2 -> Forall2 R l1 (map f l2).
Proof. induction 1; cbn [map]; constructor; auto. Qed.

Lemma vinv_write s bs L p l k v : vinv s bs L -> In (p, l) L -> 0 <= k < zlen l -> 0 <= v < 256 ->
  vinv (mk_ast (putb (words s) (p + k) v) (msz s)) bs (update p k v L).
Proof.
  intros (HA & HB & HC) I Hk Hv.
  destruct (Forall2_in_r _ _ _ _ HC I) as ([b z] & J & (K1 & K2 & K3 & K4)). cbn [fst snd] in *.
  pose proof (bsize_room (zlen l) k K2 Hk) as Hr.
  pose proof HA as (I1 & I2 & I3 & I4 & I5).
  split; [|split; [cbn [msz]; auto|]].
  - apply ainv_payload with (b := b) (z := z); auto. intros x Hx. unfold putb. apply setw_other. lia.
  - cbn [msz words]. unfold update. apply Forall2_map_r.
    eapply Forall2_impl_in; [exact HC|]. intros [b' z'] [p' l'] J1 J2 (M1 & M2 & M3 & M4). cbn [fst snd] in *.
    pose proof (lives_apart _ _ _ _ _ _ _ _ I4 J J1) as Hap.
    pose proof (lives_range _ _ _ _ _ _ I4 J) as Hr1. pose proof (lives_range _ _ _ _ _ _ I4 J1) as Hr2.
    destruct (Z.eqb_spec p' p) as [->|Hne]; unfold brel; cbn [fst snd].
    +  assert (Hl : zlen (set_nth (Z.to_nat k) v l') = zlen l') by (unfold zlen; now rewrite set_nth_length).
      rewrite Hl, set_nth_length. split; auto. split; auto. split; auto. intros j Hj.
      destruct (Nat.eq_dec j (Z.to_nat k)) as [->|Hjk].
      * rewrite Z2Nat.id by lia. rewrite set_nth_same by auto. now rewrite getb_putb_same.
      * rewrite set_nth_other by auto. rewrite getb_putb_other by lia. auto.
    + split; auto. split; auto. split; auto. intros j Hj. rewrite getb_putb_other; auto.
      assert (Hj' : 0 <= Z.of_nat j < zlen l') by (unfold zlen; lia).
      pose proof (bsize_room (zlen l') (Z.of_nat j) M2 Hj'). lia.
Qed.

(* ---- one step, whole histories ---- *)
Lemma vinv_step strict s bs L o : vinv s bs L -> (forall n, o = OMalloc n -> 1 <= n <= INT_MAX - 8) ->
  (strict = true -> forall p, o = OFree p -> exists l L', L = (p, l) :: L') ->
  exists s' bs' L', astep strict N (Ok (s, L)) o = Ok (s', L') /\ vinv s' bs' L'.
Proof.
  intros HV Ho Hst. unfold astep. rewrite bind_Ok. destruct o as [n|p|p k v].
  - specialize (Ho n eq_refl). destruct (vinv_malloc s bs L n HV Ho) as [(_ & E)|(H1 & w' & E & H2)]; rewrite E, bind_Ok.
    + cbn [Z.eqb]. eauto.
    + destruct (Z.eqb_spec (msz s - 4 * bsize n + 4) 0); [lia|]. cbn [words].
      destruct (seq_view w' (msz s - 4 * bsize n + 4) n) as [S1 S2]; [lia|].
      eexists _, _, _. split; [reflexivity|]. apply H2; auto.
  - destruct (lookup p L) as [l|] eqn:E; [|eauto].
    destruct (vinv_free strict s bs L p l HV (lookup_in _ _ _ E)) as (s' & bs' & F1 & F2 & _).
    { intro Hs. destruct (Hst Hs p eq_refl) as (l' & L' & ->). exists L'.
      cbn [lookup] in E. rewrite Z.eqb_refl in E. congruence. }
    rewrite F1, bind_Ok. eauto.
  - destruct (lookup p L) as [l|] eqn:E; [|eauto]. apply lookup_in in E.
    destruct (_ && _) eqn:C; [|eauto]. eexists _, _, _. split; [reflexivity|].
    eapply vinv_write; eauto; lia.
Qed.

Lemma run_gen strict ops : forall s bs L, vinv s bs L -> good_ops ops ->
  (strict = true -> lifo strict N (Ok (s, L)) ops) ->
  exists s' bs' L', fold_left (astep strict N) ops (Ok (s, L)) = Ok (s', L') /\ vinv s' bs' L'.
Proof.
  induction ops as [|o ops IH]; intros s bs L HV Hg Hl; [cbn [fold_left]; eauto|].
  destruct (vinv_step strict s bs L o HV) as (s1 & bs1 & L1 & E & HV1).
  - intros n ->. apply Hg. left; auto.
  - intros Hs p ->. destruct (Hl Hs) as [Hl1 _]. eapply Hl1; eauto.
  - cbn [fold_left]. rewrite E. apply (IH s1 bs1 L1); auto.
    + intros n Hn. apply Hg. right; auto.
    + intro Hs. destruct (Hl Hs) as [_ Hl2]. now rewrite E in Hl2.
Qed.

Lemma vinv_init w : vinv (init_alloc N w) [] [].
Proof. split; [apply ainv_init; auto|]. split; auto. cbn. constructor. Qed.

Lemma run_ok strict w ops : good_ops ops -> (strict = true -> lifo strict N (Ok (init_alloc N w, [])) ops) ->
  exists s bs L, arun strict N (init_alloc N w) ops = Ok (s, L) /\ vinv s bs L.
Proof. intros. apply run_gen with (bs := []); auto. apply vinv_init. Qed.

Lemma run_vinv w ops s L : good_ops ops -> arun false N (init_alloc N w) ops = Ok (s, L) -> exists bs, vinv s bs L.
Proof.
  intros Hg E. destruct (run_ok false w ops Hg) as (s' & bs & L' & E' & HV); [discriminate|].
  rewrite E in E'. inversion E'. subst. eauto.
Qed.

(* from blocks to the program's view *)
Lemma view_of_blocks s bs (L : view) : ainv N s bs -> 64 <= msz s \/ L = [] ->
  (forall p l, In (p, l) L -> exists b z, In (b, z) (lives (msz s / 4) bs) /\ p = 4 * (b + 1) /\
     zlen l <= 4 * (z - 1) /\ forall k, (k < length l)%nat -> getb (words s) (p + Z.of_nat k) = nth k l 0) ->
  NoDup (map fst L) -> view_ok N (words s) L.
Proof.
  intros (I1 & I2 & I3 & I4 & I5) H64 HL HN0. split; [|split; auto].
  - intros p l I. destruct (HL p l I) as (b & z & J & -> & H1 & H2).
    destruct H64 as [H64| ->]; [|destruct I].
    pose proof (lives_range _ _ _ _ _ _ I4 J). unfold S0 in *. repeat split; auto; lia.
  - intros p l p' l' I I' Hne. destruct (HL p l I) as (b & z & J & -> & H1 & _).
    destruct (HL p' l' I') as (b' & z' & J' & -> & H1' & _).
    pose proof (lives_apart _ _ _ _ _ _ _ _ I4 J J'). unfold apart.
    pose proof (lives_range _ _ _ _ _ _ I4 J). pose proof (lives_range _ _ _ _ _ _ I4 J'). lia.
Qed.

Lemma lives_sorted w l : forall a pf, seg w a pf l -> forall b z r, lives a l = (b, z) :: r -> Forall (fun e => b < fst e) r.
Proof.
  induction l as [|[z0 f] l IH]; intros a pf H b z r E; cbn [seg lives] in *; [discriminate|].
  destruct H as (Hz & _ & _ & _ & H6). destruct f; [eapply IH; eauto|]. inversion E. subst.
  apply Forall_forall. intros [b' z'] I. cbn [fst]. pose proof (lives_range _ _ _ _ _ _ H6 I). lia.
Qed.
Lemma lives_nodup w l : forall a pf, seg w a pf l -> NoDup (map fst (lives a l)).
Proof.
  induction l as [|[z0 f] l IH]; intros a pf H; cbn [seg lives] in *; [constructor|].
  destruct H as (Hz & _ & _ & _ & H6). destruct f; [eapply IH; eauto|]. cbn [map fst]. constructor; [|eapply IH; eauto].
  intro I. apply in_map_iff in I as ([b z] & E & I). cbn [fst] in E. subst.
  pose proof (lives_range _ _ _ _ _ _ H6 I). lia.
Qed.
Lemma vinv_nodup s bs L : vinv s bs L -> NoDup (map fst L).
Proof.
  intros (HA & _ & HC). destruct HA as (_ & _ & _ & I4 & _).
  pose proof (lives_nodup _ _ _ _ I4) as H.
  assert (E : map fst L = map (fun b => 4 * (b + 1)) (map fst (lives (msz s / 4) bs))).
  { clear - HC. induction HC as [|x y l l' R _ IH]; auto. cbn [map]. rewrite IH. destruct R as (-> & _). reflexivity. }
  rewrite E. apply map_nodup_inj; auto. intros; lia.
Qed.

Lemma vinv_view s bs L : vinv s bs L -> view_ok N (words s) L.
Proof.
  intro HV. pose proof (vinv_nodup _ _ _ HV). destruct HV as (HA & HB & HC).
  apply (view_of_blocks s bs); auto.
  - destruct HB as [-> |]; auto. cbn [lives] in HC. inversion HC. auto.
  - intros p l I. destruct (Forall2_in_r _ _ _ _ HC I) as ([b z] & J & (K1 & K2 & K3 & K4)). cbn [fst snd] in *.
    exists b, z. repeat split; auto. unfold bsize in K3. lia.
Qed.

Lemma vinv_empty s bs : vinv s bs [] -> msz s = N - 4.
Proof.
  intros (HA & _ & HC). destruct bs as [|[z f] bs].
  - destruct HA as (I1 & I2 & I3 & _). cbn [tot] in I3. unfold S0 in *. lia.
  - pose proof (ainv_head N _ _ _ _ HA) as ->. cbn [lives] in HC. inversion HC.
Qed.

(* ---- realloc ---- *)
Lemma copy_ints_ok k : forall w d src, 0 <= d -> d + Z.of_nat k <= src -> src + Z.of_nat k <= N / 4 ->
  exists w', copy_ints k N w d src = Ok w' /\
    (forall j, 0 <= j < Z.of_nat k -> w' (d + j) = w (src + j)) /\
    (forall x, ~ (d <= x < d + Z.of_nat k) -> w' x = w x).
Proof.
  induction k as [|k IH]; intros w d src H1 H2 H3; cbn [copy_ints].
  - exists w. split; auto. split; [intros; lia|auto].
  - rewrite geti_ok by lia. rewrite bind_Ok. rewrite seti_ok by lia. rewrite bind_Ok.
    destruct (IH (setw w d (w src)) (d + 1) (src + 1)) as (w' & E & A & B); try lia.
    exists w'. split; auto. split.
    + intros j Hj. destruct (Z.eq_dec j 0) as [->|].
      * rewrite B by lia. rewrite Z.add_0_r, setw_same. f_equal. lia.
      * replace (d + j) with (d + 1 + (j - 1)) by lia. rewrite A by lia.
        rewrite setw_other by lia. f_equal. lia.
    + intros x Hx. rewrite B by lia. apply setw_other. lia.
Qed.

Lemma remove_nodup p (L : view) : NoDup (map fst L) -> NoDup (map fst (remove p L)).
Proof.
  induction L as [|[q l] L IH]; intro H; cbn [remove filter map fst] in *; [constructor|].
  inversion H. subst. destruct (negb (q =? p)); [|apply IH; auto]. cbn [map fst]. constructor; [|apply IH; auto].
  intro I. apply H2. apply in_map_iff in I as (e & <- & I). apply filter_In in I as [I _]. apply in_map. auto.
Qed.
Lemma remove_in p (L : view) q l : In (q, l) (remove p L) <-> In (q, l) L /\ q <> p.
Proof.
  unfold remove. rewrite filter_In. cbn [fst]. destruct (Z.eqb_spec q p); cbn [negb]; intuition congruence.
Qed.

(* the bytes of a block of len bytes that realloc copies *)
Definition copied_part (len : Z) : Z := 4 * ((2 * bsize len - 1) / 4 + 1).

Lemma realloc_ok s bs L p l n : vinv s bs L -> In (p, l) L -> 1 <= n <= INT_MAX - 16 ->
  (4 * bsize n <= bsize (zlen l) \/ bsize (zlen l) <= 2 * bsize n) ->
  64 <= msz s - 4 * (bsize n + 1) ->
  exists s' q l', realloc false N s p n = Ok (s', q) /\ zlen l' = n /\
    (forall k, (k < length l)%nat -> Z.of_nat k < n -> Z.of_nat k < copied_part (zlen l) \/ 4 * bsize n <= bsize (zlen l) -> nth k l' 0 = nth k l 0) /\
    view_ok N (words s') ((q, l') :: remove p L).
Proof.
  intros HV I Hn Hok Hmem. pose proof (vinv_nodup _ _ _ HV) as Hnd.
  destruct (view_split s bs L p l HV I) as (l1 & z & l2 & La & Lb & Ebs & EL & Ep & Ez & El & Er & F & Hc & _ & _).
  pose proof HV as (HA & HB & HC). pose proof HA as (I1 & I2 & I3 & I4 & I5).
  destruct HB as [HB|HB]; [subst bs; destruct l1; discriminate|].
  assert (Hin : In (msz s / 4 + tot l1, z) (lives (msz s / 4) bs)).
  { rewrite Ebs, lives_app. cbn [lives]. apply in_or_app. right. left. auto. }
  pose proof (lives_range _ _ _ _ _ _ I4 Hin) as Hrg. unfold S0 in *.
  set (b := msz s / 4 + tot l1) in *.
  assert (Hhdr : exists pr, words s b = enc false pr z /\ 2 <= z < 268435456).
  { rewrite Ebs in I4. apply seg_app in I4 as [_ I4]. cbn [seg] in I4. fold b in I4.
    destruct I4 as (Hz & (pr & H & _) & _). eauto. }
  destruct Hhdr as (pr & Hh & Hz).
  unfold realloc. destruct (Z.eqb_spec n 0); [lia|]. destruct (Z.eqb_spec p 0); [lia|].
  destruct (Z.eqb_spec (p mod 4) 0); [|lia]. cbn [negb]. replace ((p - 4) / 4) with b by lia.
  rewrite geti_ok by lia. rewrite bind_Ok, Hh, enc_size by lia.
  unfold INT_MAX in Hn. rewrite iop_ok by (unfold INT_MIN, INT_MAX; lia). rewrite bind_Ok.
  rewrite Z.shiftr_div_pow2 by lia. change (2 ^ 2) with 4. fold (bsize n).
  assert (Hbs : 2 <= bsize n /\ n + 4 <= 4 * bsize n /\ 4 * bsize n <= n + 8) by (unfold bsize; lia).
  rewrite iop_ok by (unfold INT_MIN, INT_MAX; lia). rewrite bind_Ok.
  replace (bsize n * 4) with (4 * bsize n) by lia.
  assert (Hz2 : zlen l <= 4 * (z - 1)) by (rewrite Ez; unfold bsize; lia).
  destruct (Z.leb_spec (4 * bsize n) z) as [Hsh|Hsh].
  - (* kept in place *)
    assert (E : (if z =? 4 * bsize n then Ok (s, p) else if 4 * bsize n <? z then Ok (s, p) else
       let* rest := iop (msz s - 4 * bsize n + z * 4) in
       (if rest <? 64 then let* s1 := free false N s p in Ok (s1, 0)
       else let* (s1, q) := malloc N s (4 * bsize n) in
        if q =? 0 then (if z =? 0 then let* s2 := free false N s1 p in Ok (s2, 0) else Fault)
        else
          let* w2 := copy_ints (if z =? 0 then 0%nat else Z.to_nat ((2 * z - 1) / 4 + 1)) N (words s1) (q / 4) (p / 4) in
          let* s2 := free false N (mk_ast w2 (msz s1)) p in
          Ok (s2, q))) = Ok (s, p)).
    { destruct (Z.eqb_spec z (4 * bsize n)); auto. destruct (Z.ltb_spec (4 * bsize n) z); auto. lia. }
    rewrite E. destruct (seq_view (words s) p n) as [S1 S2]; [lia|].
    eexists s, p, _. split; [reflexivity|]. split; [exact S1|]. split.
    + intros k Hk1 Hk2 _. rewrite <- S2, Hc; auto.
      rewrite map_length, seq_length. lia.
    + apply view_of_blocks with (bs := bs); auto.
      * intros q m [J|J].
        -- inversion J. subst q m. exists b, z. split; auto. split; [lia|]. split; [rewrite S1; lia|exact S2].
        -- apply remove_in in J as [J _].
           destruct (Forall2_in_r _ _ _ _ HC J) as ([b' z'] & J' & (K1 & K2 & K3 & K4)). cbn [fst snd] in *.
           exists b', z'. repeat split; auto. unfold bsize in K3. lia.
      * cbn [map fst]. constructor; [|apply remove_nodup; auto].
        intro J. apply in_map_iff in J as ([q m] & Eq & J). cbn [fst] in Eq. apply remove_in in J. tauto.
  - destruct (Z.eqb_spec z (4 * bsize n)); [lia|]. destruct (Z.ltb_spec (4 * bsize n) z); [lia|].
    rewrite iop_ok by (unfold INT_MIN, INT_MAX; lia). rewrite bind_Ok.
    destruct (Z.ltb_spec (msz s - 4 * bsize n + z * 4) 64); [lia|].
    assert (Hb2 : bsize (4 * bsize n) = bsize n + 1) by (unfold bsize; lia).
    destruct (vinv_malloc s bs L (4 * bsize n) HV) as [(X & _)|(X & w1 & E1 & HV1)]; [unfold INT_MAX; lia|lia|].
    rewrite Hb2 in *. rewrite E1, bind_Ok. set (ms1 := msz s - 4 * (bsize n + 1)) in *.
    destruct (Z.eqb_spec (ms1 + 4) 0); [lia|]. destruct (Z.eqb_spec z 0); [lia|]. cbn [words].
    set (kk := Z.to_nat ((2 * z - 1) / 4 + 1)).
    assert (Hkk : Z.of_nat kk = (2 * z - 1) / 4 + 1) by (unfold kk; lia).
    assert (Hzn : z <= 2 * bsize n) by (destruct Hok; [exfalso; lia|lia]).
    destruct (copy_ints_ok kk w1 ((ms1 + 4) / 4) (p / 4)) as (w2 & E2 & C1 & C2); try lia.
    rewrite E2, bind_Ok.
    destruct (seq_view w1 (ms1 + 4) (4 * bsize n)) as [S1 S2]; [lia|].
    specialize (HV1 _ S1 S2). pose proof (vinv_view _ _ _ HV1) as (HW1 & _).
    destruct (HW1 p l (or_intror I)) as (_ & _ & _ & Hc1). destruct HV1 as (HA1 & HB1 & HC1). cbn [msz words] in *.
    assert (Hin1 : In (ms1 / 4, bsize n + 1) (lives (ms1 / 4) ((bsize n + 1, false) :: bs))).
    { cbn [lives]. left. auto. }
    assert (Hsame : forall x, ~ (ms1 / 4 < x < ms1 / 4 + (bsize n + 1)) -> w2 x = w1 x).
    { intros x Hx. apply C2. lia. }
    destruct (seq_view w2 (ms1 + 4) (4 * bsize n)) as [T1 T2]; [lia|].
    set (lw := map (fun k => getb w2 (ms1 + 4 + Z.of_nat k)) (seq 0 (Z.to_nat (4 * bsize n)))) in *.
    assert (HV2 : vinv (mk_ast w2 ms1) ((bsize n + 1, false) :: bs) ((ms1 + 4, lw) :: L)).
    { split; [|split; [right; cbn [msz]; lia|]].
      - apply (ainv_payload (mk_ast w1 ms1)) with (b := ms1 / 4) (z := bsize n + 1); auto.
      - cbn [msz words lives] in *.
        remember ((ms1 / 4, bsize n + 1) :: lives (ms1 / 4 + (bsize n + 1)) bs) as lv eqn:Elv.
        match type of HC1 with Forall2 _ _ ?LL => remember LL as L1 eqn:EL1 end.
        destruct HC1 as [|x y lx ly R RR]; [discriminate|]. inversion Elv. inversion EL1. subst x y lx ly.
        constructor.
        + unfold brel. cbn [fst snd]. rewrite T1, Hb2. repeat split; auto; lia.
        + eapply same_payload_view; [|exact RR]. intros b' z' x J Hx. apply Hsame.
          assert (E : ms1 / 4 + (bsize n + 1) = msz s / 4) by (unfold ms1; lia). rewrite E in J.
          pose proof (lives_range _ _ _ _ _ _ I4 J). lia. }
    assert (Hpb : p < N) by lia.
    destruct (vinv_free false _ _ _ p l HV2 (or_intror I)) as (s2 & bs2 & E3 & HV3 & _); [discriminate|].
    rewrite E3, bind_Ok.
    assert (Hqp : ms1 + 4 <> p) by (unfold ms1; lia).
    assert (ER : remove p ((ms1 + 4, lw) :: L) = (ms1 + 4, lw) :: remove p L).
    { unfold remove. cbn [filter fst]. destruct (Z.eqb_spec (ms1 + 4) p); [lia|reflexivity]. }
    rewrite ER in HV3.
    pose proof (vinv_view _ _ _ HV3) as HW.
    exists s2, (ms1 + 4), (firstn (Z.to_nat n) lw). split; [reflexivity|].
    assert (Hfl : zlen (firstn (Z.to_nat n) lw) = n) by (rewrite zlen_firstn, T1; lia).
    split; [exact Hfl|]. split.
    + intros k Hk1 Hk2 Hk3.
      assert (Hlk : 0 <= Z.of_nat k < zlen l) by (unfold zlen; lia).
      assert (Hk4 : Z.of_nat k < copied_part (zlen l)) by lia. unfold copied_part in Hk4. rewrite <- Ez in Hk4.
      rewrite nth_firstn_lt by lia. rewrite <- T2 by (unfold zlen in T1; lia).
      rewrite <- Hc1 by auto.
      unfold getb.
      replace ((ms1 + 4 + Z.of_nat k) / 4) with ((ms1 + 4) / 4 + Z.of_nat k / 4) by lia.
      rewrite C1 by lia.
      replace ((p + Z.of_nat k) / 4) with (p / 4 + Z.of_nat k / 4) by lia.
      replace ((ms1 + 4 + Z.of_nat k) mod 4) with ((p + Z.of_nat k) mod 4) by lia.
      reflexivity.
    + apply view_ok_shrink. exact HW.
Qed.
End runs.
