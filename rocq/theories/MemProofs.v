From Verif Require Import Base BaseLemmas StrSpec StrProofs2 MemModel MemSpec.
Ltac Zify.zify_post_hook ::= Z.div_mod_to_equations.

Ltac ioplia := rewrite iop_ok by (unfold INT_MIN, INT_MAX in *; lia); rewrite bind_Ok.


(* loop invariant: the first a bytes are done, writes only inside d[0..n) *)
Definition cinv (m m' : mem) (d s n a : Z) : Prop :=
  (forall i, 0 <= i < a -> m' (d + i) = m (s + i)) /\
  (forall x, ~ (d <= x < d + n) -> m' x = m x) /\
  (forall x, d <= x < d + n -> m' x <> None).

Lemma memcpy_bytes_ok m d s n : room m s n -> apart d n s n -> n <= INT_MAX ->
  forall k fuel m1 a, 0 <= a <= n -> Z.to_nat (n - a) = k -> (k < fuel)%nat ->
  cinv m m1 d s n a ->
  exists m', memcpy_bytes fuel m1 d s n a = Ok m' /\ copied m m' d s n.
Proof.
  intros Hs Hap Hn. unfold apart in Hap.
  induction k as [|k IH]; intros [|fuel] m1 a Ha Hk Hf (I1 & I2 & I3); try lia; cbn [memcpy_bytes].
  - destruct (Z.ltb_spec a n); [lia|]. exists m1. split; auto. split; auto.
    intros i Hi. apply I1. lia.
  - destruct (Z.ltb_spec a n); [|lia].
    destruct (m (s + a)) as [c|] eqn:E; [|exfalso; apply (Hs (s + a)); auto; lia].
    rewrite (load_some _ _ c) by (rewrite I2; auto; lia). rewrite bind_Ok. unfold store.
    destruct (m1 (d + a)) eqn:E1; [|exfalso; apply (I3 (d + a)); auto; lia].
    rewrite bind_Ok. ioplia. apply IH; try lia. split; [|split].
    + intros i Hi. unfold upd. destruct (Z.eqb_spec (d + i) (d + a)).
      * replace i with a by lia. auto.
      * apply I1. lia.
    + intros x Hx. rewrite upd_other by lia. auto.
    + intros x Hx. unfold upd. destruct (x =? d + a); [discriminate|auto].
Qed.
Lemma cinv_start m d s n : room m d n -> cinv m m d s n 0.
Proof. intros H. split; [intros; lia|split; auto]. Qed.
Lemma memcpy_ok fuel m d s n : room m s n -> room m d n -> apart d n s n -> 0 <= n <= INT_MAX ->
  (Z.to_nat n < fuel)%nat ->
  exists m', memcpy fuel m d s n = Ok (m', d) /\ copied m m' d s n.
Proof.
  intros Hs Hd Ha Hn Hf.
  destruct (memcpy_bytes_ok m d s n Hs Ha) with (k := Z.to_nat n) (fuel := fuel) (m1 := m) (a := 0)
    as (m' & E & H); try lia. { now apply cinv_start. }
  exists m'. unfold memcpy. rewrite E. auto.
Qed.

Lemma load_bytes_ok k : forall m p, (forall i, 0 <= i < Z.of_nat k -> m (p + i) <> None) ->
  exists l, load_bytes k m p = Ok l /\ length l = k /\
            forall i, 0 <= i < Z.of_nat k -> m (p + i) = nth_error l (Z.to_nat i).
Proof.
  induction k as [|k IH]; intros m p H; cbn [load_bytes].
  - exists []. repeat split; auto. intros; lia.
  - destruct (m p) as [b|] eqn:E. 2:{ exfalso. apply (H 0); [lia|]. now rewrite Z.add_0_r. }
    rewrite (load_some _ _ b) by auto. rewrite bind_Ok.
    destruct (IH m (p + 1)) as (l & E1 & L1 & N1).
    { intros i Hi. replace (p + 1 + i) with (p + (i + 1)) by lia. apply H. lia. }
    rewrite E1, bind_Ok. exists (b :: l). cbn [length]. repeat split; auto.
    intros i Hi. destruct (Z.eq_dec i 0).
    + subst. rewrite Z.add_0_r. auto.
    + replace (Z.to_nat i) with (S (Z.to_nat (i - 1))) by lia. cbn [nth_error].
      rewrite <- N1 by lia. f_equal. lia.
Qed.
Lemma store_bytes_ok l : forall m p, room m p (zlen l) ->
  exists m', store_bytes m p l = Ok m' /\
    (forall i, 0 <= i < zlen l -> m' (p + i) = nth_error l (Z.to_nat i)) /\
    same_outside m m' p (zlen l).
Proof.
  induction l as [|b l IH]; intros m p H; cbn [store_bytes].
  - exists m. split; auto. zl. split; [intros; lia|apply same_outside_refl].
  - nneg l. zl. rewrite (store_room _ _ _ _ _ H) by lia. rewrite bind_Ok.
    destruct (IH (upd m p b) (p + 1)) as (m' & E & N & S).
    { intros x Hx. unfold upd. destruct (x =? p); [discriminate|]. apply H. lia. }
    exists m'. split; auto. split.
    + intros i Hi. destruct (Z.eq_dec i 0).
      * subst. rewrite Z.add_0_r, S by lia. apply upd_same.
      * replace (Z.to_nat i) with (Datatypes.S (Z.to_nat (i - 1))) by lia. cbn [nth_error].
        rewrite <- N by lia. f_equal. lia.
    + intros x Hx. rewrite S by lia. apply upd_other. lia.
Qed.

Lemma memcpy_words_ok k m d s n : room m s n -> apart d n s n -> n <= INT_MAX -> (0 < k)%nat ->
  forall e j fuel m1 a, 0 <= a -> Z.to_nat (e - a) = j -> (j < fuel)%nat ->
  (a < e -> e - 1 + Z.of_nat k <= n) -> 0 <= e <= n ->
  cinv m m1 d s n a ->
  exists m', memcpy_words k fuel m1 d s e a = Ok (m', Z.max a e) /\ cinv m m' d s n (Z.max a e).
Proof.
  intros Hs Hap Hn Hk e. unfold apart in Hap.
  induction j as [|j IH]; intros [|fuel] m1 a Ha Hj Hf He Hen I; try lia; cbn [memcpy_words].
  - destruct (Z.ltb_spec a e); [lia|]. exists m1. replace (Z.max a e) with a by lia. auto.
  - destruct (Z.ltb_spec a e); [|lia]. specialize (He H). destruct I as (I1 & I2 & I3).
    destruct (load_bytes_ok k m1 (s + a)) as (l & E & L & N).
    { intros i Hi. rewrite I2 by lia. apply Hs. lia. }
    rewrite E, bind_Ok.
    assert (Zl : zlen l = Z.of_nat k) by (unfold zlen; lia).
    destruct (store_bytes_ok l m1 (d + a)) as (m2 & E2 & N2 & S2).
    { intros x Hx. apply I3. lia. }
    rewrite E2, bind_Ok. ioplia.
    destruct (IH fuel m2 (a + 1)) as (m' & E3 & I'); try lia.
    { split; [|split].
      - intros i Hi. destruct (Z.eq_dec i a).
        + subst. replace (d + a) with (d + a + 0) by lia. rewrite N2 by lia. rewrite <- N by lia.
          rewrite Z.add_0_r. apply I2. lia.
        + rewrite S2 by lia. apply I1. lia.
      - intros x Hx. rewrite S2 by lia. auto.
      - intros x Hx. destruct (Z_le_dec (d + a) x); [destruct (Z_lt_dec x (d + a + zlen l))|].
        + replace x with (d + a + (x - d - a)) by lia. rewrite N2 by lia.
          apply nth_error_Some. rewrite L. lia.
        + rewrite S2 by lia. auto.
        + rewrite S2 by lia. auto. }
    replace (Z.max a e) with (Z.max (a + 1) e) by lia. eauto.
Qed.

Lemma memcpy_opt_ok fuel m d s n : room m s n -> room m d n -> apart d n s n -> 0 <= n <= INT_MAX ->
  (Z.to_nat n < fuel)%nat ->
  exists m', memcpy_opt fuel m d s n = Ok (m', d) /\ copied m m' d s n.
Proof.
  intros Hs Hd Ha Hn Hf. unfold memcpy_opt.
  destruct (Z.eqb_spec n 0).
  { exists m. split; auto. split; [intros; lia|apply same_outside_refl]. }
  destruct (memcpy_words_ok 8 m d s n Hs Ha) with (e := n / 8) (j := Z.to_nat (n / 8 - 0))
    (fuel := fuel) (m1 := m) (a := 0) as (m1 & E1 & I1); try lia.
  { now apply cinv_start. }
  rewrite E1, bind_Ok. destruct (Z.eqb_spec (Z.max 0 (n / 8)) n); [lia|].
  destruct (memcpy_words_ok 4 m d s n Hs Ha) with (e := n / 4)
    (j := Z.to_nat (n / 4 - (Z.max 0 (n / 8))))
    (fuel := fuel) (m1 := m1) (a := Z.max 0 (n / 8)) as (m2 & E2 & I2); try lia; auto.
  rewrite E2, bind_Ok. destruct (Z.eqb_spec (Z.max (Z.max 0 (n / 8)) (n / 4)) n); [lia|].
  destruct (memcpy_bytes_ok m d s n Hs Ha) with
    (k := Z.to_nat (n - Z.max (Z.max 0 (n / 8)) (n / 4))) (fuel := fuel) (m1 := m2)
    (a := Z.max (Z.max 0 (n / 8)) (n / 4)) as (m' & E & H); try lia; auto.
  rewrite E, bind_Ok. eauto.
Qed.

(* memmove: forward copy is right unless dest starts inside src *)
Lemma memmove_loop_ok m : forall k fuel m1 d s n, Z.to_nat n = k -> (k < fuel)%nat ->
  0 <= n <= INT_MAX -> room m1 s n -> room m1 d n -> (d <= s \/ s + n <= d) ->
  (forall x, s <= x < s + n -> m1 x = m x) ->
  exists m', memmove_loop fuel m1 d s n = Ok m' /\
    (forall i, 0 <= i < n -> m' (d + i) = m (s + i)) /\ same_outside m1 m' d n.
Proof.
  induction k as [|k IH]; intros [|fuel] m1 d s n Hk Hf Hn Hs Hd Ho He; try lia; cbn [memmove_loop]; ioplia.
  - destruct (Z.gtb_spec n 0); [lia|]. exists m1. split; auto. split; [intros; lia|apply same_outside_refl].
  - destruct (Z.gtb_spec n 0); [|lia].
    destruct (m s) as [c|] eqn:E. 2:{ exfalso. apply (Hs s); [lia|]. now rewrite He by lia. }
    rewrite (load_some _ _ c) by (rewrite He; auto; lia). rewrite bind_Ok.
    rewrite (store_room _ _ _ _ _ Hd) by lia. rewrite bind_Ok.
    destruct (IH fuel (upd m1 d c) (d + 1) (s + 1) (n - 1)) as (m' & E1 & N & S); try lia.
    + intros x Hx. unfold upd. destruct (x =? d); [discriminate|]. apply Hs. lia.
    + intros x Hx. unfold upd. destruct (x =? d); [discriminate|]. apply Hd. lia.
    + intros x Hx. rewrite upd_other by lia. apply He. lia.
    + exists m'. split; auto. split.
      * intros i Hi. destruct (Z.eq_dec i 0).
        -- subst. rewrite !Z.add_0_r. rewrite S by lia. rewrite upd_same. auto.
        -- replace (d + i) with (d + 1 + (i - 1)) by lia. rewrite N by lia. f_equal. lia.
      * intros x Hx. rewrite S by lia. apply upd_other. lia.
Qed.
Lemma memmove_ok fuel m d s n : room m s n -> room m d n -> 0 <= n <= INT_MAX ->
  (d <= s \/ s + n <= d) -> (Z.to_nat n < fuel)%nat ->
  exists m', memmove fuel m d s n = Ok (m', d) /\ copied m m' d s n.
Proof.
  intros. destruct (memmove_loop_ok m (Z.to_nat n) fuel m d s n) as (m' & E & N & S); auto; try lia.
  exists m'. unfold memmove. rewrite E. split; auto. split; auto.
Qed.

Lemma memset_loop_ok m s c n : n <= INT_MAX -> forall k fuel m1 a, 0 <= a -> Z.to_nat (n - a) = k ->
  (k < fuel)%nat -> room m1 s n -> (forall i, 0 <= i < a -> m1 (s + i) = Some (c mod 256)) ->
  same_outside m m1 s n -> a <= n ->
  exists m', memset_loop fuel m1 s c n a = Ok m' /\
     (forall i, 0 <= i < n -> m' (s + i) = Some (c mod 256)) /\ same_outside m m' s n.
Proof.
  intros Hn. induction k as [|k IH]; intros [|fuel] m1 a Ha Hk Hf Hr Hi Ho Hl; try lia; cbn [memset_loop].
  - destruct (Z.ltb_spec a n); [lia|]. exists m1. repeat split; auto. intros; apply Hi; lia.
  - destruct (Z.ltb_spec a n); [|lia]. rewrite (store_room _ _ _ _ _ Hr) by lia. rewrite bind_Ok. ioplia.
    apply IH; try lia.
    + now apply room_upd.
    + intros i Hi2. unfold upd, ubyte. destruct (Z.eqb_spec (s + i) (s + a)); auto. apply Hi. lia.
    + intros x Hx. rewrite upd_other by lia. auto.
Qed.
Lemma memset_ok fuel m s c n : room m s n -> 0 <= n <= INT_MAX -> (Z.to_nat n < fuel)%nat ->
  exists m', memset fuel m s c n = Ok (m', s) /\
    (forall i, 0 <= i < n -> m' (s + i) = Some (c mod 256)) /\ same_outside m m' s n.
Proof.
  intros. destruct (memset_loop_ok m s c n) with (k := Z.to_nat n) (fuel := fuel) (m1 := m) (a := 0)
    as (m' & E & H2); try lia; auto; try (intros; lia); try apply same_outside_refl.
  exists m'. unfold memset. rewrite E. auto.
Qed.

(* ---- memcmp ---- *)
Lemma lexcmp_cons x a y b : lexcmp (x :: a) (y :: b) =
  if x <? y then -1 else if y <? x then 1 else lexcmp a b.
Proof. reflexivity. Qed.
Lemma memcmp_loop_ok a : forall b fuel m p q len i, length a = length b -> a <> [] ->
  bytes_at m (p + i) a -> bytes_at m (q + i) b -> len + 1 = i + zlen a -> 0 <= i ->
  (length a <= fuel)%nat ->
  memcmp_loop fuel m p q len i = Ok (lexcmp (map schar a) (map schar b)).
Proof.
  induction a as [|x a IH]; intros [|y b] [|fuel] m p q len i Hl Hne Ha Hb Hn Hi Hf;
    cbn [length] in *; try lia; try congruence.
  cbn [memcmp_loop bytes_at] in *. destruct Ha as (A1 & A2), Hb as (B1 & B2). ld A1. ld B1.
  cbn [map]. rewrite lexcmp_cons. nneg a. zl.
  destruct (Z.ltb_spec i len); cbn [andb].
  - destruct (Z.eqb_spec (schar x) (schar y)) as [E|E].
    + rewrite E, Z.ltb_irrefl. apply IH; auto; try lia.
      * destruct a; [|discriminate]. zl. lia.
      * now replace (p + (i + 1)) with (p + i + 1) by lia.
      * now replace (q + (i + 1)) with (q + i + 1) by lia.
    + rewrite Z.gtb_ltb. destruct (Z.ltb_spec (schar y) (schar x)), (Z.ltb_spec (schar x) (schar y)); auto; lia.
  - assert (a = []) as -> by (destruct a; auto; zl; nneg a; lia).
    assert (b = []) as -> by (destruct b; auto; discriminate). cbn [map lexcmp].
    rewrite Z.gtb_ltb. destruct (Z.ltb_spec (schar y) (schar x)), (Z.ltb_spec (schar x) (schar y)); auto; lia.
Qed.
Lemma memcmp_ok a b fuel m p q : bytes_at m p a -> bytes_at m q b -> length a = length b ->
  a <> [] -> (length a <= fuel)%nat ->
  memcmp fuel m p q (zlen a) = Ok (lexcmp (map schar a) (map schar b)).
Proof.
  intros Ha Hb Hl Hne Hf. unfold memcmp.
  assert (0 < zlen a). { destruct a; [congruence|]. zl. nneg a. lia. }
  destruct (Z.leb_spec (zlen a) 0); [lia|]. apply memcmp_loop_ok; rewrite ?Z.add_0_r; auto; lia.
Qed.
Lemma map_schar_inj a : forall b, Forall (fun x => 0 <= x <= 255) a -> Forall (fun x => 0 <= x <= 255) b ->
  map schar a = map schar b -> a = b.
Proof.
  induction a as [|x a IH]; intros [|y b] Ha Hb E; cbn in E; try discriminate; auto.
  inversion E. apply Forall_cons_iff in Ha as [Hx Ha], Hb as [Hy Hb].
  f_equal; auto. unfold schar in *. destruct (Z.ltb_spec x 128), (Z.ltb_spec y 128); lia.
Qed.
Lemma memcmp_eq a b fuel m p q : bytes_at m p a -> bytes_at m q b -> length a = length b ->
  Forall (fun x => 0 <= x <= 255) a -> Forall (fun x => 0 <= x <= 255) b ->
  a <> [] -> (length a <= fuel)%nat ->
  exists r, memcmp fuel m p q (zlen a) = Ok r /\ (r = 0 <-> a = b) /\
            memcmp fuel m q p (zlen a) = Ok (- r).
Proof.
  intros Ha Hb Hl Ra Rb Hne Hf. eexists. split; [apply memcmp_ok; eauto|]. split.
  - rewrite lexcmp_eq. split; [apply map_schar_inj; auto|now intros ->].
  - replace (zlen a) with (zlen b) by (unfold zlen; lia). rewrite memcmp_ok with (b := a); auto; try lia.
    + now rewrite lexcmp_antisym.
    + intros ->. destruct a; [congruence|discriminate].
Qed.
Lemma memcmp_ascii a b fuel m p q : bytes_at m p a -> bytes_at m q b -> length a = length b ->
  Forall (fun x => 0 <= x < 128) a -> Forall (fun x => 0 <= x < 128) b ->
  a <> [] -> (length a <= fuel)%nat ->
  memcmp fuel m p q (zlen a) = Ok (lexcmp a b).
Proof.
  intros Ha Hb Hl Ra Rb Hne Hf. rewrite memcmp_ok with (b := b); auto.
  assert (forall l, Forall (fun x => 0 <= x < 128) l -> map schar l = l) as K.
  { induction l; intro R; cbn; auto. apply Forall_cons_iff in R as [R1 R2].
    rewrite IHl by auto. f_equal. apply schar_low. lia. }
  now rewrite !K.
Qed.

(* ---- memchr ---- *)
Lemma memchr_ok l : forall fuel m p c, bytes_at m p l -> (length l < fuel)%nat ->
  (forall i, first_index (eq c) l i -> memchr fuel m p c (zlen l) = Ok (p + Z.of_nat i)) /\
  (~ In c l -> memchr fuel m p c (zlen l) = Ok 0).
Proof.
  unfold memchr.
  induction l as [|x l IH]; intros [|fuel] m p c Hl Hf; cbn [length] in *; try lia; cbn [memchr_loop bytes_at] in *.
  - zl. destruct (Z.ltb_spec p (p + 0)); [lia|]. split; auto.
    intros i [(b & Hb & _) _]. destruct i; discriminate.
  - nneg l. zl. destruct Hl as (H1 & H2). destruct (Z.ltb_spec p (p + (zlen l + 1))); [|lia]. ld H1.
    replace (p + (zlen l + 1)) with (p + 1 + zlen l) by lia.
    destruct (Z.eqb_spec x c).
    + subst. split.
      * intros [|i] [_ Hj].
        -- f_equal. lia.
        -- exfalso. apply (Hj 0%nat c); auto. lia.
      * intro K. exfalso. apply K. now left.
    + destruct (IH fuel m (p + 1) c) as [IH1 IH2]; auto; try lia. split.
      * intros [|i] [(b & Hb & E) Hj].
        -- cbn in Hb. congruence.
        -- rewrite (IH1 i); [f_equal; lia|]. split; [eauto|].
           intros j b' Hlt Hb'. apply (Hj (S j)); auto. lia.
      * intro K. apply IH2. intro. apply K. now right.
Qed.

(* ---- calloc ---- *)
Lemma zero_step_ok k m p n : (0 < k)%nat ->
  forall j fuel m1 pp, Z.to_nat (p + n - pp) = j -> (j < fuel)%nat -> p <= pp <= p + n ->
  (forall x, p <= x < pp -> m1 x = Some 0) -> same_outside m m1 p n -> room m1 p n ->
  exists m' pp', zero_step k fuel m1 pp (p + n - (Z.of_nat k - 1)) = Ok (m', pp') /\
    pp <= pp' <= p + n /\ p + n < pp' + Z.of_nat k /\
    (forall x, p <= x < pp' -> m' x = Some 0) /\ same_outside m m' p n /\ room m' p n.
Proof.
  intros Hk. induction j as [j IH] using lt_wf_ind. intros [|fuel] m1 pp Hj Hf Hp Hz Ho Hr; [lia|].
  cbn [zero_step]. destruct (Z.ltb_spec pp (p + n - (Z.of_nat k - 1))).
  - assert (Zl : zlen (repeat 0 k) = Z.of_nat k) by (unfold zlen; now rewrite repeat_length).
    destruct (store_bytes_ok (repeat 0 k) m1 pp) as (m2 & E2 & N2 & S2).
    { eapply room_sub; eauto; lia. }
    rewrite E2, bind_Ok. rewrite Zl in *.
    assert (N3 : forall x, pp <= x < pp + Z.of_nat k -> m2 x = Some 0).
    { intros x Hx. replace x with (pp + (x - pp)) by lia. rewrite N2 by lia.
      apply nth_error_repeat. lia. }
    destruct (IH (Z.to_nat (p + n - (pp + Z.of_nat k)))) with (fuel := fuel) (m1 := m2) (pp := pp + Z.of_nat k)
      as (m' & pp' & E & H1 & H2 & H3); try lia.
    + intros x Hx. destruct (Z_lt_dec x pp).
      * rewrite S2 by lia. apply Hz. lia.
      * apply N3. lia.
    + intros x Hx. rewrite S2 by lia. auto.
    + intros x Hx. destruct (Z_le_dec pp x); [destruct (Z_lt_dec x (pp + Z.of_nat k))|].
      * rewrite N3 by lia. discriminate.
      * rewrite S2 by lia. auto.
      * rewrite S2 by lia. auto.
    + exists m', pp'. repeat split; auto; try lia; tauto.
  - exists m1, pp. repeat split; auto; lia.
Qed.

Lemma calloc_ok opt fuel malloc m nmemb size m1 p :
  int_ok (size * nmemb) = true -> malloc m (size * nmemb) = (m1, p) ->
  (p <> 0 -> room m1 p size) -> 0 <= size -> (Z.to_nat size < fuel)%nat ->
  exists m', calloc opt fuel malloc m nmemb size = Ok (m', p) /\
    (p <> 0 -> (forall i, 0 <= i < size -> m' (p + i) = Some 0) /\ same_outside m1 m' p size).
Proof.
  intros Hi Hm Hr Hs Hf. unfold calloc, iop. rewrite Hi, bind_Ok, Hm.
  destruct (Z.eqb_spec p 0). { subst. exists m1. split; auto. intros; congruence. }
  specialize (Hr n).
  assert (G : forall k, (0 < k)%nat -> forall m2 pp,
     p <= pp <= p + size -> (forall x, p <= x < pp -> m2 x = Some 0) -> same_outside m1 m2 p size ->
     room m2 p size ->
     exists m' pp', zero_step k fuel m2 pp (p + size - (Z.of_nat k - 1)) = Ok (m', pp') /\
    pp <= pp' <= p + size /\ p + size < pp' + Z.of_nat k /\
    (forall x, p <= x < pp' -> m' x = Some 0) /\ same_outside m1 m' p size /\ room m' p size).
  { intros k Hk m2 pp Hp Hz Ho Hr2. eapply zero_step_ok; eauto. lia. }
  assert (F : forall m3 pp3, p <= pp3 <= p + size -> (forall x, p <= x < pp3 -> m3 x = Some 0) ->
     same_outside m1 m3 p size -> room m3 p size ->
     exists m', (let* (m4, _) := zero_step 1 fuel m3 pp3 (p + size) in Ok (m4, p)) = Ok (m', p) /\
     (p <> 0 -> (forall i, 0 <= i < size -> m' (p + i) = Some 0) /\ same_outside m1 m' p size)).
  { intros m3 pp3 Hp Hz Ho Hr3. destruct (G 1%nat ltac:(lia) m3 pp3) as (m4 & pp4 & E & H1 & H2 & H3 & H4 & H5); auto.
    replace (p + size - (Z.of_nat 1 - 1)) with (p + size) in E by lia.
    rewrite E, bind_Ok. exists m4. split; auto. intros _. split; auto. intros i Hi3. apply H3. lia. }
  destruct opt.
  - destruct (G 8%nat ltac:(lia) m1 p) as (m2 & pp2 & E2 & H1 & H2 & H3 & H4 & H5); auto; try lia; try (intros; lia); try apply same_outside_refl.
    replace (p + size - (Z.of_nat 8 - 1)) with (p + size - 7) in E2 by lia. rewrite E2, bind_Ok.
    destruct (G 4%nat ltac:(lia) m2 pp2) as (m3 & pp3 & E3 & K1 & K2 & K3 & K4 & K5); auto; try lia.
    replace (p + size - (Z.of_nat 4 - 1)) with (p + size - 3) in E3 by lia. rewrite E3, bind_Ok.
    apply F; auto. lia.
  - rewrite !bind_Ok. apply F; auto; try lia; try (intros; lia); try apply same_outside_refl.
Qed.
