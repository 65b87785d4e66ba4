(* The block-list invariant of the allocator. *)
From Verif Require Import Base BaseLemmas AllocModel.
Ltac Zify.zify_post_hook ::= Z.div_mod_to_equations.

(* ---- header words ---- *)
Definition b2z (f : bool) (v : Z) : Z := if f then v else 0.
Definition enc (f p : bool) (z : Z) : Z := z + b2z p 536870912 + b2z f 2147483648.

Lemma land_V v : Z.land v MBUF_V = v mod 268435456.
Proof. change MBUF_V with (Z.ones 28). rewrite Z.land_ones by lia. reflexivity. Qed.
Lemma enc_size f p z : 0 <= z < 268435456 -> Z.land (enc f p z) MBUF_V = z.
Proof. intros. rewrite land_V. unfold enc, b2z. destruct f, p; lia. Qed.
Lemma land_pow2 v k : 0 <= k -> Z.land v (2 ^ k) = if Z.testbit v k then 2 ^ k else 0.
Proof.
  intros Hk. apply Z.bits_inj'. intros n Hn. rewrite Z.land_spec, Z.pow2_bits_eqb by auto.
  destruct (Z.eqb_spec k n).
  - subst. destruct (Z.testbit v n); [now rewrite Z.pow2_bits_true|now rewrite Z.bits_0].
  - rewrite andb_false_r. destruct (Z.testbit v k); [now rewrite Z.pow2_bits_false|now rewrite Z.bits_0].
Qed.
Lemma testbit_b v k : 0 <= k -> Z.testbit v k = ((v / 2 ^ k) mod 2 =? 1).
Proof.
  intro Hk. pose proof (Z.testbit_spec' v k Hk). destruct (Z.testbit v k); cbn in H; rewrite <- H; reflexivity.
Qed.
Lemma enc_free f p z : 0 <= z < 268435456 -> (Z.land (enc f p z) MBUF_FREE =? 0) = negb f.
Proof.
  intros. change MBUF_FREE with (2 ^ 31). rewrite land_pow2, testbit_b by lia.
  change (2 ^ 31) with 2147483648. unfold enc, b2z. destruct f, p; cbn [negb];
  match goal with |- context [?a =? 1] => destruct (Z.eqb_spec a 1) end; auto; lia.
Qed.
Lemma enc_prev f p z : 0 <= z < 268435456 -> (Z.land (enc f p z) MBUF_PREVISFREE =? 0) = negb p.
Proof.
  intros. change MBUF_PREVISFREE with (2 ^ 29). rewrite land_pow2, testbit_b by lia.
  change (2 ^ 29) with 536870912. unfold enc, b2z. destruct f, p; cbn [negb];
  match goal with |- context [?a =? 1] => destruct (Z.eqb_spec a 1) end; auto; lia.
Qed.
Lemma lor_pow2 v k : 0 <= k -> Z.lor v (2 ^ k) = if Z.testbit v k then v else v + 2 ^ k.
Proof.
  intros Hk. destruct (Z.testbit v k) eqn:E.
  - apply Z.bits_inj'. intros n Hn. rewrite Z.lor_spec, Z.pow2_bits_eqb by auto.
    destruct (Z.eqb_spec k n); [subst; now rewrite E|apply orb_false_r].
  - rewrite <- Z.lxor_lor.
    + rewrite Z.add_nocarry_lxor; auto. rewrite land_pow2, E; auto.
    + rewrite land_pow2, E; auto.
Qed.
Lemma lor_FREE z : 0 <= z < 268435456 -> Z.lor z MBUF_FREE = enc true false z.
Proof.
  intros. change MBUF_FREE with (2 ^ 31). rewrite lor_pow2, testbit_b by lia.
  change (2 ^ 31) with 2147483648. unfold enc, b2z.
  match goal with |- context [?a =? 1] => destruct (Z.eqb_spec a 1) end; lia.
Qed.
Lemma enc_or_free f p z : 0 <= z < 268435456 -> Z.lor (enc f p z) MBUF_FREE = enc true p z.
Proof.
  intros. change MBUF_FREE with (2 ^ 31). rewrite lor_pow2, testbit_b by lia.
  change (2 ^ 31) with 2147483648. unfold enc, b2z.
  match goal with |- context [?a =? 1] => destruct (Z.eqb_spec a 1) end; destruct f, p; lia.
Qed.
Lemma enc_or_prev f p z : 0 <= z < 268435456 -> Z.lor (enc f p z) MBUF_PREVISFREE = enc f true z.
Proof.
  intros. change MBUF_PREVISFREE with (2 ^ 29). rewrite lor_pow2, testbit_b by lia.
  change (2 ^ 29) with 536870912. unfold enc, b2z.
  match goal with |- context [?a =? 1] => destruct (Z.eqb_spec a 1) end; destruct f, p; lia.
Qed.
Lemma or_prev_free v : (Z.land (Z.lor v MBUF_PREVISFREE) MBUF_FREE =? 0) = (Z.land v MBUF_FREE =? 0).
Proof.
  rewrite Z.land_lor_distr_l. change (Z.land MBUF_PREVISFREE MBUF_FREE) with 0. now rewrite Z.lor_0_r.
Qed.
Lemma mask_free v : Z.land (Z.land v MBUF_V) MBUF_FREE = 0.
Proof. rewrite <- Z.land_assoc. change (Z.land MBUF_V MBUF_FREE) with 0. apply Z.land_0_r. Qed.
(* sizes add up modulo the flags, whatever the flags and however the sum wraps *)
Lemma land_V_sum a b : Z.land (s32 a + s32 b) MBUF_V = (a + b) mod 268435456.
Proof. rewrite land_V. unfold s32. lia. Qed.

(* ---- segments ---- *)
Definition blk := (Z * bool)%type.     (* size in words with header, free? *)
Fixpoint tot (bs : list blk) : Z := match bs with [] => 0 | (z, _) :: r => z + tot r end.
Definition lastf (pf : option bool) (bs : list blk) : option bool :=
  match rev bs with [] => pf | (_, f) :: _ => Some f end.

(* blocks bs lie consecutively from word a on; pf tells whether the block before
   is free (None: unknown / no such block, then the PREVISFREE flag may be stale) *)
Fixpoint seg (w : Z -> Z) (a : Z) (pf : option bool) (bs : list blk) : Prop :=
  match bs with
  | [] => True
  | (z, f) :: r =>
      2 <= z < 268435456 /\
      (exists p, w a = enc f p z /\ (forall q, pf = Some q -> p = q)) /\
      (f = true -> pf = Some false) /\
      (f = true -> w (a + z - 1) = z - 1) /\
      seg w (a + z) (Some f) r
  end.

Lemma tot_app l1 l2 : tot (l1 ++ l2) = tot l1 + tot l2.
Proof. induction l1 as [|[z f] l1 IH]; cbn [tot app]; lia. Qed.
Lemma lastf_snoc pf l z f : lastf pf (l ++ [(z, f)]) = Some f.
Proof. unfold lastf. now rewrite rev_app_distr. Qed.
Lemma lastf_cons pf z f (l : list blk) : lastf pf ((z, f) :: l) = lastf (Some f) l.
Proof. unfold lastf. cbn [rev]. unfold blk in *. destruct (rev l) as [|[z' f'] r]; reflexivity. Qed.

Lemma seg_app l1 : forall w a pf l2,
  seg w a pf (l1 ++ l2) <-> seg w a pf l1 /\ seg w (a + tot l1) (lastf pf l1) l2.
Proof.
  induction l1 as [|[z f] l1 IH]; intros w a pf l2; cbn [seg app tot].
  - rewrite Z.add_0_r. unfold lastf. cbn. tauto.
  - rewrite IH, lastf_cons. replace (a + z + tot l1) with (a + (z + tot l1)) by lia. tauto.
Qed.
Lemma seg_tot w l : forall a pf, seg w a pf l -> 2 * zlen l <= tot l.
Proof.
  induction l as [|[z f] l IH]; intros a pf H; cbn [seg tot] in *; zl; [lia|].
  destruct H as (H1 & _ & _ & _ & H2). apply IH in H2. lia.
Qed.
Lemma seg_tot0 w a pf l : seg w a pf l -> 0 <= tot l.
Proof. intro H. apply seg_tot in H. nneg l. lia. Qed.
Lemma seg_ext w w' l : forall a pf, seg w a pf l ->
  (forall x, a <= x < a + tot l -> w' x = w x) -> seg w' a pf l.
Proof.
  induction l as [|[z f] l IH]; intros a pf H E; cbn [seg tot] in *; auto.
  destruct H as (H1 & (p & H2 & H3) & H4 & H5 & H6). pose proof (seg_tot0 _ _ _ _ H6).
  split; auto. split; [exists p; rewrite E by lia; auto|]. split; auto. split.
  - intro F. rewrite E by lia. auto.
  - apply IH; auto. intros x Hx. apply E. lia.
Qed.
(* the flag of the first block may be forgotten when it is live *)
Lemma seg_None w a pf z l : seg w a pf ((z, false) :: l) -> seg w a None ((z, false) :: l).
Proof.
  cbn [seg]. intros (H1 & (p & H2 & H3) & H4 & H5 & H6).
  split; auto. split; [exists p; split; auto; intros q E; discriminate|]. split; [discriminate|]. split; auto.
Qed.

(* addresses of the live blocks: (word address of the header, size) *)
Fixpoint lives (a : Z) (bs : list blk) : list (Z * Z) :=
  match bs with
  | [] => []
  | (z, f) :: r => if f then lives (a + z) r else (a, z) :: lives (a + z) r
  end.
Lemma lives_app l1 : forall a l2, lives a (l1 ++ l2) = lives a l1 ++ lives (a + tot l1) l2.
Proof.
  induction l1 as [|[z f] l1 IH]; intros a l2; cbn [lives app tot].
  - now rewrite Z.add_0_r.
  - rewrite IH. replace (a + z + tot l1) with (a + (z + tot l1)) by lia. destruct f; reflexivity.
Qed.
Lemma lives_range w l : forall a pf b z, seg w a pf l -> In (b, z) (lives a l) ->
  a <= b /\ b + z <= a + tot l /\ 2 <= z.
Proof.
  induction l as [|[z0 f] l IH]; intros a pf b z H I; cbn [seg tot lives In] in *; [tauto|].
  destruct H as (H1 & _ & _ & _ & H6). pose proof (seg_tot0 _ _ _ _ H6).
  destruct f; [|destruct I as [I|I]; [inversion I; lia|]].
  all: destruct (IH _ _ _ _ H6 I); lia.
Qed.
(* two live blocks are the same or do not overlap *)
Lemma lives_apart w l : forall a pf b z b' z', seg w a pf l ->
  In (b, z) (lives a l) -> In (b', z') (lives a l) ->
  (b = b' /\ z = z') \/ b + z <= b' \/ b' + z' <= b.
Proof.
  induction l as [|[z0 f] l IH]; intros a pf b z b' z' H I I'; cbn [seg lives In] in *; [tauto|].
  destruct H as (H1 & _ & _ & _ & H6).
  destruct f; [eapply IH; eauto|].
  destruct I as [I|I], I' as [I'|I'].
  - inversion I. inversion I'. lia.
  - inversion I. pose proof (lives_range _ _ _ _ _ _ H6 I'). lia.
  - inversion I'. pose proof (lives_range _ _ _ _ _ _ H6 I). lia.
  - eapply IH; eauto.
Qed.
Lemma lives_split a bs b z : In (b, z) (lives a bs) ->
  exists l1 l2, bs = l1 ++ (z, false) :: l2 /\ b = a + tot l1.
Proof.
  revert a. induction bs as [|[z0 f] bs IH]; intros a I; cbn [lives In] in *; [tauto|].
  destruct f.
  - destruct (IH _ I) as (l1 & l2 & -> & E). exists ((z0, true) :: l1), l2. cbn [tot app]. split; auto. lia.
  - destruct I as [I|I].
    + inversion I. subst. exists [], bs. cbn. split; auto. lia.
    + destruct (IH _ I) as (l1 & l2 & -> & E). exists ((z0, false) :: l1), l2. cbn [tot app]. split; auto. lia.
Qed.

(* ---- the invariant of the allocator state ---- *)
Section inv.
Variable N : Z.
Hypothesis HN : N mod 4 = 0.
Hypothesis HN2 : 4 <= N < 1073741824.

Definition S0 := N / 4 - 1.     (* word index of the sentinel *)

(* bs: the blocks from mbufsize up to the sentinel *)
Definition ainv (s : ast) (bs : list blk) : Prop :=
  msz s mod 4 = 0 /\ 0 <= msz s /\ msz s / 4 + tot bs = S0 /\
  seg (words s) (msz s / 4) None bs /\
  (bs <> [] -> Z.land (words s S0) MBUF_FREE = 0).

Lemma ainv_head s z f l : ainv s ((z, f) :: l) -> f = false.
Proof.
  intros (_ & _ & _ & H & _). cbn [seg] in H. destruct H as (_ & _ & H & _).
  destruct f; auto. specialize (H eq_refl). discriminate.
Qed.

Lemma geti_ok w i : 0 <= i < N / 4 -> geti N w i = Ok (w i).
Proof. intro. unfold geti. destruct (Z.leb_spec 0 i), (Z.ltb_spec i (N / 4)); auto; lia. Qed.
Lemma seti_ok w i v : 0 <= i < N / 4 -> seti N w i v = Ok (setw w i v).
Proof. intro. unfold seti. destruct (Z.leb_spec 0 i), (Z.ltb_spec i (N / 4)); auto; lia. Qed.
Lemma setw_same w i v : setw w i v i = v.
Proof. unfold setw. now rewrite Z.eqb_refl. Qed.
Lemma setw_other w i v x : x <> i -> setw w i v x = w x.
Proof. intro. unfold setw. destruct (Z.eqb_spec x i); congruence. Qed.

Lemma ainv_init w : ainv (init_alloc N w) [].
Proof.
  unfold ainv, init_alloc, S0. cbn [msz words tot seg]. repeat split; try lia. intro; congruence.
Qed.

(* the rounded block size in words *)
Definition bsize (n : Z) : Z := (n - 1) / 4 + 2.

Lemma malloc_ok s bs n : ainv s bs -> 1 <= n <= INT_MAX - 8 ->
  (msz s - 4 * bsize n < 64 /\ malloc N s n = Ok (s, 0)) \/
  (64 <= msz s - 4 * bsize n /\ exists w',
     malloc N s n = Ok (mk_ast w' (msz s - 4 * bsize n), msz s - 4 * bsize n + 4) /\
     ainv (mk_ast w' (msz s - 4 * bsize n)) ((bsize n, false) :: bs) /\
     forall x, x <> msz s / 4 -> x <> msz s / 4 - bsize n -> w' x = words s x).
Proof.
  intros (I1 & I2 & I3 & I4 & I5) Hn. unfold malloc, INT_MAX in *.
  pose proof (seg_tot0 _ _ _ _ I4) as Ht. unfold S0 in *.
  rewrite iop_ok by (unfold INT_MIN, INT_MAX; lia). rewrite bind_Ok.
  rewrite !Z.shiftr_div_pow2 by lia. change (2 ^ 2) with 4. fold (bsize n).
  assert (Hb : 2 <= bsize n /\ 4 * bsize n <= n + 8) by (unfold bsize; lia).
  rewrite iop_ok by (unfold INT_MIN, INT_MAX; lia). rewrite bind_Ok.
  rewrite iop_ok by (unfold INT_MIN, INT_MAX; lia). rewrite bind_Ok.
  replace (bsize n * 4) with (4 * bsize n) by lia.
  destruct (Z.ltb_spec (msz s - 4 * bsize n) 64); [left; auto|right]. split; [lia|].
  rewrite geti_ok by lia. rewrite bind_Ok. rewrite seti_ok by lia. rewrite bind_Ok.
  rewrite Z.shiftr_div_pow2 by lia. change (2 ^ 2) with 4.
  rewrite seti_ok by lia. rewrite bind_Ok.
  replace ((msz s - 4 * bsize n) / 4) with (msz s / 4 - bsize n) by lia.
  set (t := msz s / 4) in *. eexists. split; [reflexivity|]. split.
  - unfold ainv. cbn [msz words]. replace ((msz s - 4 * bsize n) / 4) with (t - bsize n) by (unfold t; lia).
    split; [lia|]. split; [lia|]. split; [cbn [tot]; unfold S0; lia|]. split.
    + cbn [seg]. rewrite setw_same. split; [lia|]. split; [|split; [discriminate|split; [discriminate|]]].
      * exists false. split; [unfold enc, b2z; lia|]. intros; discriminate.
      * replace (t - bsize n + bsize n) with t by lia.
        destruct bs as [|[z f] l]; auto.
        assert (f = false) as ->.
        { cbn [seg] in I4. destruct I4 as (_ & _ & F & _). destruct f; auto. specialize (F eq_refl). discriminate. }
        cbn [seg tot] in *. destruct I4 as (J1 & (p & J2 & J3) & J4 & J5 & J6).
        pose proof (seg_tot0 _ _ _ _ J6). split; auto. split; [|split; [discriminate|split; [discriminate|]]].
        -- exists false. rewrite setw_other, setw_same by lia. rewrite J2, enc_size by lia.
           split; [unfold enc, b2z; lia|]. intros q E. congruence.
        -- apply seg_ext with (w := words s); auto. intros x Hx. rewrite !setw_other by lia. auto.
    + intros _. unfold S0. rewrite setw_other by lia.
      destruct (Z.eq_dec (N / 4 - 1) t) as [E|E].
      * rewrite E, setw_same. apply mask_free.
      * rewrite setw_other by auto. apply I5. intros ->. cbn [tot] in I3. lia.
  - intros x H1 H2. rewrite !setw_other; auto.
Qed.

(* free of the lowest block *)
Lemma free_bottom strict s z l : ainv s ((z, false) :: l) ->
  exists ms', free strict N s (msz s + 4) = Ok (mk_ast (words s) ms') /\ msz s <= ms' /\
    exists l', ainv (mk_ast (words s) ms') l' /\ lives (ms' / 4) l' = lives (msz s / 4 + z) l.
Proof.
  intros (I1 & I2 & I3 & I4 & I5). unfold free, S0 in *.
  destruct (Z.eqb_spec (msz s + 4) 0); [lia|].
  destruct (Z.eqb_spec ((msz s + 4) mod 4) 0); [|lia]. cbn [negb].
  replace (msz s + 4 - 4) with (msz s) by lia. rewrite Z.eqb_refl.
  cbn [seg tot] in *. destruct I4 as (J1 & (p & J2 & _) & _ & _ & J6).
  pose proof (seg_tot0 _ _ _ _ J6) as Ht. set (t := msz s / 4) in *.
  rewrite geti_ok by lia. rewrite bind_Ok, J2, enc_size by lia.
  rewrite iop_ok by (unfold INT_MIN, INT_MAX; lia). rewrite bind_Ok.
  destruct (Z.eqb_spec (msz s + z * 4) N); [lia|].
  rewrite Z.shiftr_div_pow2 by lia. change (2 ^ 2) with 4.
  replace ((msz s + z * 4) / 4) with (t + z) by (unfold t; lia).
  rewrite geti_ok by lia. rewrite bind_Ok.
  specialize (I5 ltac:(discriminate)).
  destruct l as [|[z1 f1] l].
  - cbn [tot] in *. replace (t + z) with (N / 4 - 1) by lia. rewrite I5. cbn [Z.eqb].
    eexists. split; [reflexivity|]. split; [lia|]. exists []. split; [|reflexivity].
    unfold ainv, S0. cbn [msz words tot seg]. replace ((msz s + z * 4) / 4) with (t + z) by (unfold t; lia).
    repeat split; try lia.
  - pose proof J6 as K. cbn [seg tot] in K, I3, Ht. destruct K as (K1 & (q & K2 & K3) & _ & _ & K6).
    rewrite K2, enc_free by lia. destruct f1; cbn [negb].
    + rewrite enc_size by lia. pose proof (seg_tot0 _ _ _ _ K6).
      rewrite iop_ok by (unfold INT_MIN, INT_MAX; lia). rewrite bind_Ok.
      eexists. split; [reflexivity|]. split; [lia|]. exists l.
      assert (E : (msz s + z * 4 + z1 * 4) / 4 = t + z + z1) by (unfold t; lia).
      split.
      * unfold ainv, S0. cbn [msz words]. rewrite E. repeat split; try lia; auto.
        destruct l as [|[z2 f2] l]; [exact I|]. destruct f2.
        -- cbn [seg] in K6. destruct K6 as (_ & _ & F & _). specialize (F eq_refl). discriminate.
        -- eapply seg_None; eauto.
      * cbn [msz lives]. now rewrite E.
    + eexists. split; [reflexivity|]. split; [lia|]. exists ((z1, false) :: l).
      assert (E : (msz s + z * 4) / 4 = t + z) by (unfold t; lia).
      split.
      * unfold ainv, S0. cbn [msz words]. rewrite E. repeat split; try lia; auto.
        -- cbn [tot]. lia.
        -- eapply seg_None; eauto.
      * cbn [msz]. now rewrite E.
Qed.

(* ---- free of a block that is not the lowest ---- *)

(* merge_next turns the block at b (of size z, in l1 ++ (z,_) :: l2) into a free one *)
Lemma merge_next_ok strict w t l1 z f l2 :
  let b := t + tot l1 in
  0 <= t -> b + z + tot l2 = S0 ->
  seg w t None l1 -> l1 <> [] -> lastf None l1 = Some false -> 2 <= z < 268435456 ->
  w b = enc f false z -> seg w (b + z) (Some f) l2 \/ seg w (b + z) (Some false) l2 ->
  (forall z1 l3, l2 = (z1, true) :: l3 -> strict = false \/ f = false) ->
  Z.land (w S0) MBUF_FREE = 0 ->
  exists w' l2' zz, merge_next strict N w b = Ok w' /\
    seg w' t None (l1 ++ (zz, true) :: l2') /\ Z.land (w' S0) MBUF_FREE = 0 /\
    zz + tot l2' = z + tot l2 /\ lives (b + zz) l2' = lives (b + z) l2 /\ z <= zz /\
    forall x, ~ (b <= x <= b + zz) -> w' x = w x.
Proof.
  intros b Ht HS Hs1 Hne Hl Hz Hw Hs2 Hst Hsent. unfold S0 in *.
  pose proof (seg_tot0 _ _ _ _ Hs1) as Ht1.
  assert (Ht2 : 0 <= tot l2) by (destruct Hs2 as [K|K]; apply seg_tot0 in K; auto).
  unfold merge_next. rewrite geti_ok by lia. rewrite bind_Ok, Hw, enc_size by lia.
  rewrite geti_ok by lia. rewrite bind_Ok.
  (* is the next block free? *)
  destruct l2 as [|[z1 f1] l3].
  - (* next is the sentinel *)
    cbn [tot] in *. assert (HE : b + z = N / 4 - 1) by lia. rewrite HE, Hsent. cbn [Z.eqb].
    rewrite seti_ok by lia. rewrite bind_Ok. rewrite geti_ok by lia. rewrite bind_Ok.
    rewrite setw_other by lia. rewrite Hw, enc_size by lia.
    rewrite HE. rewrite geti_ok by lia. rewrite bind_Ok. rewrite seti_ok by lia. rewrite bind_Ok.
    rewrite geti_ok by lia. rewrite bind_Ok. rewrite seti_ok by lia.
    rewrite !(setw_other _ _ _ b) by lia. rewrite Hw, enc_or_free by lia.
    rewrite (setw_other _ _ _ (N / 4 - 1)) by lia.
    eexists _, [], z. split; [reflexivity|]. split; [|split; [|split; [|split; [|split]]]]; auto; try lia.
    + apply seg_app. split.
      * apply seg_ext with (w := w); auto. intros x Hx. rewrite !setw_other by lia. auto.
      * rewrite Hl. fold b. cbn [seg]. rewrite setw_same. split; auto. split; [|split; [auto|split; auto]].
        -- exists false. split; auto. intros q E. congruence.
        -- intros _. replace (b + z - 1) with (N / 4 - 1 - 1) by lia.
           rewrite !setw_other by lia. rewrite setw_same. auto.
    + rewrite setw_other by lia. rewrite setw_same.
      pose proof (or_prev_free (w (N / 4 - 1))) as K. rewrite Hsent in K. cbn in K. now apply Z.eqb_eq in K.
    + intros x Hx. rewrite !setw_other by lia. auto.
  - assert (Hseg : exists pf, seg w (b + z) pf ((z1, f1) :: l3)) by (destruct Hs2; eauto).
    destruct Hseg as (pf & Hseg). cbn [seg tot] in *.
    destruct Hseg as (K1 & (q & K2 & K3) & K4 & K5 & K6). pose proof (seg_tot0 _ _ _ _ K6) as Ht3.
    rewrite K2, enc_free by lia. destruct f1; cbn [negb].
    + (* merge with the next block *)
      unfold iadd. set (sum := s32 (enc f false z) + s32 (enc true q z1)).
      assert (Eadd : (if strict then iop sum else Ok sum) = Ok sum).
      { destruct strict; auto. destruct (Hst z1 l3 eq_refl) as [? | ->]; [discriminate|].
        apply iop_ok. unfold sum, enc, b2z, s32, INT_MIN, INT_MAX. destruct q; lia. }
      rewrite Eadd, bind_Ok. unfold sum. rewrite land_V_sum.
      assert (Esz : (enc f false z + enc true q z1) mod 268435456 = z + z1).
      { unfold enc, b2z. destruct f, q; lia. }
      rewrite Esz, lor_FREE by lia. rewrite seti_ok by lia. rewrite bind_Ok.
      rewrite geti_ok by lia. rewrite bind_Ok, setw_same, enc_size by lia.
      rewrite seti_ok by lia.
      eexists _, l3, (z + z1). split; [reflexivity|]. split; [|split; [|split; [|split; [|split]]]]; auto; try lia.
      * apply seg_app. split.
        -- apply seg_ext with (w := w); auto. intros x Hx. rewrite !setw_other by lia. auto.
        -- rewrite Hl. fold b. cbn [seg]. split; [lia|]. split; [|split; [auto|split]].
           ++ exists false. rewrite setw_other, setw_same by lia. split; auto. intros q' E. congruence.
           ++ intros _. rewrite setw_same. lia.
           ++ replace (b + (z + z1)) with (b + z + z1) by lia.
              apply seg_ext with (w := w); auto. intros x Hx. rewrite !setw_other by lia. auto.
      * rewrite !setw_other by lia. auto.
      * cbn [lives]. now replace (b + (z + z1)) with (b + z + z1) by lia.
      * intros x Hx. rewrite !setw_other by lia. auto.
    + (* next block is live: set its flag *)
      rewrite seti_ok by lia. rewrite bind_Ok. rewrite geti_ok by lia. rewrite bind_Ok.
      rewrite setw_other by lia. rewrite Hw, enc_size by lia.
      rewrite geti_ok by lia. rewrite bind_Ok. rewrite seti_ok by lia. rewrite bind_Ok.
      rewrite geti_ok by lia. rewrite bind_Ok. rewrite seti_ok by lia.
      rewrite !(setw_other _ _ _ b) by lia. rewrite Hw, enc_or_free by lia.
      rewrite (setw_other _ _ _ (b + z)) by lia. rewrite K2, enc_or_prev by lia.
      eexists _, ((z1, false) :: l3), z. split; [reflexivity|].
      split; [|split; [|split; [|split; [|split]]]]; auto; try lia.
      * apply seg_app. split.
        -- apply seg_ext with (w := w); auto. intros x Hx. rewrite !setw_other by lia. auto.
        -- rewrite Hl. fold b. cbn [seg]. rewrite setw_same. split; auto. split; [|split; [auto|split]].
           ++ exists false. split; auto. intros q' E. congruence.
           ++ intros _. rewrite !setw_other by lia. rewrite setw_same. auto.
           ++ split; [lia|]. split; [|split; [discriminate|split; [discriminate|]]].
              ** exists true. rewrite setw_other, setw_same by lia. split; auto. intros q' E. congruence.
              ** apply seg_ext with (w := w); auto. intros x Hx. rewrite !setw_other by lia. auto.
      * rewrite !setw_other by lia. auto.
      * intros x Hx. rewrite !setw_other by lia. auto.
Qed.

Definition same_payload (w w' : Z -> Z) (lv : list (Z * Z)) : Prop :=
  forall b z x, In (b, z) lv -> b < x < b + z -> w' x = w x.

Lemma s32_small v : 0 <= v < 2147483648 -> s32 v = v.
Proof. intro. unfold s32. lia. Qed.

Lemma merge_prev_skip strict w i z f : 0 <= i < N / 4 -> 0 <= z < 268435456 ->
  w i = enc f false z -> merge_prev strict N w i = Ok (w, i).
Proof.
  intros Hi Hz Hw. unfold merge_prev. rewrite geti_ok by lia. rewrite bind_Ok, Hw, enc_prev by lia. reflexivity.
Qed.
Lemma merge_prev_do strict w i z zp : 0 <= i - zp -> i < N / 4 -> 2 <= z < 268435456 -> 2 <= zp < 268435456 ->
  z + zp < 268435456 -> w i = enc false true z -> w (i - 1) = zp - 1 -> w (i - zp) = enc true false zp ->
  merge_prev strict N w i = Ok (setw w (i - zp) (enc true false (zp + z)), i - zp).
Proof.
  intros Hi Hi2 Hz Hzp Hs Hw Hf Hp. unfold merge_prev. rewrite geti_ok by lia. rewrite bind_Ok, Hw, enc_prev by lia.
  cbn [negb]. rewrite geti_ok by lia. rewrite bind_Ok, Hf, s32_small by lia.
  replace (i - (zp - 1) - 1) with (i - zp) by lia. rewrite geti_ok by lia. rewrite bind_Ok, Hp.
  assert (Eadd : iadd strict (enc true false zp) (enc false true z) =
                 Ok (s32 (enc true false zp) + s32 (enc false true z))).
  { unfold iadd. destruct strict; auto. apply iop_ok. unfold enc, b2z, s32, INT_MIN, INT_MAX. lia. }
  rewrite Eadd, bind_Ok, land_V_sum.
  replace ((enc true false zp + enc false true z) mod 268435456) with (zp + z) by (unfold enc, b2z; lia).
  rewrite lor_FREE by lia. rewrite seti_ok by lia. rewrite bind_Ok. rewrite geti_ok by lia. rewrite bind_Ok.
  rewrite setw_other by lia. rewrite Hf, s32_small by lia. do 3 f_equal. lia.
Qed.

Lemma lastf_true_split w a pf l : seg w a pf l -> lastf pf l = Some true -> pf <> Some true ->
  exists l0 zp, l = l0 ++ [(zp, true)] /\ lastf pf l0 = Some false.
Proof.
  intros H E Hpf. destruct l as [|e l] using rev_ind; [cbn in E; congruence|]. clear IHl. destruct e as [zp f].
  rewrite lastf_snoc in E. inversion E. subst f. exists l, zp. split; auto.
  apply seg_app in H as [_ H]. cbn [seg] in H. tauto.
Qed.
Lemma lastf_false_ne (l : list blk) : lastf None l = Some false -> l <> [].
Proof. intros H ->. discriminate. Qed.

Lemma free_mid strict s l1 z l2 :
  let b := msz s / 4 + tot l1 in
  ainv s (l1 ++ (z, false) :: l2) -> l1 <> [] ->
  (forall z1 l3, l2 = (z1, true) :: l3 -> strict = false \/ lastf None l1 = Some false) ->
  exists w' bs', free strict N s (4 * (b + 1)) = Ok (mk_ast w' (msz s)) /\
    ainv (mk_ast w' (msz s)) bs' /\
    lives (msz s / 4) bs' = lives (msz s / 4) l1 ++ lives (b + z) l2 /\
    same_payload (words s) w' (lives (msz s / 4) bs').
Proof.
  intros b (I1 & I2 & I3 & I4 & I5) Hne Hst. unfold free, S0 in *.
  specialize (I5 ltac:(destruct l1; discriminate)).
  rewrite tot_app in I3. cbn [tot] in I3. pose proof I4 as I4'.
  apply seg_app in I4 as [A B]. fold b in B.
  cbn [seg] in B. destruct B as (B1 & (p & B2 & B3) & _ & _ & B6).
  pose proof (seg_tot0 _ _ _ _ A) as T1. pose proof (seg_tot0 _ _ _ _ B6) as T2.
  assert (T3 : 2 <= tot l1).
  { pose proof (seg_tot _ _ _ _ A). destruct l1; [congruence|]. rewrite zlen_cons in H. nneg l1. lia. }
  set (t := msz s / 4) in *.
  assert (Hb : b = t + tot l1) by reflexivity. clearbody b.
  destruct (Z.eqb_spec (4 * (b + 1)) 0); [lia|].
  destruct (Z.eqb_spec (4 * (b + 1) mod 4) 0); [|lia]. cbn [negb].
  destruct (Z.eqb_spec (msz s) (4 * (b + 1) - 4)); [lia|].
  replace ((4 * (b + 1) - 4) / 4) with b by lia.
  assert (Hlast : exists q, lastf None l1 = Some q).
  { destruct l1 as [|ee l1] using rev_ind; [congruence|]. destruct ee as [ze fe]. rewrite lastf_snoc. eauto. }
  destruct Hlast as (q & Hq). specialize (B3 _ Hq). subst p. destruct q.
  - (* the previous block is free *)
    destruct (lastf_true_split _ _ _ _ A Hq ltac:(discriminate)) as (l0 & zp & -> & Hq0).
    pose proof (lastf_false_ne _ Hq0) as Hne0.
    apply seg_app in A as [A0 A1]. rewrite Hq0 in A1. cbn [seg] in A1.
    destruct A1 as (A1 & (qq & A2 & A3) & _ & A5 & _). rewrite (A3 _ eq_refl) in A2. specialize (A5 eq_refl).
    pose proof (seg_tot0 _ _ _ _ A0) as T0. rewrite tot_app in I3, T1, T3, Hb. cbn [tot] in I3, T1, T3, Hb.
    assert (Eb : t + tot l0 = b - zp) by lia. rewrite Eb in A2, A5.
    rewrite (merge_prev_do strict _ b z zp); try lia; auto.
    2:{ rewrite <- A5. f_equal. lia. }
    rewrite bind_Ok. cbn [fst snd].
    set (w1 := setw (words s) (b - zp) (enc true false (zp + z))).
    destruct (merge_next_ok strict w1 t l0 (zp + z) true l2) as (w' & l2' & zz & E1 & E2 & E3 & E4 & E5 & E6 & E7);
      try lia; auto.
    + unfold S0. lia.
    + apply seg_ext with (w := words s); auto. intros x Hx. unfold w1. rewrite setw_other by lia. auto.
    + unfold w1. rewrite Eb. now rewrite setw_same.
    + right. replace (t + tot l0 + (zp + z)) with (b + z) by lia.
      apply seg_ext with (w := words s); auto. intros x Hx. unfold w1. rewrite setw_other by lia. auto.
    + intros z1 l3 E. destruct (Hst _ _ E) as [|H]; auto. rewrite Hq in H. discriminate.
    + unfold w1, S0. rewrite setw_other by lia. auto.
    + rewrite Eb in E1, E5, E7. rewrite E1, bind_Ok.
      exists w', (l0 ++ (zz, true) :: l2'). split; [reflexivity|]. split; [|split].
      * unfold ainv. cbn [msz words]. fold t. split; auto. split; auto.
        split; [rewrite tot_app; cbn [tot]; unfold S0; lia|]. split; auto.
      * rewrite !lives_app. cbn [lives app]. rewrite Eb.
        rewrite E5, app_nil_r. f_equal. f_equal. lia.
      * intros b' z' x Hin Hx. cbn [words]. rewrite lives_app in Hin. cbn [lives] in Hin.
        apply seg_app in E2 as [E2 E2']. cbn [seg] in E2'. destruct E2' as (_ & _ & _ & _ & E2').
        rewrite Eb in Hin, E2'.
        rewrite E7.
        -- unfold w1. apply setw_other. apply in_app_or in Hin as [Hin|Hin].
           ++ pose proof (lives_range _ _ _ _ _ _ E2 Hin). lia.
           ++ pose proof (lives_range _ _ _ _ _ _ E2' Hin). lia.
        -- apply in_app_or in Hin as [Hin|Hin].
           ++ pose proof (lives_range _ _ _ _ _ _ E2 Hin). lia.
           ++ pose proof (lives_range _ _ _ _ _ _ E2' Hin). lia.
  - rewrite (merge_prev_skip strict _ b z false) by (auto; lia). rewrite bind_Ok.
    destruct (merge_next_ok strict (words s) t l1 z false l2) as (w' & l2' & zz & E1 & E2 & E3 & E4 & E5 & E6 & E7);
      try lia; auto.
    { unfold S0. lia. } { now rewrite <- Hb. } { rewrite <- Hb. auto. }
    rewrite <- Hb in E1, E5, E7. rewrite E1, bind_Ok.
    exists w', (l1 ++ (zz, true) :: l2'). split; [reflexivity|]. split; [|split].
    + unfold ainv. cbn [msz words]. fold t. split; auto. split; auto.
      split; [rewrite tot_app; cbn [tot]; unfold S0; lia|]. split; auto.
    + rewrite !lives_app. cbn [lives app]. rewrite <- Hb. now rewrite E5.
    + intros b' z' x Hin Hx. rewrite lives_app in Hin. cbn [lives] in Hin.
      apply seg_app in E2 as [E2 E2']. cbn [seg] in E2'. destruct E2' as (_ & _ & _ & _ & E2').
      rewrite <- Hb in Hin, E2'. rewrite E7; auto. apply in_app_or in Hin as [Hin|Hin].
      * pose proof (lives_range _ _ _ _ _ _ E2 Hin). lia.
      * pose proof (lives_range _ _ _ _ _ _ E2' Hin). lia.
Qed.
End inv.
