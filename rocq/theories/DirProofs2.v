(* scandir: all batches, the list of pointers, the sort. *)
From Verif Require Import Base BaseLemmas SortModel SortSpec SortProofs MemModel ShrinkModel
  DirModel DirSpec DirProofs.

Lemma dirents_count es : Forall dirent es -> 19 * zlen es <= zlen (concat es).
Proof.
  induction 1 as [|e es (_ & He & _) _ IH]; cbn [concat]; [change (zlen (@nil Z)) with 0; change (zlen (@nil (list Z))) with 0; lia|].
  rewrite zlen_cons, zlen_app. lia.
Qed.
Lemma accepted_forall (P : list Z -> Prop) sel es : Forall P es -> Forall P (accepted sel es).
Proof.
  induction 1 as [|e es He _ IH]; [destruct sel; constructor|].
  rewrite accepted_cons. destruct (keep sel e); auto.
Qed.
Lemma last_same s m p z : last_block s p z -> same_outside (sm s) m p (z - 4) ->
  room m p (z - 4) -> last_block (mkseg m (sbk s)) p z.
Proof.
  intros (L1 & L2 & L3 & L4 & L5) S R. unfold last_block. cbn [sm sbk].
  split; [lia|]. split; [lia|]. split; [lia|]. split.
  - apply (bytes_at_ext (sm s)); auto. rewrite le_zlen. intros x Hx. apply S. lia.
  - apply (room_keep (sm s) m (p - 4) z p (z - 4)); auto.
Qed.

Section scan.
Variables lo hi : Z.
Variable sel : option (list Z -> Z).
Variable fuel : nat.

Lemma scan_loop_ok buf : lo <= buf - 4 -> forall bs s done pos z,
  batches SBUF bs -> (length (concat bs) < fuel)%nat ->
  let cp := zlen (concat done) in
  let total := pos + zlen (concat (concat bs)) in
  Forall dirent done -> cp <= pos -> total <= 268431000 -> buf + total + 4104 <= hi ->
  last_block s buf z -> pos + SBUF + 4 <= z -> bytes_at (sm s) buf (concat done) ->
  let done' := done ++ accepted sel (concat bs) in
  let cp' := zlen (concat done') in
  exists s' z', scan_loop lo hi sel fuel bs s buf pos pos cp cp pos (zlen done) =
      Ok (Some (s', buf, total, cp', zlen done')) /\
    last_block s' buf z' /\ total + SBUF + 4 <= z' /\ cp' <= total /\
    bytes_at (sm s') buf (concat done') /\
    (forall x, x < buf - 4 -> sm s' x = sm s x).
Proof.
  intros Hlo. change SBUF with 4096.
  induction bs as [|b bs IH]; intros s done pos z HB Hf cp total Hd Hcp Ht Hhi HL Hz B done' cp';
    cbn [scan_loop].
  - assert (E : done' = done) by (unfold done'; destruct sel; apply app_nil_r).
    unfold cp'. rewrite E. unfold total. change (zlen (concat (concat []))) with 0.
    rewrite Z.add_0_r. exists s, z. fold cp. auto 8.
  - apply Forall_cons_iff in HB. destruct HB as ((Hb0 & Hb1 & Hb2) & HB).
    unfold total in *. cbn [concat] in *. rewrite concat_app, zlen_app in *.
    rewrite app_length in Hf. unfold SBUF in Hb1.
    pose proof (zlen_nonneg (concat (concat bs))) as N1. pose proof (zlen_nonneg (concat b)) as N2.
    pose proof (zlen_nonneg (concat done)) as N3.
    pose proof HL as (L1 & L2 & L3 & L4 & L5).
    assert (RB : room (sm s) buf (z - 4)) by (apply (room_sub _ (buf - 4) z); auto; lia).
    destruct (stores_ok (concat b) (sm s) (buf + pos)) as (m1 & -> & M1 & M2 & M3).
    { apply (room_sub _ buf (z - 4)); auto; lia. }
    rewrite bind_Ok, iop_ok by (unfold INT_MIN, INT_MAX; lia). rewrite bind_Ok.
    replace (zlen (concat b) + pos) with (pos + zlen (concat b)) by lia.
    pose proof (dirents_count b Hb2) as C1. pose proof (dirents_count done Hd) as C2.
    destruct (scan_batch_ok sel buf b fuel m1 done pos) as (m2 & E & Q1 & Q2 & Q3 & Q4); auto.
    { lia. } { unfold INT_MAX. lia. } { unfold INT_MAX, cp in *. lia. }
    { apply (bytes_at_ext (sm s)); auto. intros x Hx. apply M2. unfold cp in *. lia. }
    { apply M3. apply (room_sub _ buf (z - 4)); auto; lia. }
    fold cp in E. rewrite E, bind_Ok. clear E.
    set (done1 := done ++ accepted sel b) in *.
    rewrite iop_ok by (unfold INT_MIN, INT_MAX, SBUF; lia). rewrite bind_Ok. unfold SBUF.
    assert (HL1 : last_block (mkseg m2 (sbk s)) buf z).
    { apply last_same; auto.
      intros x Hx. rewrite Q2 by lia. apply M2. lia. }
    destruct (realloc_brk_ok lo hi _ buf z (pos + zlen (concat b) + 4096) HL1)
      as (s2 & z2 & -> & HL2 & Hz2 & K2); try lia.
    rewrite bind_Ok. destruct (Z.eqb_spec buf 0); [lia|].
    destruct (IH s2 done1 (pos + zlen (concat b)) z2) as (s' & z' & E & I1 & I2 & I3 & I4 & I5);
      auto; try lia.
    + apply Forall_app. split; auto. apply accepted_forall. auto.
    + apply (bytes_at_ext m2); auto. intros x Hx. apply (K2 x). right. lia.
    + replace (pos + zlen (concat b) + zlen (concat (concat bs)))
        with (pos + (zlen (concat b) + zlen (concat (concat bs)))) in * by lia.
      assert (E' : done1 ++ accepted sel (concat bs) = done').
      { unfold done', done1. rewrite accepted_app, app_assoc. reflexivity. }
      rewrite E' in *. exists s', z'. split; [exact E|]. split; [exact I1|]. split; [exact I2|].
      split; [exact I3|]. split; [exact I4|].
      intros x Hx. rewrite I5 by auto. rewrite K2 by auto. cbn [sm].
      rewrite Q2 by lia. apply M2. lia.
Qed.

End scan.

(* ---- the list of pointers -------------------------------------------------- *)
Fixpoint ptrs (de : Z) (es : list (list Z)) : list Z :=
  match es with [] => [] | e :: r => de :: ptrs (de + zlen e) r end.
Lemma ptrs_len es : forall de, length (ptrs de es) = length es.
Proof. induction es; intros; cbn [ptrs length]; auto. Qed.
Lemma ptrs_at m es : forall de, bytes_at m de (concat es) -> Forall2 (bytes_at m) (ptrs de es) es.
Proof.
  induction es as [|e es IH]; intros de H; cbn [ptrs concat] in *; constructor.
  - apply bytes_at_app in H. tauto.
  - apply IH. apply bytes_at_app in H. tauto.
Qed.
Lemma ptrs_range es : forall de, Forall (fun p => de <= p <= de + zlen (concat es)) (ptrs de es).
Proof.
  induction es as [|e es IH]; intros de; cbn [ptrs concat]; constructor;
    rewrite zlen_app; nneg e; pose proof (zlen_nonneg (concat es)); [lia|].
  eapply Forall_impl; [|apply IH]. cbn beta. intros p Hp. lia.
Qed.

Lemma ptrs_in m es : forall de, bytes_at m de (concat es) -> forall p, In p (ptrs de es) ->
  exists e, In e es /\ bytes_at m p e /\ de <= p /\ p + zlen e <= de + zlen (concat es).
Proof.
  induction es as [|e es IH]; intros de H p Hp; cbn [ptrs concat] in *; [destruct Hp|].
  apply bytes_at_app in H. destruct H as (H1 & H2). rewrite zlen_app.
  pose proof (zlen_nonneg (concat es)). pose proof (zlen_nonneg e).
  destruct Hp as [<-|Hp].
  - exists e. split; [now left|]. split; [auto|lia].
  - destruct (IH _ H2 p Hp) as (e' & I1 & I2 & I3 & I4). exists e'. split; [now right|].
    split; [auto|lia].
Qed.

Lemma build_list_ok es : forall m lp de, Forall dirent es -> bytes_at m de (concat es) ->
  de + zlen (concat es) <= lp -> room m lp (8 * zlen es) ->
  exists m', build_list (length es) m lp de = Ok m' /\
    array_at m' lp 8 (map (le_bytes 8) (ptrs de es)) /\ same_outside m m' lp (8 * zlen es).
Proof.
  induction es as [|e es IH]; intros m lp de HD B Hl R; cbn [build_list length ptrs map].
  - exists m. split; [reflexivity|]. split; [split; [exact I|constructor]|]. apply same_outside_refl.
  - apply Forall_cons_iff in HD. destruct HD as (He & HD). cbn [concat] in *.
    rewrite zlen_app, zlen_cons in *. apply bytes_at_app in B. destruct B as (B1 & B2).
    pose proof (zlen_nonneg e). pose proof (zlen_nonneg es). pose proof (zlen_nonneg (concat es)).
    destruct (put_le_ok 8 m lp de) as (m1 & -> & P1 & P2).
    { apply (room_sub m lp (8 * (zlen es + 1))); auto; lia. }
    rewrite bind_Ok. change (Z.of_nat 8) with 8 in P2.
    rewrite (reclen_ok m1 de e), bind_Ok; auto.
    2:{ apply (bytes_at_ext m); auto. intros x Hx. apply P2. lia. }
    destruct (IH m1 (lp + 8) (de + zlen e)) as (m' & E & (I1 & I1') & I2); auto; try lia.
    + apply (bytes_at_ext m); auto. intros x Hx. apply P2. lia.
    + apply (room_keep m m1 _ _ lp 8); auto.
      * apply (room_sub m lp (8 * (zlen es + 1))); auto; lia.
      * apply bytes_room in P1. rewrite le_zlen in P1. exact P1.
    + exists m'. split; [exact E|]. split; [split|].
      * cbn [concat]. apply bytes_at_app. rewrite le_zlen. change (Z.of_nat 8) with 8.
        split; auto. apply (bytes_at_ext m1); auto. rewrite le_zlen. intros x Hx. apply I2. lia.
      * constructor; auto.
      * intros x Hx. rewrite I2 by lia. apply P2. lia.
Qed.

Lemma le_bytes_nth n : forall v j, (j < n)%nat ->
  nth_error (le_bytes n v) j = Some (v / 256 ^ Z.of_nat j mod 256).
Proof.
  induction n as [|n IH]; intros v [|j] Hj; try lia; cbn [le_bytes nth_error].
  - change (256 ^ Z.of_nat 0) with 1. rewrite Z.div_1_r. reflexivity.
  - rewrite IH by lia. replace (Z.of_nat (S j)) with (1 + Z.of_nat j) by lia.
    rewrite Z.pow_add_r by lia. change (256 ^ 1) with 256.
    rewrite Z.div_div by (try apply Z.pow_pos_nonneg; lia). reflexivity.
Qed.
Lemma pointers_of ps : forall m a, bytes_at m a (concat (map (le_bytes 8) ps)) -> pointers_at m a ps.
Proof.
  induction ps as [|p ps IH]; intros m a B [|i] q j Hi Hj; cbn [nth_error] in Hi; try discriminate;
    cbn [map concat] in B; apply bytes_at_app in B; destruct B as (B1 & B2).
  - injection Hi as ->. change (8 * Z.of_nat 0) with 0. rewrite Z.add_0_r.
    replace j with (Z.of_nat (Z.to_nat j)) by lia.
    apply (bytes_at_nth _ _ _ _ _ B1). apply le_bytes_nth. lia.
  - rewrite le_zlen in B2. change (Z.of_nat 8) with 8 in B2.
    replace (a + 8 * Z.of_nat (S i) + j) with (a + 8 + 8 * Z.of_nat i + j) by lia.
    apply (IH m (a + 8) B2); auto.
Qed.
Lemma entry_at_ok m p e : dirent e -> bytes_at m p e -> entry_at m p = e.
Proof.
  intros He B. unfold entry_at. rewrite (reclen_ok m p e He B), bind_Ok.
  unfold zlen. rewrite Nat2Z.id, (loads_ok _ _ _ B). reflexivity.
Qed.

Lemma Forall2_map_r {A B} (R : A -> B -> Prop) (f : A -> B) l : (forall x, In x l -> R x (f x)) ->
  Forall2 R l (map f l).
Proof. induction l; cbn [map]; intros H; constructor; [apply H; left; auto|]. apply IHl. intros; apply H. now right. Qed.
Lemma Forall2_map_eq {A B} (R : A -> B -> Prop) (f : A -> B) l l' : Forall2 R l l' ->
  (forall x y, In y l' -> R x y -> f x = y) -> map f l = l'.
Proof.
  induction 1 as [|x y l l' H H2 IH]; intros E; cbn [map]; auto. f_equal.
  - apply E; auto. now left.
  - apply IH. intros. apply E; auto. now right.
Qed.

(* ---- scandir ----------------------------------------------------------------- *)
Lemma scandir_ok lo hi sel cmp fuel s start fd bs fin :
  0 <= fd -> 0 <= fin -> batches SBUF bs -> (length (concat bs) + 1 < fuel)%nat ->
  zlen (concat (concat bs)) <= 134217000 ->
  0 < sbk s -> lo <= sbk s -> sbk s + 2 * zlen (concat (concat bs)) + 4112 <= hi -> hi <= LONG_MAX ->
  let es := accepted sel (concat bs) in
  exists s' listing ps es',
    scandir lo hi sel cmp fuel s start fd bs fin = Ok (s', zlen es, Some listing) /\
    pointers_at (sm s') listing ps /\ Forall2 (bytes_at (sm s')) ps es' /\
    Permutation es es' /\ (cmp = None -> es' = es) /\
    (forall c, cmp = Some c -> total_preorder c es -> sorted c es') /\
    Forall (fun p => sbk s <= p <= LONG_MAX) ps /\
    (forall x, x < sbk s -> sm s' x = sm s x).
Proof.
  intros Hfd Hfin HB Hf HT Hs0 Hs1 Hs2 HL es.
  pose proof (zlen_nonneg (concat (concat bs))) as N0.
  unfold scandir. destruct (Z.ltb_spec fd 0); [lia|].
  destruct (malloc_brk_ok lo hi s start SBUF) as (s1 & start1 & z & -> & L1 & Hz & K1 & _);
    try (unfold SBUF; lia).
  rewrite bind_Ok. set (buf := sbk s + 4) in *. destruct (Z.eqb_spec buf 0); [lia|].
  destruct (scan_loop_ok lo hi sel fuel buf ltac:(unfold buf; lia) bs s1 [] 0 z)
    as (s2 & z2 & E & L2 & Hz2 & Hcp & B2 & K2); auto; try (change (zlen (concat [])) with 0; lia).
  all: try (unfold SBUF, buf in *; cbn [concat]; change (zlen (@nil Z)) with 0; lia); try exact I.
  cbn [app] in *. fold es in E, Hcp, B2. change (zlen (concat [])) with 0 in *.
  change (zlen (@nil (list Z))) with 0 in E.
  change (0 + zlen (concat (concat bs))) with (zlen (concat (concat bs))) in *.
  rewrite E, bind_Ok. clear E. destruct (Z.ltb_spec fin 0); [lia|].
  set (T := zlen (concat (concat bs))) in *. set (cp := zlen (concat es)) in *.
  assert (HDa : Forall dirent (concat bs)).
  { clear - HB. induction HB as [|b bs (_ & _ & H) _ IH]; cbn [concat]; [constructor|].
    apply Forall_app; auto. }
  assert (HD : Forall dirent es) by (apply accepted_forall; auto).
  pose proof (dirents_count es HD) as C1. fold cp in C1. pose proof (zlen_nonneg es) as N1.
  assert (RA : exists s3, (if SBUF + (T - cp) <? zlen es * 8
     then let* want := iop (cp + zlen es * 8) in
          let* (s4, _) := realloc_brk lo hi s2 buf want in Ok s4 else Ok s2) = Ok s3 /\
    bytes_at (sm s3) buf (concat es) /\ room (sm s3) (buf + cp) (8 * zlen es) /\
    (forall x, x < sbk s -> sm s3 x = sm s2 x)).
  { destruct (Z.ltb_spec (SBUF + (T - cp)) (zlen es * 8)).
    - rewrite iop_ok by (unfold INT_MIN, INT_MAX; lia). rewrite bind_Ok.
      destruct (realloc_brk_ok lo hi s2 buf z2 (cp + zlen es * 8) L2)
        as (s3 & z3 & -> & L3 & Hz3 & K3); try (unfold SBUF, buf in *; lia).
      rewrite bind_Ok. exists s3. split; [reflexivity|].
      destruct L3 as (_ & _ & _ & _ & L3). split; [|split].
      + apply (bytes_at_ext (sm s2)); auto. intros x Hx. apply K3. right. unfold SBUF in *. fold cp in Hx. lia.
      + apply (room_sub _ (buf - 4) z3); auto; lia.
      + intros x Hx. apply K3. unfold buf. lia.
    - exists s2. split; [reflexivity|]. destruct L2 as (_ & _ & _ & _ & L2). split; [auto|].
      split; [|auto]. apply (room_sub _ (buf - 4) z2); auto; unfold SBUF in *; lia. }
  destruct RA as (s3 & -> & B3 & R3 & K3). rewrite bind_Ok.
  unfold zlen at 1. rewrite Nat2Z.id.
  destruct (build_list_ok es (sm s3) (buf + cp) buf HD B3 ltac:(fold cp; lia) R3)
    as (m4 & -> & A4 & S4). rewrite bind_Ok.
  set (ps := ptrs buf es) in *.
  assert (B4 : bytes_at m4 buf (concat es)).
  { apply (bytes_at_ext (sm s3)); auto. intros x Hx. apply S4. fold cp in Hx. lia. }
  assert (F4 : Forall2 (bytes_at m4) ps es) by (apply ptrs_at; auto).
  assert (PR : Forall (fun p => sbk s <= p <= LONG_MAX) ps).
  { eapply Forall_impl; [|apply ptrs_range]. cbn beta. fold cp. unfold buf. lia. }
  assert (K4 : forall x, x < sbk s -> m4 x = sm s x).
  { intros x Hx. rewrite S4 by (unfold buf, cp in *; pose proof (zlen_nonneg (concat es)); lia).
    rewrite K3, K2, K1 by (unfold buf; lia). reflexivity. }
  destruct cmp as [c|].
  - set (comp := fun a b => c (entry_at m4 (le_get 8 a)) (entry_at m4 (le_get 8 b))).
    set (arr := map (le_bytes 8) ps) in *.
    assert (AL : zlen arr = zlen es).
    { unfold zlen, arr, ps. rewrite map_length, ptrs_len. reflexivity. }
    destruct (qsort_ok comp (buf + cp) 8 ltac:(unfold INT_MAX; lia) fuel m4 arr A4)
      as (m5 & arr5 & E5 & A5 & P5 & S5 & O5).
    { rewrite AL. unfold LONG_MAX. lia. } { rewrite AL. unfold LONG_MAX. lia. }
    { assert (length arr <= length (concat bs))%nat; [|lia].
      pose proof (accepted_count sel (concat bs)) as Q. fold es in Q. rewrite <- AL in Q.
      unfold zlen in Q. lia. }
    rewrite AL in E5, S5. fold comp. rewrite E5, bind_Ok.
    destruct (Permutation_map_inv (le_bytes 8) ps (Permutation_sym P5)) as (ps5 & -> & PP).
    assert (INV : forall p, In p ps -> le_get 8 (le_bytes 8 p) = p).
    { intros p Hp. apply le_inv. rewrite Forall_forall in PR. apply PR in Hp.
      change (256 ^ Z.of_nat 8) with 18446744073709551616. unfold LONG_MAX in Hp. lia. }
    assert (EN : map (entry_at m4) ps = es).
    { apply (Forall2_map_eq (bytes_at m4)); auto. intros x y Hy H1. apply entry_at_ok; auto.
      rewrite Forall_forall in HD. auto. }
    exists (mkseg m5 (sbk s3)), (buf + cp), ps5, (map (entry_at m4) ps5). cbn [sm].
    split; [reflexivity|]. split; [apply pointers_of; apply A5|]. split; [|split; [|split; [discriminate|split; [|split]]]].
    + apply Forall2_map_r. intros p Hp. apply (Permutation_in _ (Permutation_sym PP)) in Hp.
      destruct (ptrs_in m4 es buf B4 p Hp) as (e & He & Be & H5 & H6).
      rewrite (entry_at_ok m4 p e); auto; [|rewrite Forall_forall in HD; auto].
      apply (bytes_at_ext m4); auto. intros x Hx. apply S5. fold cp in H6. lia.
    + rewrite <- EN. apply Permutation_map. exact PP.
    + intros c' [= <-] TP.
      assert (CE : forall p q, In p ps -> In q ps ->
                comp (le_bytes 8 p) (le_bytes 8 q) = c (entry_at m4 p) (entry_at m4 q)).
      { intros p q Hp Hq. unfold comp. rewrite !INV by auto. reflexivity. }
      assert (PE : forall p, In p ps -> In (entry_at m4 p) es).
      { intros p Hp. rewrite <- EN. apply in_map. auto. }
      assert (SO : sorted comp (map (le_bytes 8) ps5)).
      { apply O5. destruct TP as (T1 & T2). split.
        - intros x y Hx Hy. apply in_map_iff in Hx, Hy. destruct Hx as (p & <- & Hp).
          destruct Hy as (q & <- & Hq). rewrite !CE by auto. auto.
        - intros x y w Hx Hy Hw. apply in_map_iff in Hx, Hy, Hw. destruct Hx as (p & <- & Hp).
          destruct Hy as (q & <- & Hq). destruct Hw as (r & <- & Hr). rewrite !CE by auto. eauto. }
      intros i j x y Hij Hx Hy. rewrite nth_error_map in Hx, Hy.
      destruct (nth_error ps5 i) as [p|] eqn:Ep; [|discriminate].
      destruct (nth_error ps5 j) as [q|] eqn:Eq; [|discriminate].
      injection Hx as <-. injection Hy as <-.
      assert (In p ps) by (apply (Permutation_in _ (Permutation_sym PP)); eapply nth_error_In; eauto).
      assert (In q ps) by (apply (Permutation_in _ (Permutation_sym PP)); eapply nth_error_In; eauto).
      rewrite <- CE by auto. apply (SO i j); auto; rewrite nth_error_map, ?Ep, ?Eq; reflexivity.
    + apply (Permutation_Forall PP). auto.
    + intros x Hx. rewrite S5 by (unfold buf, cp in *; pose proof (zlen_nonneg (concat es)); lia). auto.
  - rewrite bind_Ok. exists (mkseg m4 (sbk s3)), (buf + cp), ps, es. cbn [sm].
    split; [reflexivity|]. split; [apply pointers_of; apply A4|]. split; [auto|]. split; [auto|].
    split; [auto|]. split; [discriminate|]. auto.
Qed.
