(* The data segment and scandir. *)
From Verif Require Import Base BaseLemmas SortModel SortSpec SortProofs MemModel ShrinkModel
  DirModel DirSpec.

(* ---- little endian objects ----------------------------------------------- *)
Lemma le_len n : forall v, length (le_bytes n v) = n.
Proof. induction n; intros; cbn [le_bytes length]; auto. Qed.
Lemma le_zlen n v : zlen (le_bytes n v) = Z.of_nat n.
Proof. unfold zlen. rewrite le_len. reflexivity. Qed.
Lemma le_inv n : forall v, 0 <= v < 256 ^ Z.of_nat n -> le_get n (le_bytes n v) = v.
Proof.
  induction n as [|n IH]; intros v Hv; cbn [le_bytes le_get].
  - cbn in Hv. lia.
  - replace (Z.of_nat (S n)) with (1 + Z.of_nat n) in Hv by lia.
    rewrite Z.pow_add_r in Hv by lia. change (256 ^ 1) with 256 in Hv.
    rewrite IH; [|split; [apply Z.div_pos; lia|apply Z.div_lt_upper_bound; lia]].
    pose proof (Z.div_mod v 256). lia.
Qed.
Lemma get_le_ok n m a v : 0 <= v < 256 ^ Z.of_nat n -> bytes_at m a (le_bytes n v) ->
  get_le n m a = Ok v.
Proof.
  intros Hv H. unfold get_le. apply loads_ok in H. rewrite le_len in H.
  rewrite H, bind_Ok, le_inv by auto. reflexivity.
Qed.
Lemma put_le_ok n m a v : room m a (Z.of_nat n) ->
  exists m', put_le n m a v = Ok m' /\ bytes_at m' a (le_bytes n v) /\
             same_outside m m' a (Z.of_nat n).
Proof.
  intros H. unfold put_le. destruct (stores_ok (le_bytes n v) m a) as (m' & E & B & S & _).
  - rewrite le_zlen. exact H.
  - rewrite le_zlen in S. eauto.
Qed.
Lemma room_keep m m' a n b k : room m a n -> same_outside m m' b k -> room m' b k ->
  room m' a n.
Proof.
  intros H S R x Hx. destruct (Z_lt_dec x b); [rewrite S by lia; apply H; auto|].
  destruct (Z_lt_dec x (b + k)); [apply R; lia|]. rewrite S by lia. apply H. auto.
Qed.

(* ---- the data segment ----------------------------------------------------- *)
Lemma lor_size s : 0 <= s < 268435456 ->
  Z.land (Z.lor MALLOC_BRK s) MALLOC_SIZE = s /\ Z.land (Z.lor MALLOC_BRK s) MALLOC_BRK <> 0 /\
  0 <= Z.lor MALLOC_BRK s < 4294967296.
Proof.
  intros H. split; [|split].
  - rewrite Z.land_lor_distr_l. change (Z.land MALLOC_BRK MALLOC_SIZE) with 0.
    rewrite Z.lor_0_l. change MALLOC_SIZE with (Z.ones 28). rewrite Z.land_ones by lia.
    apply Z.mod_small. exact H.
  - intros E. assert (T : Z.testbit (Z.land (Z.lor MALLOC_BRK s) MALLOC_BRK) 28 = true).
    { rewrite Z.land_spec, Z.lor_spec. change (Z.testbit MALLOC_BRK 28) with true. reflexivity. }
    rewrite E, Z.bits_0 in T. discriminate.
  - assert (E : Z.land (Z.lor MALLOC_BRK s) (Z.ones 32) = Z.lor MALLOC_BRK s).
    { rewrite Z.land_lor_distr_l. f_equal. rewrite Z.land_ones by lia.
      apply Z.mod_small. change (2 ^ 32) with 4294967296. lia. }
    rewrite Z.land_ones in E by lia. rewrite <- E. apply Z.mod_pos_bound. lia.
Qed.

Lemma brk_size_ok n : 1 <= n <= 268435440 ->
  exists z, brk_size n = Ok z /\ n + 4 <= z < n + 8 /\ z mod 4 = 0 /\ z < 268435456.
Proof.
  intros H. unfold brk_size. rewrite iop_ok by (unfold INT_MIN, INT_MAX; lia).
  rewrite bind_Ok. rewrite Z.shiftr_div_pow2 by lia. change (2 ^ 2) with 4.
  exists (((n - 1) / 4 + 2) * 4).
  assert (n - 1 = 4 * ((n - 1) / 4) + (n - 1) mod 4) by (apply Z.div_mod; lia).
  pose proof (Z.mod_pos_bound (n - 1) 4).
  rewrite iop_ok by (unfold INT_MIN, INT_MAX; lia).
  split; [reflexivity|]. split; [lia|]. split; [|lia].
  apply Z.mod_mul. lia.
Qed.

(* p is the last block, of total size z *)
Definition last_block (s : seg) (p z : Z) : Prop :=
  8 <= z < 268435456 /\ sbk s = p - 4 + z /\ 4 < p /\
  bytes_at (sm s) (p - 4) (le_bytes 4 (Z.lor MALLOC_BRK z)) /\ room (sm s) (p - 4) z.

Lemma malloc_brk_ok lo hi s start n :
  1 <= n <= 268435440 -> 0 < sbk s -> lo <= sbk s -> sbk s + n + 8 <= hi -> hi <= LONG_MAX ->
  exists s' start' z, malloc_brk lo hi s start n = Ok (s', start', sbk s + 4) /\
    last_block s' (sbk s + 4) z /\ n + 4 <= z < n + 8 /\
    (forall x, x < sbk s -> sm s' x = sm s x) /\
    start' = (if start =? 0 then sbk s else start).
Proof.
  intros Hn Hb Hlo Hhi HL. unfold malloc_brk.
  destruct (Z.ltb_spec n 0); [lia|]. destruct (Z.eqb_spec n 0); [lia|].
  destruct (brk_size_ok n Hn) as (z & -> & Hz & Hz4 & Hzm). rewrite bind_Ok.
  unfold sbrk. rewrite lop_ok by (unfold LONG_MIN in *; lia). rewrite bind_Ok.
  unfold sys_brk. destruct (Z.leb_spec lo (sbk s + z)); [|lia].
  destruct (Z.leb_spec (sbk s + z) hi); [|lia]. cbn [andb].
  destruct (Z.ltb_spec 0 (sbk s + z)); [|lia]. rewrite bind_Ok.
  destruct (Z.leb_spec (sbk s) 0); [lia|]. cbn [sm sbk].
  match goal with |- context[put_le 4 ?f _ _] => set (m1 := f) end.
  assert (R : room m1 (sbk s) z).
  { intros x Hx. unfold m1. destruct (Z.leb_spec (sbk s) x); [|lia].
    destruct (Z.ltb_spec x (sbk s + z)); [|lia]. discriminate. }
  destruct (put_le_ok 4 m1 (sbk s) (Z.lor MALLOC_BRK z)) as (m2 & -> & B & S).
  { apply (room_sub m1 (sbk s) z); auto; lia. }
  rewrite bind_Ok. exists (mkseg m2 (sbk s + z)), (if start =? 0 then sbk s else start), z.
  split; [reflexivity|]. split; [|split; [lia|split; [|reflexivity]]].
  - unfold last_block. cbn [sm sbk]. replace (sbk s + 4 - 4) with (sbk s) by lia.
    split; [lia|]. split; [lia|]. split; [lia|]. split; [exact B|].
    apply (room_keep m1 m2 (sbk s) z (sbk s) 4); auto.
    apply bytes_room in B. rewrite le_zlen in B. exact B.
  - intros x Hx. cbn [sm]. rewrite S by lia. unfold m1.
    destruct (Z.leb_spec (sbk s) x); [lia|]. cbn [andb].
    destruct (Z.leb_spec (sbk s + z) x); [lia|]. reflexivity.
Qed.

Lemma realloc_brk_ok lo hi s p z n :
  last_block s p z -> 1 <= n <= 268435440 -> lo <= p - 4 -> p + n + 4 <= hi ->
  exists s' z', realloc_brk lo hi s p n = Ok (s', p) /\ last_block s' p z' /\
    n + 4 <= z' < n + 8 /\
    (forall x, x < p - 4 \/ p <= x < p - 4 + Z.min z z' -> sm s' x = sm s x).
Proof.
  intros (L1 & L2 & L3 & L4 & L5) Hn Hlo Hhi. unfold realloc_brk.
  destruct (Z.eqb_spec n 0); [lia|]. destruct (Z.eqb_spec p 0); [lia|].
  destruct (lor_size z ltac:(lia)) as (O1 & O2 & O3).
  rewrite (get_le_ok 4 _ _ _ O3 L4), bind_Ok. rewrite O1.
  destruct (brk_size_ok n Hn) as (z' & -> & Hz & Hz4 & Hzm). rewrite bind_Ok.
  destruct (Z.eqb_spec z z') as [->|Hne].
  { exists s, z'. split; [reflexivity|]. split; [unfold last_block; auto 6|].
    split; [lia|]. auto. }
  destruct (Z.eqb_spec (Z.land (Z.lor MALLOC_BRK z) MALLOC_BRK) 0); [tauto|].
  destruct (Z.leb_spec (sbk s) (p + z)); [|lia].
  unfold brk, sys_brk. destruct (Z.leb_spec lo (p - 4 + z')); [|lia].
  destruct (Z.leb_spec (p - 4 + z') hi); [|lia]. cbn [andb].
  destruct (Z.ltb_spec 0 (p - 4 + z')); [|lia]. cbn [Z.eqb negb].
  cbn [sm sbk].
  match goal with |- context[put_le 4 ?f _ _] => set (m1 := f) end.
  assert (R : room m1 (p - 4) z').
  { intros x Hx. unfold m1. destruct (Z.leb_spec (sbk s) x); cbn [andb].
    - destruct (Z.ltb_spec x (p - 4 + z')); [discriminate|lia].
    - destruct (Z.leb_spec (p - 4 + z') x); [lia|]. cbn [andb]. apply L5. lia. }
  destruct (put_le_ok 4 m1 (p - 4) (Z.lor MALLOC_BRK z')) as (m2 & -> & B & S).
  { apply (room_sub m1 (p - 4) z'); auto; lia. }
  rewrite bind_Ok. exists (mkseg m2 (p - 4 + z')), z'.
  split; [reflexivity|]. split; [|split; [lia|]].
  - unfold last_block. cbn [sm sbk]. split; [lia|]. split; [lia|]. split; [lia|].
    split; [exact B|]. apply (room_keep m1 m2 (p - 4) z' (p - 4) 4); auto.
    apply bytes_room in B. rewrite le_zlen in B. exact B.
  - intros x Hx. cbn [sm]. rewrite S by lia. unfold m1.
    destruct (Z.leb_spec (sbk s) x); cbn [andb].
    { destruct (Z.ltb_spec x (p - 4 + z')); lia. }
    destruct (Z.leb_spec (p - 4 + z') x); [lia|]. reflexivity.
Qed.

(* ---- memcpy towards lower addresses -------------------------------------- *)
Lemma memcpy_down_loop d s n : d <= s -> n <= INT_MAX -> forall l fuel m a,
  0 <= a -> n = a + zlen l -> (length l < fuel)%nat ->
  bytes_at m (s + a) l -> room m (d + a) (zlen l) ->
  exists m', memcpy_bytes fuel m d s n a = Ok m' /\ bytes_at m' (d + a) l /\
             same_outside m m' (d + a) (zlen l).
Proof.
  intros Hd Hn. induction l as [|b l IH]; intros [|fuel] m a Ha Hl Hf B R; try (cbn in Hf; lia);
    cbn [memcpy_bytes].
  - change (zlen (@nil Z)) with 0 in *. destruct (Z.ltb_spec a n); [lia|].
    exists m. split; [reflexivity|]. split; [exact I|]. apply same_outside_refl.
  - rewrite zlen_cons in *. pose proof (zlen_nonneg l).
    destruct (Z.ltb_spec a n); [|lia]. cbn [bytes_at] in B. destruct B as (B1 & B2).
    rewrite (load_some _ _ b B1), bind_Ok. rewrite (store_room m (d + a) (zlen l + 1)) by (auto; lia).
    rewrite bind_Ok, iop_ok by (unfold INT_MIN, INT_MAX in *; lia). rewrite bind_Ok.
    destruct (IH fuel (upd m (d + a) b) (a + 1)) as (m' & E & B' & S); try lia.
    + cbn [length] in Hf. lia.
    + replace (s + (a + 1)) with (s + a + 1) by lia. apply bytes_at_upd; auto. lia.
    + apply room_upd. intros x Hx. apply R. lia.
    + exists m'. split; [exact E|]. split.
      * cbn [bytes_at]. split; [|replace (d + a + 1) with (d + (a + 1)) by lia; exact B'].
        rewrite S by lia. apply upd_same.
      * intros x Hx. rewrite S by lia. apply upd_other. lia.
Qed.
Lemma memcpy_down fuel m d s l : d <= s -> zlen l <= INT_MAX -> (length l < fuel)%nat ->
  bytes_at m s l -> room m d (zlen l) ->
  exists m', memcpy fuel m d s (zlen l) = Ok (m', d) /\ bytes_at m' d l /\
             same_outside m m' d (zlen l).
Proof.
  intros Hd Hl Hf B R.
  destruct (memcpy_down_loop d s (zlen l) Hd Hl l fuel m 0) as (m' & E & B' & S); auto; try lia.
  - rewrite Z.add_0_r. exact B.
  - rewrite Z.add_0_r. exact R.
  - rewrite Z.add_0_r in B', S. exists m'. unfold memcpy. rewrite E. auto.
Qed.

(* ---- one batch ------------------------------------------------------------- *)
Lemma reclen_ok m de e : dirent e -> bytes_at m de e -> d_reclen m de = Ok (zlen e).
Proof.
  intros (Hb & Hl & Hr) B. unfold d_reclen, get_le.
  assert (forall k, (k < length e)%nat -> m (de + Z.of_nat k) = Some (nth k e 0)) as N.
  { intros k Hk. apply (bytes_at_nth m de e k); auto. apply nth_error_nth'. exact Hk. }
  unfold zlen in Hl. cbn [loads].
  rewrite (load_some _ _ (nth 16 e 0)) by (apply (N 16%nat); lia). rewrite bind_Ok.
  rewrite (load_some _ _ (nth 17 e 0))
    by (replace (de + 16 + 1) with (de + Z.of_nat 17) by lia; apply N; lia).
  rewrite !bind_Ok. cbn [le_get]. f_equal. lia.
Qed.

Definition keep (sel : option (list Z -> Z)) (e : list Z) : bool :=
  match sel with None => true | Some f => negb (f e =? 0) end.
Lemma accepted_app sel a b : accepted sel (a ++ b) = accepted sel a ++ accepted sel b.
Proof. destruct sel; cbn [accepted]; auto. apply filter_app. Qed.
Lemma accepted_cons sel e r :
  accepted sel (e :: r) = if keep sel e then e :: accepted sel r else accepted sel r.
Proof. destruct sel; cbn [accepted keep filter]; auto. Qed.
Lemma zlen_concat_app (a b : list (list Z)) : zlen (concat (a ++ b)) = zlen (concat a) + zlen (concat b).
Proof. rewrite concat_app, zlen_app. reflexivity. Qed.
Lemma accepted_len sel es : zlen (concat (accepted sel es)) <= zlen (concat es).
Proof.
  induction es as [|e es IH]; [destruct sel; cbn; lia|].
  rewrite accepted_cons. pose proof (zlen_nonneg e).
  destruct (keep sel e); cbn [concat]; rewrite !zlen_app; lia.
Qed.
Lemma accepted_count sel es : zlen (accepted sel es) <= zlen es.
Proof.
  induction es as [|e es IH]; [destruct sel; cbn; lia|].
  rewrite accepted_cons. destruct (keep sel e); rewrite !zlen_cons; lia.
Qed.

Section scan.
Variable sel : option (list Z -> Z).

Lemma scan_batch_ok buf : forall es k m done pos,
  Forall dirent es -> (length es < k)%nat ->
  let cp := zlen (concat done) in
  let lim := pos + zlen (concat es) in
  cp <= pos -> lim <= INT_MAX -> zlen done + zlen es <= INT_MAX ->
  bytes_at m (buf + pos) (concat es) -> bytes_at m buf (concat done) ->
  room m buf lim ->
  let done' := done ++ accepted sel es in
  let cp' := zlen (concat done') in
  exists m', scan_batch sel k m buf lim pos cp cp pos (zlen done) =
      Ok (m', lim, cp', cp', lim, zlen done') /\
    bytes_at m' buf (concat done') /\ same_outside m m' buf lim /\ cp' <= lim /\
    (forall p n, room m p n -> room m' p n).
Proof.
  induction es as [|e es IH]; intros [|k] m done pos HD Hk cp lim Hcp Hlim Hcnt B1 B2 R done' cp';
    try (cbn in Hk; lia); cbn [scan_batch].
  - unfold lim. change (zlen (concat [])) with 0. rewrite Z.add_0_r.
    destruct (Z.ltb_spec pos pos); [lia|].
    assert (E : done' = done) by (unfold done'; destruct sel; apply app_nil_r).
    unfold cp'. rewrite E. exists m. fold cp. split; [reflexivity|]. split; [auto|].
    split; [apply same_outside_refl|auto].
  - apply Forall_cons_iff in HD. destruct HD as (He & HD).
    pose proof He as (_ & He19 & _).
    cbn [concat] in *. unfold lim in *. rewrite zlen_app in *. rewrite zlen_cons in Hcnt.
    apply bytes_at_app in B1. destruct B1 as (B1 & B1').
    pose proof (zlen_nonneg (concat es)) as Hces. pose proof (zlen_nonneg done) as Hdn.
    pose proof (zlen_nonneg es) as Hen. pose proof (zlen_nonneg (concat done)) as Hcd.
    destruct (Z.ltb_spec pos (pos + (zlen e + zlen (concat es)))); [|lia].
    rewrite (reclen_ok _ _ _ He B1), bind_Ok.
    rewrite iop_ok by (unfold INT_MIN, INT_MAX in *; lia). rewrite bind_Ok.
    assert (CH : (match sel with
             | Some f => let* e0 := loads (Z.to_nat (zlen e)) m (buf + pos) in Ok (negb (f e0 =? 0))
             | None => Ok true end) = Ok (keep sel e)).
    { destruct sel; cbn [keep]; auto. unfold zlen. rewrite Nat2Z.id.
      rewrite (loads_ok _ _ _ B1), bind_Ok. reflexivity. }
    rewrite CH, bind_Ok. clear CH.
    set (done1 := if keep sel e then done ++ [e] else done).
    assert (CC : (if keep sel e then
                    let* cnt := iop (zlen done + 1) in
                    let* cp0 := iop (cp + zlen e) in Ok (cnt, cp0)
                  else Ok (zlen done, cp)) = Ok (zlen done1, zlen (concat done1))).
    { unfold done1. destruct (keep sel e); auto.
      rewrite iop_ok by (unfold INT_MIN, INT_MAX in *; lia). rewrite bind_Ok.
      rewrite iop_ok by (unfold INT_MIN, INT_MAX, cp in *; lia). rewrite bind_Ok.
      rewrite zlen_concat_app, zlen_app. cbn [concat]. rewrite app_nil_r. reflexivity. }
    rewrite CC, bind_Ok. clear CC.
    assert (CP : exists m1, (if cp <? pos then
                 let* (m, _) := memcpy (S (Z.to_nat (zlen e))) m (buf + cp) (buf + pos) (zlen e) in Ok m
               else Ok m) = Ok m1 /\ bytes_at m1 (buf + cp) e /\
               same_outside m m1 (buf + cp) (zlen e)).
    { destruct (Z.ltb_spec cp pos).
      - destruct (memcpy_down (S (Z.to_nat (zlen e))) m (buf + cp) (buf + pos) e)
          as (m1 & -> & M1 & M2); auto; try (unfold cp in *; lia).
        { unfold zlen. lia. }
        { apply (room_sub m buf (pos + (zlen e + zlen (concat es)))); auto; unfold cp in *; lia. }
        rewrite bind_Ok. eauto.
      - exists m. split; [reflexivity|]. split; [|apply same_outside_refl].
        replace (buf + cp) with (buf + pos) by lia. exact B1. }
    destruct CP as (m1 & -> & M1 & M2). rewrite bind_Ok.
    assert (D1 : bytes_at m1 buf (concat done1)).
    { assert (D0 : bytes_at m1 buf (concat done)).
      { apply (bytes_at_ext m); auto. intros x Hx. apply M2. unfold cp. lia. }
      unfold done1. destruct (keep sel e); auto.
      rewrite concat_app. apply bytes_at_app. split; auto. cbn [concat]. rewrite app_nil_r.
      exact M1. }
    destruct (IH k m1 done1 (pos + zlen e)) as (m' & E & I1 & I2 & I3 & I4); auto.
    + cbn [length] in Hk. lia.
    + unfold done1, cp in *. destruct (keep sel e); rewrite ?zlen_concat_app; cbn [concat];
        rewrite ?app_nil_r; lia.
    + lia.
    + unfold done1. destruct (keep sel e); rewrite ?zlen_app, ?zlen_cons;
        try change (zlen (@nil (list Z))) with 0; lia.
    + replace (buf + (pos + zlen e)) with (buf + pos + zlen e) by lia.
      apply (bytes_at_ext m); auto. intros x Hx. apply M2. unfold cp in *. lia.
    + replace (pos + zlen e + zlen (concat es)) with (pos + (zlen e + zlen (concat es))) by lia.
      apply (room_keep m m1 _ _ (buf + cp) (zlen e)); auto.
      apply bytes_room. exact M1.
    + replace (pos + zlen e + zlen (concat es)) with (pos + (zlen e + zlen (concat es))) in * by lia.
      assert (E' : done1 ++ accepted sel es = done').
      { unfold done', done1. rewrite accepted_cons. destruct (keep sel e); auto.
        rewrite <- app_assoc. reflexivity. }
      rewrite E' in *. exists m'. unfold cp'. split; [exact E|]. split; [exact I1|]. split; [|split; [exact I3|]].
      2:{ intros p n Hp. apply I4. apply (room_keep m m1 _ _ (buf + cp) (zlen e)); auto.
          apply bytes_room. exact M1. }
      intros x Hx. rewrite I2 by lia. apply M2. unfold cp in *. lia.
Qed.
End scan.
