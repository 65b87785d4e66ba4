(* Bytes and fields; the copy loop of shrinkelf. *)
From Verif Require Import Base BaseLemmas ShrinkModel ShrinkSpec ShrinkProofs.

(* ---- bytes ---------------------------------------------------------------- *)
Lemma byte_nth f x : 0 <= x -> byte f x = nth_error f (Z.to_nat x).
Proof. intros. unfold byte. destruct (Z.ltb_spec x 0); [lia|auto]. Qed.
Lemma byte_neg f x : x < 0 -> byte f x = None.
Proof. intros. unfold byte. destruct (Z.ltb_spec x 0); [auto|lia]. Qed.
Lemma byte_out f x : zlen f <= x -> byte f x = None.
Proof.
  intros. pose proof (Zle_0_nat (length f)). unfold zlen in *. rewrite byte_nth by lia.
  apply nth_error_None. lia.
Qed.
Lemma byte_in f x : 0 <= x < zlen f -> byte f x <> None.
Proof. intros. rewrite byte_nth by lia. apply nth_error_Some. unfold zlen in *. lia. Qed.

Lemma list_ext (a b : list Z) : (forall x, 0 <= x -> byte a x = byte b x) -> a = b.
Proof.
  revert b. induction a as [|y a IH]; intros [|z b] H; auto.
  - specialize (H 0 ltac:(lia)). discriminate.
  - specialize (H 0 ltac:(lia)). discriminate.
  - pose proof (H 0 ltac:(lia)) as H0. injection H0 as ->. f_equal. apply IH.
    intros x Hx. specialize (H (x + 1) ltac:(lia)).
    rewrite !byte_nth in H by lia. replace (Z.to_nat (x + 1)) with (S (Z.to_nat x)) in H by lia.
    rewrite !byte_nth by lia. exact H.
Qed.

Lemma byte_app a b x :
  byte (a ++ b) x = if x <? zlen a then byte a x else byte b (x - zlen a).
Proof.
  pose proof (zlen_nonneg a). destruct (Z_lt_dec x 0).
  - rewrite !byte_neg by lia. destruct (Z.ltb_spec x (zlen a)); auto.
  - unfold zlen. destruct (Z.ltb_spec x (Z.of_nat (length a))).
    + rewrite !byte_nth by lia. apply nth_error_app1. lia.
    + rewrite !byte_nth by lia. rewrite nth_error_app2 by lia. f_equal. lia.
Qed.
Lemma nth_error_firstn {A} (l : list A) : forall n k,
  nth_error (firstn n l) k = if (k <? n)%nat then nth_error l k else None.
Proof.
  induction l as [|a l IH]; intros [|n] [|k]; cbn [firstn nth_error]; auto.
  - destruct (_ <? _)%nat; auto.
  - rewrite IH. reflexivity.
Qed.
Lemma nth_error_skipn {A} (l : list A) : forall n k,
  nth_error (skipn n l) k = nth_error l (n + k).
Proof.
  induction l as [|a l IH]; intros [|n] k; cbn [skipn nth_error]; auto.
  - destruct k; auto.
  - rewrite IH. reflexivity.
Qed.
Lemma byte_firstn n l x :
  byte (firstn n l) x = if x <? Z.of_nat n then byte l x else None.
Proof.
  destruct (Z_lt_dec x 0).
  - rewrite !byte_neg by lia. destruct (_ <? _); auto.
  - rewrite !byte_nth by lia. rewrite nth_error_firstn.
    destruct (Z.ltb_spec x (Z.of_nat n)), (Nat.ltb_spec (Z.to_nat x) n); auto; lia.
Qed.
Lemma byte_skipn n l x : 0 <= x -> byte (skipn n l) x = byte l (Z.of_nat n + x).
Proof.
  intros. rewrite !byte_nth by lia. rewrite nth_error_skipn. f_equal. lia.
Qed.
Lemma byte_read_at f off n x : 0 <= off -> 0 <= n ->
  byte (read_at f off n) x = if (0 <=? x) && (x <? n) then byte f (off + x) else None.
Proof.
  intros. unfold read_at. rewrite byte_firstn.
  destruct (Z.leb_spec 0 x); cbn [andb].
  - destruct (Z.ltb_spec x n), (Z.ltb_spec x (Z.of_nat (Z.to_nat n))); try lia; auto.
    rewrite byte_skipn by lia. f_equal. lia.
  - rewrite byte_neg by lia. destruct (_ <? _); auto.
Qed.
Lemma zlen_read_at f off n : 0 <= off -> 0 <= n -> off + n <= zlen f ->
  zlen (read_at f off n) = n.
Proof.
  intros. unfold read_at, zlen in *. rewrite firstn_length, skipn_length. lia.
Qed.
Lemma zlen_read_at_le f off n : 0 <= n -> zlen (read_at f off n) <= n.
Proof. intros. unfold read_at, zlen. rewrite firstn_length. lia. Qed.
Lemma read_at_full_range f off n : 0 <= off -> n <= zlen (read_at f off n) -> 0 < n ->
  off + n <= zlen f.
Proof.
  unfold read_at, zlen. rewrite firstn_length, skipn_length. lia.
Qed.

Lemma zlen_splice buf pos d : 0 <= pos -> pos + zlen d <= zlen buf ->
  zlen (splice buf pos d) = zlen buf.
Proof.
  intros. unfold splice, zlen in *. rewrite !app_length, firstn_length, skipn_length. lia.
Qed.
Lemma byte_splice buf pos d x : 0 <= pos -> pos + zlen d <= zlen buf ->
  byte (splice buf pos d) x =
  if (pos <=? x) && (x <? pos + zlen d) then byte d (x - pos) else byte buf x.
Proof.
  intros. unfold splice. pose proof (zlen_nonneg d).
  rewrite byte_app.
  assert (E : zlen (firstn (Z.to_nat pos) buf) = pos)
    by (unfold zlen in *; rewrite firstn_length; lia).
  rewrite E. destruct (Z.ltb_spec x pos).
  - destruct (Z.leb_spec pos x); [lia|]. cbn [andb]. rewrite byte_firstn.
    destruct (Z.ltb_spec x (Z.of_nat (Z.to_nat pos))); [auto|lia].
  - destruct (Z.leb_spec pos x); [|lia]. cbn [andb]. rewrite byte_app.
    destruct (Z.ltb_spec (x - pos) (zlen d)), (Z.ltb_spec x (pos + zlen d)); try lia; auto.
    rewrite byte_skipn by lia. f_equal. unfold zlen. lia.
Qed.

(* ---- numbers -------------------------------------------------------------- *)
Lemma number_ext f g n : forall x y,
  (forall k, 0 <= k < Z.of_nat n -> byte f (x + k) = byte g (y + k)) ->
  number f x n = number g y n.
Proof.
  induction n as [|n IH]; intros x y H; cbn [number]; auto.
  pose proof (H 0 ltac:(lia)) as H0. rewrite !Z.add_0_r in H0. rewrite H0.
  rewrite (IH (x + 1) (y + 1)); auto.
  intros k Hk. replace (x + 1 + k) with (x + (k + 1)) by lia.
  replace (y + 1 + k) with (y + (k + 1)) by lia. apply H. lia.
Qed.
Lemma skipn_nth {A} (l : list A) : forall n,
  skipn n l = match nth_error l n with Some b => b :: skipn (S n) l | None => [] end.
Proof.
  induction l as [|a l IH]; intros [|n]; cbn [skipn nth_error]; auto.
  apply IH.
Qed.
Lemma number_out f n : forall x, zlen f <= x -> number f x n = 0.
Proof.
  induction n as [|n IH]; intros x H; cbn [number]; auto.
  rewrite byte_out by lia. rewrite IH by lia. reflexivity.
Qed.
Lemma fld_number l n : forall pos, 0 <= pos -> fld l pos n = number l pos n.
Proof.
  unfold fld. induction n as [|n IH]; intros pos H; cbn [le_get number]; auto.
  rewrite skipn_nth. rewrite byte_nth by lia.
  destruct (nth_error l (Z.to_nat pos)) eqn:E.
  - rewrite <- IH by lia. replace (Z.to_nat (pos + 1)) with (S (Z.to_nat pos)) by lia.
    reflexivity.
  - rewrite number_out; [reflexivity|]. apply nth_error_None in E. unfold zlen. lia.
Qed.
Lemma number_bound f n : Forall (fun b => 0 <= b <= 255) f ->
  forall x, 0 <= number f x n < 256 ^ Z.of_nat n.
Proof.
  intros Hf. induction n as [|n IH]; intros x; cbn [number].
  - cbn. lia.
  - specialize (IH (x + 1)). replace (Z.of_nat (S n)) with (Z.of_nat n + 1) by lia.
    rewrite Z.pow_add_r by lia.
    assert (0 <= match byte f x with Some b => b | None => 0 end <= 255).
    { destruct (byte f x) as [b|] eqn:E; [|lia]. unfold byte in E.
      destruct (x <? 0); [discriminate|]. apply nth_error_In in E.
      rewrite Forall_forall in Hf. apply Hf, E. }
    lia.
Qed.
Lemma length_le n : forall v, length (le_bytes n v) = n.
Proof. induction n; intros; cbn [le_bytes length]; auto. Qed.
Lemma number_cons b l n : forall x, 0 <= x -> number (b :: l) (x + 1) n = number l x n.
Proof.
  intros x H. apply number_ext. intros k Hk. rewrite !byte_nth by lia.
  replace (Z.to_nat (x + 1 + k)) with (S (Z.to_nat (x + k))) by lia. reflexivity.
Qed.
Lemma number_le n : forall v, number (le_bytes n v) 0 n = v mod 256 ^ Z.of_nat n.
Proof.
  induction n as [|n IH]; intros v; cbn [le_bytes number].
  - cbn. rewrite Z.mod_1_r. reflexivity.
  - cbn [byte]. change (byte (v mod 256 :: le_bytes n (v / 256)) 0) with (Some (v mod 256)).
    change (0 + 1) with (0 + 1). rewrite number_cons by lia. rewrite IH.
    replace (Z.of_nat (S n)) with (1 + Z.of_nat n) by lia.
    rewrite Z.pow_add_r by lia. change (256 ^ 1) with 256.
    rewrite Z.rem_mul_r by (try lia; apply Z.pow_pos_nonneg; lia). lia.
Qed.
Lemma setfld_splice l pos n v : setfld l pos n v = splice l pos (le_bytes n v).
Proof. unfold setfld, splice. rewrite length_le. reflexivity. Qed.
Lemma zlen_le n v : zlen (le_bytes n v) = Z.of_nat n.
Proof. unfold zlen. rewrite length_le. reflexivity. Qed.
Lemma zlen_setfld l pos n v : 0 <= pos -> pos + Z.of_nat n <= zlen l ->
  zlen (setfld l pos n v) = zlen l.
Proof. intros. rewrite setfld_splice. apply zlen_splice; rewrite ?zlen_le; auto. Qed.
Lemma byte_setfld l pos n v x : 0 <= pos -> pos + Z.of_nat n <= zlen l ->
  byte (setfld l pos n v) x =
  if (pos <=? x) && (x <? pos + Z.of_nat n) then byte (le_bytes n v) (x - pos)
  else byte l x.
Proof.
  intros. rewrite setfld_splice, byte_splice by (rewrite ?zlen_le; auto).
  rewrite zlen_le. reflexivity.
Qed.
Lemma number_setfld l pos n v : 0 <= pos -> pos + Z.of_nat n <= zlen l ->
  number (setfld l pos n v) pos n = v mod 256 ^ Z.of_nat n.
Proof.
  intros. rewrite <- number_le. apply number_ext. intros k Hk.
  rewrite byte_setfld by auto.
  destruct (Z.leb_spec pos (pos + k)); [|lia].
  destruct (Z.ltb_spec (pos + k) (pos + Z.of_nat n)); [|lia]. cbn [andb]. f_equal. lia.
Qed.
Lemma number_setfld_other l pos n v x k : 0 <= pos -> pos + Z.of_nat n <= zlen l ->
  x + Z.of_nat k <= pos \/ pos + Z.of_nat n <= x ->
  number (setfld l pos n v) x k = number l x k.
Proof.
  intros. apply number_ext. intros j Hj. rewrite byte_setfld by auto.
  destruct (Z.leb_spec pos (x + j)); cbn [andb]; auto.
  destruct (Z.ltb_spec (x + j) (pos + Z.of_nat n)); auto. lia.
Qed.
Lemma fld_read_at f off n pos k : 0 <= off -> 0 <= pos -> pos + Z.of_nat k <= n ->
  fld (read_at f off n) pos k = number f (off + pos) k.
Proof.
  intros. rewrite fld_number by auto. apply number_ext. intros j Hj.
  rewrite byte_read_at by lia.
  destruct (Z.leb_spec 0 (pos + j)); [|lia].
  destruct (Z.ltb_spec (pos + j) n); [|lia]. cbn [andb]. f_equal. lia.
Qed.

(* ---- the copy loop -------------------------------------------------------- *)
Definition patched (f e ph : list Z) (phoff : Z) : list Z := splice (splice f 0 e) phoff ph.

Section Copy.
Variables (f e ph : list Z) (phoff phsz : Z).
Hypothesis He : zlen e = 64.
Hypothesis Hef : 64 <= zlen f.
Hypothesis Hph : zlen ph = phsz.
Hypothesis Hpo : 0 <= phoff.
Hypothesis Hpf : phoff + phsz <= zlen f.

Lemma zlen_patched : zlen (patched f e ph phoff) = zlen f.
Proof using He Hef Hph Hpo Hpf.
  unfold patched. rewrite !zlen_splice; auto; try lia. rewrite zlen_splice; lia.
Qed.

Lemma byte_patched x :
  byte (patched f e ph phoff) x =
  if (phoff <=? x) && (x <? phoff + phsz) then byte ph (x - phoff)
  else if (0 <=? x) && (x <? 64) then byte e x else byte f x.
Proof using He Hef Hph Hpo Hpf.
  unfold patched. rewrite byte_splice; auto; [|rewrite zlen_splice; lia].
  rewrite Hph. destruct (_ && _); auto.
  rewrite byte_splice by lia. rewrite He. rewrite Z.sub_0_r.
  change (0 + 64) with 64. reflexivity.
Qed.

Lemma patch_block_eq off n : 0 <= off -> 0 < n -> off + n <= zlen f ->
  patch_block e ph phoff phsz off (read_at f off n) = read_at (patched f e ph phoff) off n.
Proof using He Hef Hph Hpo Hpf.
  intros Ho Hn Hf. apply list_ext. intros x Hx.
  rewrite (byte_read_at (patched _ _ _ _)) by lia. rewrite byte_patched.
  assert (H0 : 0 <= phsz) by (rewrite <- Hph; apply zlen_nonneg).
  unfold patch_block. rewrite zlen_read_at by lia. unfold EHDR_SIZE.
  rewrite !Z.sub_0_r.
  set (b1 := if off <? 64 then _ else _).
  assert (B1 : zlen b1 = n /\ forall y, byte b1 y =
    if (0 <=? y) && (y <? n) then
      (if (off + y <? 64) then byte e (off + y) else byte f (off + y)) else None).
  { unfold b1. destruct (Z.ltb_spec off 64).
    - set (len := if n <? 64 - off then n else 64 - off).
      assert (Hl : 0 < len <= n /\ len <= 64 - off /\ (len = n \/ len = 64 - off))
        by (unfold len; destruct (Z.ltb_spec n (64 - off)); lia).
      assert (El : zlen (read_at e off len) = len) by (apply zlen_read_at; lia).
      split; [rewrite zlen_splice; rewrite ?El, ?zlen_read_at; lia|].
      intros y. rewrite byte_splice by (rewrite ?El, ?zlen_read_at; lia).
      rewrite El, Z.sub_0_r, !byte_read_at by lia.
      destruct (Z.leb_spec 0 y); cbn [andb]; auto.
      destruct (Z.ltb_spec y (0 + len)).
      + destruct (Z.ltb_spec y len); [|lia]. destruct (Z.ltb_spec y n); [|lia].
        destruct (Z.ltb_spec (off + y) 64); [|lia]. reflexivity.
      + destruct (Z.ltb_spec y n); auto. destruct (Z.ltb_spec (off + y) 64); [lia|auto].
    - split; [apply zlen_read_at; lia|]. intros y. rewrite byte_read_at by lia.
      destruct (Z.leb_spec 0 y); cbn [andb]; auto.
      destruct (Z.ltb_spec (off + y) 64); [lia|auto]. }
  destruct B1 as (L1 & B1). clearbody b1.
  destruct (Z.leb_spec 0 x); [|lia]. cbn [andb].
  destruct (Z.ltb_spec off (phoff + phsz)); cbn [andb].
  - destruct (Z.ltb_spec phoff (off + n)).
    + set (posa := if off <? phoff then 0 else off - phoff).
      set (posb := if off <? phoff then phoff - off else 0).
      assert (Hp : 0 <= posa < phsz \/ phsz = 0 /\ posa = 0)
        by (unfold posa; destruct (Z.ltb_spec off phoff); lia).
      assert (Hab : phoff + posa = off + posb /\ 0 <= posb < n /\ 0 <= posa /\
                    (posa = 0 \/ posb = 0))
        by (unfold posa, posb; destruct (Z.ltb_spec off phoff); lia).
      clearbody posa posb.
      set (len := if n - posb <? phsz - posa then n - posb else phsz - posa).
      assert (Hl : 0 <= len <= n - posb /\ len <= phsz - posa /\
                   (len = n - posb \/ len = phsz - posa))
        by (unfold len; destruct (Z.ltb_spec (n - posb) (phsz - posa)); lia).
      clearbody len.
      assert (El : zlen (read_at ph posa len) = len) by (apply zlen_read_at; lia).
      rewrite byte_splice by lia. rewrite El, byte_read_at, B1 by lia.
      destruct (Z.leb_spec posb x); cbn [andb].
      * destruct (Z.ltb_spec x (posb + len)).
        -- destruct (Z.leb_spec 0 (x - posb)); [|lia].
           destruct (Z.ltb_spec (x - posb) len); [|lia].
           destruct (Z.ltb_spec x n); [|lia].
           destruct (Z.leb_spec phoff (off + x)); [|lia].
           destruct (Z.ltb_spec (off + x) (phoff + phsz)); [|lia]. cbn [andb].
           f_equal. lia.
        -- destruct (Z.leb_spec 0 x); [|lia]. cbn [andb].
           destruct (Z.ltb_spec x n); auto.
           destruct (Z.leb_spec phoff (off + x)); cbn [andb].
           ++ destruct (Z.ltb_spec (off + x) (phoff + phsz)); [lia|].
              destruct (Z.leb_spec 0 (off + x)); [|lia]. reflexivity.
           ++ destruct (Z.leb_spec 0 (off + x)); [|lia]. reflexivity.
      * destruct (Z.leb_spec 0 x); [|lia]. cbn [andb].
        destruct (Z.ltb_spec x n); auto.
        destruct (Z.leb_spec phoff (off + x)); cbn [andb]; [lia|].
        destruct (Z.leb_spec 0 (off + x)); [|lia]. reflexivity.
    + rewrite B1. destruct (Z.leb_spec 0 x); [|lia]. cbn [andb].
      destruct (Z.ltb_spec x n); auto.
      destruct (Z.leb_spec phoff (off + x)); cbn [andb]; [lia|].
      destruct (Z.leb_spec 0 (off + x)); [|lia]. reflexivity.
  - rewrite B1. destruct (Z.leb_spec 0 x); [|lia]. cbn [andb].
    destruct (Z.ltb_spec x n); auto.
    destruct (Z.ltb_spec (off + x) (phoff + phsz)); [lia|].
    rewrite andb_false_r.
    destruct (Z.leb_spec 0 (off + x)); [|lia]. reflexivity.
Qed.

Definition app_at (out : list Z) (w : Z) (d : list Z) : list Z :=
  out ++ repeat 0 (Z.to_nat w - length out) ++ d.

Lemma write_at_app out w d : 0 <= w -> zlen out <= w -> write_at out w d = app_at out w d.
Proof using.
  clear. intros. unfold write_at, app_at, zlen in *.
  rewrite firstn_all2 by lia. rewrite (skipn_all2 out) by lia. rewrite app_nil_r. reflexivity.
Qed.
Lemma zlen_app_at out w d : 0 <= w -> zlen out <= w -> zlen (app_at out w d) = w + zlen d.
Proof using.
  clear. intros. unfold app_at, zlen in *. rewrite !app_length, repeat_length. lia.
Qed.
Lemma app_at_app out w a b : 0 <= w -> zlen out <= w ->
  app_at (app_at out w a) (w + zlen a) b = app_at out w (a ++ b).
Proof using.
  clear. intros. pose proof (zlen_app_at out w a H H0) as E.
  unfold app_at at 1. unfold zlen in *.
  replace (Z.to_nat (w + Z.of_nat (length a)) - length (app_at out w a))%nat with 0%nat by lia.
  cbn [repeat app]. unfold app_at. rewrite <- !app_assoc. reflexivity.
Qed.
Lemma read_at_app l off a b : 0 <= off -> 0 <= a -> 0 <= b -> off + a + b <= zlen l ->
  read_at l off a ++ read_at l (off + a) b = read_at l off (a + b).
Proof using.
  clear. intros. apply list_ext. intros x Hx.
  rewrite byte_app, zlen_read_at by lia. rewrite !byte_read_at by lia.
  destruct (Z.leb_spec 0 x); [|lia]. cbn [andb].
  destruct (Z.ltb_spec x a), (Z.ltb_spec x (a + b)); try lia; auto.
  - destruct (Z.leb_spec 0 (x - a)); [|lia]. cbn [andb].
    destruct (Z.ltb_spec (x - a) b); [|lia]. f_equal. lia.
  - destruct (Z.leb_spec 0 (x - a)); [|lia]. cbn [andb].
    destruct (Z.ltb_spec (x - a) b); [lia|]. reflexivity.
Qed.

Lemma copy_blocks_ok fuel : forall off n w out,
  (Z.to_nat n <= fuel)%nat -> 0 <= off -> 0 < n -> off + n <= zlen f ->
  0 <= w -> zlen out <= w ->
  copy_blocks fuel f e ph phoff phsz off n w out =
  Ok (Some (app_at out w (read_at (patched f e ph phoff) off n))).
Proof using He Hef Hph Hpo Hpf.
  induction fuel as [|fuel IH]; intros off n w out Hfu Ho Hn Hf Hw Hout; [lia|].
  cbn [copy_blocks]. destruct (Z.ltb_spec 0 n); [|lia].
  set (k := if BUFSIZE <? n then BUFSIZE else n).
  assert (Hk : 0 < k <= n) by (unfold k, BUFSIZE; destruct (Z.ltb_spec 8192 n); lia).
  clearbody k. rewrite zlen_read_at by lia. destruct (Z.ltb_spec k k); [lia|].
  rewrite patch_block_eq by lia. rewrite write_at_app by lia.
  pose proof zlen_patched as EP.
  assert (EL : zlen (read_at (patched f e ph phoff) off k) = k) by (apply zlen_read_at; lia).
  destruct (Z.eq_dec n k) as [->|].
  - destruct fuel; cbn [copy_blocks]; rewrite Z.sub_diag; reflexivity.
  - rewrite IH; try lia.
    + rewrite <- EL at 2. rewrite app_at_app by lia.
      do 3 f_equal. rewrite read_at_app by lia. f_equal. lia.
    + rewrite zlen_app_at by lia. lia.
Qed.

Fixpoint tfrom (lo : Z) (rs : list region) : Prop :=
  match rs with
  | [] => True
  | r :: t => lo <= r_toff r /\ tfrom (r_toff r + r_sz r) t
  end.

Lemma byte_app_at out w d x : 0 <= w -> zlen out <= w ->
  (x < zlen out -> byte (app_at out w d) x = byte out x) /\
  (w <= x -> byte (app_at out w d) x = byte d (x - w)).
Proof using.
  clear. intros. unfold app_at.
  assert (ER : zlen (repeat 0 (Z.to_nat w - length out)) = w - zlen out)
    by (unfold zlen in *; rewrite repeat_length; lia).
  split; intros; rewrite byte_app.
  - destruct (Z.ltb_spec x (zlen out)); [auto|lia].
  - destruct (Z.ltb_spec x (zlen out)); [lia|]. rewrite byte_app, ER.
    destruct (Z.ltb_spec (x - zlen out) (w - zlen out)); [lia|]. f_equal. lia.
Qed.

Lemma process_file_ok rs : forall out lo,
  Forall (fun r => 0 <= r_off r /\ 0 < r_sz r /\ r_off r + r_sz r <= zlen f /\
                   r_toff r <= r_off r) rs ->
  0 <= lo -> tfrom lo rs -> zlen out <= lo -> lo <= zlen f ->
  exists out', process_file f e ph phoff phsz rs out = Ok (Some out') /\
    zlen out' <= zlen f /\
    (forall x, x < zlen out -> byte out' x = byte out x) /\
    zlen out <= zlen out' /\
    forall r, In r rs -> forall x, 0 <= x < r_sz r ->
      byte out' (r_toff r + x) = byte (patched f e ph phoff) (r_off r + x).
Proof using He Hef Hph Hpo Hpf.
  induction rs as [|r rs IH]; intros out lo HF Hlo Ht Hout Hlf; cbn [process_file].
  - exists out. repeat split; auto; try lia. intros r [].
  - apply Forall_cons_iff in HF. destruct HF as ((H1 & H2 & H3 & H4) & HF).
    cbn [tfrom] in Ht. destruct Ht as (T1 & T2).
    rewrite copy_blocks_ok by lia. cbn [bind].
    set (out1 := app_at out (r_toff r) _).
    pose proof zlen_patched as EP.
    assert (E1 : zlen out1 = r_toff r + r_sz r).
    { unfold out1. rewrite zlen_app_at by lia. rewrite zlen_read_at by lia. reflexivity. }
    destruct (IH out1 (r_toff r + r_sz r)) as (out' & I1 & I2 & I3 & I4 & I5); auto; try lia.
    exists out'. split; [exact I1|]. split; [exact I2|].
    split.
    { intros x Hx. rewrite I3 by lia. unfold out1.
      apply byte_app_at; lia. }
    split; [lia|].
    intros r' [<-|Hr'] x Hx.
    + rewrite I3 by lia. unfold out1.
      destruct (byte_app_at out (r_toff r)
                  (read_at (patched f e ph phoff) (r_off r) (r_sz r)) (r_toff r + x))
        as (_ & B); try lia.
      rewrite B by lia. rewrite byte_read_at by lia.
      replace (r_toff r + x - r_toff r) with x by lia.
      destruct (Z.leb_spec 0 x); [|lia]. destruct (Z.ltb_spec x (r_sz r)); [|lia].
      reflexivity.
    + apply I5; auto.
Qed.
End Copy.
