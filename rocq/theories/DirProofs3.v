(* Directory streams are an index into the entries. *)
From Verif Require Import Base BaseLemmas ShrinkModel ShrinkProofs2 DirModel DirSpec.

Lemma skipn_add {A} (l : list A) : forall a b, skipn (a + b) l = skipn b (skipn a l).
Proof. induction l as [|x l IH]; intros [|a] b; cbn [skipn Nat.add]; auto. destruct b; auto. Qed.
Lemma le_get_nth n : forall k l, (k < length l)%nat ->
  le_get (S n) (skipn k l) = nth k l 0 + 256 * le_get n (skipn (S k) l).
Proof.
  intros k l Hk. rewrite skipn_nth. rewrite (nth_error_nth' l 0 Hk). reflexivity.
Qed.
Lemma entry_len e r : dirent e -> le_get 2 (skipn 16 (e ++ r)) = zlen e.
Proof.
  intros (_ & H & E). unfold zlen in H. rewrite !le_get_nth by (rewrite app_length; lia).
  cbn [le_get]. rewrite !app_nth1 by lia. lia.
Qed.
Lemma entry_doff e r : dirent e -> le_get 8 (skipn 8 (e ++ r)) = d_off e.
Proof.
  intros (_ & H & _). unfold zlen in H. rewrite !le_get_nth by (rewrite app_length; lia).
  cbn [le_get]. rewrite !app_nth1 by lia. unfold d_off. lia.
Qed.
Lemma fld_skip l pos k n : 0 <= pos -> 0 <= k ->
  fld l (pos + k) n = le_get n (skipn (Z.to_nat k) (skipn (Z.to_nat pos) l)).
Proof. intros. unfold fld. rewrite <- skipn_add. do 2 f_equal. lia. Qed.

Lemma firstn_self {A} n (l : list A) : firstn n l = firstn (length (firstn n l)) l.
Proof.
  rewrite firstn_length. destruct (Nat.min_spec n (length l)) as [(H & ->)|(H & ->)]; auto.
  rewrite firstn_all. apply firstn_all2. exact H.
Qed.

Section stream.
Variable es : list (list Z).
Variable many : nat -> nat.
Hypothesis HE : Forall dirent es.
Hypothesis HM : forall k, (k < length es)%nat -> (1 <= many k)%nat.
Hypothesis HS : forall k, zlen (concat (getdents es many k)) <= DBUF.
Hypothesis HD : NoDup (0 :: map d_off es).

Lemma cookie_place k : (k <= length es)%nat -> cookie es k = place es k.
Proof.
  destruct k as [|j]; intros Hj; cbn [cookie place]; auto.
  unfold e_doff, fld. change (Z.to_nat 8) with 8%nat.
  rewrite <- (app_nil_r (nth j es [])) at 1. apply entry_doff.
  rewrite Forall_forall in HE. apply HE. apply nth_In. lia.
Qed.
Lemma place_nth k : (k <= length es)%nat -> nth_error (0 :: map d_off es) k = Some (place es k).
Proof.
  destruct k as [|j]; intros Hj; cbn [nth_error place]; auto.
  rewrite nth_error_map, (nth_error_nth' es []) by lia. reflexivity.
Qed.
Lemma place_inj j k : (j <= length es)%nat -> (k <= length es)%nat ->
  place es j = place es k -> j = k.
Proof.
  intros Hj Hk E. rewrite NoDup_nth_error in HD. apply HD.
  - cbn [length]. rewrite map_length. lia.
  - rewrite !place_nth by auto. congruence.
Qed.
Lemma seek_place j cur : (j <= length es)%nat -> forall n, (j <= n <= length es)%nat ->
  seek_to es n (place es j) cur = j.
Proof.
  intros Hj. induction n as [|n IH]; intros Hn.
  - assert (j = 0%nat) by lia. subst. cbn [seek_to]. rewrite Z.eqb_refl. reflexivity.
  - cbn [seek_to]. rewrite cookie_place by lia.
    destruct (Z.eqb_spec (place es (S n)) (place es j)) as [E|E].
    + apply place_inj in E; lia.
    + apply IH. destruct (Nat.eq_dec j (S n)); [subst; congruence|lia].
Qed.

(* the stream is at index k; [known]: tell has been set *)
Definition stream_at (known : bool) (d : dir) (k : nat) : Prop :=
  (k <= length es)%nat /\ (known = true -> d_tell d = place es k) /\
  exists pend junk, pend = firstn (length pend) (skipn k es) /\
    kpos d = (k + length pend)%nat /\ 0 <= d_pos d /\ d_end d <= DBUF /\
    d_end d = d_pos d + zlen (concat pend) /\
    (pend = [] \/ skipn (Z.to_nat (d_pos d)) (d_buf d) = concat pend ++ junk).

Definition answer (x : dres) : got :=
  match x with
  | REntry (Some e) => Entry e | REntry None => End | RPos t => At t | RNone => Nothing
  end.
Definition call (a : act) : dop :=
  match a with Read => ORead | Rewind => ORewind | Tell => OTell | Seek j => OSeek (place es j) end.

Lemma take_ok known d k e rest junk : (k < length es)%nat ->
  skipn k es = e :: skipn (S k) es -> rest = firstn (length rest) (skipn (S k) es) ->
  kpos d = (S k + length rest)%nat -> 0 <= d_pos d -> d_end d <= DBUF ->
  d_end d = d_pos d + zlen (concat (e :: rest)) ->
  skipn (Z.to_nat (d_pos d)) (d_buf d) = concat (e :: rest) ++ junk ->
  exists d', take_entry d = Ok (d', Some e) /\ stream_at known d' (S k).
Proof.
  intros Hk Hs Hr Hkp Hp He He2 Hb. unfold take_entry.
  assert (De : dirent e).
  { rewrite Forall_forall in HE. apply HE. rewrite <- (firstn_skipn k es), Hs. apply in_or_app. right. now left. }
  cbn [concat] in *. rewrite <- app_assoc in Hb. rewrite zlen_app in He2.
  pose proof (zlen_nonneg (concat rest)).
  rewrite !fld_skip by lia. rewrite Hb. change (Z.to_nat 16) with 16%nat.
  change (Z.to_nat 8) with 8%nat. rewrite entry_len, entry_doff by auto.
  unfold DBUF in He. pose proof (zlen_nonneg e).
  rewrite iop_ok by (unfold INT_MIN, INT_MAX; lia). rewrite bind_Ok.
  eexists. split.
  - f_equal. f_equal. f_equal. unfold read_at. rewrite Hb. unfold zlen. rewrite Nat2Z.id.
    rewrite firstn_app, Nat.sub_diag, firstn_all. cbn [firstn]. apply app_nil_r.
  - split; [lia|]. split.
    + intros _. cbn [d_tell place]. f_equal.
      assert (E : nth_error es k = Some e).
      { rewrite <- (firstn_skipn k es), Hs. rewrite nth_error_app2; rewrite firstn_length; [|lia].
        replace (k - Nat.min k (length es))%nat with O by lia. reflexivity. }
      symmetry. apply nth_error_nth. exact E.
    + exists rest, junk. cbn [kpos d_pos d_end d_buf]. split; [auto|]. split; [lia|]. split; [lia|].
      split; [unfold DBUF; lia|]. split; [lia|]. right.
      rewrite Z2Nat.inj_add by lia. rewrite skipn_add, Hb. unfold zlen. rewrite Nat2Z.id.
      rewrite skipn_app, skipn_all, Nat.sub_diag. reflexivity.
Qed.

Lemma skipn_at k : (k < length es)%nat ->
  exists e, nth_error es k = Some e /\ skipn k es = e :: skipn (S k) es.
Proof.
  intros Hk. destruct (nth_error es k) as [e|] eqn:E.
  - exists e. split; auto. rewrite skipn_nth, E. reflexivity.
  - apply nth_error_None in E. lia.
Qed.

Lemma readdir_ok known d k : stream_at known d k ->
  match nth_error es k with
  | Some e => exists d', readdir es many d = Ok (d', Some e) /\ stream_at true d' (S k)
  | None => readdir es many d = Ok (d, None)
  end.
Proof.
  intros (Hk & Ht & pend & junk & P1 & P2 & P3 & P4 & P5 & P6). unfold readdir.
  destruct pend as [|e rest].
  - change (zlen (concat [])) with 0 in P5. cbn [length] in P2.
    destruct (Z.leb_spec (d_end d) (d_pos d)); [|lia].
    replace (kpos d) with k by lia.
    destruct (nth_error es k) as [e|] eqn:En.
    + assert (Hk2 : (k < length es)%nat) by (apply nth_error_Some; congruence).
      destruct (skipn_at k Hk2) as (e' & E1 & E2). rewrite En in E1. injection E1 as <-.
      assert (G : getdents es many k = e :: firstn (pred (many k)) (skipn (S k) es)).
      { unfold getdents. rewrite E2. pose proof (HM k Hk2). destruct (many k); [lia|]. reflexivity. }
      pose proof (HS k) as HSk. rewrite G in *.
      set (rest := firstn (pred (many k)) (skipn (S k) es)) in *.
      assert (De : dirent e).
      { rewrite Forall_forall in HE. apply HE. eapply nth_error_In. eauto. }
      assert (19 <= zlen (concat (e :: rest))).
      { cbn [concat]. rewrite zlen_app. destruct De as (_ & ? & _).
        pose proof (zlen_nonneg (concat rest)). lia. }
      destruct (Z.leb_spec (zlen (concat (e :: rest))) 0); [lia|].
      apply (take_ok true _ k e rest (skipn (0 + length (concat (e :: rest))) (d_buf d)));
        cbn [d_pos d_end d_buf kpos length]; auto; try lia.
      * apply firstn_self.
    + apply nth_error_None in En. assert (k = length es) by lia. subst k.
      assert (G : getdents es many (length es) = []).
      { unfold getdents. rewrite skipn_all. apply firstn_nil. }
      rewrite G. reflexivity.
  - destruct (nth_error es k) as [e'|] eqn:En.
    + assert (Hk2 : (k < length es)%nat) by (apply nth_error_Some; congruence).
      destruct (skipn_at k Hk2) as (e2 & E1 & E2). rewrite En in E1. injection E1 as <-.
      cbn [length firstn] in P1, P2. rewrite E2 in P1. injection P1 as Q1 Q2. subst e'.
      assert (De : dirent e).
      { rewrite Forall_forall in HE. apply HE. eapply nth_error_In. eauto. }
      assert (19 <= zlen (concat (e :: rest))).
      { cbn [concat]. rewrite zlen_app. destruct De as (_ & ? & _).
        pose proof (zlen_nonneg (concat rest)). lia. }
      destruct (Z.leb_spec (d_end d) (d_pos d)); [lia|].
      destruct P6 as [P6|P6]; [discriminate|].
      apply (take_ok true d k e rest junk); auto. lia.
    + apply nth_error_None in En. rewrite skipn_all2 in P1 by lia.
      rewrite firstn_nil in P1. discriminate.
Qed.

Lemma restart_ok b d off j : (j <= length es)%nat -> off = place es j ->
  stream_at b (mkdir off 0 0 (d_buf d) (seek_to es (length es) off (kpos d))) j.
Proof.
  intros Hj ->. split; [auto|]. split; [reflexivity|].
  exists [], []. cbn [kpos d_pos d_end length concat]. rewrite seek_place by lia.
  change (zlen (@nil Z)) with 0. unfold DBUF.
  split; [reflexivity|]. split; [lia|]. split; [lia|]. split; [lia|]. split; [lia|]. auto.
Qed.

Lemma dir_run_ok os : forall known d k, stream_at known d k -> seeks_inside es os ->
  known = true \/ ~ In Tell os \/ (exists r, os = Rewind :: r) ->
  exists rs, dir_run es many d (map call os) = Ok rs /\ map answer rs = machine_run es k os.
Proof.
  induction os as [|a os IH]; intros known d k Hst Hin Hkn; cbn [map dir_run machine_run].
  - exists []. auto.
  - assert (Hin' : seeks_inside es os) by (intros j Hj; apply Hin; now right).
    assert (Hno : known = true \/ a = Rewind \/ (a <> Tell /\ ~ In Tell os)).
    { destruct Hkn as [Hkn|[Hkn|(r & Hkn)]]; auto.
      - right. right. split; intros HH; apply Hkn; [left|right]; auto.
      - right. left. congruence. }
    destruct a; cbn [call dir_step machine fst snd].
    + pose proof (readdir_ok known d k Hst) as R. destruct (nth_error es k) as [e|].
      * destruct R as (d' & -> & S'). rewrite !bind_Ok.
        destruct (IH true d' (S k) S' Hin') as (rs & -> & Q); [auto|].
        rewrite bind_Ok. eexists. split; [reflexivity|]. cbn [map answer fst]. rewrite Q. reflexivity.
      * rewrite R, !bind_Ok. destruct (IH known d k Hst Hin') as (rs & -> & Q).
        { destruct Hno as [|[|(_ & ?)]]; auto. discriminate. }
        rewrite bind_Ok. eexists. split; [reflexivity|]. cbn [map answer fst]. rewrite Q. reflexivity.
    + rewrite bind_Ok.
      destruct (IH true (rewinddir es d) O (restart_ok true d 0 O ltac:(lia) eq_refl) Hin')
        as (rs & -> & Q); [auto|].
      rewrite bind_Ok. eexists. split; [reflexivity|]. cbn [map answer]. rewrite Q. reflexivity.
    + rewrite bind_Ok. destruct Hno as [->|[|(? & _)]]; try congruence.
      destruct (IH true d k Hst Hin') as (rs & -> & Q); [auto|].
      rewrite bind_Ok. eexists. split; [reflexivity|]. cbn [map answer]. rewrite Q.
      destruct Hst as (_ & T & _). unfold telldir. rewrite T by auto. reflexivity.
    + rewrite bind_Ok.
      assert (Hj : (j <= length es)%nat) by (apply Hin; now left).
      destruct (IH true (seekdir es d (place es j)) j (restart_ok true d _ j Hj eq_refl) Hin')
        as (rs & -> & Q); [auto|].
      rewrite bind_Ok. eexists. split; [reflexivity|]. cbn [map answer]. rewrite Q. reflexivity.
Qed.

Lemma opendirp_ok tell buf : stream_at (tell =? 0) (opendirp tell buf) 0.
Proof.
  split; [lia|]. split; [intros H; apply Z.eqb_eq in H; auto|].
  exists [], []. cbn [opendirp kpos d_pos d_end length concat].
  change (zlen (@nil Z)) with 0. unfold DBUF.
  split; [reflexivity|]. split; [lia|]. split; [lia|]. split; [lia|]. split; [lia|]. auto.
Qed.
End stream.
