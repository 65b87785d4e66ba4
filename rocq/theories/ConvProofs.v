(* Proofs for the output conversions. *)
From Verif Require Import Base BaseLemmas ConvModel ConvSpec.
Ltac Zify.zify_post_hook ::= Z.div_mod_to_equations.

(* ---- writing a list of bytes ---- *)
Fixpoint wr (m : mem) (a : Z) (l : list Z) : mem :=
  match l with [] => m | b :: r => wr (upd m a b) (a + 1) r end.
Lemma wr_app l1 : forall m a l2, wr m a (l1 ++ l2) = wr (wr m a l1) (a + zlen l1) l2.
Proof.
  induction l1 as [|b l1 IH]; intros m a l2; cbn [wr app]; zl; [now rewrite Z.add_0_r|].
  rewrite IH. f_equal. lia.
Qed.
Lemma wr_outside l : forall m a, same_outside m (wr m a l) a (zlen l).
Proof.
  induction l as [|b l IH]; intros m a x Hx; cbn [wr]; auto. revert Hx. zl. intro Hx. nneg l.
  rewrite IH by lia. apply upd_other. lia.
Qed.
Lemma wr_bytes l : forall m a, bytes_at (wr m a l) a l.
Proof.
  induction l as [|b l IH]; intros m a; cbn [wr bytes_at]; auto. split; [|apply IH].
  rewrite wr_outside by lia. apply upd_same.
Qed.
Lemma wr_room l : forall m a p n, room m p n -> room (wr m a l) p n.
Proof. induction l as [|b l IH]; intros; cbn [wr]; auto. apply IH. now apply room_upd. Qed.
Lemma put_ok m buf p c n : room m buf n -> 0 <= p < n -> 0 <= c < 256 -> put m buf p c = Ok (wr m (buf + p) [c]).
Proof.
  intros R H Hc. unfold put. rewrite (store_room m buf n) by (auto; lia). cbn [wr]. unfold ubyte.
  rewrite Z.mod_small by lia. reflexivity.
Qed.
Lemma wrote_wr m buf l : Forall (fun b => 1 <= b <= 255) l -> wrote m (wr m buf (l ++ [0])) buf l.
Proof.
  intro H. split.
  - apply str_at_intro; auto.
    + pose proof (wr_bytes (l ++ [0]) m buf) as K. apply bytes_at_app in K. tauto.
    + pose proof (wr_bytes (l ++ [0]) m buf) as K. apply bytes_at_app in K. destruct K as [_ K]. cbn [bytes_at] in K. tauto.
  - pose proof (wr_outside (l ++ [0]) m buf) as K. revert K. zl. replace (zlen l + (0 + 1)) with (zlen l + 1) by lia. auto.
Qed.

(* ---- digit lists ---- *)
Fixpoint digs (base : Z) (k : nat) (v : Z) : list Z :=
  match k with O => [] | S k' => (v / base ^ Z.of_nat k') mod base :: digs base k' v end.
Lemma digs_mod base k : forall v, 0 < base -> digs base k (v mod base ^ Z.of_nat k) = digs base k v.
Proof.
  assert (G : forall k v n, 0 < base -> (k <= n)%nat -> digs base k (v mod base ^ Z.of_nat n) = digs base k v).
  { clear k. induction k as [|k IH]; intros v n Hb Hn; cbn [digs]; auto. f_equal; [|apply IH; auto; lia].
    pose proof (Z.pow_pos_nonneg base (Z.of_nat k) Hb ltac:(lia)).
    replace (Z.of_nat n) with (Z.of_nat k + 1 + (Z.of_nat n - Z.of_nat k - 1)) by lia.
    rewrite Z.pow_add_r by lia. rewrite Z.pow_add_r by lia. rewrite Z.pow_1_r.
    set (B := base ^ Z.of_nat k) in *. set (C := base ^ _).
    assert (0 < C) by (apply Z.pow_pos_nonneg; lia).
    rewrite <- Z.mul_assoc. rewrite Z.rem_mul_r by nia.
    rewrite (Z.mul_comm B), Z.div_add by lia. rewrite (Z.div_small (v mod B)) by (apply Z.mod_pos_bound; lia).
    rewrite Z.add_0_l. rewrite Z.rem_mul_r by lia. rewrite (Z.mul_comm base), Z.mod_add by lia.
    rewrite Z.mod_mod by lia. reflexivity. }
  intros. apply G; auto.
Qed.
Lemma digs_range base k v : 0 < base -> Forall (fun d => 0 <= d < base) (digs base k v).
Proof. intro. induction k; cbn [digs]; constructor; auto. apply Z.mod_pos_bound. lia. Qed.
Lemma digs_length base k v : length (digs base k v) = k.
Proof. induction k; cbn [digs length]; auto. Qed.

Definition dvalue (base : Z) (l : list Z) : Z := fold_left (fun v d => base * v + d) l 0.
Lemma dvalue_acc base l : forall a, fold_left (fun v d => base * v + d) l a = a * base ^ zlen l + dvalue base l.
Proof.
  unfold dvalue. induction l as [|d l IH]; intro a; cbn [fold_left]; zl.
  - rewrite Z.pow_0_r. lia.
  - rewrite IH. rewrite (IH (base * 0 + d)). nneg l. rewrite Z.pow_add_r by lia. lia.
Qed.
Lemma dvalue_cons base d l : dvalue base (d :: l) = d * base ^ zlen l + dvalue base l.
Proof. unfold dvalue at 1. cbn [fold_left]. rewrite dvalue_acc. lia. Qed.
Lemma dvalue_digs base k v : 0 < base -> dvalue base (digs base k v) = v mod base ^ Z.of_nat k.
Proof.
  intro Hb. induction k as [|k IH]; cbn [digs].
  - change (Z.of_nat 0) with 0. rewrite Z.pow_0_r, Z.mod_1_r. reflexivity.
  - rewrite dvalue_cons, IH. unfold zlen. rewrite digs_length.
    replace (Z.of_nat (S k)) with (Z.of_nat k + 1) by lia. rewrite Z.pow_add_r, Z.pow_1_r by lia.
    pose proof (Z.pow_pos_nonneg base (Z.of_nat k) Hb ltac:(lia)). rewrite Z.rem_mul_r by lia. lia.
Qed.

(* ---- the machine that drops leading zeros ---- *)
Fixpoint lz (l : list Z) : nat :=
  match l with d :: r => if d =? 0 then S (lz r) else O | [] => O end.
(* j leading zeros are dropped, further ones come out as pad *)
Fixpoint emit (ch : Z -> Z) (j : nat) (pad : Z) (l : list Z) : list Z :=
  match l with
  | [] => []
  | d :: r => if d =? 0 then match j with O => pad :: emit ch O pad r | S j' => emit ch j' pad r end
              else map ch (d :: r)
  end.
Lemma emit_eq ch pad l : forall j, emit ch j pad l = repeat pad (lz l - j) ++ map ch (skipn (lz l) l).
Proof.
  induction l as [|d l IH]; intros j; cbn [emit lz]; [rewrite app_nil_r; reflexivity|].
  destruct (Z.eqb_spec d 0).
  - destruct j; cbn [skipn]; rewrite IH; [now rewrite Nat.sub_0_r|reflexivity].
  - reflexivity.
Qed.
Lemma lz_le l : (lz l <= length l)%nat.
Proof. induction l as [|d l IH]; cbn [lz length]; [lia|]. destruct (d =? 0); lia. Qed.
Lemma skip_head l : lz l = length l \/ hd 0 (skipn (lz l) l) <> 0.
Proof.
  induction l as [|d l IH]; cbn [lz length]; auto. destruct (Z.eqb_spec d 0); cbn [skipn hd]; [|auto].
  destruct IH; [left; lia|right; auto].
Qed.
Lemma dvalue_skip base l : dvalue base (skipn (lz l) l) = dvalue base l.
Proof.
  induction l as [|d l IH]; cbn [lz]; auto. destruct (Z.eqb_spec d 0); cbn [skipn]; auto.
  rewrite IH, dvalue_cons. subst. lia.
Qed.
Lemma lz_all base l : dvalue base l = 0 -> 0 < base -> Forall (fun d => 0 <= d < base) l -> lz l = length l.
Proof.
  intros H Hb HF. induction l as [|d l IH]; auto. cbn [lz length]. apply Forall_cons_iff in HF as [Hd HF].
  rewrite dvalue_cons in H. nneg l. pose proof (Z.pow_pos_nonneg base (zlen l) Hb H0).
  assert (Hn : 0 <= dvalue base l).
  { clear - HF Hb. induction l as [|e l IH]; [reflexivity|]. apply Forall_cons_iff in HF as [He HF].
    rewrite dvalue_cons. nneg l. pose proof (Z.pow_pos_nonneg base (zlen l) Hb H). specialize (IH HF). nia. }
  assert (d = 0) by nia. subst. rewrite Z.eqb_refl. rewrite IH; auto; lia.
Qed.
Lemma lz_all_iff base k v : 0 < base -> 0 <= v < base ^ Z.of_nat k -> (lz (digs base k v) = k <-> v = 0).
Proof.
  intros Hb Hv. assert (E : dvalue base (digs base k v) = v) by (rewrite dvalue_digs by auto; now apply Z.mod_small).
  split; intro H.
  - rewrite <- E, <- dvalue_skip, H. rewrite <- (digs_length base k v) at 1. now rewrite skipn_all.
  - subst. rewrite <- (digs_length base k 0) at 2. eapply lz_all; eauto. now apply digs_range.
Qed.

(* from digits to characters *)
Definition good_ch (ch : Z -> Z) (base : Z) : Prop :=
  forall d, 0 <= d < base -> digval (ch d) = d /\ 48 <= ch d <= 122.
Lemma value_map ch base l : good_ch ch base -> Forall (fun d => 0 <= d < base) l ->
  value base (map ch l) = dvalue base l /\ digits base (map ch l).
Proof.
  intros Hc HF. unfold value, dvalue. generalize 0 as a.
  induction HF as [|d l Hd HF IH]; intro a; cbn [map fold_left]; [split; auto; constructor|].
  destruct (Hc d Hd) as [E _]. rewrite E. destruct (IH (base * a + d)). split; auto. constructor; auto. lia.
Qed.
Lemma Forall_skipn_digs base n k v : 0 < base -> Forall (fun d => 0 <= d < base) (skipn n (digs base k v)).
Proof. intro. apply Forall_skipn. now apply digs_range. Qed.
Lemma zero_char ch base : good_ch ch base -> 0 < base -> ch 0 = 48.
Proof.
  intros Hc Hb. destruct (Hc 0 ltac:(lia)) as [E R]. unfold digval in E.
  destruct ((48 <=? ch 0) && (ch 0 <=? 57)) eqn:A; [lia|].
  destruct ((65 <=? ch 0) && (ch 0 <=? 90)) eqn:B; [lia|].
  destruct ((97 <=? ch 0) && (ch 0 <=? 122)) eqn:C; lia.
Qed.

(* significant digits as characters *)
Lemma sig_numeral ch base k v : good_ch ch base -> 1 < base -> 0 < v < base ^ Z.of_nat k ->
  numeral base v (map ch (skipn (lz (digs base k v)) (digs base k v))).
Proof.
  intros Hc Hb Hv. set (l := digs base k v).
  assert (E : dvalue base l = v) by (unfold l; rewrite dvalue_digs by lia; apply Z.mod_small; lia).
  destruct (value_map ch base (skipn (lz l) l) Hc) as [V D]; [apply Forall_skipn_digs; lia|].
  split; [exact D|]. split; [rewrite V, dvalue_skip; exact E|].
  destruct (skip_head l) as [A|A].
  - exfalso. unfold l in A. rewrite digs_length in A. apply (lz_all_iff base k v) in A; lia.
  - remember (skipn (lz l) l) as r eqn:Er. destruct r as [|d r]; [exfalso; apply A; reflexivity|]. split; [discriminate|].
    cbn [map hd]. intro H. exfalso. cbn [hd] in A.
    assert (Hd : 0 <= d < base).
    { assert (F : Forall (fun d => 0 <= d < base) (d :: r)) by (rewrite Er; apply Forall_skipn_digs; lia).
      apply Forall_cons_iff in F. tauto. }
    destruct (Hc d Hd) as [E1 _]. rewrite H in E1. change (digval 48) with 0 in E1. congruence.
Qed.
Lemma value_zeros base n l : value base (repeat 48 n ++ l) = value base l.
Proof. unfold value. induction n; cbn [repeat app fold_left]; auto. change (digval 48) with 0. rewrite Z.mul_0_r. exact IHn. Qed.
Lemma value_nil base : value base [] = 0. Proof. reflexivity. Qed.

Lemma skipn_zlen {A} n (l : list A) : (n <= length l)%nat -> zlen (skipn n l) = zlen l - Z.of_nat n.
Proof. intro. unfold zlen. rewrite skipn_length. lia. Qed.

(* zero padding: at least w digits of the k possible ones, w >= 1 *)
Lemma emit_padded ch base k v w : good_ch ch base -> 1 < base -> 0 <= v < base ^ Z.of_nat k -> (1 <= w <= k)%nat ->
  padded_numeral base v (Z.of_nat w) (emit ch (k - w) (ch 0) (digs base k v)).
Proof.
  intros Hc Hb Hv Hw. rewrite emit_eq, (zero_char ch base) by (auto; lia).
  pose proof (lz_le (digs base k v)) as Hl. rewrite digs_length in Hl.
  destruct (value_map ch base (skipn (lz (digs base k v)) (digs base k v)) Hc) as [V D]; [apply Forall_skipn_digs; lia|].
  split; [|split; [|split]].
  - unfold digits. apply Forall_app. split; [|exact D]. apply Forall_forall. intros x Hx. apply repeat_spec in Hx. subst. cbn. lia.
  - rewrite value_zeros, V, dvalue_skip, dvalue_digs by lia. apply Z.mod_small. lia.
  - zl. rewrite zlen_repeat, zlen_map, skipn_zlen by (rewrite digs_length; lia). unfold zlen. rewrite digs_length. lia.
  - destruct (lz (digs base k v) - (k - w))%nat as [|n] eqn:En.
    + cbn [repeat app]. intro H. destruct (Z.eq_dec v 0) as [->|Hn].
      * assert (Hall : lz (digs base k 0) = k) by (apply lz_all_iff; auto; lia). lia.
      * destruct (sig_numeral ch base k v Hc Hb ltac:(lia)) as (_ & V1 & _ & N). rewrite (N H) in V1.
        cbn in V1. lia.
    + intros _. zl. rewrite zlen_repeat, zlen_map, skipn_zlen by (rewrite digs_length; lia). unfold zlen. rewrite digs_length. lia.
Qed.

Lemma good_ch_dec : good_ch (fun d => 48 + d) 10.
Proof. intros d Hd. unfold digval. destruct ((48 <=? 48 + d) && (48 + d <=? 57)) eqn:E; lia. Qed.
