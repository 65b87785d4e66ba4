(* Lemmas about Base. *)
From Verif Require Import Base.
Ltac Zify.zify_post_hook ::= Z.div_mod_to_equations.

Lemma zlen_nil {A} : zlen (@nil A) = 0. Proof. reflexivity. Qed.
Lemma zlen_cons {A} (a : A) l : zlen (a :: l) = zlen l + 1.
Proof. unfold zlen. cbn [length]. lia. Qed.
Lemma zlen_app {A} (a b : list A) : zlen (a ++ b) = zlen a + zlen b.
Proof. unfold zlen. rewrite app_length. lia. Qed.
Lemma zlen_nonneg {A} (l : list A) : 0 <= zlen l.
Proof. unfold zlen. lia. Qed.
Lemma zlen_nat {A} (l : list A) : Z.to_nat (zlen l) = length l.
Proof. unfold zlen. lia. Qed.
Lemma zlen_map {A B} (f : A -> B) l : zlen (map f l) = zlen l.
Proof. unfold zlen. now rewrite map_length. Qed.
Lemma zlen_rev {A} (l : list A) : zlen (rev l) = zlen l.
Proof. unfold zlen. now rewrite rev_length. Qed.
Lemma zlen_repeat {A} (a : A) n : zlen (repeat a n) = Z.of_nat n.
Proof. unfold zlen. now rewrite repeat_length. Qed.
Lemma zlen_firstn {A} n (l : list A) : zlen (firstn n l) = Z.min (Z.of_nat n) (zlen l).
Proof. unfold zlen. rewrite firstn_length. lia. Qed.

Lemma bind_Ok {A B} (a : A) (f : A -> res B) : bind (Ok a) f = f a.
Proof. reflexivity. Qed.

Lemma load_some m a b : m a = Some b -> load m a = Ok b.
Proof. unfold load. now intros ->. Qed.
Lemma store_some m a b v : m a = Some b -> store m a v = Ok (upd m a v).
Proof. unfold store. now intros ->. Qed.
Lemma store_room m p n a v : room m p n -> p <= a < p + n -> store m a v = Ok (upd m a v).
Proof. intros H Ha. unfold store. specialize (H a Ha). destruct (m a); congruence. Qed.
Lemma upd_same m a v : upd m a v a = Some v.
Proof. unfold upd. now rewrite Z.eqb_refl. Qed.
Lemma upd_other m a v x : x <> a -> upd m a v x = m x.
Proof. unfold upd. intro H. destruct (Z.eqb_spec x a); congruence. Qed.

Lemma iop_ok z : INT_MIN <= z <= INT_MAX -> iop z = Ok z.
Proof. unfold iop, int_ok. intro H. 
  destruct (Z.leb_spec INT_MIN z); destruct (Z.leb_spec z INT_MAX); cbn; auto; lia. Qed.
Lemma lop_ok z : LONG_MIN <= z <= LONG_MAX -> lop z = Ok z.
Proof. unfold lop, long_ok. intro H. 
  destruct (Z.leb_spec LONG_MIN z); destruct (Z.leb_spec z LONG_MAX); cbn; auto; lia. Qed.

Lemma u32_small z : 0 <= z < 4294967296 -> u32 z = z.
Proof. unfold u32. apply Z.mod_small. Qed.
Lemma u64_small z : 0 <= z < 18446744073709551616 -> u64 z = z.
Proof. unfold u64. apply Z.mod_small. Qed.
Lemma u32_range z : 0 <= u32 z < 4294967296.
Proof. unfold u32. apply Z.mod_pos_bound. lia. Qed.
Lemma u64_range z : 0 <= u64 z < 18446744073709551616.
Proof. unfold u64. apply Z.mod_pos_bound. lia. Qed.
Lemma s32_small z : INT_MIN <= z <= INT_MAX -> s32 z = z.
Proof. unfold s32, INT_MIN, INT_MAX. intro. rewrite Z.mod_small; lia. Qed.
Lemma s64_small z : LONG_MIN <= z <= LONG_MAX -> s64 z = z.
Proof. unfold s64, LONG_MIN, LONG_MAX. intro. rewrite Z.mod_small; lia. Qed.
Lemma s32_range z : INT_MIN <= s32 z <= INT_MAX.
Proof. unfold s32, INT_MIN, INT_MAX. 
  pose proof (Z.mod_pos_bound (z + 2147483648) 4294967296). lia. Qed.
Lemma s64_range z : LONG_MIN <= s64 z <= LONG_MAX.
Proof. unfold s64, LONG_MIN, LONG_MAX. 
  pose proof (Z.mod_pos_bound (z + 9223372036854775808) 18446744073709551616). lia. Qed.
Lemma s32_u32 z : u32 (s32 z) = u32 z.
Proof. unfold u32, s32. rewrite Zminus_mod_idemp_l. f_equal. lia. Qed.

(* schar is injective on bytes *)
Lemma schar_eqb a b : 0 <= a < 256 -> 0 <= b < 256 -> (schar a =? schar b) = (a =? b).
Proof. unfold schar. intros. destruct (Z.ltb_spec a 128), (Z.ltb_spec b 128); lia. Qed.
Lemma schar_low a : a < 128 -> schar a = a.
Proof. unfold schar. destruct (Z.ltb_spec a 128); lia. Qed.
Lemma schar_range b : 0 <= b < 256 -> -128 <= schar b <= 127.
Proof. unfold schar. destruct (Z.ltb_spec b 128); lia. Qed.

(* ---- bytes_at / str_at ---- *)
Lemma str_at_bytes m p s : str_at m p s -> bytes_at m p s.
Proof. revert p. induction s; cbn; intuition. Qed.
Lemma str_at_range m p s : str_at m p s -> Forall (fun b => 1 <= b <= 255) s.
Proof. revert p. induction s; cbn; intros p H; constructor; [lia|]. apply (IHs (p+1)), H. Qed.
Lemma str_at_end m p s : str_at m p s -> m (p + zlen s) = Some 0.
Proof. revert p. induction s; cbn [str_at]; intros p H.
  - rewrite zlen_nil, Z.add_0_r. auto.
  - rewrite zlen_cons. destruct H as (_ & _ & H). apply IHs in H.
    replace (p + (zlen s + 1)) with (p + 1 + zlen s) by lia. auto. Qed.
Lemma str_at_intro m p s : bytes_at m p s -> Forall (fun b => 1 <= b <= 255) s ->
  m (p + zlen s) = Some 0 -> str_at m p s.
Proof. revert p. induction s; intros p Hb Hf He.
  - rewrite zlen_nil, Z.add_0_r in He. auto.
  - cbn [bytes_at str_at] in *. apply Forall_cons_iff in Hf as [Hf1 Hf2]. destruct Hb as [Hb1 Hb2]. repeat split; auto; try lia.
    apply IHs; auto. rewrite zlen_cons in He. now replace (p + 1 + zlen s) with (p + (zlen s + 1)) by lia.
Qed.
Lemma str_at_iff m p s : str_at m p s <->
  bytes_at m p s /\ Forall (fun b => 1 <= b <= 255) s /\ m (p + zlen s) = Some 0.
Proof. split.
  - intro H. split; [|split]; [eapply str_at_bytes|eapply str_at_range|eapply str_at_end]; eauto.
  - intros (H1 & H2 & H3). now apply str_at_intro. Qed.

Lemma bytes_at_nth m p l i b : bytes_at m p l -> nth_error l i = Some b ->
  m (p + Z.of_nat i) = Some b.
Proof. revert p i. induction l; intros p i Hb Hn; destruct i; cbn in *; try discriminate.
  - inversion Hn; subst. rewrite Z.add_0_r. tauto.
  - destruct Hb as [_ Hb]. specialize (IHl _ _ Hb Hn).
    now replace (p + Z.of_nat (S i)) with (p + 1 + Z.of_nat i) by lia. Qed.
Lemma bytes_at_intro m p l :
  (forall i b, nth_error l i = Some b -> m (p + Z.of_nat i) = Some b) -> bytes_at m p l.
Proof. revert p. induction l; intros p H; cbn; auto. split.
  - specialize (H O a eq_refl). now rewrite Z.add_0_r in H.
  - apply IHl. intros i b Hn. specialize (H (S i) b Hn).
    now replace (p + 1 + Z.of_nat i) with (p + Z.of_nat (S i)) by lia. Qed.
Lemma bytes_at_app m p a b :
  bytes_at m p (a ++ b) <-> bytes_at m p a /\ bytes_at m (p + zlen a) b.
Proof. revert p. induction a; intro p; cbn [app bytes_at].
  - rewrite zlen_nil, Z.add_0_r. tauto.
  - rewrite IHa, zlen_cons. replace (p + (zlen a0 + 1)) with (p + 1 + zlen a0) by lia. tauto. Qed.
Lemma str_at_app m p a b :
  Forall (fun b => 1 <= b <= 255) a ->
  (str_at m p (a ++ b) <-> bytes_at m p a /\ str_at m (p + zlen a) b).
Proof. revert p. induction a; intros p Hf; cbn [app bytes_at str_at].
  - rewrite zlen_nil, Z.add_0_r. tauto.
  - inversion Hf; subst. rewrite IHa, zlen_cons by auto.
    replace (p + (zlen a0 + 1)) with (p + 1 + zlen a0) by lia. intuition lia. Qed.

Lemma bytes_at_ext m m' p l : bytes_at m p l ->
  (forall x, p <= x < p + zlen l -> m' x = m x) -> bytes_at m' p l.
Proof. revert p. induction l; intros p Hb He; cbn [bytes_at] in *; auto.
  rewrite zlen_cons in He. pose proof (zlen_nonneg l). destruct Hb. split.
  - rewrite He by lia. auto.
  - apply IHl; auto. intros. apply He. lia. Qed.
Lemma str_at_ext m m' p l : str_at m p l ->
  (forall x, p <= x <= p + zlen l -> m' x = m x) -> str_at m' p l.
Proof. rewrite !str_at_iff. intros (H1 & H2 & H3) He. pose proof (zlen_nonneg l).
  repeat split; auto.
  - apply bytes_at_ext with m; auto. intros; apply He; lia.
  - rewrite He; auto; lia. Qed.
Lemma bytes_at_upd m p l a v : bytes_at m p l -> ~ (p <= a < p + zlen l) ->
  bytes_at (upd m a v) p l.
Proof. intros H1 H2. apply bytes_at_ext with m; auto. intros. apply upd_other. lia. Qed.
Lemma str_at_upd m p l a v : str_at m p l -> ~ (p <= a <= p + zlen l) ->
  str_at (upd m a v) p l.
Proof. intros H1 H2. apply str_at_ext with m; auto. intros. apply upd_other. lia. Qed.

Lemma room_upd m p n a v : room m p n -> room (upd m a v) p n.
Proof. intros H x Hx. unfold upd. destruct (x =? a); [congruence|apply H; auto]. Qed.
Lemma room_sub m p n q k : room m p n -> p <= q -> q + k <= p + n -> room m q k.
Proof. intros H ? ? x ?. apply H. lia. Qed.
Lemma same_outside_refl m p n : same_outside m m p n.
Proof. intros x _. auto. Qed.
Lemma same_outside_upd m p n a v : p <= a < p + n -> same_outside m (upd m a v) p n.
Proof. intros H x Hx. apply upd_other. lia. Qed.
Lemma same_outside_trans m1 m2 m3 p n :
  same_outside m1 m2 p n -> same_outside m2 m3 p n -> same_outside m1 m3 p n.
Proof. intros H1 H2 x Hx. rewrite H2, H1; auto. Qed.
Lemma same_outside_weaken m m' p n q k : same_outside m m' q k -> p <= q -> q + k <= p + n ->
  same_outside m m' p n.
Proof. intros H ? ? x Hx. apply H. lia. Qed.
Lemma room_same m m' p n q k : room m q k -> same_outside m m' p n ->
  apart p n q k -> room m' q k.
Proof. intros H Hs Ha x Hx. rewrite Hs; [apply H; auto|]. unfold apart in Ha. lia. Qed.

Lemma Forall_firstn {A} (P : A -> Prop) n l : Forall P l -> Forall P (firstn n l).
Proof. revert n. induction l; intros [|n] H; cbn; auto. inversion H; subst. constructor; auto. Qed.
Lemma Forall_skipn {A} (P : A -> Prop) n l : Forall P l -> Forall P (skipn n l).
Proof. revert n. induction l; intros [|n] H; cbn; auto. inversion H; subst. auto. Qed.

Ltac zl := repeat match goal with
  | |- context [zlen (_ :: _)] => rewrite zlen_cons
  | |- context [@zlen ?A nil] => change (@zlen A nil) with 0
  | |- context [zlen (_ ++ _)] => rewrite zlen_app
  | H : context [zlen (_ :: _)] |- _ => rewrite zlen_cons in H
  | H : context [@zlen ?A nil] |- _ => change (@zlen A nil) with 0 in H
  | H : context [zlen (_ ++ _)] |- _ => rewrite zlen_app in H
  end.
Ltac nneg l := pose proof (zlen_nonneg l).

(* rewrite a load whose outcome is known *)
Ltac ld H := rewrite (load_some _ _ _ H), bind_Ok.

(* decision procedure for [room] on concrete memories *)
Lemma room_check m p n :
  forallb (fun i => match m (p + Z.of_nat i) with Some _ => true | None => false end)
    (seq 0 (Z.to_nat n)) = true -> room m p n.
Proof.
  intros H x Hx E. rewrite forallb_forall in H. specialize (H (Z.to_nat (x - p))).
  replace (p + Z.of_nat (Z.to_nat (x - p))) with x in H by lia. rewrite E in H.
  discriminate H. apply in_seq. lia.
Qed.
