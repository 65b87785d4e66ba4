From Coq Require Import ZifyBool.
From Verif Require Import Base BaseLemmas StrModel StrSpec StrProofs StrProofs2 ConvSpec UserModel UserSpec.

(* bytes of a file of which some separators have been overwritten by 0 *)
Fixpoint masked (sp : Z -> bool) (m : mem) (p : Z) (l : list Z) : Prop :=
  match l with
  | [] => True
  | c :: r => (m p = Some c \/ (sp c = true /\ m p = Some 0)) /\ masked sp m (p + 1) r
  end.
Definition nulls (sp : Z -> bool) (A n : Z) (m m' : mem) : Prop :=
  forall x, m' x = m x \/ (A <= x < A + n /\ m' x = Some 0 /\ exists c, m x = Some c /\ sp c = true).

Lemma value_app b l x : value b (l ++ [x]) = b * value b l + digval x.
Proof. unfold value. now rewrite fold_left_app. Qed.
Lemma fold_mono b l : 1 <= b -> digits b l -> forall v, 0 <= v -> v <= fold_left (fun v c => b * v + digval c) l v.
Proof.
  intros Hb. induction 1 as [|x l Hx F IH]; intros v Hv; cbn [fold_left]; [lia|]. etransitivity; [|apply IH; nia]. nia.
Qed.

Section S.
Variable sp : Z -> bool.
Hypothesis sp0 : sp 0 = false.
Hypothesis sp58 : sp 58 = true.
Hypothesis sp10 : sp 10 = true.

Lemma nulls_refl A n m : nulls sp A n m m.
Proof. intros x. auto. Qed.
Lemma nulls_trans A n m1 m2 m3 : nulls sp A n m1 m2 -> nulls sp A n m2 m3 -> nulls sp A n m1 m3.
Proof.
  intros H1 H2 x. destruct (H2 x) as [E|(R & E & c & E1 & E2)].
  - rewrite E. apply H1.
  - destruct (H1 x) as [E3|(R3 & E3 & c3 & E4 & E5)]; [|right; split; [exact R|]; eauto].
    right. rewrite E3 in E1. eauto.
Qed.
Lemma nulls_str A n m m' s : forall p, nulls sp A n m m' -> str_at m p s -> Forall (fun c => sp c = false) s -> str_at m' p s.
Proof.
  induction s as [|c s IH]; intros p N H F; cbn [str_at] in *.
  - destruct (N p) as [E|(_ & E & _)]; [now rewrite E|exact E].
  - apply Forall_cons_iff in F. destruct F as [F1 F2]. destruct H as (H1 & H2 & H3). split; [|split; [exact H2|now apply IH]].
    destruct (N p) as [E|(_ & E & d & E1 & E2)]; [now rewrite E|congruence].
Qed.
Lemma nulls_masked A n m m' l : forall p, nulls sp A n m m' -> masked sp m p l -> masked sp m' p l.
Proof.
  induction l as [|c l IH]; intros p N H; cbn [masked] in *; [exact I|]. destruct H as [H1 H2]. split; [|now apply IH].
  destruct (N p) as [E|(_ & E & d & E1 & E2)]; [now rewrite E|]. destruct H1 as [H1|[H1 H3]]; [|congruence].
  right. rewrite H1 in E1. injection E1 as ->. auto.
Qed.
Lemma nulls_out A n m m' x : nulls sp A n m m' -> ~ (A <= x < A + n) -> m' x = m x.
Proof. intros H Hx. destruct (H x) as [E|(E & _)]; [exact E|contradiction]. Qed.
Lemma masked_app m a b : forall p, masked sp m p (a ++ b) <-> masked sp m p a /\ masked sp m (p + zlen a) b.
Proof.
  induction a as [|c a IH]; intros p; cbn [app masked].
  - zl. rewrite Z.add_0_r. tauto.
  - rewrite IH, zlen_cons. replace (p + 1 + zlen a) with (p + (zlen a + 1)) by lia. tauto.
Qed.
Lemma masked_bytes m l : forall p, bytes_at m p l -> masked sp m p l.
Proof. induction l as [|c l IH]; intros p H; cbn [bytes_at masked] in *; [exact I|]. destruct H. auto. Qed.

(* characters of a field *)
Definition fch (c : Z) : Prop := 1 <= c <= 255 /\ sp c = false.
Lemma fch_sp l : Forall fch l -> Forall (fun c => sp c = false) l.
Proof. apply Forall_impl. now intros c [_ H]. Qed.
Lemma token_loop_ok A n : forall fld fuel m p c rest, masked sp m p (fld ++ c :: rest) -> Forall fch fld -> (c = 58 \/ c = 10 \/ m (p + zlen fld) = Some 0) ->
  A <= p -> p + zlen fld < A + n -> (length fld + 1 < fuel)%nat ->
  exists m', token_loop fuel m (A + n) p = Ok (m', p + zlen fld) /\ nulls sp A n m m' /\ str_at m' p fld.
Proof.
  induction fld as [|x fld IH]; intros fuel m p c rest M F C HA HB Hf; cbn [app masked] in M; destruct M as [M1 M2]; (destruct fuel as [|k]; [cbn [length] in Hf; lia|]); cbn [token_loop].
  - zl. rewrite Z.add_0_r in *. replace (p <? A + n) with true by lia. destruct M1 as [M1|[M1 M3]].
    + rewrite (load_some _ _ _ M1), bind_Ok. destruct (c =? 0) eqn:E0.
      * replace c with 0 in * by lia. exists m. repeat split; auto using nulls_refl.
      * assert (Hc : c = 58 \/ c = 10) by (destruct C as [C|[C|C]]; [auto|auto|rewrite M1 in C; injection C as C; lia]).
        replace ((c =? 58) || (c =? 10)) with true by lia. rewrite (store_some _ _ _ _ M1), bind_Ok.
        cbn [length] in Hf. destruct k as [|k]; [lia|]. cbn [token_loop]. replace (p <? A + n) with true by lia.
        rewrite (load_some _ _ _ (upd_same m p 0)), bind_Ok. change (0 =? 0) with true. cbv iota. exists (upd m p 0). split; [reflexivity|]. split; [|apply upd_same].
        intros x. unfold upd. destruct (x =? p) eqn:Ex; [|auto]. right. replace x with p by lia. split; [lia|]. split; [reflexivity|]. exists c. split; [exact M1|].
        destruct Hc as [-> | ->]; auto.
    + rewrite (load_some _ _ _ M3), bind_Ok. change (0 =? 0) with true. cbv iota. exists m. repeat split; auto using nulls_refl.
  - rewrite zlen_cons in *. nneg fld. replace (p <? A + n) with true by lia. inversion F as [|? ? [Hx1 Hx2] F']; subst.
    destruct M1 as [M1|[M1 _]]; [|congruence]. rewrite (load_some _ _ _ M1), bind_Ok. replace (x =? 0) with false by lia.
    assert (x <> 58) by congruence. assert (x <> 10) by congruence. replace ((x =? 58) || (x =? 10)) with false by lia.
    cbn [length] in Hf. destruct (IH k m (p + 1) c rest M2 F') as (m' & E & N & S); [replace (p + 1 + zlen fld) with (p + (zlen fld + 1)) by lia; exact C|lia|lia|lia|].
    exists m'. split; [rewrite E; f_equal; f_equal; lia|]. split; [exact N|]. cbn [str_at]. split; [|split; [lia|exact S]].
    destruct (N p) as [E1|(_ & E1 & d & E2 & E3)]; [now rewrite E1|congruence].
Qed.
Lemma token_ok A n fld fuel m p c rest : masked sp m p (fld ++ c :: rest) -> Forall fch fld -> (c = 58 \/ c = 10 \/ m (p + zlen fld) = Some 0) ->
  A <= p -> p + zlen fld < A + n -> (length fld + 1 < fuel)%nat ->
  exists m', token_s fuel m (A + n) p = Ok (m', p, p + zlen fld + 1) /\ nulls sp A n m m' /\ str_at m' p fld /\ masked sp m' (p + zlen fld + 1) rest.
Proof.
  intros M F C HA HB Hf. destruct (token_loop_ok A n fld fuel m p c rest M F C HA HB Hf) as (m' & E & N & S).
  exists m'. unfold token_s. rewrite E, bind_Ok. split; [reflexivity|]. split; [exact N|]. split; [exact S|].
  apply (nulls_masked _ _ _ _ _ _ N). apply masked_app in M. destruct M as [_ M]. cbn [masked] in M. apply M.
Qed.

Lemma tokeni_loop_ok fe : forall ds fuel m p c rest i, masked sp m p (ds ++ c :: rest) -> digits 10 ds -> (c = 58 \/ c = 10) ->
  0 <= i -> fold_left (fun v b => 10 * v + digval b) ds i <= INT_MAX -> p + zlen ds < fe -> (length ds < fuel)%nat -> Forall (fun c => sp c = false) ds ->
  tokeni_loop fuel m fe p i = Ok (p + zlen ds, fold_left (fun v b => 10 * v + digval b) ds i).
Proof.
  induction ds as [|x ds IH]; intros fuel m p c rest i M D C Hi Hv Hp Hf F; cbn [app masked] in M; destruct M as [M1 M2]; (destruct fuel as [|k]; [cbn [length] in Hf; lia|]); cbn [tokeni_loop].
  - zl. rewrite Z.add_0_r in *. replace (p <? fe) with true by lia.
    assert (B : exists b, m p = Some b /\ (48 <=? b) && (b <=? 57) = false) by (destruct M1 as [M1|[_ M1]]; [exists c|exists 0]; (split; [exact M1|lia])).
    destruct B as (b & B1 & B2). rewrite (load_some _ _ _ B1), bind_Ok, B2. reflexivity.
  - rewrite zlen_cons in *. nneg ds. replace (p <? fe) with true by lia. inversion D as [|? ? Hx D']; subst. inversion F as [|? ? F1 F2]; subst. cbn beta in Hx.
    destruct M1 as [M1|[M1 _]]; [|congruence]. rewrite (load_some _ _ _ M1), bind_Ok.
    assert (Hd : 48 <= x <= 57 /\ digval x = x - 48).
    { clear - Hx. unfold digval in *. destruct ((48 <=? x) && (x <=? 57)) eqn:E1; [lia|]. destruct ((65 <=? x) && (x <=? 90)) eqn:E2; [lia|].
      destruct ((97 <=? x) && (x <=? 122)) eqn:E3; lia. }
    destruct Hd as [Hd1 Hd2]. replace ((48 <=? x) && (x <=? 57)) with true by lia. cbn [fold_left] in Hv |- *.
    pose proof (fold_mono 10 ds ltac:(lia) D' (10 * i + digval x) ltac:(lia)) as Mo. unfold INT_MAX in *.
    rewrite !iop_ok, !bind_Ok by (unfold INT_MIN, INT_MAX; try lia). rewrite iop_ok, bind_Ok by (unfold INT_MIN, INT_MAX; lia).
    rewrite iop_ok, bind_Ok by (unfold INT_MIN, INT_MAX; lia). rewrite iop_ok, bind_Ok by (unfold INT_MIN, INT_MAX; lia).
    replace (i + (i + 8 * i + (x - 48))) with (10 * i + digval x) by lia. cbn [length] in Hf.
    rewrite (IH k m (p + 1) c rest); auto; try lia. f_equal. f_equal. lia.
Qed.
Lemma token_i_ok fe ds fuel m p c rest : masked sp m p (ds ++ c :: rest) -> number ds -> (c = 58 \/ c = 10) -> p + zlen ds < fe -> (length ds < fuel)%nat ->
  Forall (fun c => sp c = false) ds ->
  token_i fuel m fe p = Ok (value 10 ds, p + zlen ds + 1) /\ masked sp m (p + zlen ds + 1) rest.
Proof.
  intros M [D V] C Hp Hf F. split.
  - unfold token_i. rewrite (tokeni_loop_ok fe ds fuel m p c rest 0); auto; lia.
  - apply masked_app in M. destruct M as [_ M]. cbn [masked] in M. apply M.
Qed.
End S.
Lemma value_nonneg ds : digits 10 ds -> 0 <= value 10 ds.
Proof. intros D. apply (fold_mono 10 ds ltac:(lia) D 0). lia. Qed.
Lemma u32_number ds : number ds -> u32 (value 10 ds) = value 10 ds.
Proof. intros [D V]. pose proof (value_nonneg ds D). unfold u32, INT_MAX in *. apply Z.mod_small. lia. Qed.
