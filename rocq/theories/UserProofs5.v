From Coq Require Import ZifyBool.
From Verif Require Import Base BaseLemmas StrModel StrSpec StrProofs StrProofs2 ConvSpec UserModel UserSpec UserProofs UserProofs2 UserProofs3 UserProofs4.

Notation gtext := (text [58; 44; 10]).
Lemma text_sub l : gtext l -> text [58; 10] l.
Proof. apply Forall_impl. intros c [H1 H2]. cbn [In] in *. split; [exact H1|tauto]. Qed.

(* deterministic tokens *)
Lemma tloop fe : forall fld fuel m p c r, bytes_at m p (fld ++ c :: r) -> text [58; 10] fld -> c = 58 \/ c = 10 \/ c = 0 -> p + zlen fld < fe -> (length fld + 1 < fuel)%nat ->
  token_loop fuel m fe p = Ok (if c =? 0 then m else upd m (p + zlen fld) 0, p + zlen fld).
Proof.
  induction fld as [|x fld IH]; intros fuel m p c r B T C Hp Hf; cbn [app bytes_at] in B; destruct B as [B1 B2]; (destruct fuel as [|k]; [cbn [length] in Hf; lia|]); cbn [token_loop].
  - zl. rewrite Z.add_0_r in *. replace (p <? fe) with true by lia. rewrite (load_some _ _ _ B1), bind_Ok. destruct (c =? 0) eqn:E0; [reflexivity|].
    replace ((c =? 58) || (c =? 10)) with true by lia. rewrite (store_some _ _ _ _ B1), bind_Ok.
    cbn [length] in Hf. destruct k as [|k]; [lia|]. cbn [token_loop]. replace (p <? fe) with true by lia.
    rewrite (load_some _ _ _ (upd_same m p 0)), bind_Ok. reflexivity.
  - rewrite zlen_cons in *. nneg fld. replace (p <? fe) with true by lia. apply Forall_cons_iff in T. destruct T as [[T1 T2] T3].
    rewrite (load_some _ _ _ B1), bind_Ok. replace (x =? 0) with false by lia. cbn [In] in T2. replace ((x =? 58) || (x =? 10)) with false by lia.
    cbn [length] in Hf. rewrite (IH k m (p + 1) c r B2 T3 C) by lia. replace (p + 1 + zlen fld) with (p + (zlen fld + 1)) by lia. reflexivity.
Qed.
Lemma gtok fe fld fuel m p c r : bytes_at m p (fld ++ c :: r) -> text [58; 10] fld -> c = 58 \/ c = 10 \/ c = 0 -> p + zlen fld < fe -> (length fld + 1 < fuel)%nat ->
  exists m', token_s fuel m fe p = Ok (m', p, p + zlen fld + 1) /\ same_outside m m' (p + zlen fld) 1 /\ bytes_at m' p (fld ++ [0]).
Proof.
  intros B T C Hp Hf. unfold token_s. rewrite (tloop fe fld fuel m p c r), bind_Ok by assumption. eexists. split; [reflexivity|].
  apply bytes_at_app in B. destruct B as [B1 B2]. cbn [bytes_at] in B2. destruct B2 as [B2 B3].
  destruct (c =? 0) eqn:E.
  - split; [apply same_outside_refl|]. apply bytes_at_app. split; [exact B1|]. cbn [bytes_at]. replace c with 0 in B2 by lia. auto.
  - split; [intros x Hx; apply upd_other; lia|]. apply bytes_at_app. split; [|cbn [bytes_at]; split; [apply upd_same|exact I]].
    apply (bytes_at_ext m); [exact B1|]. intros x Hx. apply upd_other. lia.
Qed.
Lemma so_bytes m m' p n q l : same_outside m m' p n -> apart q (zlen l) p n -> bytes_at m q l -> bytes_at m' q l.
Proof. intros H A B. apply (bytes_at_ext m); [exact B|]. intros x Hx. apply H. unfold apart in A. lia. Qed.
Lemma bytes_str m p l r : bytes_at m p (l ++ 0 :: r) -> Forall (fun c => 1 <= c <= 255) l -> str_at m p l.
Proof.
  intros B F. apply bytes_at_app in B. destruct B as [B1 B2]. cbn [bytes_at] in B2. apply str_at_iff. repeat split; auto. apply B2.
Qed.
Lemma text_range s l : text s l -> Forall (fun c => 1 <= c <= 255) l.
Proof. apply Forall_impl. now intros c [H _]. Qed.

(* members separated by c *)
Fixpoint joinc (c : Z) (l : list (list Z)) : list Z :=
  match l with
  | [] => []
  | x :: r => match r with [] => x | _ :: _ => x ++ c :: joinc c r end
  end.
Lemma joined_joinc l : joined l = joinc 44 l.
Proof. induction l as [|x [|y l] IH]; [reflexivity|reflexivity|]. change (joined (x :: y :: l)) with (x ++ 44 :: joined (y :: l)). now rewrite IH. Qed.
Lemma joinc_len c l : zlen (joinc c l) = zlen (joinc 0 l).
Proof.
  induction l as [|x [|y l] IH]; [reflexivity|reflexivity|]. change (joinc c (x :: y :: l)) with (x ++ c :: joinc c (y :: l)). change (joinc 0 (x :: y :: l)) with (x ++ 0 :: joinc 0 (y :: l)).
  rewrite !zlen_app, !zlen_cons, IH. reflexivity.
Qed.
Fixpoint ptrs (p : Z) (l : list (list Z)) : list Z :=
  match l with
  | [] => [p]
  | x :: r => match r with [] => [p] | _ :: _ => p :: ptrs (p + zlen x + 1) r end
  end.
Definition shown (l : list (list Z)) : list (list Z) := match l with [] => [[]] | _ => l end.

Lemma ptrs_str m : forall l p r, Forall gtext l -> bytes_at m p (joinc 0 l ++ 0 :: r) -> Forall2 (str_at m) (ptrs p l) (shown l).
Proof.
  induction l as [|x [|y l] IH]; intros p r F B.
  - cbn in *. constructor; [|constructor]. apply B.
  - cbn [joinc ptrs shown] in *. constructor; [|constructor]. apply (bytes_str m p x r B). apply Forall_cons_iff in F. now apply (text_range [58; 44; 10]).
  - change (joinc 0 (x :: y :: l)) with (x ++ 0 :: joinc 0 (y :: l)) in B. change (ptrs p (x :: y :: l)) with (p :: ptrs (p + zlen x + 1) (y :: l)).
    rewrite <- app_assoc in B. cbn [app] in B. apply Forall_cons_iff in F. destruct F as [F1 F2]. change (shown (x :: y :: l)) with (x :: shown (y :: l)). constructor.
    + apply (bytes_str _ _ _ _ B). now apply (text_range [58; 44; 10]).
    + apply (IH (p + zlen x + 1) r F2). apply bytes_at_app in B. destruct B as [_ B]. cbn [bytes_at] in B. apply B.
Qed.

(* one member without separator: the loop runs over it *)
Lemma m1_skip fuel q mbr acc : forall x m p r, bytes_at m p (x ++ r) -> gtext x -> p + zlen x <= q ->
  members1 (length x + fuel) m p q mbr acc = members1 fuel m (p + zlen x) q mbr acc.
Proof.
  induction x as [|c x IH]; intros m p r B T Hq; cbn [app bytes_at length] in *.
  - zl. now rewrite Z.add_0_r.
  - destruct B as [B1 B2]. apply Forall_cons_iff in T. destruct T as [[T1 T2] T3]. rewrite zlen_cons in *. nneg x. cbn [Nat.add members1].
    replace (p <? q) with true by lia. rewrite (load_some _ _ _ B1), bind_Ok. cbn [In] in T2. replace (c =? 44) with false by lia. rewrite bind_Ok.
    replace (false || (c =? 0)) with false by lia. rewrite (IH m (p + 1) r B2 T3) by lia. f_equal. lia.
Qed.
Lemma m1_ok q : forall l fuel m p acc r, bytes_at m p (joinc 44 l ++ 0 :: r) -> Forall gtext l -> q = p + zlen (joinc 44 l) + 1 -> (length (joinc 44 l) + 2 <= fuel)%nat ->
  zlen acc + zlen (ptrs p l) < 64 ->
  exists m', members1 fuel m p q p acc = Ok (m', Some (acc ++ ptrs p l)) /\ same_outside m m' p (zlen (joinc 44 l)) /\ bytes_at m' p (joinc 0 l ++ [0]).
Proof.
  induction l as [|x [|y l] IH]; intros fuel m p acc r B F Hq Hf Hm.
  - cbn [joinc ptrs app length bytes_at] in *. change (zlen (@nil Z)) with 0 in *. destruct fuel as [|[|k]]; [lia|lia|]. cbn [members1]. replace (p <? q) with true by lia. destruct B as [B _].
    rewrite (load_some _ _ _ B), bind_Ok. change (0 =? 44) with false. change (0 =? 0) with true. cbn [orb]. rewrite bind_Ok. rewrite zlen_app in *.
    change (zlen [p]) with 1 in *. unfold MAX_GROUPMEMBERS. replace (64 <=? zlen acc + 1) with false by lia. replace (p + 1 <? q) with false by lia.
    exists m. split; [reflexivity|]. split; [apply same_outside_refl|auto].
  - cbn [joinc ptrs] in *. apply Forall_cons_iff in F. destruct F as [F1 _]. replace fuel with (length x + (fuel - length x))%nat by lia. rewrite (m1_skip _ q p acc x m p _ B F1) by lia.
    apply bytes_at_app in B. destruct B as [B1 B2]. cbn [bytes_at] in B2. destruct (fuel - length x)%nat as [|[|k]] eqn:Ek; [lia|lia|]. cbn [members1]. replace (p + zlen x <? q) with true by lia.
    destruct B2 as [B2 _]. rewrite (load_some _ _ _ B2), bind_Ok. change (0 =? 44) with false. change (0 =? 0) with true. cbn [orb]. rewrite bind_Ok. rewrite zlen_app in *.
    change (zlen [p]) with 1 in *. unfold MAX_GROUPMEMBERS. replace (64 <=? zlen acc + 1) with false by lia. replace (p + zlen x + 1 <? q) with false by lia.
    exists m. split; [reflexivity|]. split; [apply same_outside_refl|]. apply bytes_at_app. cbn [bytes_at]. auto.
  - change (joinc 44 (x :: y :: l)) with (x ++ 44 :: joinc 44 (y :: l)) in *. change (joinc 0 (x :: y :: l)) with (x ++ 0 :: joinc 0 (y :: l)) in *.
    change (ptrs p (x :: y :: l)) with (p :: ptrs (p + zlen x + 1) (y :: l)) in *.
    apply Forall_cons_iff in F. destruct F as [F1 F2]. rewrite <- app_assoc in B. cbn [app] in B. rewrite zlen_app, zlen_cons in *. rewrite app_length in Hf. cbn [length] in Hf.
    set (J := joinc 44 (y :: l)) in *. nneg J. nneg x. set (P := ptrs (p + zlen x + 1) (y :: l)) in *. nneg P. nneg acc.
    replace fuel with (length x + (fuel - length x))%nat by lia. rewrite (m1_skip _ q p acc x m p _ B F1) by lia.
    apply bytes_at_app in B. destruct B as [B1 B2]. cbn [bytes_at] in B2. destruct B2 as [B2 B3]. destruct (fuel - length x)%nat as [|k] eqn:Ek; [lia|]. cbn [members1]. replace (p + zlen x <? q) with true by lia.
    rewrite (load_some _ _ _ B2), bind_Ok. change (44 =? 44) with true. cbn [orb]. rewrite (store_some _ _ _ _ B2), bind_Ok. rewrite zlen_app.
    change (zlen [p]) with 1. unfold MAX_GROUPMEMBERS. replace (64 <=? zlen acc + 1) with false by lia.
    destruct (IH k (upd m (p + zlen x) 0) (p + zlen x + 1) (acc ++ [p]) r) as (m' & E & O & B').
    + apply (bytes_at_ext m); [exact B3|]. intros z Hz. apply upd_other. lia.
    + exact F2.
    + fold J. lia.
    + fold J. lia.
    + fold P. rewrite zlen_app. change (zlen [p]) with 1. lia.
    + exists m'. split; [rewrite E, <- app_assoc; reflexivity|]. fold J in O. split.
      * intros z Hz. rewrite O by lia. apply upd_other. lia.
      * rewrite <- app_assoc. cbn [app]. apply bytes_at_app. split; [|cbn [bytes_at]; split; [|exact B']].
        -- apply (bytes_at_ext m); [exact B1|]. intros z Hz. rewrite O by lia. apply upd_other. lia.
        -- rewrite O by lia. apply upd_same.
Qed.
(* a second visit *)
Lemma m2_ok fe q fuel m : forall l lines p acc r, bytes_at m p (joinc 0 l ++ 0 :: r) -> Forall gtext l -> q = p + zlen (joinc 0 l) + 1 -> q <= fe -> (length (joinc 0 l) + 1 < fuel)%nat -> (length l < lines)%nat ->
  zlen acc + zlen (ptrs p l) < 64 ->
  exists m', members2 lines fuel m fe p q acc = Ok (m', q, Some (acc ++ ptrs p l)) /\ forall x, m' x = m x.
Proof.
  assert (T : forall fld p r, bytes_at m p (fld ++ 0 :: r) -> gtext fld -> p + zlen fld < fe -> (length fld + 1 < fuel)%nat -> token_s fuel m fe p = Ok (m, p, p + zlen fld + 1)).
  { intros fld p r B F H1 H2. unfold token_s. rewrite (tloop fe fld fuel m p 0 r B (text_sub _ F)), bind_Ok by (auto; lia). reflexivity. }
  induction l as [|x [|y l] IH]; intros lines p acc r B F Hq Hfe Hf Hk Hm.
  - cbn [joinc ptrs app length] in *. change (zlen (@nil Z)) with 0 in *. destruct lines as [|k]; [lia|]. cbn [members2].
    rewrite (T [] p r B) by (try constructor; try (change (zlen (@nil Z)) with 0); cbn [length]; lia). rewrite bind_Ok. rewrite zlen_app in *. change (zlen [p]) with 1 in *. change (zlen (@nil Z)) with 0.
    unfold MAX_GROUPMEMBERS. replace (64 <=? zlen acc + 1) with false by lia. replace (p + 0 + 1 <? q) with false by lia. exists m. split; [|reflexivity]. do 3 f_equal. lia.
  - cbn [joinc ptrs length] in *. apply Forall_cons_iff in F. destruct F as [F1 _]. destruct lines as [|k]; [lia|]. cbn [members2].
    rewrite (T x p r B F1) by lia. rewrite bind_Ok. rewrite zlen_app in *. change (zlen [p]) with 1 in *.
    unfold MAX_GROUPMEMBERS. replace (64 <=? zlen acc + 1) with false by lia. replace (p + zlen x + 1 <? q) with false by lia. exists m. split; [|reflexivity]. do 3 f_equal. lia.
  - change (joinc 0 (x :: y :: l)) with (x ++ 0 :: joinc 0 (y :: l)) in *.
    change (ptrs p (x :: y :: l)) with (p :: ptrs (p + zlen x + 1) (y :: l)) in *.
    apply Forall_cons_iff in F. destruct F as [F1 F2]. rewrite <- app_assoc in B. cbn [app] in B. rewrite zlen_app, zlen_cons in *. rewrite app_length in Hf. cbn [length] in Hf, Hk.
    set (J := joinc 0 (y :: l)) in *. nneg J. nneg x. set (P := ptrs (p + zlen x + 1) (y :: l)) in *. nneg P. nneg acc.
    destruct lines as [|k]; [lia|]. cbn [members2]. rewrite (T x p _ B F1) by lia. rewrite bind_Ok. rewrite zlen_app. change (zlen [p]) with 1.
    unfold MAX_GROUPMEMBERS. replace (64 <=? zlen acc + 1) with false by lia. replace (p + zlen x + 1 <? q) with true by lia.
    destruct (IH k (p + zlen x + 1) (acc ++ [p]) r) as (m' & E & O).
    + apply bytes_at_app in B. destruct B as [_ B]. cbn [bytes_at] in B. apply B.
    + exact F2.
    + fold J. lia.
    + exact Hfe.
    + fold J. lia.
    + cbn [length]. lia.
    + fold P. rewrite zlen_app. change (zlen [p]) with 1. lia.
    + exists m'. split; [rewrite E, <- app_assoc; reflexivity|exact O].
Qed.

(* pointers in memory *)
Lemma rdn_ext k : forall m m' a, (forall x, a <= x < a + Z.of_nat k -> m' x = m x) -> rdn k m' a = rdn k m a.
Proof.
  induction k as [|k IH]; intros m m' a H; [reflexivity|]. cbn [rdn]. unfold load. rewrite (H a) by lia. destruct (m a); [|reflexivity]. rewrite !bind_Ok.
  rewrite (IH m m' (a + 1)); [reflexivity|]. intros x Hx. apply H. lia.
Qed.
Lemma rdn_zero k : forall m a, (forall x, a <= x < a + Z.of_nat k -> m x = Some 0) -> rdn k m a = Ok 0.
Proof.
  induction k as [|k IH]; intros m a H; [reflexivity|]. cbn [rdn]. rewrite (load_some m a 0) by (apply H; lia). rewrite bind_Ok.
  rewrite (IH m (a + 1)); [reflexivity|]. intros x Hx. apply H. lia.
Qed.
Lemma wrn_ok k : forall m a v, room m a (Z.of_nat k) -> 0 <= v < 256 ^ Z.of_nat k ->
  exists m', wrn k m a v = Ok m' /\ same_outside m m' a (Z.of_nat k) /\ rdn k m' a = Ok v.
Proof.
  induction k as [|k IH]; intros m a v R Hv.
  - exists m. split; [reflexivity|]. split; [apply same_outside_refl|]. cbn [rdn]. change (256 ^ Z.of_nat 0) with 1 in Hv. f_equal. lia.
  - cbn [wrn]. rewrite store_room with (n := Z.of_nat (S k)) (p := a) by (try assumption; lia). rewrite bind_Ok.
    assert (Hp : 256 ^ Z.of_nat (S k) = 256 * 256 ^ Z.of_nat k) by (rewrite Nat2Z.inj_succ, Z.pow_succ_r by lia; reflexivity).
    pose proof (Z.div_mod v 256 ltac:(lia)) as D. pose proof (Z.mod_pos_bound v 256 ltac:(lia)) as Mb.
    destruct (IH (upd m a (v mod 256)) (a + 1) (v / 256)) as (m' & E & O & Rd).
    + intros x Hx. unfold upd. destruct (x =? a); [discriminate|]. apply R. lia.
    + split; [apply Z.div_pos; lia|]. apply Z.div_lt_upper_bound; lia.
    + exists m'. split; [exact E|]. split.
      * intros x Hx. rewrite O by lia. apply upd_other. lia.
      * cbn [rdn]. rewrite (load_some m' a (v mod 256)) by (rewrite O by lia; apply upd_same). rewrite bind_Ok, Rd, bind_Ok. f_equal. lia.
Qed.
