From Coq Require Import ZifyBool.
From Verif Require Import Base BaseLemmas StrModel StrSpec StrProofs StrProofs2 ConvSpec UserModel UserSpec UserProofs.

Definition spw (c : Z) : bool := (c =? 58) || (c =? 10).
Lemma text_fch l : text [58; 10] l -> Forall (fch spw) l.
Proof. apply Forall_impl. intros c [H1 H2]. split; [exact H1|]. cbn [In] in H2. unfold spw. lia. Qed.
Lemma digit_range x : 0 <= digval x < 10 -> 48 <= x <= 57.
Proof.
  unfold digval. destruct ((48 <=? x) && (x <=? 57)) eqn:E1; [lia|]. destruct ((65 <=? x) && (x <=? 90)) eqn:E2; [lia|].
  destruct ((97 <=? x) && (x <=? 122)) eqn:E3; lia.
Qed.
Lemma number_spw l : number l -> Forall (fun c => spw c = false) l.
Proof. intros [D _]. revert D. apply Forall_impl. intros c H. apply digit_range in H. unfold spw. lia. Qed.

Notation mask := (masked spw).
Notation nul := (nulls spw).
Lemma tok A n fld fuel m p c rest : mask m p (fld ++ c :: rest) -> text [58; 10] fld -> (c = 58 \/ c = 10) ->
  A <= p -> p + zlen fld < A + n -> (length fld + 1 < fuel)%nat ->
  exists m', token_s fuel m (A + n) p = Ok (m', p, p + zlen fld + 1) /\ nul A n m m' /\ str_at m' p fld /\ mask m' (p + zlen fld + 1) rest.
Proof. intros M F C. apply (token_ok spw eq_refl eq_refl eq_refl A n fld fuel m p c rest M (text_fch _ F)). tauto. Qed.
Lemma toki fe ds fuel m p c rest : mask m p (ds ++ c :: rest) -> number ds -> (c = 58 \/ c = 10) -> p + zlen ds < fe -> (length ds < fuel)%nat ->
  token_i fuel m fe p = Ok (value 10 ds, p + zlen ds + 1) /\ mask m (p + zlen ds + 1) rest.
Proof. intros M N C Hp Hf. apply (token_i_ok spw fe ds fuel m p c rest M N C Hp Hf (number_spw _ N)). Qed.
Lemma nul_str A n m m' s p : nul A n m m' -> text [58; 10] s -> str_at m p s -> str_at m' p s.
Proof. intros N T S. apply (nulls_str spw eq_refl eq_refl eq_refl A n m m' s p N S). apply fch_sp. now apply text_fch. Qed.
Lemma nul_trans A n m1 m2 m3 : nul A n m1 m2 -> nul A n m2 m3 -> nul A n m1 m3.
Proof. now apply nulls_trans. Qed.

Lemma holds_nul A n m m' pw e : nul A n m m' -> well_formed e -> holds m pw e -> holds m' pw e.
Proof.
  intros N (_ & W1 & W2 & _ & _ & W3 & W4 & W5) (H1 & H2 & H3 & H4 & H5 & H6 & H7).
  split; [now apply (nul_str A n m)|]. split; [now apply (nul_str A n m)|]. split; [exact H3|]. split; [exact H4|]. split; [now apply (nul_str A n m)|]. split; now apply (nul_str A n m).
Qed.

(* numbers, as tokens to be skipped *)
Lemma number_text l : number l -> text [58; 10] l.
Proof. intros [D _]. revert D. apply Forall_impl. intros c H. apply digit_range in H. cbn [In]. lia. Qed.

Lemma line_shift e r : line e ++ r = e_name e ++ 58 :: e_passwd e ++ 58 :: e_uid e ++ 58 :: e_gid e ++ 58 :: e_gecos e ++ 58 :: e_dir e ++ 58 :: e_shell e ++ 10 :: r.
Proof. unfold line. repeat (rewrite <- app_assoc; cbn [app]; f_equal; f_equal). Qed.
Definition tail_len (e : entry) : Z := zlen (e_gecos e) + zlen (e_dir e) + zlen (e_shell e) + 3.
Lemma line_len e : zlen (line e) = zlen (e_name e) + zlen (e_passwd e) + zlen (e_uid e) + zlen (e_gid e) + 4 + tail_len e.
Proof. unfold line, tail_len. rewrite ?zlen_app, ?zlen_cons. repeat (rewrite zlen_app, zlen_cons). change (zlen (@nil Z)) with 0. lia. Qed.
Ltac fl := cbn [length] in *; unfold zlen in *; lia.

Lemma tail_ok A n e r fuel m p : mask m p (e_gecos e ++ 58 :: e_dir e ++ 58 :: e_shell e ++ 10 :: r) -> well_formed e ->
  A <= p -> p + tail_len e <= A + n -> n < Z.of_nat fuel ->
  exists m', let g := p in let d := p + zlen (e_gecos e) + 1 in let s := d + zlen (e_dir e) + 1 in
  tail_fields fuel m (A + n) p = Ok (m', (g, d, s), p + tail_len e) /\ nul A n m m' /\ mask m' (p + tail_len e) r /\
  str_at m' g (e_gecos e) /\ str_at m' d (e_dir e) /\ str_at m' s (e_shell e).
Proof.
  intros M (_ & _ & _ & _ & _ & W3 & W4 & W5) HA HB Hf. unfold tail_len in *. nneg (e_gecos e). nneg (e_dir e). nneg (e_shell e). unfold tail_fields.
  destruct (tok A n _ fuel m p 58 _ M W3) as (m1 & E1 & N1 & S1 & M1); [auto|lia|lia|fl|]. rewrite E1, bind_Ok.
  destruct (tok A n _ fuel m1 _ 58 _ M1 W4) as (m2 & E2 & N2 & S2 & M2); [auto|lia|lia|fl|]. rewrite E2, bind_Ok.
  destruct (tok A n _ fuel m2 _ 10 _ M2 W5) as (m3 & E3 & N3 & S3 & M3); [auto|lia|lia|fl|]. rewrite E3, bind_Ok.
  exists m3. cbv zeta. split; [f_equal; f_equal; lia|]. split; [eauto using nul_trans|]. split.
  - replace (p + _) with (p + zlen (e_gecos e) + 1 + zlen (e_dir e) + 1 + zlen (e_shell e) + 1) by lia. exact M3.
  - split; [|split; [|exact S3]]; eauto using nul_str, nul_trans.
Qed.

(* password, uid, gid and the rest *)
Lemma rest_ok A n e r fuel m p : mask m p (e_passwd e ++ 58 :: e_uid e ++ 58 :: e_gid e ++ 58 :: e_gecos e ++ 58 :: e_dir e ++ 58 :: e_shell e ++ 10 :: r) -> well_formed e ->
  A <= p -> p + (zlen (line e) - zlen (e_name e) - 1) <= A + n -> n < Z.of_nat fuel -> str_at m (p - zlen (e_name e) - 1) (e_name e) ->
  exists m1 pu pg p4 m' pw, token_s fuel m (A + n) p = Ok (m1, pw_passwd pw, pu) /\ token_i fuel m1 (A + n) pu = Ok (pw_uid pw, pg) /\
  token_i fuel m1 (A + n) pg = Ok (pw_gid pw, p4) /\
  tail_fields fuel m1 (A + n) p4 = Ok (m', (pw_gecos pw, pw_dir pw, pw_shell pw), p + (zlen (line e) - zlen (e_name e) - 1)) /\
  pw_name pw = p - zlen (e_name e) - 1 /\ nul A n m m' /\ mask m' (p + (zlen (line e) - zlen (e_name e) - 1)) r /\ holds m' pw e.
Proof.
  intros M W HA HB Hf S. pose proof (line_len e) as L. pose proof W as (_ & W1 & W2 & Wu & Wg & W3 & W4 & W5). unfold tail_len in L.
  nneg (e_name e). nneg (e_passwd e). nneg (e_uid e). nneg (e_gid e). nneg (e_gecos e). nneg (e_dir e). nneg (e_shell e).
  destruct (tok A n _ fuel m p 58 _ M W2) as (m1 & E1 & N1 & S1 & M1); [auto|lia|lia|fl|].
  destruct (toki (A + n) _ fuel m1 _ 58 _ M1 Wu) as (E2 & M2); [auto|lia|fl|].
  destruct (toki (A + n) _ fuel m1 _ 58 _ M2 Wg) as (E3 & M3); [auto|lia|fl|].
  destruct (tail_ok A n e r fuel m1 _ M3 W) as (m2 & E4 & N2 & M4 & S2 & S3 & S4); [lia|unfold tail_len; lia|exact Hf|].
  set (p4 := p + zlen (e_passwd e) + 1 + zlen (e_uid e) + 1 + zlen (e_gid e) + 1) in *.
  assert (Ep : p + (zlen (line e) - zlen (e_name e) - 1) = p4 + tail_len e) by (unfold p4, tail_len; lia). rewrite Ep.
  exists m1. do 3 eexists. exists m2, (mkpw (p - zlen (e_name e) - 1) p (value 10 (e_uid e)) (value 10 (e_gid e)) p4 (p4 + zlen (e_gecos e) + 1) (p4 + zlen (e_gecos e) + 1 + zlen (e_dir e) + 1)).
  cbn [pw_name pw_passwd pw_uid pw_gid pw_gecos pw_dir pw_shell].
  split; [exact E1|]. split; [exact E2|]. split; [exact E3|]. split; [exact E4|]. split; [reflexivity|]. split; [eauto using nul_trans|]. split; [exact M4|].
  unfold holds. cbn [pw_name pw_passwd pw_uid pw_gid pw_gecos pw_dir pw_shell]. split; [eauto using nul_str, nul_trans|]. split; [eauto using nul_str|]. auto.
Qed.

(* skipping: any list of fields *)
Lemma skip_ok A n : forall fs fuel m p r, mask m p (flat_map (fun f => fst f ++ [snd f]) fs ++ r) -> Forall (fun f => text [58; 10] (fst f) /\ (snd f = 58 \/ snd f = 10)) fs ->
  A <= p -> p + zlen (flat_map (fun f => fst f ++ [snd f]) fs) <= A + n -> n < Z.of_nat fuel ->
  exists m', skip_tokens (length fs) fuel m (A + n) p = Ok (m', p + zlen (flat_map (fun f => fst f ++ [snd f]) fs)) /\ nul A n m m' /\
  mask m' (p + zlen (flat_map (fun f => fst f ++ [snd f]) fs)) r.
Proof.
  induction fs as [|[f c] fs IH]; intros fuel m p r M F HA HB Hf; cbn [flat_map length skip_tokens fst snd] in *.
  - exists m. cbn [app] in M. zl. rewrite Z.add_0_r. split; [reflexivity|]. split; [apply nulls_refl|exact M].
  - apply Forall_cons_iff in F. destruct F as [[F1 F2] F3]. cbn [fst snd] in F1, F2. rewrite <- !app_assoc in M. cbn [app] in M.
    rewrite !zlen_app, zlen_cons in *. change (zlen (@nil Z)) with 0 in *. nneg f. nneg (flat_map (fun f => fst f ++ [snd f]) fs).
    destruct (tok A n _ fuel m p c _ M F1) as (m1 & E1 & N1 & S1 & M1); [exact F2|lia|lia|fl|]. rewrite E1, bind_Ok.
    destruct (IH fuel m1 (p + zlen f + 1) r M1 F3) as (m2 & E2 & N2 & M2); [lia|lia|exact Hf|]. exists m2.
    replace (p + (zlen f + (0 + 1) + zlen (flat_map (fun f => fst f ++ [snd f]) fs))) with (p + zlen f + 1 + zlen (flat_map (fun f => fst f ++ [snd f]) fs)) by lia.
    split; [exact E2|]. split; [eauto using nul_trans|exact M2].
Qed.
Definition skip6 (e : entry) : list (list Z * Z) := [(e_passwd e, 58); (e_uid e, 58); (e_gid e, 58); (e_gecos e, 58); (e_dir e, 58); (e_shell e, 10)].
Definition skip4 (e : entry) : list (list Z * Z) := [(e_gid e, 58); (e_gecos e, 58); (e_dir e, 58); (e_shell e, 10)].
Lemma skip6_eq e r : flat_map (fun f => fst f ++ [snd f]) (skip6 e) ++ r = e_passwd e ++ 58 :: e_uid e ++ 58 :: e_gid e ++ 58 :: e_gecos e ++ 58 :: e_dir e ++ 58 :: e_shell e ++ 10 :: r.
Proof. cbn [flat_map skip6 fst snd]. rewrite app_nil_r. repeat (rewrite <- !app_assoc; cbn [app]). reflexivity. Qed.
Lemma skip4_eq e r : flat_map (fun f => fst f ++ [snd f]) (skip4 e) ++ r = e_gid e ++ 58 :: e_gecos e ++ 58 :: e_dir e ++ 58 :: e_shell e ++ 10 :: r.
Proof. cbn [flat_map skip4 fst snd]. rewrite app_nil_r. repeat (rewrite <- !app_assoc; cbn [app]). reflexivity. Qed.
Lemma skip6_len e : zlen (flat_map (fun f => fst f ++ [snd f]) (skip6 e)) = zlen (line e) - zlen (e_name e) - 1.
Proof. rewrite line_len. unfold tail_len. cbn [flat_map skip6 fst snd]. rewrite !zlen_app, !zlen_cons. change (zlen (@nil Z)) with 0. lia. Qed.
Lemma skip4_len e : zlen (flat_map (fun f => fst f ++ [snd f]) (skip4 e)) = zlen (e_gid e) + 1 + tail_len e.
Proof. unfold tail_len. cbn [flat_map skip4 fst snd]. rewrite !zlen_app, !zlen_cons. change (zlen (@nil Z)) with 0. lia. Qed.
Lemma skip6_text e : well_formed e -> Forall (fun f => text [58; 10] (fst f) /\ (snd f = 58 \/ snd f = 10)) (skip6 e).
Proof. intros (_ & W1 & W2 & Wu & Wg & W3 & W4 & W5). unfold skip6. repeat (apply Forall_cons; [cbn [fst snd]; split; [auto using number_text|auto]|]). apply Forall_nil. Qed.
Lemma skip4_text e : well_formed e -> Forall (fun f => text [58; 10] (fst f) /\ (snd f = 58 \/ snd f = 10)) (skip4 e).
Proof. intros (_ & W1 & W2 & Wu & Wg & W3 & W4 & W5). unfold skip4. repeat (apply Forall_cons; [cbn [fst snd]; split; [auto using number_text|auto]|]). apply Forall_nil. Qed.
