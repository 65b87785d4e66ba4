From Coq Require Import ZifyBool.
From Verif Require Import Base BaseLemmas StrModel StrSpec StrProofs StrProofs2 ConvSpec UserModel UserSpec UserProofs UserProofs2.

Definition outside (A n p : Z) (l : list Z) : Prop := forall x, p <= x <= p + zlen l -> ~ (A <= x < A + n).
Lemma out_str A n m m' p l : nul A n m m' -> outside A n p l -> str_at m p l -> str_at m' p l.
Proof. intros N O S. apply (str_at_ext m m' p l S). intros x Hx. apply (nulls_out spw A n m m' x N). apply O. lia. Qed.
Lemma pf_cons e es : passwd_file (e :: es) = line e ++ passwd_file es.
Proof. reflexivity. Qed.
Lemma pf_pos e : 0 < zlen (line e).
Proof. rewrite line_len. unfold tail_len. nneg (e_name e). nneg (e_passwd e). nneg (e_uid e). nneg (e_gid e). nneg (e_gecos e). nneg (e_dir e). nneg (e_shell e). lia. Qed.
Lemma same_cmp a b r : Z.sgn r = lexcmp a b -> same b a = (r =? 0).
Proof.
  intros E. unfold same. destruct (list_eq_dec Z.eq_dec b a) as [H|H].
  - subst b. assert (K : lexcmp a a = 0) by now apply lexcmp_eq. lia.
  - assert (K : lexcmp a b <> 0) by (rewrite lexcmp_eq; congruence). lia.
Qed.

Lemma head_ok A n e r fuel m p : mask m p (line e ++ r) -> well_formed e -> A <= p -> p + zlen (line e) <= A + n -> n < Z.of_nat fuel ->
  exists m', token_s fuel m (A + n) p = Ok (m', p, p + zlen (e_name e) + 1) /\ nul A n m m' /\ str_at m' p (e_name e) /\
  mask m' (p + zlen (e_name e) + 1) (e_passwd e ++ 58 :: e_uid e ++ 58 :: e_gid e ++ 58 :: e_gecos e ++ 58 :: e_dir e ++ 58 :: e_shell e ++ 10 :: r).
Proof.
  intros M W HA HB Hf. rewrite line_shift in M. pose proof (line_len e) as L. pose proof (pf_pos e). unfold tail_len in L.
  nneg (e_name e). nneg (e_passwd e). nneg (e_uid e). nneg (e_gid e). nneg (e_gecos e). nneg (e_dir e). nneg (e_shell e).
  apply (tok A n _ fuel m p 58 _ M); [apply W|auto|lia|lia|fl].
Qed.

Section L.
Variables (A n : Z) (fuel : nat).
Hypothesis Hf : n < Z.of_nat fuel.

Lemma nam_loop_ok name l old : zlen l <= INT_MAX -> (length l < fuel)%nat -> outside A n name l ->
  forall es lines m p, es <> [] -> Forall well_formed es -> mask m p (passwd_file es) -> A <= p -> p + zlen (passwd_file es) = A + n -> (length es <= lines)%nat -> str_at m name l ->
  exists m' pw b, nam_loop lines fuel m (A + n) p name old = Ok (m', pw, b) /\ nul A n m m' /\
  match find (fun e => same (e_name e) l) es with Some e => b = true /\ holds m' pw e /\ A <= pw_name pw | None => b = false /\ pw = old end.
Proof.
  intros Hl Hl2 O. induction es as [|e es IH]; intros lines m p Hne W M HA HB Hk S; [congruence|]. clear Hne.
  apply Forall_cons_iff in W. destruct W as [W Ws]. rewrite pf_cons in *. rewrite zlen_app in HB. nneg (passwd_file es). pose proof (pf_pos e).
  cbn [length] in Hk. destruct lines as [|k]; [lia|]. cbn [nam_loop find].
  destruct (head_ok A n e _ fuel m p M W) as (m1 & E1 & N1 & S1 & M1); [lia|lia|exact Hf|]. rewrite E1, bind_Ok.
  pose proof (out_str _ _ _ _ _ _ N1 O S) as Sn.
  destruct (strcmp_ok l (e_name e) fuel m1 name p Sn S1 Hl Hl2) as (r & Er & Hr). rewrite Er, bind_Ok. rewrite (same_cmp _ _ _ Hr).
  destruct (r =? 0).
  - destruct (rest_ok A n e _ fuel m1 _ M1 W) as (m2 & pu & pg & p4 & m3 & pw & E2 & E3 & E4 & E5 & E6 & N2 & M2 & Ho).
    + nneg (e_name e). lia.
    + lia.
    + exact Hf.
    + replace (p + zlen (e_name e) + 1 - zlen (e_name e) - 1) with p by lia. exact S1.
    + rewrite E2, bind_Ok, E3, bind_Ok, E4, bind_Ok, E5, bind_Ok. exists m3. do 2 eexists. split; [reflexivity|]. split; [eauto using nul_trans|]. split; [reflexivity|]. split. {
      destruct Ho as (H1 & H2 & H3 & H4 & H5). destruct W as (_ & _ & _ & Wu & Wg & _).
      unfold holds. cbn [pw_name pw_passwd pw_uid pw_gid pw_gecos pw_dir pw_shell]. rewrite H3, H4, !u32_number by assumption.
      split; [replace p with (pw_name pw) by lia; exact H1|]. split; [exact H2|]. split; [reflexivity|]. split; [reflexivity|exact H5]. }
      cbn [pw_name]. lia.
  - destruct (skip_ok A n (skip6 e) fuel m1 (p + zlen (e_name e) + 1) (passwd_file es)) as (m2 & E2 & N2 & M2).
    + rewrite skip6_eq. exact M1.
    + now apply skip6_text.
    + nneg (e_name e). lia.
    + rewrite skip6_len. lia.
    + exact Hf.
    + change (length (skip6 e)) with 6%nat in E2. rewrite E2, bind_Ok. rewrite skip6_len in *.
      replace (p + zlen (e_name e) + 1 + (zlen (line e) - zlen (e_name e) - 1)) with (p + zlen (line e)) in * by lia.
      destruct es as [|e2 es].
      * cbn [passwd_file flat_map] in HB. change (zlen (@nil Z)) with 0 in HB. replace (p + zlen (line e) <? A + n) with false by lia. exists m2. do 2 eexists. split; [reflexivity|]. split; [eauto using nul_trans|]. cbn [find]. auto.
      * assert (0 < zlen (passwd_file (e2 :: es))) by (rewrite pf_cons, zlen_app; nneg (passwd_file es); pose proof (pf_pos e2); lia).
        replace (p + zlen (line e) <? A + n) with true by lia.
        destruct (IH k m2 (p + zlen (line e))) as (m3 & pw & b & E3 & N3 & R); [discriminate|exact Ws|exact M2|lia|lia|lia|now apply (out_str _ _ _ _ _ _ N2 O)|].
        exists m3, pw, b. split; [exact E3|]. split; [eauto using nul_trans|exact R].
Qed.

Lemma uid_loop_ok uid old :
  forall es lines m p, es <> [] -> Forall well_formed es -> mask m p (passwd_file es) -> A <= p -> p + zlen (passwd_file es) = A + n -> (length es <= lines)%nat ->
  exists m' pw b, uid_loop lines fuel m (A + n) p uid old = Ok (m', pw, b) /\ nul A n m m' /\
  match find (fun e => uid_of e =? uid) es with Some e => b = true /\ holds m' pw e /\ A <= pw_name pw | None => b = false /\ pw = old end.
Proof.
  induction es as [|e es IH]; intros lines m p Hne W M HA HB Hk; [congruence|]. clear Hne.
  apply Forall_cons_iff in W. destruct W as [W Ws]. rewrite pf_cons in *. rewrite zlen_app in HB. nneg (passwd_file es). pose proof (pf_pos e).
  cbn [length] in Hk. destruct lines as [|k]; [lia|]. cbn [uid_loop find].
  destruct (head_ok A n e _ fuel m p M W) as (m1 & E1 & N1 & S1 & M1); [lia|lia|exact Hf|]. rewrite E1, bind_Ok.
  destruct (rest_ok A n e _ fuel m1 _ M1 W) as (m2 & pu & pg & p4 & m3 & pw & E2 & E3 & E4 & E5 & E6 & N2 & M2 & Ho).
  - nneg (e_name e). lia.
  - lia.
  - exact Hf.
  - replace (p + zlen (e_name e) + 1 - zlen (e_name e) - 1) with p by lia. exact S1.
  - rewrite E2, bind_Ok, E3, bind_Ok. pose proof Ho as (H1 & H2 & H3 & H4 & H5). pose proof W as (_ & _ & W2 & Wu & Wg & _).
    unfold uid_of at 1. rewrite H3, u32_number by assumption. destruct (value 10 (e_uid e) =? uid).
    + rewrite E4, bind_Ok, E5, bind_Ok. exists m3. do 2 eexists. split; [reflexivity|]. split; [eauto using nul_trans|]. split; [reflexivity|]. split. {
      unfold holds. cbn [pw_name pw_passwd pw_uid pw_gid pw_gecos pw_dir pw_shell]. rewrite H4, !u32_number by assumption.
      split; [replace p with (pw_name pw) by lia; exact H1|]. split; [exact H2|]. split; [reflexivity|]. split; [reflexivity|exact H5]. }
      cbn [pw_name]. lia.
    + pose proof (line_len e) as L. unfold tail_len in L.
      nneg (e_name e). nneg (e_passwd e). nneg (e_uid e). nneg (e_gid e). nneg (e_gecos e). nneg (e_dir e). nneg (e_shell e).
      destruct (tok A n _ fuel m1 _ 58 _ M1 W2) as (m1' & E1' & N1' & S1' & M1'); [auto|lia|lia|fl|]. rewrite E2 in E1'. injection E1' as <- _ ->.
      destruct (toki (A + n) _ fuel m2 _ 58 _ M1' Wu) as (E3' & M3'); [auto|lia|fl|]. rewrite E3 in E3'. injection E3' as _ ->.
      destruct (skip_ok A n (skip4 e) fuel m2 (p + zlen (e_name e) + 1 + zlen (e_passwd e) + 1 + zlen (e_uid e) + 1) (passwd_file es)) as (m4 & E7 & N4 & M4).
      * rewrite skip4_eq. exact M3'.
      * now apply skip4_text.
      * lia.
      * rewrite skip4_len. unfold tail_len. lia.
      * exact Hf.
      * change (length (skip4 e)) with 4%nat in E7. rewrite E7, bind_Ok. rewrite skip4_len in *. unfold tail_len in E7, M4.
        replace (p + zlen (e_name e) + 1 + zlen (e_passwd e) + 1 + zlen (e_uid e) + 1 + (zlen (e_gid e) + 1 + tail_len e)) with (p + zlen (line e)) by (unfold tail_len; lia).
        match type of M4 with masked _ _ ?q _ => replace q with (p + zlen (line e)) in M4 by lia end.
        destruct es as [|e2 es].
        -- cbn [passwd_file flat_map] in HB. change (zlen (@nil Z)) with 0 in HB. replace (p + zlen (line e) <? A + n) with false by lia. exists m4. do 2 eexists. split; [reflexivity|]. split; [eauto using nul_trans|]. cbn [find]. auto.
        -- assert (0 < zlen (passwd_file (e2 :: es))) by (rewrite pf_cons, zlen_app; nneg (passwd_file es); pose proof (pf_pos e2); lia).
           replace (p + zlen (line e) <? A + n) with true by lia.
           destruct (IH k m4 (p + zlen (line e))) as (m5 & pw5 & b & E8 & N5 & R); [discriminate|exact Ws|exact M4|lia|lia|lia|].
           exists m5, pw5, b. split; [exact E8|]. split; [eauto using nul_trans|exact R].
Qed.
End L.
