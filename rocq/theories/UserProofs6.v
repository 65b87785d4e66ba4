From Coq Require Import ZifyBool.
From Verif Require Import Base BaseLemmas StrModel StrSpec StrProofs StrProofs2 ConvSpec UserModel UserSpec UserProofs UserProofs2 UserProofs3 UserProofs4 UserProofs5.

(* a line after the first visit *)
Definition zline (x : gentry) : list Z := x_name x ++ 0 :: x_passwd x ++ 0 :: x_gid x ++ 58 :: joinc 0 (x_members x) ++ [0].
Definition few (x : gentry) : Prop := zlen (x_members x) < 64.
Lemma ptrs_len l : forall p, zlen (ptrs p l) < 64 <-> zlen l < 64.
Proof.
  intros p. assert (H : zlen (ptrs p l) = Z.max 1 (zlen l)).
  { revert p. induction l as [|x [|y l] IH]; intros p; [reflexivity|reflexivity|]. change (ptrs p (x :: y :: l)) with (p :: ptrs (p + zlen x + 1) (y :: l)).
    rewrite zlen_cons, IH, (zlen_cons x). assert (1 <= zlen (y :: l)) by (rewrite zlen_cons; nneg l; lia). lia. }
  rewrite H. lia.
Qed.
Lemma gline_len x : zlen (gline x) = zlen (x_name x) + zlen (x_passwd x) + zlen (x_gid x) + zlen (joinc 0 (x_members x)) + 4.
Proof. unfold gline. rewrite joined_joinc. rewrite ?zlen_app, ?zlen_cons. repeat (rewrite zlen_app, zlen_cons). rewrite (joinc_len 44). change (zlen (@nil Z)) with 0. lia. Qed.
Lemma zline_len x : zlen (zline x) = zlen (gline x).
Proof. rewrite gline_len. unfold zline. rewrite ?zlen_app, ?zlen_cons. repeat (rewrite zlen_app, zlen_cons). change (zlen (@nil Z)) with 0. lia. Qed.
Lemma gline_pos x : 0 < zlen (gline x).
Proof. rewrite gline_len. nneg (x_name x). nneg (x_passwd x). nneg (x_gid x). nneg (joinc 0 (x_members x)). lia. Qed.
Lemma wfg_members x : well_formed_group x -> Forall gtext (x_members x).
Proof. intros (_ & _ & _ & _ & H). revert H. apply Forall_impl. tauto. Qed.
Lemma joinc_text l : Forall gtext l -> text [58; 10] (joinc 44 l).
Proof.
  induction l as [|x [|y l] IH]; intros F; [constructor| |]; apply Forall_cons_iff in F; destruct F as [F1 F2]; [now apply text_sub|].
  change (joinc 44 (x :: y :: l)) with (x ++ 44 :: joinc 44 (y :: l)). apply Forall_app. split; [now apply text_sub|]. constructor; [|now apply IH]. cbn [In]. lia.
Qed.

Ltac bapp H := apply bytes_at_app in H; let B := fresh "B" in destruct H as [B H]; cbn [bytes_at] in H; let C := fresh "C" in destruct H as [C H].
Ltac cut4 x := nneg (x_name x); nneg (x_passwd x); nneg (x_gid x); nneg (joinc 0 (x_members x)); pose proof (gline_len x).

Section N.
Variables (fuel : nat) (fe : Z).

(* name, password and gid of a line in either form; c, d: the separators *)
Lemma heads x m p c d r : bytes_at m p (x_name x ++ c :: x_passwd x ++ d :: x_gid x ++ 58 :: r) -> (c = 58 \/ c = 0) -> (d = 58 \/ d = 0) -> well_formed_group x ->
  p + zlen (x_name x) + zlen (x_passwd x) + zlen (x_gid x) + 2 < fe -> (length (x_name x) + length (x_passwd x) + length (x_gid x) + 1 < fuel)%nat ->
  exists m1 m2, token_s fuel m fe p = Ok (m1, p, p + zlen (x_name x) + 1) /\ (exists b, m1 p = Some b /\ (b =? 0) = false) /\
  token_s fuel m1 fe (p + zlen (x_name x) + 1) = Ok (m2, p + zlen (x_name x) + 1, p + zlen (x_name x) + zlen (x_passwd x) + 2) /\
  token_i fuel m2 fe (p + zlen (x_name x) + zlen (x_passwd x) + 2) = Ok (value 10 (x_gid x), p + zlen (x_name x) + zlen (x_passwd x) + zlen (x_gid x) + 3) /\
  same_outside m m2 p (zlen (x_name x) + zlen (x_passwd x) + 2) /\
  bytes_at m2 p (x_name x ++ 0 :: x_passwd x ++ 0 :: x_gid x ++ 58 :: r).
Proof.
  intros B Hc Hd (W0 & W1 & W2 & W3 & W4) Hfe Hf. nneg (x_name x). nneg (x_passwd x). nneg (x_gid x).
  destruct (gtok fe (x_name x) fuel m p c _ B (text_sub _ W1)) as (m1 & E1 & O1 & B1); [tauto|lia|lia|].
  pose proof B as B'. bapp B'.
  assert (BB : bytes_at m1 (p + zlen (x_name x) + 1) (x_passwd x ++ d :: x_gid x ++ 58 :: r)).
  { apply (bytes_at_ext m); [exact B'|]. intros z Hz. apply O1. lia. }
  destruct (gtok fe (x_passwd x) fuel m1 (p + zlen (x_name x) + 1) d _ BB (text_sub _ W2)) as (m2 & E2 & O2 & B2); [tauto|lia|lia|].
  pose proof BB as BB'. bapp BB'.
  assert (BC : bytes_at m2 (p + zlen (x_name x) + zlen (x_passwd x) + 2) (x_gid x ++ 58 :: r)).
  { replace (p + zlen (x_name x) + zlen (x_passwd x) + 2) with (p + zlen (x_name x) + 1 + zlen (x_passwd x) + 1) by lia. apply (bytes_at_ext m1); [exact BB'|]. intros z Hz. apply O2. lia. }
  destruct (toki fe (x_gid x) fuel m2 (p + zlen (x_name x) + zlen (x_passwd x) + 2) 58 r (masked_bytes spw _ _ _ BC) W3) as [E3 _]; [auto|lia|lia|].
  exists m1, m2. split; [exact E1|]. split; [|split; [|split; [|split]]].
  - destruct (x_name x) as [|b t]; [congruence|]. cbn [app bytes_at] in B1. exists b. split; [apply B1|]. apply Forall_cons_iff in W1. lia.
  - rewrite E2. f_equal. f_equal. lia.
  - rewrite E3. f_equal. f_equal. lia.
  - intros z Hz. rewrite O2 by lia. apply O1. lia.
  - apply bytes_at_app in B1. destruct B1 as [B1 C1]. cbn [bytes_at] in C1. apply bytes_at_app in B2. destruct B2 as [B2 C2]. cbn [bytes_at] in C2.
    apply bytes_at_app. split; [apply (bytes_at_ext m1); [exact B1|]; intros z Hz; apply O2; lia|]. cbn [bytes_at]. split; [rewrite O2 by lia; apply C1|].
    apply bytes_at_app. split; [exact B2|]. cbn [bytes_at]. split; [apply C2|].
    replace (p + zlen (x_name x) + 1 + zlen (x_passwd x) + 1) with (p + zlen (x_name x) + zlen (x_passwd x) + 2) by lia. exact BC.
Qed.

Lemma gh x m nm ps r : bytes_at m nm (x_name x ++ 0 :: r) -> (exists r2, bytes_at m ps (x_passwd x ++ 0 :: r2)) -> well_formed_group x ->
  forall mem, Forall2 (str_at m) mem (shown (x_members x)) -> gholds' m (mkgr nm ps (u32 (value 10 (x_gid x))) mem) x.
Proof.
  intros B1 [r2 B2] (W0 & W1 & W2 & W3 & W4) mem F. unfold gholds'. cbn [gr_name gr_passwd gr_gid gr_mem].
  split; [apply (bytes_str _ _ _ _ B1); now apply (text_range [58; 44; 10])|]. split; [apply (bytes_str _ _ _ _ B2); now apply (text_range [58; 44; 10])|].
  split; [now apply u32_number|]. unfold shown in F. destruct (x_members x); exact F.
Qed.

(* the first visit of a line *)
Lemma visit1 x m p gr t a0 : bytes_at m p (gline x) -> well_formed_group x -> few x -> p + zlen (gline x) <= fe -> fe <= t -> zlen (gline x) + 2 < Z.of_nat fuel ->
  room m t 8 -> rd64 m t = Ok 0 -> 0 <= p -> fe < 2 ^ 64 ->
  exists m' gr', next_group fuel (mkgrs m (mkudb a0 p t (fe - a0)) gr) = Ok (mkgrs m' (mkudb a0 (p + zlen (gline x)) (t + 8) (fe - a0)) gr', true) /\
  gholds' m' gr' x /\ bytes_at m' p (zline x) /\ rd64 m' t = Ok (p + zlen (gline x)) /\
  (forall z, ~ (p <= z < p + zlen (gline x)) -> ~ (t <= z < t + 8) -> m' z = m z).
Proof.
  intros B W Few Hp Ht Hf R Z0 Hp0 H64. cut4 x. unfold next_group. cbn [g_m g_db g_gr u_file u_p u_p2 u_size]. replace (a0 + (fe - a0)) with fe by lia. replace (fe <=? p) with false by lia.
  unfold gline in B. rewrite joined_joinc in B.
  destruct (heads x m p 58 58 _ B) as (m1 & m2 & E1 & (b & Hb1 & Hb2) & E2 & E3 & O & B2); [auto|auto|exact W|lia|unfold zlen in *; lia|].
  rewrite E1, bind_Ok, (load_some _ _ _ Hb1), bind_Ok, Hb2, E2, bind_Ok, E3, bind_Ok.
  assert (Erd : rd64 m2 t = Ok 0). { unfold rd64. rewrite (rdn_ext 8 m); [exact Z0|]. intros z Hz. apply O. lia. }
  rewrite Erd, bind_Ok. change (0 =? 0) with true. cbv iota.
  set (pm := p + zlen (x_name x) + zlen (x_passwd x) + zlen (x_gid x) + 3) in *.
  assert (Bm : bytes_at m2 pm (joinc 44 (x_members x) ++ [10])).
  { pose proof B2 as B3. bapp B3. bapp B3. bapp B3. unfold pm. replace (p + zlen (x_name x) + zlen (x_passwd x) + zlen (x_gid x) + 3) with (p + zlen (x_name x) + 1 + zlen (x_passwd x) + 1 + zlen (x_gid x) + 1) by lia. exact B3. }
  pose proof (joinc_len 44 (x_members x)) as JL. pose proof (wfg_members x W) as WM.
  destruct (gtok fe _ fuel m2 pm 10 [] Bm (joinc_text _ WM)) as (m3 & E4 & O3 & B3); [auto|lia|unfold zlen in *; lia|].
  rewrite E4, bind_Ok.
  destruct (m1_ok (pm + zlen (joinc 44 (x_members x)) + 1) (x_members x) fuel m3 pm [] [] B3 WM eq_refl) as (m4 & E5 & O4 & B4); [unfold zlen in *; lia|change (zlen (@nil Z)) with 0; apply (ptrs_len (x_members x) pm); exact Few|].
  rewrite E5, bind_Ok. cbn [app].
  assert (Epl : pm + zlen (joinc 44 (x_members x)) + 1 = p + zlen (gline x)) by lia. rewrite Epl.
  assert (R4 : room m4 t 8). { intros z Hz. rewrite O4, O3, O by lia. apply R. lia. }
  destruct (wrn_ok 8 m4 t (p + zlen (gline x)) R4) as (m5 & E6 & O6 & Rd); [change (256 ^ Z.of_nat 8) with (2 ^ 64); lia|].
  unfold wr64. rewrite E6, bind_Ok. change (Z.of_nat 8) with 8 in O6.
  (* the bytes of the line now *)
  assert (BZ : bytes_at m5 p (zline x)).
  { unfold zline. bapp B2. bapp B2. bapp B2.
    apply bytes_at_app. split; [apply (bytes_at_ext m2); [exact B0|]; intros z Hz; rewrite O6, O4, O3 by lia; reflexivity|]. cbn [bytes_at]. split; [rewrite O6, O4, O3 by lia; exact C|].
    apply bytes_at_app. split; [apply (bytes_at_ext m2); [exact B1|]; intros z Hz; rewrite O6, O4, O3 by lia; reflexivity|]. cbn [bytes_at]. split; [rewrite O6, O4, O3 by lia; exact C0|].
    apply bytes_at_app. split; [apply (bytes_at_ext m2); [exact B5|]; intros z Hz; rewrite O6, O4, O3 by lia; reflexivity|]. cbn [bytes_at]. split; [rewrite O6, O4, O3 by lia; exact C1|].
    replace (p + zlen (x_name x) + 1 + zlen (x_passwd x) + 1 + zlen (x_gid x) + 1) with pm by (unfold pm; lia).
    apply (bytes_at_ext m4); [exact B4|]. intros z Hz. rewrite zlen_app in Hz. change (zlen [0]) with 1 in Hz. rewrite O6 by lia. reflexivity. }
  eexists. eexists. split; [reflexivity|]. split; [|split; [exact BZ|split; [exact Rd|]]].
  - pose proof BZ as B7. unfold zline in B7. pose proof B7 as B8. bapp B8. pose proof B8 as B9. bapp B9. bapp B9.
    apply (gh x _ _ _ _ B7); [eexists; exact B8|exact W|].
    apply (ptrs_str m5 (x_members x) pm []); [exact WM|]. replace pm with (p + zlen (x_name x) + 1 + zlen (x_passwd x) + 1 + zlen (x_gid x) + 1) by (unfold pm; lia). exact B9.
  - intros z Hz1 Hz2. rewrite O6, O4, O3, O by lia. reflexivity.
Qed.

(* a later visit *)
Lemma visit2 x m p gr t a0 : bytes_at m p (zline x) -> well_formed_group x -> few x -> p + zlen (gline x) <= fe -> fe <= t -> zlen (gline x) + 2 < Z.of_nat fuel ->
  rd64 m t = Ok (p + zlen (gline x)) -> 0 <= p ->
  exists m' gr', next_group fuel (mkgrs m (mkudb a0 p t (fe - a0)) gr) = Ok (mkgrs m' (mkudb a0 (p + zlen (gline x)) (t + 8) (fe - a0)) gr', true) /\
  gholds' m' gr' x /\ bytes_at m' p (zline x) /\ (forall z, ~ (p <= z < p + zlen (gline x)) -> m' z = m z).
Proof.
  intros B W Few Hp Ht Hf Rd Hp0. cut4 x. unfold next_group. cbn [g_m g_db g_gr u_file u_p u_p2 u_size]. replace (a0 + (fe - a0)) with fe by lia. replace (fe <=? p) with false by lia.
  unfold zline in B.
  destruct (heads x m p 0 0 _ B) as (m1 & m2 & E1 & (b & Hb1 & Hb2) & E2 & E3 & O & B2); [auto|auto|exact W|lia|unfold zlen in *; lia|].
  rewrite E1, bind_Ok, (load_some _ _ _ Hb1), bind_Ok, Hb2, E2, bind_Ok, E3, bind_Ok.
  assert (Erd : rd64 m2 t = Ok (p + zlen (gline x))). { unfold rd64. rewrite (rdn_ext 8 m); [exact Rd|]. intros z Hz. apply O. lia. }
  rewrite Erd, bind_Ok. replace (p + zlen (gline x) =? 0) with false by lia.
  set (pm := p + zlen (x_name x) + zlen (x_passwd x) + zlen (x_gid x) + 3) in *. pose proof (wfg_members x W) as WM.
  assert (Bm : bytes_at m2 pm (joinc 0 (x_members x) ++ [0])).
  { pose proof B2 as B3. bapp B3. bapp B3. bapp B3. unfold pm. replace (p + zlen (x_name x) + zlen (x_passwd x) + zlen (x_gid x) + 3) with (p + zlen (x_name x) + 1 + zlen (x_passwd x) + 1 + zlen (x_gid x) + 1) by lia. exact B3. }
  destruct (m2_ok fe (p + zlen (gline x)) fuel m2 (x_members x) fuel pm [] [] Bm WM) as (m4 & E5 & O4); [lia|lia|unfold zlen in *; lia| |change (zlen (@nil Z)) with 0; apply (ptrs_len (x_members x) pm); exact Few|].
  { assert (L : (length (x_members x) <= length (joinc 0 (x_members x)) + 1)%nat).
    { clear. induction (x_members x) as [|y [|z l] IH]; [cbn; lia|cbn; lia|]. change (joinc 0 (y :: z :: l)) with (y ++ 0 :: joinc 0 (z :: l)). rewrite app_length. cbn [length] in *. lia. }
    unfold zlen in *. lia. }
  rewrite E5, bind_Ok. cbn [app].
  assert (BZ : bytes_at m4 p (zline x)). { apply (bytes_at_ext m2); [exact B2|]. intros z _. apply O4. }
  eexists. eexists. split; [reflexivity|]. split; [|split; [exact BZ|]].
  - pose proof BZ as B7. unfold zline in B7. pose proof B7 as B8. bapp B8. pose proof B8 as B9. bapp B9. bapp B9.
    apply (gh x _ _ _ _ B7); [eexists; exact B8|exact W|].
    apply (ptrs_str m4 (x_members x) pm []); [exact WM|]. replace pm with (p + zlen (x_name x) + 1 + zlen (x_passwd x) + 1 + zlen (x_gid x) + 1) by (unfold pm; lia). exact B9.
  - intros z Hz1. rewrite O4, O by lia. reflexivity.
Qed.
End N.
