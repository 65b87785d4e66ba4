From Verif Require Import Base BaseLemmas StrModel StrSpec StrProofs StrProofs2 EnvModel EnvSpec.
From Coq Require Import Lia.

Lemma str_eqb_refl : forall a, str_eqb a a = true.
Proof. intros. unfold str_eqb. destruct (list_eq_dec Z.eq_dec a a); congruence. Qed.
Lemma str_eqb_neq : forall a b, a <> b -> str_eqb a b = false.
Proof. intros. unfold str_eqb. destruct (list_eq_dec Z.eq_dec a b); congruence. Qed.
Lemma text_ok : forall v, var_ok v -> bytes_ok (text v).
Proof.
  intros v ((H1 & _) & H2 & _). unfold text. apply Forall_app. split; auto. constructor; [lia|auto].
Qed.
Lemma zlen_text : forall v, zlen (text v) = zlen (fst v) + 1 + zlen (snd v).
Proof. intros. unfold text. rewrite zlen_app, zlen_cons. lia. Qed.

(* ---- mismatch ---- *)
Lemma mismatch_ok : forall nm vl n fuel m p q b,
  str_at m (p + b) (nm ++ 61 :: vl) -> str_at m (q + b) n -> ~ In 61 nm -> ~ In 61 n ->
  0 <= b -> b + zlen nm < INT_MAX -> (length nm < fuel)%nat ->
  exists b' x y, mismatch fuel m p q b = Ok (b', x, y) /\
    ((nm = n /\ x = 61 /\ y = 0 /\ b' = b + zlen nm) \/
     (nm <> n /\ ~ (x = 61 /\ y = 0) /\ (x = 61 -> prefix nm n))).
Proof.
  induction nm as [|c nm IH]; intros vl n fuel m p q b Hp Hq Hnm Hn Hb Hl Hf; destruct fuel as [|fuel]; cbn [length] in Hf; try lia; cbn [mismatch].
  - cbn [app str_at] in Hp. destruct Hp as (Hp & _ & _). rewrite (load_some _ _ _ Hp). cbn [bind].
    destruct n as [|d n]; cbn [str_at] in Hq.
    + rewrite (load_some _ _ _ Hq). cbn [bind]. cbn. exists b, 61, 0. split; [reflexivity|]. left. zl. repeat split; lia.
    + destruct Hq as (Hq & Hd & _). rewrite (load_some _ _ _ Hq). cbn [bind].
      assert (d <> 61) by (intros ->; apply Hn; now left).
      replace (61 =? d) with false by lia. exists b, 61, d. split; [reflexivity|]. right. split; [discriminate|].
      split; [lia|]. intros _. now exists (d :: n).
  - cbn [app str_at] in Hp. destruct Hp as (Hp & Hc & Hp'). rewrite (load_some _ _ _ Hp). cbn [bind].
    assert (c <> 61) by (intros ->; apply Hnm; now left). nneg nm. rewrite zlen_cons in Hl.
    destruct n as [|d n]; cbn [str_at] in Hq.
    + rewrite (load_some _ _ _ Hq). cbn [bind]. replace (c =? 0) with false by lia.
      exists b, c, 0. split; [reflexivity|]. right. split; [discriminate|]. split; lia.
    + destruct Hq as (Hq & Hd & Hq'). rewrite (load_some _ _ _ Hq). cbn [bind].
      destruct (Z.eqb_spec c d).
      * subst d. rewrite iop_ok by (unfold INT_MIN, INT_MAX in *; lia). cbn [bind].
        destruct (IH vl n fuel m p q (b + 1)) as (b' & x & y & E & HH); auto; try lia.
        { now rewrite Z.add_assoc. } { now rewrite Z.add_assoc. }
        { intros K. apply Hnm. now right. } { intros K. apply Hn. now right. }
        exists b', x, y. split; [exact E|]. destruct HH as [(-> & -> & -> & ->)|(N & N1 & N2)].
        -- left. rewrite zlen_cons. repeat split; lia.
        -- right. split; [congruence|]. split; [exact N1|]. intros K. destruct (N2 K) as (t & ->). now exists t.
      * exists b, c, d. split; [reflexivity|]. right. split; [congruence|]. split; lia.
Qed.

Definition ents (m : mem) := Forall2 (fun p v => p <> 0 /\ str_at m p (text v) /\ var_ok v).
Definition big (fuel : nat) (vs : list var) := Forall (fun v : var => (length (text v) < fuel)%nat) vs.
Lemma len_text : forall v : var, length (text v) = (length (fst v) + 1 + length (snd v))%nat.
Proof. intros. unfold text. rewrite app_length. cbn [length]. lia. Qed.

Lemma mismatch_var : forall v n fuel m p q, p <> 0 /\ str_at m p (text v) /\ var_ok v -> str_at m q n -> ~ In 61 n ->
  (length (text v) < fuel)%nat ->
  exists b' x y, mismatch fuel m p q 0 = Ok (b', x, y) /\
    ((fst v = n /\ x = 61 /\ y = 0 /\ b' = zlen n) \/
     (fst v <> n /\ ~ (x = 61 /\ y = 0) /\ (x = 61 -> prefix (fst v) n))).
Proof.
  intros v n fuel m p q (Hp & Hv & Ho) Hq Hn Hf. rewrite len_text in Hf.
  destruct Ho as ((Ho1 & Ho2 & Ho3) & Ho4 & Ho5). nneg (snd v).
  destruct (mismatch_ok (fst v) (snd v) n fuel m p q 0) as (b & x & y & E & H1); auto; try lia.
  { now rewrite Z.add_0_r. } { now rewrite Z.add_0_r. }
  exists b, x, y. split; [exact E|]. destruct H1 as [(-> & -> & -> & ->)|H1]; auto.
Qed.

(* ---- getenv ---- *)
(* pointer to the value of the first variable called n *)
Fixpoint value_ptr (n : str) (ps : list Z) (vs : list var) : Z :=
  match ps, vs with
  | p :: ps, v :: vs => if str_eqb (fst v) n then p + zlen n + 1 else value_ptr n ps vs
  | _, _ => 0
  end.
Lemma getenv_loop_ok : forall ps vs efuel fuel m env q n a,
  ents m ps vs -> bytes_at env a (ps ++ [0]) -> str_at m q n -> ~ In 61 n ->
  0 <= a -> a + zlen ps < INT_MAX -> big fuel vs -> (length ps < efuel)%nat ->
  getenv_loop efuel fuel m env q a = Ok (value_ptr n ps vs).
Proof.
  induction ps as [|p ps IH]; intros vs efuel fuel m env q n a He Hb Hq Hn Ha Hl Hbig Hf;
    (destruct efuel as [|efuel]; [cbn [length] in Hf; lia|]); cbn [getenv_loop app bytes_at length] in *; destruct Hb as [Hb Hb'].
  - rewrite (load_some _ _ _ Hb). reflexivity.
  - inversion He as [|? v ? vs' Hpv He']; subst. apply Forall_cons_iff in Hbig as [Hbv Hbig].
    rewrite (load_some _ _ _ Hb). cbn [bind]. replace (p =? 0) with false by (destruct Hpv; lia).
    rewrite zlen_cons in Hl. nneg ps.
    destruct (mismatch_var v n fuel m p q) as (b & x & y & E & HH); auto. rewrite E. cbn [bind value_ptr].
    destruct HH as [(<- & -> & -> & ->)|(N & N1 & N2)].
    + rewrite str_eqb_refl. cbn. f_equal. lia.
    + rewrite (str_eqb_neq _ _ N). replace ((x =? 61) && (y =? 0)) with false by lia.
      rewrite iop_ok by (unfold INT_MIN, INT_MAX in *; lia). cbn [bind]. apply IH; auto; lia.
Qed.
Lemma value_ptr_ok : forall ps vs m n, ents m ps vs -> n <> [] ->
  match lookup n vs with Some v => str_at m (value_ptr n ps vs) v | None => value_ptr n ps vs = 0 end.
Proof.
  intros ps vs m n He Hn. induction He as [|p v ps vs (Hp & Hv & Ho) He IH]; cbn [lookup value_ptr]; auto.
  destruct (str_eqb (fst v) n) eqn:E; auto.
  unfold str_eqb in E. destruct (list_eq_dec Z.eq_dec (fst v) n) as [<-|]; [|discriminate].
  unfold text in Hv. apply str_at_app in Hv; [|apply Ho]. destruct Hv as (_ & Hv). cbn [str_at] in Hv. apply Hv.
Qed.

(* ---- replacing or appending a variable ---- *)
Fixpoint setv (n : str) (v : str) (vs : list var) : list var :=
  match vs with
  | [] => [(n, v)]
  | x :: r => if str_eqb (fst x) n then (n, v) :: r else x :: setv n v r
  end.
Fixpoint setp (n : str) (s : Z) (ps : list Z) (vs : list var) : list Z :=
  match ps, vs with
  | p :: ps, x :: vs => if str_eqb (fst x) n then s :: ps else p :: setp n s ps vs
  | _, _ => [s]
  end.
Lemma str_eqb_true : forall a b, str_eqb a b = true -> a = b.
Proof. intros a b H. unfold str_eqb in H. destruct (list_eq_dec Z.eq_dec a b); congruence. Qed.
Lemma setv_same : forall n v vs, lookup n (setv n v vs) = Some v.
Proof.
  induction vs as [|x vs IH]; cbn [setv lookup fst snd].
  - now rewrite str_eqb_refl.
  - destruct (str_eqb (fst x) n) eqn:E; cbn [lookup fst snd]; [now rewrite str_eqb_refl|]. now rewrite E.
Qed.
Lemma setv_other : forall n v vs x, x <> n -> lookup x (setv n v vs) = lookup x vs.
Proof.
  intros n v vs x Hx. induction vs as [|y vs IH]; cbn [setv lookup fst snd].
  - now rewrite str_eqb_neq by auto.
  - destruct (str_eqb (fst y) n) eqn:E; cbn [lookup fst snd].
    + apply str_eqb_true in E. subst. now rewrite str_eqb_neq by auto.
    + now rewrite IH.
Qed.
Lemma setv_names : forall n v vs, map fst (setv n v vs) =
  map fst vs ++ (match lookup n vs with Some _ => [] | None => [n] end).
Proof.
  induction vs as [|x vs IH]; cbn [setv lookup map fst app]; auto.
  destruct (str_eqb (fst x) n) eqn:E; cbn [map fst app].
  - apply str_eqb_true in E. subst. now rewrite app_nil_r.
  - now rewrite IH.
Qed.
Lemma set_ents : forall m n s v ps vs, ents m ps vs -> s <> 0 -> str_at m s (text (n, v)) -> var_ok (n, v) ->
  ents m (setp n s ps vs) (setv n v vs).
Proof.
  intros m n s v ps vs He Hs Ht Hv. induction He as [|p x ps vs Hpx He IH]; cbn [setp setv].
  - constructor; [auto|constructor].
  - destruct (str_eqb (fst x) n); constructor; auto.
Qed.
Lemma zlen_setp : forall m n s ps vs, ents m ps vs ->
  zlen (setp n s ps vs) = zlen ps + (match lookup n vs with Some _ => 0 | None => 1 end).
Proof.
  intros m n s ps vs He. induction He as [|p x ps vs Hpx He IH]; cbn [setp lookup]; zl; auto.
  destruct (str_eqb (fst x) n); zl; [lia|]. rewrite IH. lia.
Qed.
Lemma setp_new : forall m n s ps vs, ents m ps vs -> lookup n vs = None -> setp n s ps vs = ps ++ [s].
Proof.
  intros m n s ps vs He. induction He as [|p x ps vs Hpx He IH]; cbn [setp lookup]; intros H; auto.
  destruct (str_eqb (fst x) n); [discriminate|]. cbn [app]. f_equal; auto.
Qed.

Lemma firstn_prefix : forall (n t : str), firstn (length n) t = n <-> prefix n t.
Proof.
  intros. split.
  - intros H. exists (skipn (length n) t). rewrite <- H at 1. symmetry. apply firstn_skipn.
  - intros (r & ->). rewrite firstn_app, firstn_all, Nat.sub_diag. cbn. apply app_nil_r.
Qed.
Lemma prefix_text : forall n v, ~ In 61 n -> prefix n (text v) -> prefix n (fst v).
Proof.
  intros n [nm vl] Hn (t & E). unfold text in E. cbn [fst snd] in *. revert n Hn E.
  induction nm as [|c nm IH]; intros n Hn E; cbn [app] in E.
  - destruct n as [|d n]; [exists []; reflexivity|]. cbn [app] in E. injection E as <- _. exfalso. apply Hn. now left.
  - destruct n as [|d n]; [now exists (c :: nm)|]. cbn [app] in E. injection E as <- E.
    destruct (IH n) as (u & ->); auto. { intros K. apply Hn. now right. } now exists u.
Qed.
Lemma find_slot_ok : forall ps vs efuel fuel m env s n rest a,
  ents m ps vs -> bytes_at env a (ps ++ [0]) -> str_at m s (n ++ rest) -> name_ok n -> zlen n <= INT_MAX ->
  (forall x, In x vs -> prefix n (fst x) -> fst x = n) ->
  big fuel vs -> (length ps < efuel)%nat ->
  exists j found, find_slot efuel fuel m env s (zlen n) a = Ok (j, found)
    /\ found = (match lookup n vs with Some _ => true | None => false end)
    /\ a <= j <= a + zlen ps
    /\ (found = true -> forall d, bytes_at (upd env j d) a (setp n d ps vs ++ [0]))
    /\ (found = false -> j = a + zlen ps).
Proof.
  induction ps as [|p ps IH]; intros vs efuel fuel m env s n rest a He Hb Hs Hn Hl Hpre Hbig Hf;
    (destruct efuel as [|efuel]; [cbn [length] in Hf; lia|]); cbn [find_slot app bytes_at length] in *; destruct Hb as [Hb Hb'].
  - inversion He; subst. rewrite (load_some _ _ _ Hb). cbn [bind]. cbn. exists a, false. zl. repeat split; try lia; discriminate.
  - inversion He as [|? v ? vs' Hpv He']; subst. apply Forall_cons_iff in Hbig as [Hbv Hbig].
    rewrite (load_some _ _ _ Hb). cbn [bind]. destruct Hpv as (Hp0 & Hpt & Hpo). replace (p =? 0) with false by lia.
    nneg n. nneg ps.
    destruct (strncmp_ok (text v) (n ++ rest) fuel m p s (zlen n)) as (r & E & Hr); auto using str_at_src_ok; try lia.
    rewrite E. cbn [bind]. rewrite zlen_nat in Hr. rewrite (firstn_app (length n) n), firstn_all, Nat.sub_diag in Hr.
    cbn [firstn] in Hr. rewrite app_nil_r in Hr.
    cbn [lookup setp]. destruct (Z.eqb_spec r 0) as [R|R].
    + subst r. change (Z.sgn 0) with 0 in Hr. symmetry in Hr. apply lexcmp_eq in Hr. apply firstn_prefix in Hr.
      apply prefix_text in Hr; [|apply Hn]. apply Hpre in Hr; [|now left]. subst n. rewrite str_eqb_refl.
      exists a, true. rewrite zlen_cons. repeat split; try lia; try discriminate.
      * apply upd_same.
      * apply bytes_at_upd; auto. lia.
    + assert (N : fst v <> n).
      { intros <-. apply R. assert (K : firstn (length (fst v)) (text v) = fst v) by (apply firstn_prefix; now exists (61 :: snd v)).
        rewrite K in Hr. assert (K2 : lexcmp (fst v) (fst v) = 0) by now apply lexcmp_eq. rewrite K2 in Hr.
        destruct r; cbn in Hr; congruence. }
      rewrite (str_eqb_neq _ _ N).
      destruct (IH vs' efuel fuel m env s n rest (a + 1)) as (j & found & E1 & E2 & E3 & E4 & E5); auto; try lia.
      { intros x Hx. apply Hpre. now right. }
      exists j, found. rewrite zlen_cons. split; [exact E1|]. split; [exact E2|]. split; [lia|]. split.
      * intros Hfd d. cbn [app bytes_at]. split; [|now apply E4]. rewrite upd_other by lia. exact Hb.
      * intros Hfd. specialize (E5 Hfd). lia.
Qed.
Lemma putenv_pos_ok : forall n v fuel m s pos, str_at m (s + pos) (n ++ 61 :: v) -> ~ In 61 n -> 0 <= pos ->
  pos + zlen n <= INT_MAX -> (length n < fuel)%nat -> putenv_pos fuel m s pos = Ok (pos + zlen n).
Proof.
  induction n as [|c n IH]; intros v fuel m s pos Hs Hn Hp Hl Hf; destruct fuel as [|fuel]; cbn [length] in Hf; try lia;
    cbn [putenv_pos app str_at] in *; destruct Hs as (Hs & Hc & Hs').
  - rewrite (load_some _ _ _ Hs). cbn [bind]. cbn. zl. f_equal. lia.
  - rewrite (load_some _ _ _ Hs). cbn [bind]. assert (c <> 61) by (intros ->; apply Hn; now left).
    rewrite zlen_cons in *. nneg n.
    replace (negb (c =? 0) && negb (c =? 61)) with true by lia.
    rewrite iop_ok by (unfold INT_MIN, INT_MAX in *; lia). cbn [bind].
    rewrite (IH v); auto; try lia.
    + f_equal. lia.
    + now rewrite Z.add_assoc.
    + intros K. apply Hn. now right.
Qed.
Lemma putenv_pos_none : forall t fuel m s pos, str_at m (s + pos) t -> ~ In 61 t -> 0 <= pos ->
  pos + zlen t <= INT_MAX -> (length t < fuel)%nat -> putenv_pos fuel m s pos = Ok (pos + zlen t).
Proof.
  induction t as [|c t IH]; intros fuel m s pos Hs Hn Hp Hl Hf; destruct fuel as [|fuel]; cbn [length] in Hf; try lia;
    cbn [putenv_pos str_at] in *.
  - rewrite (load_some _ _ _ Hs). cbn [bind]. cbn. zl. f_equal. lia.
  - destruct Hs as (Hs & Hc & Hs'). rewrite (load_some _ _ _ Hs). cbn [bind]. assert (c <> 61) by (intros ->; apply Hn; now left).
    rewrite zlen_cons in *. nneg t.
    replace (negb (c =? 0) && negb (c =? 61)) with true by lia.
    rewrite iop_ok by (unfold INT_MIN, INT_MAX in *; lia). cbn [bind].
    rewrite IH; auto; try lia.
    + f_equal. lia.
    + now rewrite Z.add_assoc.
    + intros K. apply Hn. now right.
Qed.
Lemma env_write : forall m env cap n s v ps vs j found,
  env_at m env cap ps vs -> zlen ps + 2 <= cap -> zlen ps + 1 < INT_MAX -> s <> 0 -> var_ok (n, v) ->
  forall m', str_at m' s (text (n, v)) -> ents m' ps vs ->
  found = (match lookup n vs with Some _ => true | None => false end) ->
  0 <= j <= 0 + zlen ps ->
  (found = true -> forall d, bytes_at (upd env j d) 0 (setp n d ps vs ++ [0])) ->
  (found = false -> j = 0 + zlen ps) ->
  exists env1, store env j s = Ok env1 /\
   (found = true -> env_at m' env1 cap (setp n s ps vs) (setv n v vs)) /\
   (found = false -> exists env2, store env1 (j + 1) 0 = Ok env2 /\ env_at m' env2 cap (setp n s ps vs) (setv n v vs)).
Proof.
  intros m env cap n s v ps vs j found (He & Hb & Hr & Hl) Hc Hl1 Hs Hv m' Ht He' Hfd Hj H1 H2.
  rewrite (store_room env 0 cap) by (auto; lia). eexists. split; [reflexivity|].
  pose proof (zlen_setp m' n s ps vs He') as ZS. split.
  - intros F. split; [now apply set_ents|]. split; [now apply H1|]. split; [now apply room_upd|].
    rewrite ZS. destruct (lookup n vs); lia.
  - intros F. rewrite (store_room (upd env j s) 0 cap) by (try apply room_upd; auto; lia). eexists. split; [reflexivity|].
    specialize (H2 F). assert (L : lookup n vs = None) by (destruct (lookup n vs); congruence).
    split; [now apply set_ents|]. split; [|split; [now repeat apply room_upd|rewrite ZS, L; lia]].
    rewrite (setp_new m' n s ps vs He' L). nneg ps. apply bytes_at_app in Hb as [Hb _]. rewrite <- app_assoc. apply bytes_at_app.
    split; [apply bytes_at_upd; [apply bytes_at_upd; auto|]; lia|].
    cbn [app bytes_at]. rewrite H2. split; [|split; auto].
    + rewrite upd_other by lia. apply upd_same.
    + apply upd_same.
Qed.
Lemma putenv_ok : forall efuel fuel m env cap ps vs s n v,
  env_at m env cap ps vs -> zlen ps + 2 <= cap -> zlen ps + 1 < INT_MAX -> s <> 0 -> str_at m s (text (n, v)) -> var_ok (n, v) ->
  (forall x, In x vs -> prefix n (fst x) -> fst x = n) ->
  big fuel vs -> (length (text (n, v)) < fuel)%nat -> (length ps < efuel)%nat ->
  exists env', putenv efuel fuel m env s = Ok (env', 0) /\ env_at m env' cap (setp n s ps vs) (setv n v vs).
Proof.
  intros efuel fuel m env cap ps vs s n v He Hc Hl Hs Ht Hv Hpre Hbig Hf Hef. pose proof He as (He1 & He2 & He3 & He4).
  destruct Hv as (Hv1 & Hv2 & Hv3). cbn [fst snd] in *. nneg v. rewrite len_text in Hf. cbn [fst snd] in Hf.
  unfold putenv, text in *. cbn [fst snd] in *.
  rewrite (putenv_pos_ok n v); auto; try (unfold INT_MAX in *; lia); [|now rewrite Z.add_0_r|apply Hv1].
  cbn [bind]. rewrite Z.add_0_l. pose proof Ht as Ht'. apply str_at_app in Ht' as (_ & Ht'); [|apply Hv1].
  cbn [str_at] in Ht'. destruct Ht' as (Ht' & _). rewrite (load_some _ _ _ Ht'). cbn [bind].
  assert (0 < zlen n) by (destruct Hv1 as (_ & _ & K); destruct n; [congruence|rewrite zlen_cons; nneg n; lia]).
  replace ((zlen n =? 0) || (61 =? 0)) with false by lia.
  destruct (find_slot_ok ps vs efuel fuel m env s n (61 :: v) 0) as (j & found & E1 & E2 & E3 & E4 & E5); auto; try (unfold INT_MAX in *; lia).
  rewrite E1. cbn [bind].
  destruct (env_write m env cap n s v ps vs j found) with (m' := m) as (env1 & W1 & W2 & W3); auto; try now split.
  rewrite W1. cbn [bind]. destruct found.
  - exists env1. auto.
  - destruct W3 as (env2 & W3 & W4); auto. rewrite W3. cbn [bind]. exists env2. auto.
Qed.

(* ---- removing a variable ---- *)
Fixpoint delv (n : str) (vs : list var) : list var :=
  match vs with [] => [] | x :: r => if str_eqb (fst x) n then r else x :: delv n r end.
Fixpoint delp (n : str) (ps : list Z) (vs : list var) : list Z :=
  match ps, vs with
  | p :: ps, x :: vs => if str_eqb (fst x) n then ps else p :: delp n ps vs
  | _, _ => []
  end.
Definition keeps (m m' : mem) := forall x, m x <> None -> m' x <> None.
Lemma keeps_upd : forall m a v, keeps m (upd m a v).
Proof. intros m a v x Hx. unfold upd. destruct (x =? a); [discriminate|auto]. Qed.
Lemma shift_down_ok : forall ps efuel env a x, bytes_at env a (x :: ps ++ [0]) -> ~ In 0 ps -> (length ps < efuel)%nat ->
  exists env', shift_down efuel env a (a + 1) = Ok (env', a + zlen ps)
    /\ bytes_at env' a (ps ++ [0; 0]) /\ same_outside env env' a (zlen ps + 1) /\ keeps env env'.
Proof.
  induction ps as [|p ps IH]; intros efuel env a x Hb Hz Hf; (destruct efuel as [|efuel]; [cbn [length] in Hf; lia|]);
    cbn [shift_down app bytes_at length] in *; destruct Hb as (Hb & Hb1 & Hb2); rewrite (load_some _ _ _ Hb1); cbn [bind];
    rewrite (store_some _ _ _ _ Hb); cbn [bind].
  - cbn. eexists. split; [zl; rewrite Z.add_0_r; reflexivity|]. split.
    + split; [apply upd_same|]. split; auto. rewrite upd_other by lia. auto.
    + split; [apply same_outside_upd; zl; lia|apply keeps_upd].
  - assert (p <> 0) by (intros ->; apply Hz; now left). replace (p =? 0) with false by lia.
    destruct (IH efuel (upd env a p) (a + 1) p) as (env' & E1 & E2 & E3 & E4); try lia.
    { cbn [bytes_at]. split; [rewrite upd_other by lia; auto|]. apply bytes_at_upd; auto. lia. }
    { intros K. apply Hz. now right. }
    exists env'. rewrite zlen_cons. nneg ps. split; [rewrite E1; do 2 f_equal; lia|]. split.
    + split; auto. rewrite E3 by lia. apply upd_same.
    + split; [intros y Hy; rewrite E3 by lia; apply upd_other; lia|]. intros y Hy. apply E4. now apply keeps_upd.
Qed.
Lemma ents_nz : forall m ps vs, ents m ps vs -> ~ In 0 ps.
Proof. intros m ps vs H. induction H as [|p x ps vs (Hp & _) H IH]; cbn; [tauto|]. intros [K|K]; auto. Qed.
Lemma unsetenv_loop_ok : forall ps vs efuel fuel m env q n a,
  ents m ps vs -> bytes_at env a (ps ++ [0]) -> str_at m q n -> ~ In 61 n ->
  (forall x, In x vs -> prefix (fst x) n -> fst x = n) ->
  big fuel vs -> (length ps < efuel)%nat ->
  exists env', unsetenv_loop efuel fuel m env q a = Ok env' /\ bytes_at env' a (delp n ps vs ++ [0])
    /\ same_outside env env' a (zlen ps) /\ keeps env env'.
Proof.
  induction ps as [|p ps IH]; intros vs efuel fuel m env q n a He Hb Hq Hn Hpre Hbig Hf;
    (destruct efuel as [|efuel]; [cbn [length] in Hf; lia|]); cbn [unsetenv_loop app length] in *; pose proof Hb as Hb0; cbn [bytes_at] in Hb; destruct Hb as [Hb Hb'].
  - rewrite (load_some _ _ _ Hb). cbn [bind]. cbn. exists env. split; [reflexivity|]. split; [split; auto|]. split; [apply same_outside_refl|]. intros x Hx; exact Hx.
  - inversion He as [|? v ? vs' Hpv He']; subst. apply Forall_cons_iff in Hbig as [Hbv Hbig].
    rewrite (load_some _ _ _ Hb). cbn [bind]. replace (p =? 0) with false by (destruct Hpv; lia).
    rewrite zlen_cons. nneg ps.
    destruct (mismatch_var v n fuel m p q) as (b & x & y & E & HH); auto. rewrite E. cbn [bind delp].
    destruct HH as [(<- & -> & -> & ->)|(N & N1 & N2)].
    + rewrite str_eqb_refl. cbn [Z.eqb Pos.eqb].
      destruct (shift_down_ok ps (S efuel) env a p) as (env' & E1 & E2 & E3 & EK); auto; try lia. { eapply ents_nz; eauto. }
      change (61 =? 61) with true. cbv iota. rewrite E1. cbn [bind].
      destruct efuel as [|efuel]; [lia|]. cbn [unsetenv_loop].
      change [0; 0] with ([0] ++ [0]) in E2. rewrite app_assoc in E2. apply bytes_at_app in E2 as (E2 & E4).
      rewrite zlen_app in E4. change (zlen [0]) with 1 in E4. cbn [bytes_at] in E4. destruct E4 as (E4 & _).
      rewrite <- Z.add_assoc. rewrite (load_some _ _ _ E4). cbn [bind]. cbn. exists env'. auto.
    + rewrite (str_eqb_neq _ _ N). replace (x =? 61) with false.
      2:{ symmetry. apply Z.eqb_neq. intros K. apply N. apply Hpre; [now left|auto]. }
      destruct (IH vs' efuel fuel m env q n (a + 1)) as (env' & E1 & E2 & E3 & EK); auto; try lia.
      { intros z Hz. apply Hpre. now right. }
      exists env'. split; [exact E1|]. split.
      * cbn [app bytes_at]. split; auto. rewrite E3 by lia. auto.
      * split; [intros z Hz; apply E3; lia|auto].
Qed.
Lemma del_ents : forall m n ps vs, ents m ps vs -> ents m (delp n ps vs) (delv n vs).
Proof.
  intros m n ps vs He. induction He as [|p x ps vs Hpx He IH]; cbn [delp delv]; [constructor|].
  destruct (str_eqb (fst x) n); auto. now constructor.
Qed.
Lemma zlen_delp : forall m n ps vs, ents m ps vs -> zlen (delp n ps vs) <= zlen ps.
Proof.
  intros m n ps vs He. induction He as [|p x ps vs Hpx He IH]; cbn [delp]; [lia|].
  destruct (str_eqb (fst x) n); zl; lia.
Qed.
Lemma delv_other : forall n vs x, x <> n -> lookup x (delv n vs) = lookup x vs.
Proof.
  intros n vs x Hx. induction vs as [|y vs IH]; cbn [delv lookup]; auto.
  destruct (str_eqb (fst y) n) eqn:E; cbn [lookup].
  - apply str_eqb_true in E. subst. now rewrite str_eqb_neq by auto.
  - now rewrite IH.
Qed.
Lemma lookup_none : forall n vs, ~ In n (map fst vs) -> lookup n vs = None.
Proof.
  induction vs as [|y vs IH]; cbn [lookup map]; auto. intros H.
  rewrite str_eqb_neq by (intros K; apply H; now left). apply IH. intros K. apply H. now right.
Qed.
Lemma delv_same : forall n vs, NoDup (map fst vs) -> lookup n (delv n vs) = None.
Proof.
  induction vs as [|y vs IH]; cbn [delv lookup map]; auto. intros H. apply NoDup_cons_iff in H as [H1 H2].
  destruct (str_eqb (fst y) n) eqn:E; cbn [lookup].
  - apply str_eqb_true in E. subst. now apply lookup_none.
  - rewrite E. auto.
Qed.
Lemma delv_incl : forall n vs x, In x (map fst (delv n vs)) -> In x (map fst vs).
Proof.
  induction vs as [|y vs IH]; cbn [delv map]; auto. intros x. destruct (str_eqb (fst y) n); cbn [map]; [now right|].
  intros [K|K]; [now left|right; auto].
Qed.
Lemma delv_nodup : forall n vs, NoDup (map fst vs) -> NoDup (map fst (delv n vs)).
Proof.
  induction vs as [|y vs IH]; cbn [delv map]; auto. intros H. apply NoDup_cons_iff in H as [H1 H2].
  destruct (str_eqb (fst y) n); cbn [map]; auto. constructor; auto. intros K. apply H1. eapply delv_incl; eauto.
Qed.
Lemma unsetenv_ok : forall efuel fuel m env cap ps vs q n,
  env_at m env cap ps vs -> str_at m q n -> ~ In 61 n -> (forall x, In x vs -> prefix (fst x) n -> fst x = n) ->
  big fuel vs -> (length ps < efuel)%nat ->
  exists env', unsetenv efuel fuel m env q = Ok (env', 0) /\ env_at m env' cap (delp n ps vs) (delv n vs).
Proof.
  intros efuel fuel m env cap ps vs q n (He & Hb & Hr & Hl) Hq Hn Hpre Hbig Hf.
  destruct (unsetenv_loop_ok ps vs efuel fuel m env q n 0) as (env' & E1 & E2 & E3 & EK); auto.
  unfold unsetenv. rewrite E1. cbn [bind]. exists env'. split; [reflexivity|].
  split; [now apply del_ents|]. split; [auto|]. split.
  - intros x Hx. apply EK. now apply Hr.
  - pose proof (zlen_delp m n ps vs He). lia.
Qed.

(* ---- setenv ---- *)
(* m' extends m *)
Definition extends (m m' : mem) := forall x, m x <> None -> m' x = m x.
Lemma bytes_some : forall m p l i, bytes_at m p l -> 0 <= i < zlen l -> m (p + i) <> None.
Proof.
  intros m p l i H Hi. destruct (nth_error l (Z.to_nat i)) eqn:E.
  - apply (bytes_at_nth m p l) in E; auto. rewrite Z2Nat.id in E by lia. congruence.
  - apply nth_error_None in E. unfold zlen in Hi. lia.
Qed.
Lemma str_some : forall m p s x, str_at m p s -> p <= x <= p + zlen s -> m x <> None.
Proof.
  intros m p s x H Hx. apply str_at_iff in H as (H1 & H2 & H3). destruct (Z.eq_dec x (p + zlen s)); [congruence|].
  replace x with (p + (x - p)) by lia. eapply bytes_some; eauto. lia.
Qed.
Lemma str_extends : forall m m' p s, str_at m p s -> extends m m' -> str_at m' p s.
Proof. intros m m' p s H He. apply str_at_ext with m; auto. intros x Hx. apply He. eapply str_some; eauto. Qed.
Lemma ents_extends : forall m m' ps vs, ents m ps vs -> extends m m' -> ents m' ps vs.
Proof.
  intros m m' ps vs H He. induction H as [|p x ps vs (H1 & H2 & H3) H IH]; constructor; auto.
  split; auto. split; auto. eapply str_extends; eauto.
Qed.
(* the block d, n bytes, is new: not accessible before, accessible now *)
Definition new_block (m m1 : mem) (d n : Z) : Prop :=
  d <> 0 /\ room m1 d n /\ (forall x, d <= x < d + n -> m x = None) /\ extends m m1.
Lemma new_apart : forall m m1 d n p s, new_block m m1 d n -> str_at m p s -> 0 < n -> apart d n p (zlen s + 1).
Proof.
  intros m m1 d n p s (_ & _ & H & _) Hs Hn. unfold apart. nneg s.
  destruct (Z_le_gt_dec (d + n) p); [now left|]. destruct (Z_le_gt_dec (p + (zlen s + 1)) d); [now right|].
  exfalso. apply (str_some m p s (Z.max p d)) in Hs; [|lia]. apply Hs. apply H. lia.
Qed.
Lemma setenv_fill_ok : forall n v fuel m0 m d np vp,
  new_block m0 m d (zlen n + zlen v + 2) -> str_at m0 np n -> str_at m0 vp v -> bytes_ok n -> bytes_ok v ->
  (length n < fuel)%nat -> (length v < fuel)%nat ->
  exists m', setenv_fill fuel m d np vp = Ok m' /\ str_at m' d (n ++ 61 :: v) /\ extends m0 m'
    /\ same_outside m m' d (zlen n + zlen v + 2).
Proof.
  intros n v fuel m0 m d np vp HB Hn Hv Bn Bv Hf1 Hf2. nneg n. nneg v. pose proof HB as (Hd & Hr & Hnew & Hext).
  pose proof (new_apart _ _ _ _ _ _ HB Hn ltac:(lia)) as A1. pose proof (new_apart _ _ _ _ _ _ HB Hv ltac:(lia)) as A2.
  unfold setenv_fill, stpcpy.
  destruct (strcpy_loop_ok n fuel m d np) as (m1 & E1 & S1 & O1); auto.
  { eapply str_extends; eauto. } { apply room_sub with d (zlen n + zlen v + 2); auto; lia. } { unfold apart in *; lia. }
  rewrite E1. cbn [bind].
  assert (R1 : room m1 d (zlen n + zlen v + 2)).
  { intros x Hx. destruct (Z_lt_ge_dec x (d + (zlen n + 1))).
    - apply (str_some m1 d n); auto. lia.
    - rewrite O1 by lia. apply Hr. lia. }
  rewrite (store_room m1 d (zlen n + zlen v + 2)) by (auto; lia). cbn [bind].
  set (m2 := upd m1 (d + zlen n) 61).
  assert (X2 : forall x, ~ (d <= x < d + (zlen n + 1)) -> m2 x = m x).
  { intros x Hx. unfold m2. rewrite upd_other by lia. apply O1. lia. }
  destruct (strcpy_ok v fuel m2 (d + zlen n + 1) vp) as (m3 & E3 & S3 & O3); auto.
  { apply str_at_ext with m. eapply str_extends; eauto. intros x Hx. apply X2. unfold apart in *. lia. }
  { intros x Hx. unfold m2. apply room_upd with (p := d) (n := zlen n + zlen v + 2); auto. lia. }
  { unfold apart in *. lia. }
  rewrite E3. cbn [bind]. exists m3. split; [reflexivity|].
  split.
  - apply str_at_app; auto. split.
    + apply bytes_at_ext with m1; [now apply str_at_bytes|]. intros x Hx. rewrite O3 by lia. unfold m2. apply upd_other. lia.
    + cbn [str_at]. split; [rewrite O3 by lia; apply upd_same|]. split; [lia|auto].
  - split.
    + intros x Hx. assert (~ (d <= x < d + (zlen n + zlen v + 2))) by (intros K; apply Hx; now apply Hnew).
      rewrite O3 by lia. rewrite X2 by lia. now apply Hext.
    + intros x Hx. rewrite O3 by lia. apply X2. lia.
Qed.
Lemma setenv_ok : forall efuel fuel (malloc : mem -> Z -> mem * Z) m env cap ps vs np n vp v ow,
  env_at m env cap ps vs -> zlen ps + 2 <= cap -> zlen ps + 1 < INT_MAX ->
  str_at m np n -> str_at m vp v -> np <> 0 -> vp <> 0 -> var_ok (n, v) ->
  (forall x, In x vs -> prefix n (fst x) -> fst x = n) ->
  big fuel vs -> (length (text (n, v)) < fuel)%nat -> (length ps < efuel)%nat ->
  (let (m1, d) := malloc m (zlen n + 1 + zlen v) in new_block m m1 d (zlen n + zlen v + 2)) ->
  exists m' env' ps', setenv efuel fuel malloc m env np vp ow = Ok (m', env', 0) /\ extends m m' /\
    (m' = m \/ same_outside (fst (malloc m (zlen n + 1 + zlen v))) m' (snd (malloc m (zlen n + 1 + zlen v))) (zlen n + zlen v + 2)) /\
    zlen ps' <= zlen ps + 1 /\ env_at m' env' cap ps' (match lookup n vs with Some _ => if ow =? 0 then vs else setv n v vs | None => setv n v vs end).
Proof.
  intros efuel fuel malloc m env cap ps vs np n vp v ow He Hc Hl Hn Hv Hnp Hvp Ho Hpre Hbig Hf Hef Hm.
  pose proof He as (He1 & He2 & He3 & He4). pose proof Ho as (Ho1 & Ho2 & Ho3). cbn [fst snd] in *.
  rewrite len_text in Hf. cbn [fst snd] in Hf. nneg n. nneg v.
  unfold setenv. rewrite (strlen_ok n) by (auto; unfold INT_MAX in *; lia). cbn [bind].
  rewrite s32_small by (unfold INT_MIN, INT_MAX in *; lia).
  destruct (find_slot_ok ps vs efuel fuel m env np n [] 0) as (j & found & E1 & E2 & E3 & E4 & E5); auto; try (unfold INT_MAX in *; lia).
  { now rewrite app_nil_r. }
  rewrite E1. cbn [bind].
  assert (K : found && (ow =? 0) = true \/ ((found && (ow =? 0) = false) /\
    (match lookup n vs with Some _ => if ow =? 0 then vs else setv n v vs | None => setv n v vs end) = setv n v vs)).
  { subst found. destruct (lookup n vs); cbn [andb]; auto. destruct (ow =? 0); auto. }
  destruct K as [K|(K & ->)]; rewrite K.
  - exists m, env, ps. split; [reflexivity|]. split; [now intros x Hx|].
    split; [now left|]. split; [lia|]. subst found. destruct (lookup n vs); [|discriminate]. cbn [andb] in K. now rewrite K.
  - rewrite (strlen_ok v) by (auto; unfold INT_MAX in *; lia). cbn [bind].
    destruct (malloc m (zlen n + 1 + zlen v)) as [m1 d].
    destruct (setenv_fill_ok n v fuel m m1 d np vp) as (m' & F1 & F2 & F3 & F4); auto; try lia. { apply Ho1. }
    cbn [fst snd]. assert (ZS : zlen (setp n d ps vs) <= zlen ps + 1) by (rewrite (zlen_setp m n d ps vs He1); destruct (lookup n vs); lia).
    destruct (env_write m env cap n d v ps vs j found) with (m' := m') as (env1 & W1 & W2 & W3); auto.
    { apply Hm. } { eapply ents_extends; eauto. }
    rewrite W1. cbn [bind]. replace (d =? 0) with false by (destruct Hm; lia). rewrite F1. cbn [bind].
    destruct found.
    + exists m', env1, (setp n d ps vs). auto 10.
    + destruct W3 as (env2 & W3 & W4); auto. rewrite W3. cbn [bind]. exists m', env2, (setp n d ps vs). auto 10.
Qed.

(* ---- histories ---- *)
Lemma setv_in : forall n v vs x, In x (setv n v vs) -> x = (n, v) \/ In x vs.
Proof.
  induction vs as [|y vs IH]; cbn [setv]; intros x; [intros [K|[]]; auto|].
  destruct (str_eqb (fst y) n); intros [K|K]; cbn; auto. destruct (IH x K); auto.
Qed.
Lemma delv_in : forall n vs x, In x (delv n vs) -> In x vs.
Proof.
  induction vs as [|y vs IH]; cbn [delv]; intros x; auto.
  destruct (str_eqb (fst y) n); cbn; auto. intros [K|K]; auto.
Qed.
Lemma lookup_some : forall n vs, In n (map fst vs) -> lookup n vs <> None.
Proof.
  induction vs as [|y vs IH]; cbn [map lookup]; [intros []|]. intros [<-|K]; [rewrite str_eqb_refl; discriminate|].
  destruct (str_eqb (fst y) n); [discriminate|auto].
Qed.
Lemma setv_nodup : forall n v vs, NoDup (map fst vs) -> NoDup (map fst (setv n v vs)).
Proof.
  intros n v vs H. rewrite setv_names. destruct (lookup n vs) eqn:E; [now rewrite app_nil_r|].
  apply NoDup_Add with (a := n) (l := map fst vs).
  - rewrite <- (app_nil_r (map fst vs)) at 1. apply Add_app.
  - split; auto. intros K. now apply lookup_some in K.
Qed.
Section Hist.
Variables (efuel fuel : nat) (m0 : mem) (cap : Z) (P : str -> Prop).
(* P is a set of names none of which is a proper prefix of another *)
Hypothesis HP : forall a b, P a -> P b -> prefix a b -> a = b.
Definition inv (left : Z) (s : mem * mem) (f : str -> option str) : Prop :=
  exists ps vs, env_at (fst s) (snd s) cap ps vs /\ extends m0 (fst s) /\ NoDup (map fst vs) /\ Forall (fun x => P (fst x)) vs
    /\ big fuel vs /\ zlen ps + left + 2 <= cap /\ zlen ps + left + 1 < INT_MAX /\ zlen ps + left < Z.of_nat efuel
    /\ forall x, lookup x vs = f x.
Lemma pre_ok : forall n vs, P n -> Forall (fun x : var => P (fst x)) vs ->
  (forall x, In x vs -> prefix n (fst x) -> fst x = n) /\ (forall x, In x vs -> prefix (fst x) n -> fst x = n).
Proof. intros n vs Hn Hv. rewrite Forall_forall in Hv. split; intros x Hx Hp; [symmetry|]; apply HP; auto. Qed.
Lemma set_P : forall n v vs, P n -> Forall (fun x : var => P (fst x)) vs -> Forall (fun x : var => P (fst x)) (setv n v vs).
Proof. intros n v vs Hn Hv. rewrite Forall_forall in *. intros x Hx. apply setv_in in Hx as [->|Hx]; auto. Qed.
Lemma set_big : forall n v vs, (length (text (n, v)) < fuel)%nat -> big fuel vs -> big fuel (setv n v vs).
Proof. intros n v vs Hn Hv. unfold big in *. rewrite Forall_forall in *. intros x Hx. apply setv_in in Hx as [->|Hx]; auto. Qed.

Lemma step_put : forall k s f p n v, inv (k + 1) s f -> 0 <= k -> P n -> p <> 0 -> str_at m0 p (text (n, v)) -> var_ok (n, v) ->
  (length (text (n, v)) < fuel)%nat ->
  exists env', putenv efuel fuel (fst s) (snd s) p = Ok (env', 0)
    /\ inv k (fst s, env') (fun x => if str_eqb x n then Some v else f x).
Proof.
  intros k [m env] f p n v (ps & vs & H1 & H2 & H3 & H4 & H5 & H6 & H7 & H8 & H9) Hk Hn Hp Ht Hv Hl. cbn [fst snd] in *.
  destruct (pre_ok n vs Hn H4) as [Q1 Q2].
  destruct (putenv_ok efuel fuel m env cap ps vs p n v) as (env' & E1 & E2); auto; try lia.
  { eapply str_extends; eauto. } { unfold zlen in *. lia. }
  exists env'. split; [exact E1|]. exists (setp n p ps vs), (setv n v vs). cbn [fst snd].
  pose proof (zlen_setp m n p ps vs (proj1 H1)) as ZS.
  assert (zlen (setp n p ps vs) <= zlen ps + 1) by (rewrite ZS; destruct (lookup n vs); lia).
  repeat split; auto using setv_nodup, set_P, set_big; try lia; try apply E2.
  intros x. destruct (str_eqb x n) eqn:E; [apply str_eqb_true in E; subst; apply setv_same|].
  rewrite setv_other; auto. intros ->. now rewrite str_eqb_refl in E.
Qed.
Lemma step_unset : forall k s f q n, inv k s f -> 0 <= k -> P n -> str_at m0 q n -> ~ In 61 n ->
  exists env', unsetenv efuel fuel (fst s) (snd s) q = Ok (env', 0)
    /\ inv k (fst s, env') (fun x => if str_eqb x n then None else f x).
Proof.
  intros k [m env] f q n (ps & vs & H1 & H2 & H3 & H4 & H5 & H6 & H7 & H8 & H9) Hk Hn Ht Hv. cbn [fst snd] in *.
  destruct (pre_ok n vs Hn H4) as [Q1 Q2].
  destruct (unsetenv_ok efuel fuel m env cap ps vs q n) as (env' & E1 & E2); auto.
  { eapply str_extends; eauto. } { unfold zlen in *. lia. }
  exists env'. split; [exact E1|]. exists (delp n ps vs), (delv n vs). cbn [fst snd].
  pose proof (zlen_delp m n ps vs (proj1 H1)) as ZS.
  repeat split; auto using delv_nodup; try lia; try apply E2.
  - rewrite Forall_forall in *. intros x Hx. apply H4. eapply delv_in; eauto.
  - unfold big in *. rewrite Forall_forall in *. intros x Hx. apply H5. eapply delv_in; eauto.
  - intros x. destruct (str_eqb x n) eqn:E; [apply str_eqb_true in E; subst; now apply delv_same|].
    rewrite delv_other; auto. intros ->. now rewrite str_eqb_refl in E.
Qed.
Lemma step_set : forall k s f (malloc : mem -> Z -> mem * Z) np n vp v ow, inv (k + 1) s f -> 0 <= k -> P n ->
  str_at m0 np n -> str_at m0 vp v -> np <> 0 -> vp <> 0 -> var_ok (n, v) -> (length (text (n, v)) < fuel)%nat ->
  (let (m1, d) := malloc (fst s) (zlen n + 1 + zlen v) in new_block (fst s) m1 d (zlen n + zlen v + 2)) ->
  exists m' env', setenv efuel fuel malloc (fst s) (snd s) np vp ow = Ok (m', env', 0)
    /\ (m' = fst s \/ same_outside (fst (malloc (fst s) (zlen n + 1 + zlen v))) m' (snd (malloc (fst s) (zlen n + 1 + zlen v))) (zlen n + zlen v + 2))
    /\ inv k (m', env') (fun x => if str_eqb x n then (match f n with Some w => Some (if ow =? 0 then w else v) | None => Some v end) else f x).
Proof.
  intros k [m env] f malloc np n vp v ow (ps & vs & H1 & H2 & H3 & H4 & H5 & H6 & H7 & H8 & H9) Hk Hn Hnp Hvp Hnp0 Hvp0 Hv Hl Hm. cbn [fst snd] in *.
  destruct (pre_ok n vs Hn H4) as [Q1 Q2].
  destruct (setenv_ok efuel fuel malloc m env cap ps vs np n vp v ow) as (m' & env' & ps' & E1 & E2 & E3 & E4 & E5); auto; try lia.
  { eapply str_extends; eauto. } { eapply str_extends; eauto. } { unfold zlen in *. lia. }
  exists m', env'. split; [exact E1|]. split; [exact E3|].
  assert (X : extends m0 m') by (intros x Hx; rewrite E2; [now apply H2|rewrite H2; auto]).
  rewrite H9 in E5.
  assert (K : (exists w, f n = Some w /\ (ow =? 0) = true) \/ (match f n with Some _ => if ow =? 0 then vs else setv n v vs | None => setv n v vs end) = setv n v vs
     /\ (match f n with Some w => Some (if ow =? 0 then w else v) | None => Some v end) = Some v).
  { destruct (f n) eqn:F; [|auto]. destruct (ow =? 0); eauto. }
  destruct K as [(w & K1 & K2)|(K1 & K2)].
  - rewrite K1, K2 in *. exists ps', vs. repeat split; auto; try lia; try apply E5.
    intros x. destruct (str_eqb x n) eqn:E; auto. apply str_eqb_true in E. subst. now rewrite H9.
  - rewrite K1, K2 in *. exists ps', (setv n v vs). repeat split; auto using setv_nodup, set_P, set_big; try lia; try apply E5.
    intros x. destruct (str_eqb x n) eqn:E; [apply str_eqb_true in E; subst; apply setv_same|].
    rewrite setv_other; auto. intros ->. now rewrite str_eqb_refl in E.
Qed.
Lemma inv_getenv : forall k s f q n, inv k s f -> 0 <= k -> str_at (fst s) q n -> ~ In 61 n -> n <> [] ->
  exists r, getenv efuel fuel (fst s) (snd s) q = Ok r /\ match f n with Some v => str_at (fst s) r v | None => r = 0 end.
Proof.
  intros k [m env] f q n (ps & vs & H1 & H2 & H3 & H4 & H5 & H6 & H7 & H8 & H9) Hk Hq Hn Hne. cbn [fst snd] in *.
  pose proof H1 as (He1 & He2 & He3 & He4).
  exists (value_ptr n ps vs). split.
  - unfold getenv. apply getenv_loop_ok; auto; try lia. unfold zlen in *. lia.
  - rewrite <- H9. now apply value_ptr_ok.
Qed.
End Hist.
