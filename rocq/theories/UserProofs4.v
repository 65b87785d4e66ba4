From Coq Require Import ZifyBool.
From Verif Require Import Base BaseLemmas StrModel StrSpec StrProofs StrProofs2 ConvSpec UserModel UserSpec UserProofs UserProofs2 UserProofs3.

Lemma page_end_ge n : 0 <= n -> n <= page_end n.
Proof. intros H. unfold page_end. pose proof (Z.div_mod (n + 4095) 4096 ltac:(lia)). pose proof (Z.mod_pos_bound (n + 4095) 4096 ltac:(lia)). lia. Qed.
Lemma map_bytes m a data : bytes_at (map_file m a data) a data.
Proof.
  apply bytes_at_intro. intros i b H. unfold map_file. assert (i < length data)%nat by (apply nth_error_Some; congruence).
  replace ((a <=? a + Z.of_nat i) && (a + Z.of_nat i <? a + zlen data)) with true by (unfold zlen; lia).
  replace (Z.to_nat (a + Z.of_nat i - a)) with i by lia. exact H.
Qed.
Lemma map_out m a data x : ~ (a <= x < a + page_end (zlen data)) -> map_file m a data x = m x.
Proof.
  intros H. nneg data. pose proof (page_end_ge (zlen data)). unfold map_file. replace ((a <=? x) && (x <? a + zlen data)) with false by lia.
  replace ((a + zlen data <=? x) && (x <? a + page_end (zlen data))) with false by lia. reflexivity.
Qed.

Section H.
Variables (m0 : mem) (a : Z) (es : list entry) (fuel : nat).
Let data := passwd_file es.
Let n := zlen data.
Hypothesis Ha : 0 < a.
Hypothesis Hne : es <> [].
Hypothesis W : Forall well_formed es.
Hypothesis Hmax : n <= INT_MAX.
Hypothesis Hf : n < Z.of_nat fuel.
Hypothesis Hnames : NoDup (map e_name es).
Hypothesis Huids : NoDup (map uid_of es).
Let fs : fsys := Some (a, data).

(* the state after some calls: closed, or opened with rest to be delivered by getpwent *)
Definition inv (s : pws) (opened : bool) (rest : list entry) (cache : option entry) : Prop :=
  match cache with
  | None => pw_name (s_pw s) = 0
  | Some e => In e es /\ holds (s_m s) (s_pw s) e /\ pw_name (s_pw s) <> 0
  end /\
  if opened then
    u_file (s_db s) = a /\ u_size (s_db s) = n /\ mask (s_m s) a data /\
    (exists pre, es = pre ++ rest /\ u_p (s_db s) = a + zlen (passwd_file pre)) /\
    (forall x, ~ (a <= x < a + page_end n) -> s_m s x = m0 x)
  else u_file (s_db s) = 0 /\ rest = es /\ cache = None /\ s_m s = m0.

Lemma size32 : s32 n = n.
Proof. apply s32_small. pose proof (zlen_nonneg data) as H. fold n in H. unfold INT_MIN, INT_MAX in *. lia. Qed.
Lemma lines_len l : (length l <= length (passwd_file l))%nat.
Proof. induction l as [|e l IH]; [auto|]. rewrite pf_cons, app_length. cbn [length]. pose proof (pf_pos e). unfold zlen in *. lia. Qed.
Lemma es_fuel : (length es <= fuel)%nat.
Proof. pose proof (lines_len es). unfold n, data, zlen in *. lia. Qed.

Definition opened_db : udb := mkudb a a (a + n) n.
Lemma open_eq s : u_file (s_db s) = 0 -> userdb_open fs (s_m s) (s_db s) = (true, map_file (s_m s) a data, opened_db).
Proof. intros E. unfold userdb_open. rewrite E. cbn. fold n. rewrite size32. reflexivity. Qed.

Lemma nul_page m m' : nul a n m m' -> (forall x, ~ (a <= x < a + page_end n) -> m x = m0 x) -> forall x, ~ (a <= x < a + page_end n) -> m' x = m0 x.
Proof. intros N H x Hx. nneg data. pose proof (page_end_ge n ltac:(unfold n; lia)). rewrite (nulls_out spw a n m m' x N) by lia. now apply H. Qed.
Lemma holds_name m pw e : well_formed e -> holds m pw e -> forall m', nul a n m m' -> holds m' pw e.
Proof. intros We H m' N. now apply (holds_nul a n m). Qed.
Lemma wf_in e : In e es -> well_formed e.
Proof. intros H. rewrite Forall_forall in W. auto. Qed.

Lemma find_name e : In e es -> find (fun x => same (e_name x) (e_name e)) es = Some e.
Proof.
  clear - Hnames. induction es as [|x l IH]; [now intros []|]. cbn [map] in Hnames. apply NoDup_cons_iff in Hnames. destruct Hnames as [H1 H2].
  intros Hin. cbn [find]. unfold same at 1. destruct (list_eq_dec Z.eq_dec (e_name x) (e_name e)) as [E|E].
  - destruct Hin as [->|Hin]; [reflexivity|]. exfalso. apply H1. rewrite E. now apply in_map.
  - destruct Hin as [->|Hin]; [congruence|]. now apply IH.
Qed.
Lemma find_uid e : In e es -> find (fun x => uid_of x =? uid_of e) es = Some e.
Proof.
  clear - Huids. induction es as [|x l IH]; [now intros []|]. cbn [map] in Huids. apply NoDup_cons_iff in Huids. destruct Huids as [H1 H2].
  intros Hin. cbn [find]. destruct (uid_of x =? uid_of e) eqn:E.
  - destruct Hin as [->|Hin]; [reflexivity|]. exfalso. apply H1. replace (uid_of x) with (uid_of e) by lia. now apply in_map.
  - destruct Hin as [->|Hin]; [lia|]. now apply IH.
Qed.
Lemma holds_fun m pw e l : holds m pw e -> str_at m (pw_name pw) l -> e_name e = l.
Proof.
  intros (H & _) S. revert S. generalize (pw_name pw) H. clear. generalize (e_name e) as x. intros x p H S. revert p l H S.
  induction x as [|c x IH]; intros p [|d l] H S; cbn [str_at] in *; [reflexivity| | |].
  - destruct S as (S1 & S2 & _). rewrite H in S1. injection S1 as S1. lia.
  - destruct H as (S1 & S2 & _). rewrite S in S1. injection S1 as S1. lia.
  - destruct H as (H1 & _ & H2), S as (S1 & _ & S2). f_equal; [congruence|]. now apply (IH (p + 1)).
Qed.

(* a search of the file *)
Lemma inv_search m u pw rest cache m' pw' b (f : entry -> bool) : inv (mkpws m u pw) true rest cache -> nul a n m m' ->
  match find f es with Some e => b = true /\ holds m' pw' e /\ a <= pw_name pw' | None => b = false /\ pw' = pw end ->
  inv (mkpws m' u pw') true rest (match find f es with Some e => Some e | None => cache end) /\ answered (mkpws m' u pw', b) (find f es).
Proof.
  intros [IC (I1 & I2 & I3 & I4 & I5)] N R. cbn [s_m s_db s_pw] in *.
  assert (J : u_file u = a /\ u_size u = n /\ mask m' a data /\ (exists pre, es = pre ++ rest /\ u_p u = a + zlen (passwd_file pre)) /\ (forall x, ~ (a <= x < a + page_end n) -> m' x = m0 x)).
  { split; [exact I1|]. split; [exact I2|]. split; [eapply nulls_masked; try exact N; try reflexivity; exact I3|]. split; [exact I4|]. now apply (nul_page m). }
  destruct (find f es) as [e|] eqn:Fe.
  - destruct R as (-> & R & Rp). assert (In e es) by (apply find_some in Fe; tauto). split; [|split; [reflexivity|exact R]].
    split; cbn [s_m s_db s_pw]; [|exact J]. split; [assumption|]. split; [exact R|]. lia.
  - destruct R as [-> ->]. split; [|reflexivity]. split; cbn [s_m s_db s_pw]; [|exact J].
    destruct cache as [e|]; [|exact IC]. destruct IC as (C1 & C2 & C3). split; [exact C1|]. split; [|exact C3]. apply (holds_name m); auto using wf_in.
Qed.
Lemma search_nam m u pw rest cache p l : inv (mkpws m u pw) true rest cache -> str_at m0 p l -> zlen l <= INT_MAX -> (length l < fuel)%nat -> apart p (zlen l + 1) a (page_end n) ->
  exists m' pw' b, nam_loop fuel fuel m (u_file u + u_size u) (u_file u) p pw = Ok (m', pw', b) /\ 
  inv (mkpws m' u pw') true rest (match find (fun e => same (e_name e) l) es with Some e => Some e | None => cache end) /\
  answered (mkpws m' u pw', b) (find (fun e => same (e_name e) l) es).
Proof.
  intros I S Hl Hl2 Ap. pose proof I as [IC (I1 & I2 & I3 & I4 & I5)]. cbn [s_m s_db s_pw] in *. nneg data. pose proof (page_end_ge n ltac:(unfold n; lia)) as PG. nneg l.
  rewrite I1, I2.
  destruct (nam_loop_ok a n fuel Hf p l pw Hl Hl2) with (es := es) (lines := fuel) (m := m) (p := a) as (m' & pw' & b & E & N & R); auto.
  - intros x Hx. unfold apart in Ap. lia.
  - lia.
  - exact es_fuel.
  - apply (str_at_ext m0 m p l S). intros x Hx. apply I5. unfold apart in Ap. lia.
  - exists m', pw', b. split; [exact E|]. now apply (inv_search m u pw).
Qed.
Lemma search_uid m u pw rest cache uid : inv (mkpws m u pw) true rest cache ->
  exists m' pw' b, uid_loop fuel fuel m (u_file u + u_size u) (u_file u) uid pw = Ok (m', pw', b) /\ 
  inv (mkpws m' u pw') true rest (match find (fun e => uid_of e =? uid) es with Some e => Some e | None => cache end) /\
  answered (mkpws m' u pw', b) (find (fun e => uid_of e =? uid) es).
Proof.
  intros I. pose proof I as [IC (I1 & I2 & I3 & I4 & I5)]. cbn [s_m s_db s_pw] in *. rewrite I1, I2.
  destruct (uid_loop_ok a n fuel Hf uid pw) with (es := es) (lines := fuel) (m := m) (p := a) as (m' & pw' & b & E & N & R); auto.
  - lia.
  - exact es_fuel.
  - exists m', pw', b. split; [exact E|]. now apply (inv_search m u pw).
Qed.
Lemma inv_open s rest cache : inv s false rest cache -> inv (mkpws (map_file (s_m s) a data) opened_db (s_pw s)) true es None /\ rest = es /\ cache = None /\ u_file (s_db s) = 0.
Proof.
  intros [IC (I1 & -> & -> & I2)]. split; [|auto]. split; [exact IC|]. cbn [s_m s_db s_pw opened_db u_file u_size u_p].
  split; [reflexivity|]. split; [reflexivity|]. split; [apply masked_bytes, map_bytes|]. split; [exists []; split; [reflexivity|]; change (zlen (passwd_file [])) with 0; lia|].
  intros x Hx. rewrite map_out by exact Hx. now rewrite I2.
Qed.

Definition found (cache : option entry) (r : option entry) : option entry := match r with Some e => Some e | None => cache end.
Lemma getpwnam_ok s opened rest cache p l : inv s opened rest cache -> (opened = true -> cache <> None) ->
  str_at m0 p l -> zlen l <= INT_MAX -> (length l < fuel)%nat -> apart p (zlen l + 1) a (page_end n) ->
  exists r, getpwnam fuel fs s p = Ok r /\ answered r (find (fun e => same (e_name e) l) es) /\ inv (fst r) true rest (found cache (find (fun e => same (e_name e) l) es)).
Proof.
  intros I Hc S Hl Hl2 Ap. unfold getpwnam. destruct opened.
  - pose proof I as [IC (I1 & I2 & I3 & I4 & I5)]. replace (u_file (s_db s) =? 0) with false by lia.
    destruct cache as [e|]; [|now specialize (Hc eq_refl)]. destruct IC as (C1 & C2 & C3).
    assert (Sm : str_at (s_m s) p l). { apply (str_at_ext m0 _ p l S). intros x Hx. apply I5. unfold apart in Ap. lia. }
    assert (Hle : zlen (e_name e) <= n).
    { clear - C1. unfold n, data. induction es as [|x l IH]; [destruct C1|]. rewrite pf_cons, zlen_app. pose proof (pf_pos x). nneg (passwd_file l).
      destruct C1 as [->|C1]; [|specialize (IH C1); lia]. pose proof (line_len e) as L. unfold tail_len in L.
      nneg (e_name e). nneg (e_passwd e). nneg (e_uid e). nneg (e_gid e). nneg (e_gecos e). nneg (e_dir e). nneg (e_shell e). lia. }
    destruct (strcmp_ok (e_name e) l fuel (s_m s) (pw_name (s_pw s)) p) as (r & Er & Hr); [apply C2|exact Sm|lia|unfold zlen in *; lia|].
    rewrite Er, bind_Ok. destruct (r =? 0) eqn:E0.
    + assert (E : e_name e = l) by (apply lexcmp_eq; lia). exists (s, true). split; [reflexivity|]. subst l. rewrite (find_name e C1). split; [split; [reflexivity|exact C2]|exact I].
    + destruct s as [m u pw]. cbn [s_m s_db s_pw] in *. destruct (search_nam m u pw rest (Some e) p l I S Hl Hl2 Ap) as (m' & pw' & b & E & R1 & R2).
      rewrite E, bind_Ok. eexists. split; [reflexivity|]. split; [exact R2|exact R1].
  - destruct (inv_open s rest cache I) as (J & -> & -> & E0). replace (u_file (s_db s) =? 0) with true by lia. rewrite (open_eq s E0). cbn [negb].
    destruct (search_nam _ _ _ es None p l J S Hl Hl2 Ap) as (m' & pw' & b & E & R1 & R2).
    rewrite E, bind_Ok. eexists. split; [reflexivity|]. split; [exact R2|exact R1].
Qed.
Lemma getpwuid_ok s opened rest cache uid : inv s opened rest cache ->
  exists r, getpwuid fuel fs s uid = Ok r /\ answered r (find (fun e => uid_of e =? uid) es) /\ inv (fst r) true rest (found cache (find (fun e => uid_of e =? uid) es)).
Proof.
  intros I. unfold getpwuid. destruct opened.
  - pose proof I as [IC (I1 & I2 & I3 & I4 & I5)]. replace (u_file (s_db s) =? 0) with false by lia.
    destruct (negb (pw_name (s_pw s) =? 0) && (uid =? pw_uid (s_pw s))) eqn:E.
    + destruct cache as [e|]; [|lia]. destruct IC as (C1 & C2 & C3). exists (s, true). split; [reflexivity|]. assert (E1 : uid = uid_of e) by (unfold uid_of; destruct C2 as (_ & _ & C2 & _); lia).
      subst uid. rewrite (find_uid e C1). split; [split; [reflexivity|exact C2]|exact I].
    + destruct s as [m u pw]. cbn [s_m s_db s_pw] in *. destruct (search_uid m u pw rest cache uid I) as (m' & pw' & b & E2 & R1 & R2).
      rewrite E2, bind_Ok. eexists. split; [reflexivity|]. split; [exact R2|exact R1].
  - destruct (inv_open s rest cache I) as (J & -> & -> & E0). replace (u_file (s_db s) =? 0) with true by lia. rewrite (open_eq s E0). cbn [negb].
    destruct (search_uid _ _ _ es None uid J) as (m' & pw' & b & E & R1 & R2).
    rewrite E, bind_Ok. eexists. split; [reflexivity|]. split; [exact R2|exact R1].
Qed.

Lemma pf_app x y : passwd_file (x ++ y) = passwd_file x ++ passwd_file y.
Proof. apply flat_map_app. Qed.
Lemma next_ok m u pw rest cache : inv (mkpws m u pw) true rest cache ->
  exists r, (let s := mkpws m u pw in
    let fe := u_file u + u_size u in
    let setp p := mkudb (u_file u) p (u_p2 u) (u_size u) in
    if fe <=? u_p u then Ok (s, false)
    else
      let* r := token_s fuel m fe (u_p u) in let '(m, name, p) := r in
      let* c := load m name in
      if c =? 0 then Ok (mkpws m (setp p) (s_pw s), false)
      else
        let* r := token_s fuel m fe p in let '(m, passwd, p) := r in
        let* r := token_i fuel m fe p in let '(uid, p) := r in
        let* r := token_i fuel m fe p in let '(gid, p) := r in
        let* r := tail_fields fuel m fe p in let '(m, (gecos, dir, shell), p) := r in
        Ok (mkpws m (setp p) (mkpw name passwd (u32 uid) (u32 gid) gecos dir shell), true)) = Ok r /\
  answered r (hd_error rest) /\ inv (fst r) true (tl rest) (found cache (hd_error rest)).
Proof.
  intros I. pose proof I as [IC (I1 & I2 & I3 & (pre & I4 & I6) & I5)]. cbn [s_m s_db s_pw] in *. cbv zeta. rewrite I1, I2, I6.
  assert (L : n = zlen (passwd_file pre) + zlen (passwd_file rest)). { unfold n, data. rewrite I4 at 1. now rewrite pf_app, zlen_app. }
  destruct rest as [|e rest]; cbn [hd_error tl found].
  - change (zlen (passwd_file [])) with 0 in L. replace (a + n <=? a + zlen (passwd_file pre)) with true by lia. eexists. split; [reflexivity|]. split; [reflexivity|exact I].
  - rewrite pf_cons, zlen_app in L. pose proof (pf_pos e). nneg (passwd_file rest). nneg (passwd_file pre). replace (a + n <=? a + zlen (passwd_file pre)) with false by lia.
    assert (Hin : In e es) by (rewrite I4; apply in_app_iff; right; now left). pose proof (wf_in e Hin) as We.
    assert (M : mask m (a + zlen (passwd_file pre)) (line e ++ passwd_file rest)).
    { unfold data in I3. rewrite I4, pf_app in I3. apply masked_app in I3. apply I3. }
    set (p := a + zlen (passwd_file pre)) in *.
    destruct (head_ok a n e _ fuel m p M We) as (m1 & E1 & N1 & S1 & M1); [lia|lia|exact Hf|]. rewrite E1, bind_Ok.
    assert (Hc : exists c, m1 p = Some c /\ (c =? 0) = false).
    { destruct We as (Wn & _). destruct (e_name e) as [|c t]; [congruence|]. cbn [str_at] in S1. destruct S1 as (S1 & S2 & _). exists c. split; [exact S1|lia]. }
    destruct Hc as (c & Hc1 & Hc2). rewrite (load_some _ _ _ Hc1), bind_Ok, Hc2.
    destruct (rest_ok a n e _ fuel m1 _ M1 We) as (m2 & pu & pg & p4 & m3 & pw' & E2 & E3 & E4 & E5 & E6 & N2 & M2 & Ho).
    + nneg (e_name e). lia.
    + lia.
    + exact Hf.
    + replace (p + zlen (e_name e) + 1 - zlen (e_name e) - 1) with p by lia. exact S1.
    + rewrite E2, bind_Ok, E3, bind_Ok, E4, bind_Ok, E5, bind_Ok. eexists. split; [reflexivity|].
      assert (Ho' : holds m3 (mkpw p (pw_passwd pw') (u32 (pw_uid pw')) (u32 (pw_gid pw')) (pw_gecos pw') (pw_dir pw') (pw_shell pw')) e).
      { clear - Ho We E6. destruct Ho as (H1 & H2 & H3 & H4 & H5). destruct We as (_ & _ & _ & Wu & Wg & _).
        unfold holds. cbn [pw_name pw_passwd pw_uid pw_gid pw_gecos pw_dir pw_shell]. rewrite H3, H4, !u32_number by assumption.
        split; [replace p with (pw_name pw') by lia; exact H1|]. split; [exact H2|]. split; [reflexivity|]. split; [reflexivity|exact H5]. }
      split; [split; [reflexivity|exact Ho']|]. assert (N3 : nul a n m m3) by eauto using nul_trans.
      split; cbn [fst s_m s_db s_pw u_file u_size u_p].
      * split; [exact Hin|]. split; [exact Ho'|]. cbn [pw_name]. lia.
      * split; [reflexivity|]. split; [reflexivity|]. split; [eapply nulls_masked; try exact N3; try reflexivity; exact I3|]. split; [|now apply (nul_page m)].
        exists (pre ++ [e]). split; [rewrite <- app_assoc; exact I4|]. rewrite pf_app, zlen_app. cbn [passwd_file flat_map]. rewrite app_nil_r. fold (passwd_file pre). unfold p. lia.
Qed.
Lemma getpwent_ok s opened rest cache : inv s opened rest cache ->
  exists r, getpwent fuel fs s = Ok r /\ answered r (hd_error rest) /\ inv (fst r) true (tl rest) (found cache (hd_error rest)).
Proof.
  intros I. unfold getpwent. destruct opened.
  - pose proof I as [IC (I1 & I2 & I3 & I4 & I5)]. replace (u_file (s_db s) =? 0) with false by lia. cbn [negb]. destruct s as [m u pw]. exact (next_ok m u pw rest cache I).
  - destruct (inv_open s rest cache I) as (J & -> & -> & E0). replace (u_file (s_db s) =? 0) with true by lia. rewrite (open_eq s E0). cbn [negb]. exact (next_ok _ _ _ es None J).
Qed.
Lemma setpwent_ok s opened rest cache : inv s opened rest cache -> inv (setpwent s) opened es cache.
Proof.
  intros [IC I]. destruct opened.
  - destruct I as (I1 & I2 & I3 & I4 & I5). split; [exact IC|]. cbn. split; [exact I1|]. split; [exact I2|]. split; [exact I3|]. split; [|exact I5]. exists []. split; [reflexivity|]. change (zlen (passwd_file [])) with 0. lia.
  - destruct I as (I1 & -> & -> & I2). split; [exact IC|]. cbn. auto.
Qed.

Lemma run_ok : forall qs cs s opened rest cache, Forall2 (asks m0 a (page_end n)) cs qs -> inv s opened rest cache ->
  (forall l, In (QName l) qs -> (length l < fuel)%nat) ->
  (forall pre l post, qs = pre ++ QName l :: post -> (opened = false /\ Forall (eq QRewind) pre) \/ cache <> None \/ exists e, In (Some e) (answers es rest pre)) ->
  exists rs, pwrun fuel fs s cs = Ok rs /\ Forall2 answered rs (answers es rest qs).
Proof.
  induction qs as [|q qs IH]; intros cs s opened rest cache A I Hl H.
  - inversion A; subst. exists []. split; [reflexivity|constructor].
  - inversion A as [|c q' cs' qs' A1 A2]; subst. cbn [pwrun].
    assert (STEP : forall opened' rest' cache' ans, (exists r, pwdo fuel fs s c = Ok r /\ answered r ans /\ inv (fst r) opened' rest' cache') ->
      answers es rest (q :: qs) = ans :: answers es rest' qs -> (forall pre, answers es rest (q :: pre) = ans :: answers es rest' pre) ->
      cache' = found cache ans -> (opened' = true \/ (opened' = opened /\ q = QRewind)) -> (opened' = true -> opened = true \/ q <> QRewind) ->
      exists rs, (let* r := pwdo fuel fs s c in let* l := pwrun fuel fs (fst r) cs' in Ok (r :: l)) = Ok rs /\ Forall2 answered rs (answers es rest (q :: qs))).
    { intros opened' rest' cache' ans (r & E & An & I') Ea Eb -> Ho Ho2. rewrite E, bind_Ok.
      destruct (IH cs' (fst r) opened' rest' (found cache ans) A2 I') as (rs & Er & Fr).
      - intros l Hin. apply Hl. now right.
      - intros pre l post Eq. destruct (H (q :: pre) l post) as [[H1 H2]|[H1|[e H1]]]; [now rewrite Eq| | |].
        + inversion H2 as [|? ? H3 H4]; subst. destruct Ho as [Ho|[Ho _]]; [destruct (Ho2 Ho); congruence|]. left. auto.
        + right. left. destruct ans; cbn [found]; [discriminate|exact H1].
        + rewrite Eb in H1. destruct H1 as [H1|H1]; [|eauto]. right. left. subst ans. discriminate.
      - rewrite Er, bind_Ok. eexists. split; [reflexivity|]. rewrite Ea. now constructor. }
    destruct c as [p|u| |], q as [l|v| |]; cbn [asks] in A1; try contradiction; cbn [pwdo] in STEP |- *.
    + destruct A1 as (S & Hl1 & Ap). apply (STEP true rest (found cache (find (fun e => same (e_name e) l) es)) (find (fun e => same (e_name e) l) es)); auto; [|right; discriminate].
      apply (getpwnam_ok s opened rest cache p l I); auto; [|apply Hl; now left]. intros Eo. destruct (H [] l qs eq_refl) as [[H1 _]|[H1|[e []]]]; congruence.
    + subst v. apply (STEP true rest (found cache (find (fun e => uid_of e =? u) es)) (find (fun e => uid_of e =? u) es)); auto; [|right; discriminate].
      apply (getpwuid_ok s opened rest cache u I).
    + apply (STEP true (tl rest) (found cache (hd_error rest)) (hd_error rest)); auto; [|right; discriminate]. apply (getpwent_ok s opened rest cache I).
    + apply (STEP opened es cache None); auto. exists (setpwent s, false). split; [reflexivity|]. split; [reflexivity|]. exact (setpwent_ok s opened rest cache I).
Qed.
End H.
