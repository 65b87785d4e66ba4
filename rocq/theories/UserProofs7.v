From Coq Require Import ZifyBool.
From Verif Require Import Base BaseLemmas StrModel StrSpec StrProofs StrProofs2 ConvSpec UserModel UserSpec UserProofs UserProofs2 UserProofs3 UserProofs4 UserProofs5 UserProofs6.

Lemma map_zero m a data x : a + zlen data <= x < a + page_end (zlen data) -> map_file m a data x = Some 0.
Proof.
  intros H. unfold map_file. replace ((a <=? x) && (x <? a + zlen data)) with false by lia.
  replace ((a + zlen data <=? x) && (x <? a + page_end (zlen data))) with true by lia. reflexivity.
Qed.
Lemma gf_app x y : group_file (x ++ y) = group_file x ++ group_file y.
Proof. apply flat_map_app. Qed.
Lemma zf_len l : zlen (flat_map zline l) = zlen (group_file l).
Proof. induction l as [|x l IH]; [reflexivity|]. cbn [flat_map group_file]. rewrite !zlen_app, zline_len, IH. reflexivity. Qed.
Lemma gf_cons x l : zlen (group_file (x :: l)) = zlen (gline x) + zlen (group_file l).
Proof. unfold group_file. cbn [flat_map]. now rewrite zlen_app. Qed.

Lemma last_cons {A} (l : list A) : forall x d, last (x :: l) d = last l x.
Proof. induction l as [|y l IH]; intros x d; [reflexivity|]. change (last (x :: y :: l) d) with (last (y :: l) d). now rewrite !IH. Qed.

Section G.
Variables (m0 : mem) (a : Z) (xs : list gentry) (fuel : nat).
Let data := group_file xs.
Let n := zlen data.
Let T := a + n.
Hypothesis Ha : 0 < a.
Hypothesis Hne : xs <> [].
Hypothesis W : Forall well_formed_group xs.
Hypothesis F : Forall few xs.
Hypothesis Hmax : n <= INT_MAX.
Hypothesis Hf : n + 2 < Z.of_nat fuel.
Hypothesis Hpage : n + 8 * zlen xs <= page_end n.
Hypothesis H64 : a + n < 2 ^ 64.
Hypothesis Hnames : NoDup (map x_name xs).
Hypothesis Hgids : NoDup (map gid_of xs).
Let fs : fsys := Some (a, data).

Definition off (i : nat) : Z := a + zlen (group_file (firstn i xs)).
Definition ginv (s : grs) (i : nat) (cache : option gentry) : Prop :=
  match cache with None => True | Some x => In x xs /\ gholds' (g_m s) (g_gr s) x end /\
  g_db s = mkudb a (off i) (T + 8 * Z.of_nat i) n /\ (i <= length xs)%nat /\
  exists v w, xs = v ++ w /\ (i <= length v)%nat /\ bytes_at (g_m s) a (flat_map zline v ++ flat_map gline w) /\
  (forall k, (k < length v)%nat -> rd64 (g_m s) (T + 8 * Z.of_nat k) = Ok (off (S k))) /\
  (forall k, (length v <= k < length xs)%nat -> rd64 (g_m s) (T + 8 * Z.of_nat k) = Ok 0) /\
  room (g_m s) T (8 * zlen xs) /\ (forall x, ~ (a <= x < a + page_end n) -> g_m s x = m0 x).

Lemma gsize32 : s32 n = n.
Proof. apply s32_small. pose proof (zlen_nonneg data) as H. fold n in H. unfold INT_MIN, INT_MAX in *. lia. Qed.
Lemma gopen s : u_file (g_db s) = 0 -> g_m s = m0 ->
  userdb_open fs (g_m s) (g_db s) = (true, map_file m0 a data, mkudb a a T n) /\ ginv (mkgrs (map_file m0 a data) (mkudb a a T n) (g_gr s)) 0 None.
Proof.
  intros E Em. split.
  - unfold userdb_open. rewrite E, Em. cbn. fold n. rewrite gsize32. reflexivity.
  - split; [exact I|]. cbn [g_m g_db g_gr]. split; [unfold off; f_equal; cbn; change (zlen (@nil Z)) with 0; lia|]. split; [lia|]. exists [], xs. split; [reflexivity|]. split; [auto|].
    split; [cbn [flat_map app]; apply map_bytes|]. split; [intros k Hk; cbn [length] in Hk; lia|]. nneg data. fold n in H.
    split; [|split].
    + intros k Hk. apply rdn_zero. intros x Hx. apply map_zero. fold n. unfold T, zlen in *. lia.
    + intros x Hx. rewrite map_zero; [discriminate|]. fold n. unfold T in Hx. lia.
    + intros x Hx. now apply map_out.
Qed.
Lemma off_le i j : (i <= j)%nat -> off i <= off j.
Proof.
  intros H. unfold off. replace (firstn i xs) with (firstn i (firstn j xs)) by (rewrite firstn_firstn; f_equal; lia).
  rewrite <- (firstn_skipn i (firstn j xs)) at 2. rewrite gf_app, zlen_app. nneg (group_file (skipn i (firstn j xs))). lia.
Qed.
Lemma off_all : off (length xs) = T.
Proof. unfold off. now rewrite firstn_all. Qed.
Lemma off_S i x : nth_error xs i = Some x -> off (S i) = off i + zlen (gline x).
Proof.
  intros H. unfold off. replace (firstn (S i) xs) with (firstn i xs ++ [x]).
  - rewrite gf_app, zlen_app, gf_cons. change (zlen (group_file [])) with 0. lia.
  - clear - H. revert xs H. induction i as [|i IH]; intros [|y l] H; cbn in *; try discriminate; [now injection H as ->|]. f_equal. now apply IH.
Qed.

Lemma gnext_ok s i cache : ginv s i cache ->
  match nth_error xs i with
  | None => next_group fuel s = Ok (s, false)
  | Some x => exists s', next_group fuel s = Ok (s', true) /\ gholds' (g_m s') (g_gr s') x /\ ginv s' (S i) (Some x)
  end.
Proof.
  intros (IC & ID & Ii & v & w & Ex & Iv & B & Tv & Tz & R & O). destruct s as [m u gr]. cbn [g_m g_db g_gr] in *. subst u.
  nneg data. fold n in H. assert (En : n = a + n - a) by lia.
  destruct (nth_error xs i) as [x|] eqn:Nx.
  - assert (Hi : (i < length xs)%nat) by (apply nth_error_Some; congruence). pose proof (off_S i x Nx) as OS. pose proof (off_le (S i) (length xs) ltac:(lia)) as OL. rewrite off_all in OL. unfold T in OL.
    pose proof (off_le 0 i ltac:(lia)) as O0. unfold off at 1 in O0. change (zlen (group_file (firstn 0 xs))) with 0 in O0.
    assert (Hin : In x xs) by (now apply nth_error_In in Nx). assert (Wx : well_formed_group x) by (rewrite Forall_forall in W; auto). assert (Fx : few x) by (rewrite Forall_forall in F; auto).
    pose proof (gline_pos x) as GP.
    destruct (Nat.lt_ge_cases i (length v)) as [Hlt|Hge].
    + assert (Nv : nth_error v i = Some x) by (rewrite Ex, nth_error_app1 in Nx by exact Hlt; exact Nx).
      destruct (nth_error_split _ _ Nv) as (v1 & v2 & Ev & L1). assert (Ep : off i = a + zlen (flat_map zline v1)). { unfold off. rewrite zf_len, Ex, Ev, <- L1, <- app_assoc, firstn_app, Nat.sub_diag, firstn_all, firstn_O, app_nil_r. reflexivity. }
      assert (Bs : bytes_at m (off i) (zline x)).
      { rewrite Ev, flat_map_app, <- app_assoc in B. cbn [flat_map] in B. apply bytes_at_app in B. destruct B as [_ B]. rewrite <- app_assoc in B. apply bytes_at_app in B. rewrite Ep. apply B. }
      destruct (visit2 fuel (a + n) x m (off i) gr (T + 8 * Z.of_nat i) a) as (m' & gr' & E & G & B' & O'); auto; try (unfold T in *; lia).
      * rewrite (Tv i Hlt). f_equal. exact OS.
      * rewrite <- En in E. eexists. split; [exact E|]. cbn [g_m g_gr]. split; [exact G|]. split; [split; [exact Hin|exact G]|]. cbn [g_m g_db g_gr].
        split; [f_equal; lia|]. split; [lia|]. exists v, w. split; [exact Ex|]. split; [lia|]. split; [|split; [|split; [|split]]].
        -- rewrite Ev, flat_map_app, <- app_assoc in B |- *. cbn [flat_map] in B |- *. rewrite <- app_assoc in B |- *.
           apply bytes_at_app in B. destruct B as [B1 B2]. apply bytes_at_app in B2. destruct B2 as [B2 B3]. rewrite <- Ep in *. apply bytes_at_app. split; [|apply bytes_at_app; rewrite <- Ep; split; [exact B'|]].
           ++ apply (bytes_at_ext m); [exact B1|]. intros z Hz. apply O'. lia.
           ++ apply (bytes_at_ext m); [exact B3|]. rewrite zline_len. intros z Hz. apply O'. lia.
        -- intros k Hk. unfold rd64. rewrite (rdn_ext 8 m); [now apply Tv|]. intros z Hz. apply O'. unfold T in *. lia.
        -- intros k Hk. unfold rd64. rewrite (rdn_ext 8 m); [now apply Tz|]. intros z Hz. apply O'. unfold T in *. lia.
        -- intros z Hz. rewrite O' by (unfold T in *; lia). now apply R.
        -- intros z Hz. pose proof (page_end_ge n ltac:(lia)). rewrite O' by lia. now apply O.
    + assert (Ei : i = length v) by lia. rewrite Ex, nth_error_app2, Ei, Nat.sub_diag in Nx by lia. destruct w as [|x' w]; [discriminate|]. injection Nx as ->.
      assert (Ep : off i = a + zlen (flat_map zline v)). { unfold off. rewrite zf_len, Ex, Ei, firstn_app, Nat.sub_diag, firstn_all, firstn_O, app_nil_r. reflexivity. }
      cbn [flat_map] in B. apply bytes_at_app in B. destruct B as [B1 B2]. apply bytes_at_app in B2. destruct B2 as [B2 B3]. rewrite <- Ep in B2, B3.
      destruct (visit1 fuel (a + n) x m (off i) gr (T + 8 * Z.of_nat i) a) as (m' & gr' & E & G & B' & Rd & O'); auto; try (unfold T in *; lia).
      * intros z Hz. apply R. unfold zlen in *. lia.
      * rewrite <- En in E. eexists. split; [exact E|]. cbn [g_m g_gr]. split; [exact G|]. split; [split; [exact Hin|exact G]|]. cbn [g_m g_db g_gr].
        split; [f_equal; lia|]. split; [lia|]. exists (v ++ [x]), w. split; [now rewrite <- app_assoc|]. rewrite app_length. cbn [length]. split; [lia|]. split; [|split; [|split; [|split]]].
        -- rewrite flat_map_app, <- app_assoc. cbn [flat_map]. rewrite app_nil_r. apply bytes_at_app. split; [|apply bytes_at_app; rewrite <- Ep; split; [exact B'|]].
           ++ apply (bytes_at_ext m); [exact B1|]. intros z Hz. apply O'; unfold T in *; lia.
           ++ rewrite zline_len. apply (bytes_at_ext m); [exact B3|]. intros z Hz. assert (Lw : off i + zlen (gline x) + zlen (flat_map gline w) = T).
              { unfold T, n, data. rewrite Ex. change (group_file (v ++ x :: w)) with (flat_map gline (v ++ x :: w)). rewrite flat_map_app, zlen_app. cbn [flat_map]. rewrite zlen_app, Ep, zf_len. unfold group_file. lia. }
              apply O'; unfold T in *; lia.
        -- intros k Hk. destruct (Nat.eq_dec k i) as [->|Hki]; [rewrite Rd; f_equal; lia|]. unfold rd64. rewrite (rdn_ext 8 m); [apply Tv; lia|]. intros z Hz. apply O'; unfold T in *; lia.
        -- intros k Hk. unfold rd64. rewrite (rdn_ext 8 m); [apply Tz; lia|]. intros z Hz. apply O'; unfold T in *; lia.
        -- intros z Hz. destruct ((T + 8 * Z.of_nat i <=? z) && (z <? T + 8 * Z.of_nat i + 8)) eqn:Ez.
           ++ intros Hn. unfold rd64 in Rd. assert (K : forall k m q, rdn k m q <> Fault -> forall z, q <= z < q + Z.of_nat k -> m z <> None).
              { clear. induction k as [|k IH]; intros m q Hq z Hz; [lia|]. cbn [rdn] in Hq. unfold load in Hq. destruct (m q) eqn:Eq; [|now destruct Hq]. rewrite bind_Ok in Hq.
                destruct (Z.eq_dec z q) as [->|]; [congruence|]. apply (IH m (q + 1)); [|lia]. intros E. apply Hq. now rewrite E. }
              apply (K 8%nat m' (T + 8 * Z.of_nat i)) with (z := z); [now rewrite Rd|lia|exact Hn].
           ++ rewrite O' by (unfold T in *; lia). now apply R.
        -- intros z Hz. pose proof (page_end_ge n ltac:(lia)). rewrite O' by (unfold T, zlen in *; lia). now apply O.
  - apply nth_error_None in Nx. assert (i = length xs) by lia. subst i. unfold next_group. cbn [g_m g_db g_gr u_file u_p u_p2 u_size]. rewrite off_all. unfold T. replace (a + n <=? a + n) with true by lia. reflexivity.
Qed.
Lemma ginv_file s i c : ginv s i c -> u_file (g_db s) = a.
Proof. intros (_ & E & _). now rewrite E. Qed.
Lemma getgrent_open s i c : ginv s i c -> getgrent fuel fs s = next_group fuel s.
Proof. intros I. unfold getgrent. rewrite (ginv_file s i c I). replace (a =? 0) with false by lia. cbn [negb]. now destruct s. Qed.
Lemma setgrent_ok s i c : ginv s i c -> ginv (setgrent s) 0 c.
Proof.
  intros (IC & ID & Ii & v & w & Ex & Iv & R). destruct s as [m u gr]. cbn [g_m g_db g_gr] in *. subst u. unfold setgrent. cbn [g_m g_db g_gr u_file u_size].
  split; [exact IC|]. cbn [g_m g_db g_gr]. split; [unfold off; cbn; change (zlen (@nil Z)) with 0; f_equal; unfold T; lia|]. split; [lia|]. exists v, w. split; [exact Ex|]. split; [lia|exact R].
Qed.

Lemma gsearch_ok test (f : gentry -> bool) : (forall s i x, ginv s i (Some x) -> test s = Ok (f x)) ->
  forall lines s i c, ginv s i c -> (length xs < lines + i)%nat ->
  exists r, gr_search lines fuel fs test s = Ok r /\
  match find f (skipn i xs) with
  | Some x => snd r = true /\ exists j, ginv (fst r) j (Some x)
  | None => snd r = false /\ exists j c', ginv (fst r) j c' /\ (c <> None \/ (i < length xs)%nat -> c' <> None)
  end.
Proof.
  intros Ht. induction lines as [|k IH]; intros s i c I Hl.
  - destruct I as (_ & _ & Hi & _). lia.
  - cbn [gr_search]. rewrite (getgrent_open s i c I). pose proof (gnext_ok s i c I) as N. destruct (nth_error xs i) as [x|] eqn:Nx.
    + destruct N as (s' & E & G & I'). rewrite E, bind_Ok. cbn [negb]. rewrite (Ht s' (S i) x I'), bind_Ok.
      assert (Es : skipn i xs = x :: skipn (S i) xs). { clear - Nx. revert i Nx. induction xs as [|y l IHl]; intros [|i] Nx; cbn in *; try discriminate; [now injection Nx as ->|]. now apply IHl. }
      rewrite Es. cbn [find]. destruct (f x); [exists (s', true); split; [reflexivity|]; split; [reflexivity|eauto]|].
      destruct (IH s' (S i) (Some x) I' ltac:(lia)) as (r & Er & Hr). exists r. split; [exact Er|]. destruct (find f (skipn (S i) xs)); [exact Hr|]. destruct Hr as (H1 & j & c' & H2 & H3). split; [exact H1|].
      exists j, c'. split; [exact H2|]. intros _. apply H3. left. discriminate.
    + rewrite N, bind_Ok. cbn [negb]. exists (s, false). split; [reflexivity|]. apply nth_error_None in Nx. rewrite skipn_all2 by exact Nx. cbn [find]. split; [reflexivity|]. exists i, c. split; [exact I|].
      intros [H|H]; [exact H|lia].
Qed.

Lemma gfind_name x : In x xs -> find (fun y => same (x_name y) (x_name x)) xs = Some x.
Proof.
  clear - Hnames. induction xs as [|y l IH]; [now intros []|]. cbn [map] in Hnames. apply NoDup_cons_iff in Hnames. destruct Hnames as [H1 H2].
  intros Hin. cbn [find]. unfold same at 1. destruct (list_eq_dec Z.eq_dec (x_name y) (x_name x)) as [E|E].
  - destruct Hin as [->|Hin]; [reflexivity|]. exfalso. apply H1. rewrite E. now apply in_map.
  - destruct Hin as [->|Hin]; [congruence|]. now apply IH.
Qed.
Lemma gfind_gid x : In x xs -> find (fun y => gid_of y =? gid_of x) xs = Some x.
Proof.
  clear - Hgids. induction xs as [|y l IH]; [now intros []|]. cbn [map] in Hgids. apply NoDup_cons_iff in Hgids. destruct Hgids as [H1 H2].
  intros Hin. cbn [find]. destruct (gid_of y =? gid_of x) eqn:E.
  - destruct Hin as [->|Hin]; [reflexivity|]. exfalso. apply H1. replace (gid_of y) with (gid_of x) by lia. now apply in_map.
  - destruct Hin as [->|Hin]; [lia|]. now apply IH.
Qed.
Lemma xs_pos : (0 < length xs)%nat.
Proof. clear - Hne. destruct xs; [congruence|cbn; lia]. Qed.
Lemma xs_fuel : (length xs < fuel)%nat.
Proof.
  assert (L : (length xs <= length (group_file xs))%nat).
  { clear. induction xs as [|x l IH]; [auto|]. change (group_file (x :: l)) with (gline x ++ group_file l). rewrite app_length. cbn [length]. pose proof (gline_pos x). unfold zlen in *. lia. }
  unfold n, data, zlen in *. lia.
Qed.
Lemma name_fuel x : In x xs -> zlen (x_name x) <= n.
Proof.
  unfold n, data. clear. induction xs as [|y l IH]; [now intros []|]. intros [->|H].
  - rewrite gf_cons, gline_len. nneg (x_name x). nneg (x_passwd x). nneg (x_gid x). nneg (joinc 0 (x_members x)). nneg (group_file l). lia.
  - rewrite gf_cons. pose proof (gline_pos y). specialize (IH H). lia.
Qed.
Lemma ginv_out s i c p l : ginv s i c -> str_at m0 p l -> apart p (zlen l + 1) a (page_end n) -> str_at (g_m s) p l.
Proof.
  intros (_ & _ & _ & v & w & _ & _ & _ & _ & _ & _ & O) S Ap. apply (str_at_ext m0 _ p l S). intros x Hx. apply O. unfold apart in Ap. lia.
Qed.

(* closed, or open with an entry returned *)
Definition gstate (s : grs) (pos : option (list gentry)) : Prop :=
  (u_file (g_db s) = 0 /\ g_m s = m0 /\ (pos = None \/ pos = Some xs)) \/
  (exists i x, ginv s i (Some x) /\ (pos = None \/ pos = Some (skipn i xs))).

Lemma test_name p l s i x : ginv s i (Some x) -> str_at m0 p l -> zlen l <= INT_MAX -> (length l < fuel)%nat -> apart p (zlen l + 1) a (page_end n) ->
  (let* c := strcmp fuel (g_m s) p (gr_name (g_gr s)) in Ok (c =? 0)) = Ok (same (x_name x) l).
Proof.
  intros I S Hl Hl2 Ap. pose proof (ginv_out _ _ _ _ _ I S Ap) as S'. destruct I as ((Hin & G) & _).
  destruct (strcmp_ok l (x_name x) fuel (g_m s) p (gr_name (g_gr s)) S' (proj1 G) Hl Hl2) as (r & Er & Hr). rewrite Er, bind_Ok. now rewrite (same_cmp _ _ _ Hr).
Qed.
Lemma gsearch_top test f s i c : (forall s i x, ginv s i (Some x) -> test s = Ok (f x)) -> ginv s i c ->
  exists r, gr_search fuel fuel fs test (setgrent s) = Ok r /\ ganswered r (find f xs) /\ gstate (fst r) None.
Proof.
  intros Ht I. pose proof xs_fuel as XF. destruct (gsearch_ok test f Ht fuel (setgrent s) 0 c (setgrent_ok _ _ _ I)) as (r & E & R); [lia|]. cbn [skipn] in R. exists r. split; [exact E|].
  destruct (find f xs) as [x|].
  - destruct R as (R1 & j & R2). split; [split; [exact R1|apply R2]|]. right. exists j, x. auto.
  - destruct R as (R1 & j & c' & R2 & R3). split; [exact R1|]. destruct c' as [x|]; [right; exists j, x; auto|]. exfalso. apply R3; [|reflexivity]. right. exact xs_pos.
Qed.
Lemma getgrnam_ok s pos p l : gstate s pos -> str_at m0 p l -> zlen l <= INT_MAX -> (length l < fuel)%nat -> apart p (zlen l + 1) a (page_end n) ->
  exists r, getgrnam fuel fs s p = Ok r /\ ganswered r (find (fun x => same (x_name x) l) xs) /\ gstate (fst r) None.
Proof.
  intros G S Hl Hl2 Ap. unfold getgrnam.
  assert (Ht : forall s i x, ginv s i (Some x) -> (fun s => let* c := strcmp fuel (g_m s) p (gr_name (g_gr s)) in Ok (c =? 0)) s = Ok (same (x_name x) l)) by (intros; eapply test_name; eauto).
  destruct G as [(E0 & Em & _)|(i & x & I & _)].
  - destruct (gopen s E0 Em) as [Eo I]. replace (u_file (g_db s) =? 0) with true by lia. rewrite Eo. cbn [negb]. exact (gsearch_top _ _ _ _ _ Ht I).
  - replace (u_file (g_db s) =? 0) with false by (rewrite (ginv_file _ _ _ I); lia). pose proof I as ((Hin & Gx) & _). pose proof (name_fuel x Hin) as Nf.
    destruct (strcmp_ok (x_name x) l fuel (g_m s) (gr_name (g_gr s)) p (proj1 Gx) (ginv_out _ _ _ _ _ I S Ap)) as (r & Er & Hr); [lia|unfold zlen in *; lia|].
    rewrite Er, bind_Ok. destruct (r =? 0) eqn:E0; [|exact (gsearch_top _ _ _ _ _ Ht I)].
    assert (E : x_name x = l) by (apply lexcmp_eq; lia). subst l. exists (s, true). split; [reflexivity|]. rewrite (gfind_name x Hin). split; [split; [reflexivity|exact Gx]|]. right. exists i, x. auto.
Qed.
Lemma getgrgid_ok s pos g : gstate s pos ->
  exists r, getgrgid fuel fs s g = Ok r /\ ganswered r (find (fun x => gid_of x =? g) xs) /\ gstate (fst r) None.
Proof.
  intros G. unfold getgrgid.
  assert (Ht : forall s i x, ginv s i (Some x) -> (fun s => Ok (gr_gid (g_gr s) =? g)) s = Ok (gid_of x =? g)) by (intros s' i x ((_ & _ & _ & E & _) & _); cbn beta; now rewrite E).
  destruct G as [(E0 & Em & _)|(i & x & I & _)].
  - destruct (gopen s E0 Em) as [Eo I]. replace (u_file (g_db s) =? 0) with true by lia. rewrite Eo. cbn [negb]. exact (gsearch_top _ _ _ _ _ Ht I).
  - replace (u_file (g_db s) =? 0) with false by (rewrite (ginv_file _ _ _ I); lia). pose proof I as ((Hin & Gx) & _).
    destruct (gr_gid (g_gr s) =? g) eqn:E0; [|exact (gsearch_top _ _ _ _ _ Ht I)].
    assert (E : gid_of x = g) by (destruct Gx as (_ & _ & E & _); unfold gid_of; lia). subst g. exists (s, true). split; [reflexivity|]. rewrite (gfind_gid x Hin). split; [split; [reflexivity|exact Gx]|]. right. exists i, x. auto.
Qed.
Lemma skipn_step i : hd_error (skipn i xs) = nth_error xs i /\ tl (skipn i xs) = skipn (S i) xs.
Proof. clear. revert i. induction xs as [|y l IH]; intros [|i]; [split; reflexivity|split; reflexivity|split; [reflexivity|destruct l; reflexivity]|exact (IH i)]. Qed.
Lemma getgrent_ok s rest : gstate s (Some rest) ->
  exists r, getgrent fuel fs s = Ok r /\ ganswered r (hd_error rest) /\ gstate (fst r) (Some (tl rest)).
Proof.
  assert (K : forall s i c, ginv s i c -> (c <> None \/ i = O) -> exists r, next_group fuel s = Ok r /\ ganswered r (hd_error (skipn i xs)) /\ gstate (fst r) (Some (tl (skipn i xs)))).
  { intros s' i c I Hc. pose proof (gnext_ok s' i c I) as N. destruct (skipn_step i) as [-> ->]. destruct (nth_error xs i) as [x|] eqn:Nx.
    - destruct N as (s2 & E & G & I'). exists (s2, true). split; [exact E|]. split; [split; [reflexivity|exact G]|]. right. exists (S i), x. auto.
    - exists (s', false). split; [exact N|]. split; [reflexivity|]. apply nth_error_None in Nx. destruct c as [x|]; [|destruct Hc as [Hc| ->]; [congruence|pose proof xs_pos; lia]].
      right. exists i, x. split; [exact I|]. right. rewrite !skipn_all2 by lia. reflexivity. }
  intros [(E0 & Em & [Ep|Ep])|(i & x & I & [Ep|Ep])]; try discriminate; injection Ep as ->.
  - destruct (gopen s E0 Em) as [Eo I]. unfold getgrent. replace (u_file (g_db s) =? 0) with true by lia. rewrite Eo. cbn [negb]. apply (K _ 0%nat None I). auto.
  - rewrite (getgrent_open _ _ _ I). apply (K _ i (Some x) I). left. discriminate.
Qed.
Lemma gset_ok s pos : gstate s pos -> gstate (setgrent s) (Some xs).
Proof.
  intros [(E0 & Em & _)|(i & x & I & _)].
  - left. unfold setgrent. cbn [g_m g_db u_file]. auto.
  - right. exists 0%nat, x. split; [exact (setgrent_ok _ _ _ I)|]. auto.
Qed.
Lemma gstate_none s pos : gstate s pos -> gstate s None.
Proof. intros [(E0 & Em & _)|(i & x & I & _)]; [left; auto|right; exists i, x; auto]. Qed.

Lemma grun_ok : forall qs cs s pos ans, gstate s pos -> Forall2 (gasks m0 a (page_end n)) cs qs -> (forall l, In (QGName l) qs -> (length l < fuel)%nat) ->
  ganswers xs pos qs = Some ans -> exists rs, grrun fuel fs s cs = Ok rs /\ Forall2 ganswered rs ans /\ gstate (last (map fst rs) s) None.
Proof.
  induction qs as [|q qs IH]; intros cs s pos ans G A Hl E.
  - inversion A; subst. cbn in E. injection E as <-. exists []. split; [reflexivity|]. split; [constructor|]. exact (gstate_none _ _ G).
  - inversion A as [|c q' cs' qs' A1 A2]; subst. cbn [grrun].
    assert (STEP : forall pos' an, (exists r, grdo fuel fs s c = Ok r /\ ganswered r an /\ gstate (fst r) pos') -> option_map (cons an) (ganswers xs pos' qs) = Some ans ->
      exists rs, (let* r := grdo fuel fs s c in let* l := grrun fuel fs (fst r) cs' in Ok (r :: l)) = Ok rs /\ Forall2 ganswered rs ans /\ gstate (last (map fst rs) s) None).
    { intros pos' an (r & Er & An & G') Ea. destruct (ganswers xs pos' qs) as [ans'|] eqn:E'; [|discriminate]. injection Ea as <-. rewrite Er, bind_Ok.
      destruct (IH cs' (fst r) pos' ans' G' A2) as (rs & Ers & Frs & Grs); [intros l Hin; apply Hl; now right|exact E'|]. rewrite Ers, bind_Ok. eexists. split; [reflexivity|]. split; [now constructor|].
      cbn [map]. rewrite last_cons. exact Grs. }
    destruct c as [p|g| |], q as [l|g'| |]; cbn [gasks] in A1; try contradiction; cbn [grdo] in STEP |- *; cbn [ganswers] in E.
    + destruct A1 as (S & Hl1 & Ap). apply (STEP None (find (fun x => same (x_name x) l) xs)); [|exact E]. apply (getgrnam_ok s pos p l G); auto. apply Hl. now left.
    + subst g'. apply (STEP None (find (fun x => gid_of x =? g) xs)); [|exact E]. apply (getgrgid_ok s pos g G).
    + destruct pos as [rest|]; [|discriminate]. apply (STEP (Some (tl rest)) (hd_error rest)); [|exact E]. exact (getgrent_ok s rest G).
    + apply (STEP (Some xs) None); [|exact E]. exists (setgrent s, false). split; [reflexivity|]. split; [reflexivity|]. exact (gset_ok s pos G).
Qed.

(* getusergroups *)
Lemma member_ok m p l : str_at m p l -> zlen l <= INT_MAX -> (forall ps ms, Forall2 (str_at m) ps ms -> Forall (fun q => q <> 0) ps -> Forall (fun x => zlen x < Z.of_nat fuel /\ zlen x <= INT_MAX) ms ->
  is_member fuel m p ps = Ok (existsb (same l) ms)).
Proof.
  intros S Hl. induction 1 as [|q x ps ms Hx H IH]; intros Nz Le; [reflexivity|]. cbn [is_member existsb]. apply Forall_cons_iff in Nz. destruct Nz as [Nz1 Nz2]. apply Forall_cons_iff in Le. destruct Le as [[Le1 Le3] Le2].
  replace (q =? 0) with false by lia. destruct (strcmp_ok x l fuel m q p Hx S Le3 ltac:(unfold zlen in *; lia)) as (r & Er & Hr). rewrite Er, bind_Ok, (same_cmp _ _ _ Hr), IH by assumption. now destruct (r =? 0).
Qed.
Hypothesis Hnull : m0 0 = None.
Lemma join_len x l : In x l -> zlen x <= zlen (joinc 0 l).
Proof.
  clear. induction l as [|y [|z l] IH]; [now intros []| |].
  - cbn [joinc]. intros [->|[]]. lia.
  - change (joinc 0 (y :: z :: l)) with (y ++ 0 :: joinc 0 (z :: l)). rewrite zlen_app, zlen_cons. nneg y. nneg (joinc 0 (z :: l)). intros [->|Hi]; [lia|]. specialize (IH Hi). lia.
Qed.
Lemma line_le x : In x xs -> zlen (gline x) <= n.
Proof.
  unfold n, data. clear. induction xs as [|y l IH]; [now intros []|]. rewrite gf_cons. nneg (group_file l). pose proof (gline_pos y). intros [->|H']; [lia|]. specialize (IH H'). lia.
Qed.
Lemma ug_member s i x p l : ginv s i (Some x) -> str_at m0 p l -> zlen l <= INT_MAX -> apart p (zlen l + 1) a (page_end n) -> l <> [] ->
  is_member fuel (g_m s) p (gr_mem (g_gr s)) = Ok (existsb (same l) (x_members x)).
Proof.
  intros I S Hl Ap Hne'. pose proof (ginv_out _ _ _ _ _ I S Ap) as S'. pose proof I as ((Hin & _ & _ & _ & G) & _ & _ & v & w & _ & _ & _ & _ & _ & _ & O).
  pose proof (line_le x Hin) as Le. rewrite gline_len in Le. nneg (x_name x). nneg (x_passwd x). nneg (x_gid x). nneg (joinc 0 (x_members x)).
  assert (E : existsb (same l) (x_members x) = existsb (same l) (match x_members x with [] => [[]] | l => l end)).
  { destruct (x_members x); [|reflexivity]. cbn [existsb]. unfold same. destruct (list_eq_dec Z.eq_dec l []); [congruence|reflexivity]. }
  rewrite E. apply (member_ok (g_m s) p l S' Hl _ _ G).
  - assert (N0 : g_m s 0 = None) by (rewrite O by lia; exact Hnull).
    clear - G N0. induction G as [|q y ps ms Hq G IH]; [constructor|]. constructor; [|exact IH]. intros ->. destruct y as [|c y]; cbn [str_at] in Hq; [congruence|]. destruct Hq as [Hq _]. congruence.
  - apply Forall_forall. intros y Hy. assert (zlen y <= n); [|nneg y; lia].
    destruct (x_members x) as [|z ms] eqn:Em; [destruct Hy as [<-|[]]; change (zlen (@nil Z)) with 0; lia|]. apply join_len in Hy. lia.
Qed.
Lemma ug_ok p l max : str_at m0 p l -> zlen l <= INT_MAX -> apart p (zlen l + 1) a (page_end n) -> l <> [] -> forall lines s i c acc, ginv s i c -> (length xs < lines + i)%nat -> zlen acc <= max ->
  exists s', (let all := acc ++ groups_of (skipn i xs) l in
    ug_loop lines fuel fs s p max acc = Ok (s', firstn (Z.to_nat max) all, if zlen all <? max then zlen all else -1)).
Proof.
  intros S Hl Ap Hnl. cbv zeta. induction lines as [|k IH]; intros s i c acc I Hk Hm.
  - destruct I as (_ & _ & Hi & _). lia.
  - cbn [ug_loop]. destruct (zlen acc <? max) eqn:Em.
    + rewrite (getgrent_open _ _ _ I). pose proof (gnext_ok s i c I) as N. destruct (nth_error xs i) as [x|] eqn:Nx.
      * destruct N as (s' & E & G & I'). rewrite E, bind_Ok. cbn [negb]. rewrite (ug_member s' (Datatypes.S i) x p l I' S Hl Ap Hnl), bind_Ok.
        assert (Es : skipn i xs = x :: skipn (Datatypes.S i) xs). { clear - Nx. revert i Nx. induction xs as [|y t IHl]; intros [|i] Nx; cbn in *; try discriminate; [now injection Nx as ->|]. now apply IHl. }
        assert (Eg : acc ++ groups_of (skipn i xs) l = (if existsb (same l) (x_members x) then acc ++ [gr_gid (g_gr s')] else acc) ++ groups_of (skipn (Datatypes.S i) xs) l).
        { rewrite Es. unfold groups_of. cbn [filter]. destruct (existsb (same l) (x_members x)); [|reflexivity]. cbn [map]. rewrite <- app_assoc. cbn [app]. f_equal. f_equal. destruct G as (_ & _ & G & _). unfold gid_of. now rewrite G. }
        rewrite Eg. apply (IH s' (Datatypes.S i) (Some x)); [exact I'|lia|]. destruct (existsb _ _); [|exact Hm]. rewrite zlen_app. change (zlen [gr_gid (g_gr s')]) with 1. lia.
      * rewrite N, bind_Ok. cbn [negb]. apply nth_error_None in Nx. rewrite skipn_all2 by exact Nx. cbn [groups_of filter map]. rewrite app_nil_r, Em. exists s. do 2 f_equal. f_equal.
        symmetry. apply firstn_all2. unfold zlen in *. lia.
    + exists s. assert (Hz : zlen acc = max) by lia. rewrite zlen_app. nneg (groups_of (skipn i xs) l). replace (zlen acc + zlen (groups_of (skipn i xs) l) <? max) with false by lia.
      do 2 f_equal. f_equal. rewrite firstn_app. replace (Z.to_nat max - length acc)%nat with 0%nat by (unfold zlen in *; lia). rewrite firstn_O, app_nil_r. symmetry. apply firstn_all2. unfold zlen in *. lia.
Qed.
Lemma getusergroups_ok s pos p l max : gstate s pos -> str_at m0 p l -> zlen l <= INT_MAX -> apart p (zlen l + 1) a (page_end n) -> l <> [] -> 0 <= max ->
  exists s', getusergroups fuel fs s p max = Ok (s', firstn (Z.to_nat max) (groups_of xs l), if zlen (groups_of xs l) <? max then zlen (groups_of xs l) else -1).
Proof.
  intros G S Hl Ap Hnl Hm. unfold getusergroups. pose proof xs_fuel as XF. destruct G as [(E0 & Em & _)|(i & x & I & _)].
  - pose proof (gset_ok s None ltac:(left; auto)) as _. set (s1 := setgrent s). assert (E1 : u_file (g_db s1) = 0) by exact E0. destruct (gopen s1 E1 Em) as [Eo I].
    destruct (ug_ok p l max S Hl Ap Hnl fuel _ 0%nat None [] I ltac:(lia) Hm) as (s' & E). cbn [skipn app] in E. cbv zeta in E.
    assert (U : forall lines, (0 < lines)%nat -> exists s2, ug_loop lines fuel fs s1 p max [] = Ok (s2, firstn (Z.to_nat max) (groups_of xs l), if zlen (groups_of xs l) <? max then zlen (groups_of xs l) else -1)
      \/ ug_loop lines fuel fs (mkgrs (map_file m0 a data) (mkudb a a T n) (g_gr s1)) p max [] = ug_loop lines fuel fs s1 p max []).
    { intros [|k] Hk; [lia|]. exists s1. cbn [ug_loop]. change (zlen (@nil Z)) with 0. destruct (0 <? max) eqn:Ez.
      - right. rewrite (getgrent_open _ _ _ I). unfold getgrent at 1. replace (u_file (g_db s1) =? 0) with true by lia. rewrite Eo. cbn [negb]. reflexivity.
      - left. replace (Z.to_nat max) with 0%nat by lia. rewrite firstn_O. nneg (groups_of xs l). replace (zlen (groups_of xs l) <? max) with false by lia. reflexivity. }
    destruct (U fuel ltac:(lia)) as (s2 & [E2|E2]); [exists s2; exact E2|]. exists s'. rewrite <- E2. exact E.
  - destruct (ug_ok p l max S Hl Ap Hnl fuel _ 0%nat (Some x) [] (setgrent_ok _ _ _ I) ltac:(lia) Hm) as (s' & E). exists s'. exact E.
Qed.
End G.
