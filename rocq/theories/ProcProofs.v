(* Proofs for ProcProps.v. *)
From Verif Require Import Base BaseLemmas PathModel PathSpec PathProofs PathProofs2 PathProofs3 PathProps SysModel SysSpec SysProofs SysProps ProcModel ProcSpec.
Ltac Zify.zify_post_hook ::= idtac.

(* ---- execl ---- *)
Lemma execl_count_ok : forall args rest fuel n, Forall (fun x => x <> 0) args -> (length args < fuel)%nat ->
  execl_count fuel n (args ++ 0 :: rest) = Ok (n + length args)%nat.
Proof.
  induction args as [|x args IH]; intros rest fuel n H F; (destruct fuel as [|fuel]; [cbn in F; lia|]); cbn [execl_count app va_arg bind].
  - rewrite Z.eqb_refl. f_equal. cbn. lia.
  - inversion H; subst. replace (x =? 0) with false by lia. cbn in F. rewrite IH; auto; [|lia]. f_equal. cbn. lia.
Qed.
Lemma slot_set_ok : forall (d : list Z) v r, slot_set (map Some d ++ None :: r) (length d) v = Ok (map Some (d ++ [v]) ++ r).
Proof.
  induction d as [|x d IH]; intros v r; cbn; [reflexivity|]. rewrite IH. cbn. reflexivity.
Qed.
Lemma execl_fill_ok : forall args d rest r, Forall (fun x => x <> 0) args ->
  execl_fill (length args) (length d) (args ++ 0 :: rest) (map Some d ++ repeat None (length args) ++ r) =
    Ok (length (d ++ args), map Some (d ++ args) ++ r).
Proof.
  induction args as [|x args IH]; intros d rest r H.
  - cbn. now rewrite app_nil_r.
  - inversion H; subst. cbn [execl_fill length repeat app va_arg bind]. rewrite slot_set_ok. cbn [bind].
    replace (S (length d)) with (length (d ++ [x])) by (rewrite app_length; cbn; lia).
    rewrite IH by auto. now rewrite <- !app_assoc.
Qed.
Lemma read_argv_ok : forall l r, Forall (fun x => x <> 0) l -> read_argv (map Some l ++ Some 0 :: r) = Ok l.
Proof.
  induction l as [|x l IH]; intros r H; cbn; [reflexivity|]. inversion H; subst. replace (x =? 0) with false by lia. now rewrite IH.
Qed.
Lemma execl_ok : forall fuel env path a0 args rest, a0 <> 0 -> Forall (fun x => x <> 0) args -> (length args < fuel)%nat ->
  execl fuel env path a0 (args ++ 0 :: rest) = Ok (path, a0 :: args, env).
Proof.
  intros fuel env path a0 args rest H0 H F. unfold execl. rewrite execl_count_ok by auto. cbn [bind].
  replace (1 + length args + 1)%nat with (S (length args + 1)) by lia. cbn [repeat slot_set bind].
  replace (1 + length args - 1)%nat with (length args) by lia. rewrite repeat_app.
  pose proof (execl_fill_ok args [a0] rest (repeat None 1) H) as E. cbn [map app length] in E. rewrite E. cbn [bind].
  pose proof (slot_set_ok (a0 :: args) 0 []) as S. cbn [map app length repeat] in S. cbn [repeat]. rewrite S. cbn [bind].
  replace (Some a0 :: map Some (args ++ [0]) ++ []) with (map Some (a0 :: args) ++ Some 0 :: @nil (option Z)).
  2:{ cbn. rewrite map_app, <- app_assoc. reflexivity. }
  rewrite read_argv_ok by auto. reflexivity.
Qed.

(* ---- waiting ---- *)
Lemma status_exited : forall w, wstat_ok w -> WIFEXITED (encode w) = match w with Exited _ => true | _ => false end.
Proof. intros w H. pose proof (C66_wait w H). destruct w; intuition. Qed.
Lemma status_signaled : forall w, wstat_ok w -> WIFSIGNALED (encode w) = match w with Signaled _ _ => true | _ => false end.
Proof. intros w H. pose proof (C66_wait w H). destruct w; intuition. Qed.
Lemma status_code : forall c, INT_MIN <= c <= INT_MAX -> WEXITSTATUS (encode (Exited c)) = c mod 256.
Proof. intros c H. apply (C66_wait (Exited c) H). Qed.
Lemma status_killed_code : forall s core, 1 <= s <= 64 -> WEXITSTATUS (encode (Signaled s core)) = 0.
Proof.
  intros s core H. assert (A : forallb (fun n => forallb (fun c => WEXITSTATUS (encode (Signaled (Z.of_nat n) c)) =? 0) [true; false]) (seq 1 64) = true) by (vm_compute; reflexivity).
  rewrite forallb_forall in A. specialize (A (Z.to_nat s)). rewrite forallb_forall in A.
  rewrite Z2Nat.id in A by lia. apply Z.eqb_eq, A; [apply in_seq; lia|]. destruct core; cbn; auto.
Qed.

Section Wait.
Variables (k : kernel) (pid : Z).
Lemma system_wait_ok : forall before i ws fuel c,
  Forall report_ok before -> (forall r, In r before -> exists w, r = State w) -> INT_MIN <= c <= INT_MAX ->
  (forall j r, nth_error before j = Some r -> k_wait k (i + j) pid = answer pid r) ->
  k_wait k (i + length before) pid = answer pid (State (Exited c)) -> (length before < fuel)%nat ->
  system_wait fuel k i pid ws = Ok (c mod 256).
Proof.
  induction before as [|b before IH]; intros i ws fuel c Hok Hst Hc Hj Hl Hf; (destruct fuel as [|fuel]; [cbn in Hf; lia|]); cbn [system_wait].
  - cbn [length] in Hl. rewrite Nat.add_0_r in Hl. rewrite Hl. cbn [answer].
    rewrite (status_exited (Exited c)) by exact Hc. cbn [negb]. now rewrite status_code.
  - pose proof (Hj O b eq_refl) as H0. rewrite Nat.add_0_r in H0. rewrite H0. inversion Hok as [|? ? Hb Hr]; subst.
    destruct (Hst b (or_introl eq_refl)) as (w & ->). cbn [answer].
    assert (W : wstat_ok w) by (destruct w; cbn in *; auto; contradiction).
    rewrite (status_exited w) by exact W. replace (match w with Exited _ => true | _ => false end) with false by (destruct w; cbn in *; auto; contradiction).
    cbn [negb]. apply IH; auto.
    + intros r Hr'. apply Hst. now right.
    + intros j r Hn. replace (S i + j)%nat with (i + S j)%nat by lia. now apply Hj.
    + replace (S i + length before)%nat with (i + S (length before))%nat by lia. exact Hl.
    + cbn in Hf. lia.
Qed.
Lemma system_wait_killed : forall fuel i s, WIFEXITED s = false ->
  (forall j, (i <= j)%nat -> exists r, k_wait k j pid = (r, None)) ->
  system_wait fuel k i pid (Some s) = NoFuel.
Proof.
  induction fuel as [|fuel IH]; intros i s H Hj; cbn [system_wait]; [reflexivity|].
  destruct (Hj i (le_n i)) as (r & E). rewrite E, H. cbn [negb]. apply IH; auto. intros j L. apply Hj. lia.
Qed.
Lemma vexec_wait_ok : forall before i ws fuel w,
  Forall report_ok before -> 0 < pid -> wstat_ok w -> match w with Exited _ | Signaled _ _ => True | _ => False end ->
  (forall j r, nth_error before j = Some r -> k_wait k (i + j) pid = answer pid r) ->
  k_wait k (i + length before) pid = answer pid (State w) -> (length before < fuel)%nat ->
  vexec_wait fuel k i pid ws = Ok (WEXITSTATUS (encode w)).
Proof.
  induction before as [|b before IH]; intros i ws fuel w Hok Hp Hc Hw Hj Hl Hf; (destruct fuel as [|fuel]; [cbn in Hf; lia|]); cbn [vexec_wait].
  - cbn [length] in Hl. rewrite Nat.add_0_r in Hl. rewrite Hl. cbn [answer]. rewrite Z.eqb_refl.
    rewrite status_exited, status_signaled by exact Hc. destruct w; try contradiction; reflexivity.
  - pose proof (Hj O b eq_refl) as H0. rewrite Nat.add_0_r in H0. rewrite H0. inversion Hok as [|? ? Hb Hr]; subst.
    assert (N : forall ws, vexec_wait fuel k (S i) pid ws = Ok (WEXITSTATUS (encode w))).
    { intros ws'. apply IH; auto.
      + intros j r Hn. replace (S i + j)%nat with (i + S j)%nat by lia. now apply Hj.
      + replace (S i + length before)%nat with (i + S (length before))%nat by lia. exact Hl.
      + cbn in Hf. lia. }
    destruct b as [r|b]; cbn [answer].
    + cbn in Hb. replace (r =? pid) with false by lia. apply N.
    + rewrite Z.eqb_refl. assert (W : wstat_ok b) by (destruct b; cbn in *; auto; contradiction).
      rewrite status_exited, status_signaled by exact W. destruct b; cbn in Hb; try contradiction; cbn [orb]; apply N.
Qed.
End Wait.

(* ---- execvpe ---- *)
Lemma first_hit_len : forall access dirs f s, first_hit access dirs f = Some s -> Forall entry dirs ->
  (length s < 2 * length (joined dirs) + length f + 1)%nat.
Proof.
  induction dirs as [|d dirs IH]; intros f s H E; cbn [first_hit] in H; [discriminate|].
  inversion E as [|? ? Ed Er]; subst. assert (L : (length d <= length (joined (d :: dirs)) /\ length (joined dirs) <= length (joined (d :: dirs)))%nat).
  { cbn [joined]. destruct dirs; [cbn; lia|]. rewrite app_length. cbn [length]. lia. }
  destruct (access (d ++ slash :: f)).
  - injection H as <-. destruct Ed as [Ed _]. destruct d as [|x d]; [contradiction|].
    rewrite app_length. cbn [length] in *. lia.
  - specialize (IH f s H Er). lia.
Qed.
(* names that execvpe takes as they are, and names it looks up *)
Lemma execvpe_path : forall fuel access m default path file argv envp buf f,
  str_at m file f -> (length f < fuel)%nat -> match f with [] => True | c :: _ => c = 46 \/ c = 47 end ->
  execvpe fuel access m default path file argv envp buf = Ok (m, Some (f, argv, envp)).
Proof.
  intros fuel access m default path file argv envp buf f S F H. unfold execvpe.
  destruct f as [|c f].
  - pose proof (str_at_end _ _ _ S) as L. change (zlen []) with 0 in L. rewrite Z.add_0_r in L. unfold load. rewrite L. cbn [bind].
    rewrite Z.eqb_refl. cbn [orb]. rewrite (read_str_ok [] fuel m file S F). reflexivity.
  - pose proof S as S0. cbn [str_at] in S0. destruct S0 as (L & N & _). unfold load. rewrite L. cbn [bind].
    replace ((c =? 0) || (c =? 46) || (c =? 47)) with true by (destruct H as [-> | ->]; reflexivity).
    rewrite (read_str_ok _ fuel m file S F). reflexivity.
Qed.
Lemma execvpe_search : forall fuel access m default path file argv envp buf n dirs f,
  dirs <> [] -> Forall entry dirs -> str_at m (if path =? 0 then default else path) (joined dirs) -> str_at m file f ->
  apart (if path =? 0 then default else path) (zlen (joined dirs) + 1) buf n -> apart file (zlen f + 1) buf n -> room m buf n ->
  Forall (fun d => zlen d + zlen f + 2 <= n) dirs -> (2 * length (joined dirs) + length f + 1 <= fuel)%nat ->
  match f with [] => False | c :: _ => c <> 46 /\ c <> 47 end ->
  exists m', same_outside m m' buf n /\
    execvpe fuel access m default path file argv envp buf =
      Ok (m', match first_hit access dirs f with Some s => Some (s, argv, envp) | None => None end).
Proof.
  intros fuel access m default path file argv envp buf n dirs f D E P F A1 A2 R L Fu Hc.
  destruct (C60_where_partial fuel access m default path file buf n dirs f D E P F A1 A2 R L Fu) as (m' & O & W).
  exists m'. split; [exact O|]. unfold execvpe. destruct f as [|c f]; [contradiction|].
  pose proof F as F0. cbn [str_at] in F0. destruct F0 as (Lc & N & _). unfold load. rewrite Lc. cbn [bind].
  replace ((c =? 0) || (c =? 46) || (c =? 47)) with false by lia.
  destruct (first_hit access dirs (c :: f)) as [s|] eqn:H.
  - destruct W as [W S]. rewrite W. cbn [bind]. replace (negb (1 =? 0)) with true by reflexivity.
    rewrite (read_str_ok s fuel m' buf S); [reflexivity|]. pose proof (first_hit_len _ _ _ _ H E). lia.
  - rewrite W. reflexivity.
Qed.
(* a test for strings in example memories *)
Fixpoint strb (m : mem) (p : Z) (l : list Z) : bool :=
  match l with
  | [] => match m p with Some 0 => true | _ => false end
  | b :: r => match m p with Some c => (c =? b) && (1 <=? b) && (b <=? 255) && strb m (p + 1) r | None => false end
  end.
Lemma strb_ok : forall l m p, strb m p l = true -> str_at m p l.
Proof.
  induction l as [|b l IH]; intros m p H; cbn [strb str_at] in *.
  - destruct (m p) as [[| |]|]; congruence.
  - destruct (m p) as [c|]; [|discriminate]. apply andb_prop in H as [H H4]. split; [f_equal; lia|]. split; [lia|]. now apply IH.
Qed.

(* a name that does not fit *)
Lemma copy_name_fault : forall f fuel m p c n, str_at m c f -> apart c (zlen f + 1) p n -> 0 <= n <= zlen f ->
  m (p + n) = None -> (length f < fuel)%nat -> copy_name fuel m p c = Fault.
Proof.
  induction f as [|x f IH]; intros fuel m p c n H A N Z0 Hf; (destruct fuel as [|k]; [cbn [length] in Hf; lia|]); cbn [copy_name].
  - change (zlen (@nil Z)) with 0 in *. replace n with 0 in Z0 by lia. cbn [str_at] in H. rewrite (load_some _ _ _ H), bind_Ok.
    rewrite Z.add_0_r in Z0. unfold store. rewrite Z0. reflexivity.
  - rewrite zlen_cons in *. nneg f. destruct H as (H1 & H2 & H3). rewrite (load_some _ _ _ H1), bind_Ok. unfold store.
    destruct (m p) eqn:Ep; [|reflexivity]. rewrite bind_Ok. assert (x =? 0 = false) as -> by lia. cbn [length] in Hf. unfold apart in A.
    assert (n <> 0) by (intros ->; rewrite Z.add_0_r in Z0; congruence).
    apply (IH k (upd m p x) (p + 1) (c + 1) (n - 1)).
    + apply str_at_upd; [exact H3|lia].
    + unfold apart. lia.
    + lia.
    + rewrite upd_other by lia. rewrite <- Z0. f_equal. lia.
    + lia.
Qed.
Lemma execvpe_long : forall fuel access m d0 d1 path file argv envp buf f, path <> 0 -> str_at m path [d0; d1] -> str_at m file (120 :: f) ->
  d0 <> 58 -> d1 <> 58 -> room m buf 4096 -> m (buf + 4096) = None -> apart path 3 buf 4096 -> apart file (zlen f + 2) buf 4096 ->
  4092 <= zlen f -> (S (S (S (length f))) < fuel)%nat -> execvpe fuel access m 0 path file argv envp buf = Fault.
Proof.
  intros fuel access m d0 d1 path file argv envp buf f Hp (P0 & N0 & P1 & N1 & P2) Hf D0 D1 R Z0 A1 A2 L Fu. cbn [str_at] in P2. unfold execvpe, apart in *.
  assert (F0 := Hf). destruct F0 as (F0 & _). rewrite (load_some _ _ _ F0), bind_Ok.
  change ((120 =? 0) || (120 =? 46) || (120 =? 47)) with false. cbv iota.
  unfold where_. destruct (Z.eqb_spec path 0); [contradiction|]. destruct fuel as [|k]; [lia|]. cbn [where_loop].
  rewrite (load_some _ _ _ P0), bind_Ok, (store_room m buf 4096) by (auto; lia). rewrite bind_Ok, (load_some _ _ d1) by (rewrite upd_other by lia; exact P1). rewrite bind_Ok.
  destruct (Z.eqb_spec d1 58); [contradiction|]. destruct (Z.eqb_spec d1 0); [lia|]. cbn [orb].
  destruct k as [|k]; [lia|]. cbn [where_loop]. rewrite (load_some _ _ d1) by (rewrite upd_other by lia; exact P1). rewrite bind_Ok.
  assert (R1 : room (upd m buf d0) buf 4096) by (intros y Hy; unfold upd; destruct (y =? buf); [discriminate|apply R; exact Hy]).
  unfold store at 1. destruct (upd m buf d0 (buf + 1)) eqn:E1; [|exfalso; eapply (R1 (buf + 1)); [lia|exact E1]]. rewrite bind_Ok.
  rewrite (load_some _ _ 0) by (rewrite !upd_other by lia; exact P2). rewrite bind_Ok. change ((0 =? 58) || (0 =? 0)) with true. cbv iota.
  unfold store at 1. destruct (upd (upd m buf d0) (buf + 1) d1 (buf + 1 + 1)) eqn:E2;
    [|exfalso; rewrite upd_other in E2 by lia; eapply (R1 (buf + 1 + 1)); [lia|exact E2]]. rewrite bind_Ok.
  rewrite (copy_name_fault (120 :: f) (S k) _ _ _ 4093); [reflexivity| | | | |].
  - repeat (apply str_at_upd; [|rewrite zlen_cons; lia]). exact Hf.
  - unfold apart. rewrite zlen_cons. lia.
  - rewrite zlen_cons. lia.
  - rewrite !upd_other by lia. rewrite <- Z0. f_equal. lia.
  - cbn [length]. lia.
Qed.

(* a memory with an additional block of n bytes, for examples *)
Definition with_block (p n : Z) (m : mem) : mem := fun x => if (p <=? x) && (x <? p + n) then Some 0 else m x.
Lemma with_block_room p n m : room (with_block p n m) p n.
Proof. intros x Hx. unfold with_block. replace ((p <=? x) && (x <? p + n)) with true by lia. discriminate. Qed.
