(* C168: wait and waitpid.  C169: killpg and raise. *)
From Coq Require Import Permutation.
From Verif Require Import Base BaseLemmas SysModel WaitModel.

(* ---- specification ---- *)
(* the children are processes: different positive numbers that fit into an int *)
Definition family (l : list child) : Prop := NoDup (map c_pid l) /\ Forall (fun c => 0 < c_pid c <= INT_MAX) l.
(* the status of the end of a child: the one it has, or the first that is to come *)
Definition fate (later : list (Z * Z)) (c : child) : option Z :=
  match c_end c with
  | Some st => Some st
  | None => match find (fun q => fst q =? c_pid c) later with Some (_, st) => Some st | None => None end
  end.
(* every child ends some time *)
Definition mortal (later : list (Z * Z)) (l : list child) : Prop := Forall (fun c => fate later c <> None) l.

(* while ((p = wait(&st)) > 0) collect (p, st); the last result and errno *)
Fixpoint wait_all (fuel : nat) own later l errno : res (list (Z * option Z) * Z * Z) :=
  match fuel with
  | O => NoFuel
  | S fuel =>
      let* (x, errno) := wait own later l errno in
      let '(l, later, r, st) := x in
      if 0 <? r then
        let* (y, e) := wait_all fuel own later l errno in
        let '(got, last) := y in
        Ok ((r, st) :: got, last, e)
      else Ok ([], r, errno)
  end.

(* ---- proofs ---- *)
Lemma take_some own upid l p st r : take own upid l = Some (p, st, r) ->
  exists a c b, l = a ++ c :: b /\ r = a ++ b /\ c_pid c = p /\ c_end c = Some st /\ wanted own upid c = true.
Proof.
  revert p st r. induction l as [|c l IH]; intros p st r E; cbn [take] in E; [discriminate|].
  destruct (wanted own upid c) eqn:W; [destruct (c_end c) as [s|] eqn:C|].
  - injection E as <- <- <-. exists [], c, l. repeat split; auto.
  - destruct (take own upid l) as [[[p1 s1] r1]|]; [|discriminate]. injection E as <- <- <-. destruct (IH _ _ _ eq_refl) as (a & c1 & b & -> & -> & E1 & E2 & E3).
    exists (c :: a), c1, b. repeat split; auto.
  - destruct (take own upid l) as [[[p1 s1] r1]|]; [|discriminate]. injection E as <- <- <-. destruct (IH _ _ _ eq_refl) as (a & c1 & b & -> & -> & E1 & E2 & E3).
    exists (c :: a), c1, b. repeat split; auto.
Qed.
Lemma take_none own upid l : take own upid l = None -> forall c, In c l -> wanted own upid c = true -> c_end c = None.
Proof.
  induction l as [|c l IH]; intros E x I W; [destruct I|]. cbn [take] in E. destruct I as [<-|I].
  - rewrite W in E. destruct (c_end c); [discriminate|reflexivity].
  - destruct (if wanted own upid c then c_end c else None); [discriminate|]. destruct (take own upid l) as [[[? ?] ?]|]; [discriminate|]. now apply IH.
Qed.
Lemma fate_end q later c : fate (q :: later) c = fate later (if c_pid c =? fst q then mkc (fst q) (c_grp c) (match c_end c with None => Some (snd q) | Some s => Some s end) else c).
Proof.
  destruct q as [p st]. cbn [fst snd]. unfold fate. cbn [find fst]. rewrite (Z.eqb_sym p). destruct (Z.eqb_spec (c_pid c) p) as [E|N]; [|reflexivity].
  cbn [c_end]. destruct (c_end c); reflexivity.
Qed.
Lemma pids_end p st l : map c_pid (end_child p st l) = map c_pid l.
Proof. unfold end_child. rewrite map_map. apply map_ext. intros c. destruct (Z.eqb_spec (c_pid c) p); cbn; congruence. Qed.
Lemma grp_end p st l : map c_grp (end_child p st l) = map c_grp l.
Proof. unfold end_child. rewrite map_map. apply map_ext. intros c. destruct (c_pid c =? p); reflexivity. Qed.
Lemma family_end p st l : family l -> family (end_child p st l).
Proof. intros [H1 H2]. split; [now rewrite pids_end|]. apply (Forall_map c_pid (fun n => 0 < n <= INT_MAX)). rewrite pids_end. now apply (Forall_map c_pid (fun n => 0 < n <= INT_MAX)). Qed.
(* what a child is for the caller: number, group, how it ends *)
Definition view later (c : child) := (c_pid c, c_grp c, fate later c).
Lemma view_end p st later l : map (view later) (end_child p st l) = map (view ((p, st) :: later)) l.
Proof.
  unfold end_child. rewrite map_map. apply map_ext. intros c. unfold view. rewrite fate_end. cbn [fst snd]. destruct (Z.eqb_spec (c_pid c) p) as [->|N]; reflexivity.
Qed.
Lemma wanted_end own upid p st l : existsb (wanted own upid) (end_child p st l) = existsb (wanted own upid) l.
Proof. induction l as [|c l IH]; [reflexivity|]. cbn [end_child map existsb]. fold (end_child p st l). rewrite IH. f_equal. unfold wanted. destruct (Z.eqb_spec (c_pid c) p) as [->|]; reflexivity. Qed.
Lemma mortal_view later l : mortal later l <-> Forall (fun v => snd v <> None) (map (view later) l).
Proof. unfold mortal. rewrite Forall_map. reflexivity. Qed.

(* one call: it takes a child that is wanted *)
Lemma wait4_ok own upid later : forall l, existsb (wanted own upid) l = true -> mortal later l ->
  exists l1 c l2 l' later' st, l = l1 ++ c :: l2 /\ wanted own upid c = true /\ fate later c = Some st /\
    wait4 own upid 0 later l = Ok (l', later', c_pid c, Some st) /\ map (view later') l' = map (view later) (l1 ++ l2).
Proof.
  induction later as [|[p st] later IH]; intros l W M; cbn [wait4]; destruct (take own upid l) as [[[p1 s1] r1]|] eqn:T.
  - destruct (take_some _ _ _ _ _ _ T) as (a & c & b & -> & -> & E1 & E2 & E3). exists a, c, b, (a ++ b), [], s1. repeat split; auto; [unfold fate; now rewrite E2|now rewrite E1].
  - exfalso. rewrite existsb_exists in W. destruct W as (c & I & Wc). pose proof (take_none _ _ _ T c I Wc) as N. unfold mortal in M. rewrite Forall_forall in M. specialize (M c I).
    unfold fate in M. rewrite N in M. cbn in M. congruence.
  - destruct (take_some _ _ _ _ _ _ T) as (a & c & b & -> & -> & E1 & E2 & E3). exists a, c, b, (a ++ b), ((p, st) :: later), s1. repeat split; auto; [unfold fate; now rewrite E2|now rewrite E1].
  - rewrite W. cbn [Z.odd]. destruct (IH (end_child p st l)) as (l1 & c & l2 & l' & later' & s & E & Wc & F & R & V).
    + now rewrite wanted_end.
    + apply mortal_view. rewrite view_end. now apply mortal_view.
    + assert (X : map (fun c => if c_pid c =? p then mkc p (c_grp c) (match c_end c with None => Some st | Some s => Some s end) else c) l = l1 ++ c :: l2) by exact E.
      apply map_eq_app in X as (k1 & k2 & -> & X1 & X2). destruct k2 as [|c0 k2]; [discriminate|]. cbn [map] in X2. injection X2 as X2 X3.
      exists k1, c0, k2, l', later', s. split; [reflexivity|].
      assert (Y : view later c = view ((p, st) :: later) c0) by (rewrite <- X2; unfold view; rewrite fate_end; cbn [fst snd]; destruct (Z.eqb_spec (c_pid c0) p) as [->|]; reflexivity).
      unfold view in Y. injection Y as Y1 Y2 Y3. rewrite <- Y3, <- Y1. repeat split; auto.
      * rewrite <- Wc. unfold wanted. now rewrite Y1, Y2.
      * rewrite V, !map_app, <- X1, <- X3. change (map (view later) (end_child p st k1) ++ map (view later) (end_child p st k2) = map (view ((p, st) :: later)) k1 ++ map (view ((p, st) :: later)) k2).
        now rewrite !view_end.
Qed.
Lemma wrapper_pos r e : 0 <= r <= INT_MAX -> syscall_wrapper r e = (r, e).
Proof. intros H. unfold syscall_wrapper. rewrite s32_small by (unfold INT_MIN; lia). destruct (Z.ltb_spec r 0); [lia|reflexivity]. Qed.
Lemma nochild own upid options later l : existsb (wanted own upid) l = false -> wait4 own upid options later l = Ok (l, later, -10, None).
Proof.
  intros H. assert (T : take own upid l = None).
  { destruct (take own upid l) as [[[p s] r]|] eqn:T; [|reflexivity]. destruct (take_some _ _ _ _ _ _ T) as (a & c & b & -> & _ & _ & _ & W). rewrite existsb_app in H. cbn [existsb] in H. rewrite W, orb_true_r in H. discriminate. }
  destruct later as [|[p st] later]; cbn [wait4]; rewrite T, H; reflexivity.
Qed.
Lemma view_length later l later' l' : map (view later) l = map (view later') l' -> length l = length l'.
Proof. intros H. apply (f_equal (@length _)) in H. now rewrite !map_length in H. Qed.
Lemma view_pids later l later' l' : map (view later) l = map (view later') l' -> map c_pid l = map c_pid l'.
Proof. intros H. apply (f_equal (map (fun v => fst (fst v)))) in H. rewrite !map_map in H. exact H. Qed.
Lemma view_fates later l later' l' : map (view later) l = map (view later') l' -> map (fun c => (c_pid c, fate later c)) l = map (fun c => (c_pid c, fate later' c)) l'.
Proof. intros H. apply (f_equal (map (fun v => (fst (fst v), snd v)))) in H. rewrite !map_map in H. exact H. Qed.
Lemma family_del a c b : family (a ++ c :: b) -> family (a ++ b) /\ 0 < c_pid c <= INT_MAX.
Proof.
  intros [H1 H2]. rewrite map_app in H1. cbn [map] in H1. apply NoDup_remove in H1 as [H1 _]. apply Forall_app in H2 as [H2 H3]. apply Forall_cons_iff in H3 as [H3 H4].
  split; [split; [now rewrite map_app|apply Forall_app; auto]|exact H3].
Qed.
Lemma family_pids l l' : map c_pid l = map c_pid l' -> family l -> family l'.
Proof. intros E [H1 H2]. split; [congruence|]. apply (Forall_map c_pid (fun n => 0 < n <= INT_MAX)). rewrite <- E. now apply (Forall_map c_pid (fun n => 0 < n <= INT_MAX)). Qed.

(* ---- C168 ---- *)
(* the loop around wait returns every child once, with the status of its end, and then -1 with ECHILD *)
Theorem C168_wait_all : forall fuel own later l errno, family l -> mortal later l -> (length l < fuel)%nat ->
  exists got, wait_all fuel own later l errno = Ok (got, -1, 10) /\ Permutation got (map (fun c => (c_pid c, fate later c)) l).
Proof.
  induction fuel as [|fuel IH]; intros own later l errno F M L; [lia|]. cbn [wait_all]. unfold wait, wait4_w.
  destruct l as [|c0 l0].
  - exists []. rewrite nochild by reflexivity. rewrite bind_Ok. split; [reflexivity|constructor].
  - set (l := c0 :: l0) in *. destruct (wait4_ok own (-1) later l) as (l1 & c & l2 & l' & later' & st & E & _ & Fa & R & V); [reflexivity|exact M|].
    rewrite R, bind_Ok. rewrite E in F. destruct (family_del _ _ _ F) as [F' P]. rewrite wrapper_pos by lia. rewrite bind_Ok. destruct (Z.ltb_spec 0 (c_pid c)); [|lia].
    destruct (IH own later' l' errno) as (got & G1 & G2).
    + apply (family_pids (l1 ++ l2)); [symmetry; now apply (view_pids later' l' later)|exact F'].
    + apply mortal_view. rewrite V. apply mortal_view. unfold mortal in *. rewrite E, Forall_app, Forall_cons_iff in M. apply Forall_app. tauto.
    + rewrite (view_length _ _ _ _ V). rewrite E, app_length in L. cbn [length] in L. rewrite app_length. lia.
    + rewrite G1, bind_Ok. exists ((c_pid c, Some st) :: got). split; [reflexivity|]. rewrite E, map_app. cbn [map]. rewrite Fa. apply Permutation_cons_app.
      rewrite <- map_app, <- (view_fates _ _ _ _ V). exact G2.
Qed.
Print Assumptions C168_wait_all.

(* waitpid(p) waits for that child and leaves the others, in whatever order they end *)
Theorem C168_waitpid : forall own later l c errno, family l -> mortal later l -> In c l ->
  exists l' later' st, waitpid own (c_pid c) 0 later l errno = Ok (l', later', c_pid c, Some st, errno) /\ fate later c = Some st /\
    map (fun c => (c_pid c, fate later' c)) l' = map (fun c => (c_pid c, fate later c)) (filter (fun d => negb (c_pid d =? c_pid c)) l).
Proof.
  intros own later l c errno F M I. assert (P : 0 < c_pid c <= INT_MAX) by (destruct F as [_ F]; rewrite Forall_forall in F; now apply F).
  assert (Wd : forall d, wanted own (c_pid c) d = (c_pid d =? c_pid c)).
  { intros d. unfold wanted. destruct (Z.eqb_spec (c_pid c) (-1)); [lia|]. destruct (Z.eqb_spec (c_pid c) 0); [lia|]. destruct (Z.ltb_spec 0 (c_pid c)); [reflexivity|lia]. }
  destruct (wait4_ok own (c_pid c) later l) as (l1 & d & l2 & l' & later' & st & E & Wx & Fa & R & V).
  - apply existsb_exists. exists c. split; [exact I|]. rewrite Wd. lia.
  - exact M.
  - rewrite Wd in Wx. apply Z.eqb_eq in Wx. unfold waitpid, wait4_w. rewrite R, bind_Ok, Wx, wrapper_pos by lia. exists l', later', st. split; [reflexivity|].
    assert (N : ~ In (c_pid d) (map c_pid (l1 ++ l2))) by (destruct F as [F _]; rewrite E, map_app in F; cbn [map] in F; apply NoDup_remove in F as [_ F]; now rewrite map_app).
    assert (Ecd : c = d).
    { rewrite E in I. apply in_app_or in I as [I|[I|I]]; [|now symmetry|]; exfalso; apply N; rewrite Wx; apply in_map; apply in_or_app; auto. }
    subst d. split; [exact Fa|]. rewrite (view_fates _ _ _ _ V). f_equal. rewrite E, filter_app. cbn [filter]. rewrite Z.eqb_refl. cbn [negb].
    rewrite map_app, in_app_iff in N. assert (K : forall k, ~ In (c_pid c) (map c_pid k) -> filter (fun d => negb (c_pid d =? c_pid c)) k = k).
    { induction k as [|x k IHk]; intros Nk; [reflexivity|]. cbn [map In filter] in *. destruct (Z.eqb_spec (c_pid x) (c_pid c)); [tauto|]. cbn [negb]. f_equal. apply IHk. tauto. }
    rewrite !K by tauto. reflexivity.
Qed.
Print Assumptions C168_waitpid.

(* WNOHANG: nothing is waited for.  A child of another number is refused with ECHILD *)
Theorem C168_nohang : forall own later l c errno, family l -> In c l ->
  match c_end c with
  | None => waitpid own (c_pid c) WNOHANG later l errno = Ok (l, later, 0, None, errno)
  | Some st => exists l', waitpid own (c_pid c) WNOHANG later l errno = Ok (l', later, c_pid c, Some st, errno)
  end.
Proof.
  intros own later l c errno F I. assert (P : 0 < c_pid c <= INT_MAX) by (destruct F as [_ F]; rewrite Forall_forall in F; now apply F).
  assert (Wd : forall d, wanted own (c_pid c) d = (c_pid d =? c_pid c)).
  { intros d. unfold wanted. destruct (Z.eqb_spec (c_pid c) (-1)); [lia|]. destruct (Z.eqb_spec (c_pid c) 0); [lia|]. destruct (Z.ltb_spec 0 (c_pid c)); [reflexivity|lia]. }
  assert (Same : forall d, In d l -> c_pid d = c_pid c -> d = c).
  { intros d Id E. destruct F as [F _]. clear - F Id I E. induction l as [|x l IH]; [destruct I|]. cbn [map] in F. inversion F as [|y ys N Fl]; subst.
    destruct Id as [->|Id], I as [->|I]; [reflexivity| | |now apply IH]; exfalso; apply N; [rewrite E|rewrite <- E]; now apply in_map. }
  assert (W4 : forall l0, match take own (c_pid c) l0 with Some (p, st, r) => wait4 own (c_pid c) 1 later l0 = Ok (r, later, p, Some st)
                         | None => existsb (wanted own (c_pid c)) l0 = true -> wait4 own (c_pid c) 1 later l0 = Ok (l0, later, 0, None) end).
  { intros l0. destruct later as [|[p st] later]; cbn [wait4]; destruct (take own (c_pid c) l0) as [[[? ?] ?]|]; try reflexivity; intros ->; reflexivity. }
  specialize (W4 l). unfold waitpid, wait4_w, WNOHANG. destruct (take own (c_pid c) l) as [[[p st] r]|] eqn:T.
  - destruct (take_some _ _ _ _ _ _ T) as (a & d & b & El & _ & E1 & E2 & E3). rewrite Wd in E3. apply Z.eqb_eq in E3.
    assert (d = c) by (apply Same; [rewrite El; apply in_or_app; right; now left|exact E3]). subst d. rewrite E2. exists r. rewrite W4, bind_Ok, wrapper_pos by lia. now rewrite E1.
  - rewrite (take_none _ _ _ T c I) by (rewrite Wd; lia). rewrite W4; [|apply existsb_exists; exists c; split; [exact I|rewrite Wd; lia]]. rewrite bind_Ok. reflexivity.
Qed.
Print Assumptions C168_nohang.
Theorem C168_no_child : forall own later l pid options errno, (forall c, In c l -> c_pid c <> pid) -> 0 < pid ->
  waitpid own pid options later l errno = Ok (l, later, -1, None, 10).
Proof.
  intros own later l pid options errno H P. unfold waitpid, wait4_w. rewrite nochild; [reflexivity|].
  destruct (existsb _ l) eqn:E; [|reflexivity]. apply existsb_exists in E as (c & I & W). exfalso. apply (H c I).
  unfold wanted in W. destruct (Z.eqb_spec pid (-1)); [lia|]. destruct (Z.eqb_spec pid 0); [lia|]. destruct (Z.ltb_spec 0 pid); [lia|lia].
Qed.
Print Assumptions C168_no_child.
(* three children: 12 has ended with status 3, 10 ends later, killed by signal 9 *)
Example C168_case : let l := [mkc 10 7 None; mkc 11 7 None; mkc 12 8 (Some 768)] in let later := [(11, 0); (10, 9)] in
  family l /\ mortal later l /\ wait_all 4 7 later l 0 = Ok ([(12, Some 768); (11, Some 0); (10, Some 9)], -1, 10) /\
  waitpid 7 10 0 later l 0 = Ok ([mkc 11 7 (Some 0); mkc 12 8 (Some 768)], [], 10, Some 9, 0).
Proof.
  cbv zeta. split; [|split; [|split; reflexivity]].
  - split; [repeat constructor; cbn; intuition discriminate|]. repeat constructor; cbn; discriminate.
  - repeat constructor; discriminate.
Qed.

(* ---- C169 ---- *)
(* exactly the processes of the group get the signal *)
Theorem C169_killpg_partial : forall self own ps g errno, 1 < g <= INT_MAX \/ g = 0 ->
  exists t r, killpg self own ps g errno = Ok (t, r) /\
    (forall q, In q t <-> In q ps /\ snd q = if g =? 0 then own else g) /\ (t <> [] -> r = (0, errno)) /\ (t = [] -> r = (-1, 3)).
Proof.
  intros self own ps g errno H. unfold killpg. rewrite iop_ok by (unfold INT_MIN, INT_MAX in *; lia). rewrite bind_Ok. unfold kill.
  set (t := kill_targets self own ps (- g)). exists t, (syscall_wrapper (match t with [] => -3 | _ => 0 end) errno). split; [reflexivity|]. split.
  - intros q. unfold t, kill_targets. rewrite filter_In. destruct (Z.ltb_spec 0 (- g)); [lia|]. destruct (Z.eqb_spec (- g) 0), (Z.eqb_spec g 0); try lia; [rewrite Z.eqb_eq; tauto|].
    destruct (Z.eqb_spec (- g) (-1)); [lia|]. rewrite Z.eqb_eq, Z.opp_involutive. tauto.
  - destruct t; split; intros X; try congruence; reflexivity.
Qed.
Print Assumptions C169_killpg_partial.
(* raise: the calling process and no other *)
Theorem C169_raise : forall self own ps errno, 0 < self <= INT_MAX -> In (self, own) ps -> NoDup (map fst ps) ->
  raise self own ps errno = ([(self, own)], (0, errno)).
Proof.
  intros self own ps errno H I N. unfold raise, kill. replace (kill_targets self own ps self) with [(self, own)]; [reflexivity|].
  unfold kill_targets. destruct (Z.ltb_spec 0 self); [|lia]. symmetry.
  assert (Z0 : forall l, ~ In self (map fst l) -> filter (fun q : Z * Z => fst q =? self) l = []).
  { induction l as [|x l IHl]; intros Nl; [reflexivity|]. cbn [map In filter] in *. destruct (Z.eqb_spec (fst x) self); [tauto|]. apply IHl. tauto. }
  induction ps as [|x ps IH]; [destruct I|]. cbn [map] in N. inversion N as [|y ys Nx Nl]; subst. cbn [filter]. destruct I as [->|I].
  - cbn [fst]. rewrite Z.eqb_refl. f_equal. now apply Z0.
  - destruct (Z.eqb_spec (fst x) self) as [E|_]; [exfalso; apply Nx; rewrite E; now apply (in_map fst) in I|]. now apply IH.
Qed.
Print Assumptions C169_raise.
Example C169_case : killpg 20 7 [(1, 1); (20, 7); (21, 8); (22, 8)] 8 5 = Ok ([(21, 8); (22, 8)], (0, 5)) /\ killpg 20 7 [(1, 1); (20, 7); (21, 8); (22, 8)] 0 5 = Ok ([(20, 7)], (0, 5)) /\
  raise 20 7 [(1, 1); (20, 7); (21, 8)] 5 = ([(20, 7)], (0, 5)).
Proof. repeat split. Qed.
(* killpg(1) goes to all processes, killpg(-n) to the process n; the smallest int cannot be negated *)
Theorem C169_one_refuted : exists self own ps t r q, killpg self own ps 1 0 = Ok (t, r) /\ In q t /\ snd q <> 1.
Proof. exists 20, 7, [(1, 1); (20, 7); (21, 8)]. do 2 eexists. exists (21, 8). split; [reflexivity|]. split; [now left|discriminate]. Qed.
Print Assumptions C169_one_refuted.
Theorem C169_negative_refuted : exists self own ps g t r q, g < 0 /\ killpg self own ps g 0 = Ok (t, r) /\ In q t.
Proof. exists 20, 7, [(1, 1); (20, 7); (21, 8)], (-21). do 2 eexists. exists (21, 8). split; [lia|]. split; [reflexivity|now left]. Qed.
Print Assumptions C169_negative_refuted.
