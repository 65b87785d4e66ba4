From Coq Require Import ZifyBool.
From Verif Require Import Base BaseLemmas StrModel StrProofs StreamModel StreamSpec StreamProofs OutModel OutSpec OutProofs BlankModel BlankSpec.

Lemma isspace_blank c : c_isspace c = blank c.
Proof. unfold c_isspace, blank. cbn [existsb]. lia. Qed.
(* lines and the pieces fgets delivers *)
Lemma lines_cons c r : exists x xs, lines (c :: r) = x :: xs /\ x <> [] /\ c :: r = x ++ concat xs /\ lines (concat xs) = xs.
Proof.
  revert c. induction r as [|d r IH]; intro c.
  - cbn [lines]. destruct (Z.eqb_spec c 10).
    + exists [10], []. subst c. repeat split. discriminate.
    + exists [c], []. repeat split. discriminate.
  - destruct (IH d) as (x & xs & E & N & C & L). remember (d :: r) as l. cbn [lines]. rewrite E. destruct (Z.eqb_spec c 10).
    + exists [10], (x :: xs). subst c. split; [reflexivity|]. split; [discriminate|]. cbn [concat]. split; [now rewrite C|]. rewrite <- C. exact E.
    + exists (c :: x), xs. split; [reflexivity|]. split; [discriminate|]. cbn [app]. split; [now rewrite C|exact L].
Qed.
Lemma lines_line l : forall x xs n, lines l = x :: xs -> (length x <= n)%nat -> line n l = x.
Proof.
  induction l as [|c r IH]; intros x xs n E Hn; [discriminate|]. cbn [lines] in E. destruct (Z.eqb_spec c 10).
  - injection E as <- <-. destruct n; [cbn in Hn; lia|]. cbn [line]. subst c. reflexivity.
  - assert (K : (c =? 10) = false) by lia. destruct (lines r) as [|y ys] eqn:Er.
    + injection E as <- <-. destruct n; [cbn in Hn; lia|]. cbn [line]. rewrite K. destruct r as [|d r]; [destruct n; reflexivity|].
      destruct (lines_cons d r) as (? & ? & E & _). congruence.
    + injection E as <- <-. destruct n; [cbn in Hn; lia|]. cbn [line]. rewrite K. f_equal. apply (IH y ys); [reflexivity|]. cbn in Hn. lia.
Qed.
Lemma lines_long l : forall x xs n, lines l = x :: xs -> (n <= length x)%nat -> length (line n l) = n.
Proof.
  induction l as [|c r IH]; intros x xs n E Hn; [discriminate|]. cbn [lines] in E. destruct n; [reflexivity|]. cbn [line]. destruct (Z.eqb_spec c 10).
  - injection E as <- <-. cbn in *. lia.
  - destruct (lines r) as [|y ys] eqn:Er.
    + injection E as <- <-. cbn in Hn. assert (n = 0%nat) by lia. subst n. destruct r; reflexivity.
    + injection E as <- <-. cbn [length]. f_equal. apply (IH y ys); [reflexivity|]. cbn in Hn. lia.
Qed.
Lemma unindent_split x : exists a, x = a ++ unindent x /\ forallb blank a = true /\ (unindent x = [] -> forallb blank x = true) /\
  match unindent x with [] => True | c :: _ => blank c = false /\ forallb blank x = false end.
Proof.
  induction x as [|c r (a & E & A & N & M)].
  - exists []. repeat split.
  - cbn [unindent]. destruct (blank c) eqn:B.
    + exists (c :: a). cbn [app forallb]. rewrite B, A. split; [f_equal; exact E|]. split; [reflexivity|]. split; [exact N|]. destruct (unindent r); [exact I|]. exact M.
    + exists []. cbn [app forallb]. rewrite B. repeat split. discriminate.
Qed.
(* the loop over blanks *)
Lemma skip_ok m buf a b : forall fuel i, forallb blank a = true -> str_at m (buf + i) (a ++ b) -> (match b with [] => True | c :: _ => blank c = false end) ->
  0 <= i -> i + zlen a <= INT_MAX -> (length a < fuel)%nat ->
  skip_loop fuel m buf i = Ok (i + zlen a) /\ str_at m (buf + (i + zlen a)) b.
Proof.
  induction a as [|c a IH]; intros fuel i A S B Hi L F.
  - destruct fuel; [lia|]. change (zlen (@nil Z)) with 0. cbn [skip_loop app] in *. rewrite Z.add_0_r. split; [|exact S]. destruct b as [|c b].
    + cbn in S. rewrite (load_some _ _ _ S), bind_Ok. reflexivity.
    + destruct S as (S1 & _). rewrite (load_some _ _ _ S1), bind_Ok, isspace_blank, B. reflexivity.
  - destruct fuel; [cbn in F; lia|]. rewrite zlen_cons in *. nneg a. cbn [forallb] in A. apply andb_prop in A as [A1 A2]. cbn [app] in S. destruct S as (S1 & S2 & S3).
    cbn [skip_loop]. rewrite (load_some _ _ _ S1), bind_Ok, isspace_blank, A1. rewrite iop_ok by (unfold INT_MIN, INT_MAX in *; lia). rewrite bind_Ok.
    replace (i + (1 + zlen a)) with (i + 1 + zlen a) by lia. replace (i + (zlen a + 1)) with (i + 1 + zlen a) by lia. apply IH; auto; try lia.
    + replace (buf + (i + 1)) with (buf + i + 1) by lia. exact S3.
    + cbn in F. lia.
Qed.

Lemma str_room l : forall m p, str_at m p l -> room m p (zlen l + 1).
Proof.
  induction l as [|c l IH]; intros m p S x Hx.
  - change (zlen (@nil Z)) with 0 in Hx. cbn in S. replace x with p by lia. congruence.
  - rewrite zlen_cons in Hx. destruct S as (S1 & _ & S3). destruct (Z.eq_dec x p) as [->|]; [congruence|]. apply (IH m (p + 1) S3). lia.
Qed.
Section Strip.
Context {W : Type} (k : kernel W) (content : W -> Z -> list Z) (Ka : takes_all k content).
Lemma wrote_app fd a b w w1 w2 : wrote content fd a w w1 -> wrote content fd b w1 w2 -> wrote content fd (a ++ b) w w2.
Proof. intros A B x. rewrite B, A. destruct (x =? fd); rewrite <- app_assoc; reflexivity. Qed.
Lemma wrote_nil fd w : wrote content fd [] w w.
Proof. intro x. destruct (x =? fd); now rewrite app_nil_r. Qed.
Definition kept (whole : bool) (x : list Z) : list Z := if whole then (if forallb blank x then [] else x) else unindent x.
Lemma strip_step whole fuel n warn m s buf w x xs : wok s -> text (cont s) -> lines (cont s) = x :: xs -> zlen x < 1024 -> room m buf 1024 -> buf > 0 -> (1024 < fuel)%nat ->
  exists m' s' w', strip whole k fuel (S n) warn m s buf w = strip whole k fuel n warn m' s' buf w' /\ wok s' /\ cont s = x ++ cont s' /\ lines (cont s') = xs /\
    room m' buf 1024 /\ same_outside m m' buf 1024 /\ wrote content 1 (kept whole x) w w'.
Proof.
  intros Hw Ht E L R Hb F. assert (Nc : cont s <> []) by (intro C; rewrite C in E; discriminate).
  assert (LL : line (Z.to_nat 1024) (cont s) = x) by (apply (lines_line _ x xs); [exact E|unfold zlen in L; lia]).
  destruct (fgets_ok fuel m s buf 1024) as (m' & s' & G1 & G2 & G3 & G4 & G5); auto; try (unfold INT_MAX; lia).
  { rewrite LL. eapply room_sub; [exact R| |]; lia. }
  cbn zeta in *. rewrite LL in *. unfold fgets in *. cbn [strip]. unfold fgets. rewrite G1. cbn [bind]. destruct (Z.eqb_spec buf 0); [lia|].
  nneg x. rewrite (strlen_ok x fuel m' buf), bind_Ok by (auto; unfold INT_MAX, zlen in *; lia). replace (1024 <=? zlen x) with false by lia.
  destruct (unindent_split x) as (a & Ex & A & N & M). assert (La : zlen x = zlen a + zlen (unindent x)) by (rewrite Ex at 1; apply zlen_app). nneg a. nneg (unindent x).
  assert (S0 : str_at m' (buf + 0) (a ++ unindent x)) by (rewrite Z.add_0_r, <- Ex; exact G2).
  destruct (skip_ok m' buf a (unindent x) fuel 0) as (K1 & K2); auto; try (unfold INT_MAX, zlen in *; lia); [destruct (unindent x); [exact I|apply M]|].
  rewrite K1, bind_Ok. rewrite Z.add_0_l in *.
  assert (R' : room m' buf 1024).
  { intros j Hj. destruct (Z_lt_dec j (buf + zlen x + 1)) as [Lt|Ge].
    - apply (str_room _ _ _ G2). lia.
    - rewrite (G3 j) by lia. apply R. exact Hj. }
  assert (Nx : lines (cont s') = xs).
  { destruct (cont s) as [|c r] eqn:Ec; [congruence|]. destruct (lines_cons c r) as (y & ys & E1 & _ & E2 & E3). rewrite E in E1. injection E1 as <- <-.
    rewrite E2 in G4. apply app_inv_head in G4. rewrite <- G4. exact E3. }
  assert (SO : same_outside m m' buf 1024) by (eapply same_outside_weaken; [exact G3| |]; lia).
  destruct (unindent x) as [|c r] eqn:Eu.
  - cbn in K2. rewrite (load_some _ _ _ K2), bind_Ok. cbn [Z.eqb negb]. exists m', s', w. split; [reflexivity|]. do 5 (split; [assumption|]).
    unfold kept. rewrite Eu, (N eq_refl). destruct whole; apply wrote_nil.
  - destruct M as [M1 M2]. pose proof K2 as (K3 & K4 & _). rewrite (load_some _ _ _ K3), bind_Ok. replace (c =? 0) with false by lia. cbn [negb].
    set (p := if whole then buf else buf + zlen a). set (t := if whole then x else c :: r).
    destruct (dprints_ok k content Ka fuel m' 1 [] [] p t [] 0 w) as (w' & P & Wr).
    + constructor.
    + unfold p, t. destruct whole; split; auto; lia.
    + lia.
    + unfold t. change (zlen (concat [])) with 0. destruct whole; unfold INT_MAX in *; lia.
    + unfold t, zlen in *. destruct whole; lia.
    + constructor.
    + unfold prints, dprints. cbn [app] in *. rewrite P, bind_Ok. cbn [snd]. exists m', s', w'. split; [reflexivity|]. do 5 (split; [assumption|]).
      unfold kept. rewrite M2, Eu. rewrite app_nil_r in Wr. exact Wr.
Qed.
Lemma strip_ok whole fuel warn buf : (1024 < fuel)%nat -> buf > 0 -> forall n m s w, wok s -> text (cont s) -> Forall (fun x => zlen x < 1024) (lines (cont s)) -> room m buf 1024 ->
  (length (lines (cont s)) < n)%nat ->
  exists m' s' w', strip whole k fuel n warn m s buf w = Ok (m', s', w') /\ cont s' = [] /\ same_outside m m' buf 1024 /\
    wrote content 1 (concat (map (kept whole) (lines (cont s)))) w w'.
Proof.
  intros F Hb. induction n as [|n IH]; intros m s w Hw Ht Hl R Hn; [lia|]. destruct (lines (cont s)) as [|x xs] eqn:E.
  - assert (C : cont s = []). { destruct (cont s) as [|c r]; [reflexivity|]. destruct (lines_cons c r) as (? & ? & K & _). congruence. }
    cbn [strip]. unfold fgets. rewrite fgets_eof by (first [exact C | exact Hw | apply (room_sub m buf 1024); [exact R|lia|lia]]). cbn [bind Z.eqb]. do 3 eexists. split; [reflexivity|]. split; [exact C|].
    split; [apply same_outside_upd; lia|]. apply wrote_nil.
  - apply Forall_cons_iff in Hl as [L Hl]. destruct (strip_step whole fuel n warn m s buf w x xs) as (m1 & s1 & w1 & E1 & W1 & C1 & N1 & R1 & O1 & Wr1); auto.
    assert (T1 : text (cont s1)) by (rewrite C1 in Ht; apply Forall_app in Ht; apply Ht).
    destruct (IH m1 s1 w1) as (m2 & s2 & w2 & E2 & C2 & O2 & Wr2); auto; try (rewrite N1; auto; cbn in Hn; lia).
    exists m2, s2, w2. rewrite E1, E2. split; [reflexivity|]. split; [exact C2|]. split; [eapply same_outside_trans; eassumption|].
    rewrite N1 in Wr2. cbn [map concat]. eapply wrote_app; eassumption.
Qed.
Lemma strip_long whole fuel warn buf : (1024 < fuel)%nat -> buf > 0 -> forall n m s w, wok s -> text (cont s) -> Exists (fun x => 1024 <= zlen x) (lines (cont s)) -> room m buf 1024 ->
  m (buf + 1024) = None -> (length (lines (cont s)) < n)%nat -> strip whole k fuel n warn m s buf w = Fault.
Proof.
  intros F Hb. induction n as [|n IH]; intros m s w Hw Ht Hl R Nm Hn; [lia|]. destruct (lines (cont s)) as [|x xs] eqn:E; [inversion Hl|].
  destruct (Z_lt_dec (zlen x) 1024) as [L|L].
  - destruct (strip_step whole fuel n warn m s buf w x xs) as (m1 & s1 & w1 & E1 & W1 & C1 & N1 & R1 & O1 & Wr1); auto.
    assert (T1 : text (cont s1)) by (rewrite C1 in Ht; apply Forall_app in Ht; apply Ht).
    rewrite E1. apply IH; auto.
    + rewrite N1. inversion Hl; [lia|assumption].
    + rewrite O1 by lia. exact Nm.
    + rewrite N1. cbn in Hn. lia.
  - cbn [strip]. unfold fgets. rewrite fgets_overrun; auto; try (unfold INT_MAX; lia).
    assert (K : length (line (Z.to_nat 1024) (cont s)) = Z.to_nat 1024) by (apply (lines_long _ x xs); [exact E|unfold zlen in L; lia]). unfold zlen. rewrite K. reflexivity.
Qed.
End Strip.
