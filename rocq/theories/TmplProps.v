(* C175: template.pl replaces the text between the marks of a file. *)
From Coq Require Import String.
From Verif Require Import Base BaseLemmas StripModel StripProps TmplModel.
Local Open Scope list_scope.

(* a whole line; the lines of a file *)
Definition line (l : list Z) : Prop := exists a, l = a ++ [10] /\ ~ In 10 a.
(* the mark s occurs in l; it occurs first behind a *)
Definition has (s l : list Z) : Prop := exists a b, l = a ++ s ++ b.
Definition first (a s b l : list Z) : Prop := l = a ++ s ++ b /\ forall a' b', l = a' ++ s ++ b' -> (length a <= length a')%nat.
Definition ends_word (b : list Z) : Prop := match b with [] => True | c :: _ => space c = true end.
(* the line that starts the section TMPL of the praefix p, and the line that ends it *)
Definition start_line (p l : list Z) : Prop := exists a b, first a (p ++ chars "-start: ") (chars "TMPL" ++ b) l /\ ends_word b.
Definition start_named (p n l : list Z) : Prop := exists a b, first a (p ++ chars "-start: ") (n ++ b) l /\ ends_word b /\
  forall c, In c n -> space c = false.
Definition end_line (p n l : list Z) : Prop := exists a sp b, first a (p ++ chars "-end:") (32 :: sp ++ n ++ b) l /\
  (forall c, In c sp -> space c = true) /\ ends_word b /\ forall c, In c n -> space c = false.
Definition no_start (p : list Z) (ls : list (list Z)) : Prop := forall l, In l ls -> ~ has (p ++ chars "-start: ") l.
Definition no_end (p : list Z) (ls : list (list Z)) : Prop := forall l, In l ls -> ~ has (p ++ chars "-end: ") l.

Lemma readlines_line a r : ~ In 10 a -> readlines ((a ++ [10]) ++ r) = (a ++ [10]) :: readlines r.
Proof.
  induction a as [|c a IH]; intros N; cbn [app readlines]; [reflexivity|].
  destruct (Z.eqb_spec c 10) as [->|]; [destruct N; now left|]. rewrite IH by (intros I; apply N; now right). reflexivity.
Qed.
Lemma readlines_concat ls : Forall line ls -> readlines (concat ls) = ls.
Proof.
  induction 1 as [|l ls (a & -> & N) F IH]; [reflexivity|]. cbn [concat]. rewrite readlines_line by exact N. now rewrite IH.
Qed.
Lemma begins_app p b : begins p (p ++ b) = true.
Proof. apply begins_spec. now exists b. Qed.
Lemma after_first s l : forall a b, first a s b l -> after s l = Some b.
Proof.
  induction l as [|c l IH]; intros a b (E & F).
  - destruct a; [|discriminate]. cbn [app] in E. assert (s = []) by (destruct s; [reflexivity|discriminate]). subst s. destruct b; [|discriminate]. reflexivity.
  - destruct a as [|x a]; cbn [app] in E.
    + cbn [after]. rewrite E, begins_app. f_equal. rewrite skipn_app, skipn_all, Nat.sub_diag. reflexivity.
    + injection E as <- E. cbn [after]. destruct (begins s (c :: l)) eqn:B.
      * apply begins_spec in B. destruct B as (r & B). specialize (F [] r B). cbn [length] in F. lia.
      * apply (IH a). split; [exact E|]. intros a' b' E'. specialize (F (c :: a') b'). cbn [app length] in F. rewrite E' in F. specialize (F eq_refl). lia.
Qed.
Lemma after_none s l : ~ has s l -> after s l = None.
Proof.
  induction l as [|c l IH]; intros N.
  - cbn [after]. destruct (begins s []) eqn:B; [|reflexivity]. apply begins_spec in B. destruct B as (r & B). destruct N. exists [], r. exact B.
  - cbn [after]. destruct (begins s (c :: l)) eqn:B; [apply begins_spec in B; destruct B as (r & B); destruct N; exists [], r; exact B|].
    apply IH. intros (a & b & E). apply N. exists (c :: a), b. cbn [app]. now rewrite E.
Qed.
Lemma after_some s l : has s l -> exists t, after s l = Some t.
Proof.
  induction l as [|c l IH]; intros (a & b & E).
  - destruct a; [|discriminate]. cbn [app] in E. destruct s; [|discriminate]. exists []. reflexivity.
  - cbn [after]. destruct (begins s (c :: l)) eqn:B; [eauto|]. apply IH. destruct a as [|x a]; cbn [app] in E.
    + exfalso. assert (begins s (c :: l) = true) by (rewrite E; apply begins_app). congruence.
    + injection E as _ E. exists a, b. exact E.
Qed.
Lemma eqs_eq a : forall b, eqs a b = true <-> a = b.
Proof.
  induction a as [|x a IH]; intros [|y b]; cbn [eqs]; try (split; congruence). rewrite Bool.andb_true_iff, Z.eqb_eq, IH.
  split; [intros [-> ->]; reflexivity|intros H; injection H as -> ->; split; reflexivity].
Qed.
Lemma word_app n b : (forall c, In c n -> space c = false) -> ends_word b -> word (n ++ b) = n.
Proof.
  induction n as [|c n IH]; intros H E; cbn [app].
  - destruct b as [|c b]; [reflexivity|]. cbn in E |- *. now rewrite E.
  - cbn [word]. rewrite H by now left. f_equal. apply IH; [|exact E]. intros x I. apply H. now right.
Qed.
Lemma unspace_app sp n b : (forall c, In c sp -> space c = true) -> (forall c, In c n -> space c = false) -> n <> [] -> unspace (sp ++ n ++ b) = n ++ b.
Proof.
  intros H N Ne. induction sp as [|c sp IH]; cbn [app].
  - destruct n as [|c n]; [congruence|]. cbn [app unspace]. now rewrite N by now left.
  - cbn [unspace]. rewrite H by now left. apply IH. intros x I. apply H. now right.
Qed.
Lemma word_unspace_nil sp b : (forall c, In c sp -> space c = true) -> forall w, word (unspace (sp ++ b)) = w -> word (unspace b) = w.
Proof.
  intros H w. induction sp as [|c sp IH]; cbn [app]; [auto|]. cbn [unspace]. rewrite H by now left. apply IH. intros x I. apply H. now right.
Qed.

Section P.
Variables (p : list Z) (insert : bool).
Lemma copy_lines ls : forall input r, no_start p ls ->
  tmpl p insert None input (ls ++ r) = let '(o, s) := tmpl p insert None input r in (option_map (app (concat ls)) o, s).
Proof.
  induction ls as [|l ls IH]; intros input r N; cbn [app].
  - destruct (tmpl p insert None input r) as [[o|] s]; reflexivity.
  - cbn [tmpl]. unfold smark. rewrite after_none by (apply N; now left). rewrite IH by (intros x I; apply N; now right).
    destruct (tmpl p insert None input r) as [[o|] s]; cbn [option_map concat]; [now rewrite app_assoc|reflexivity].
Qed.
Lemma skip_lines n ls : forall input r, Forall line ls -> no_end p ls ->
  tmpl p insert (Some n) input (ls ++ r) = let '(o, s) := tmpl p insert (Some n) input r in (option_map (app (if insert then concat ls else [])) o, s).
Proof.
  induction ls as [|l ls IH]; intros input r F N; cbn [app].
  - destruct (tmpl p insert (Some n) input r) as [[o|] s]; cbn; [destruct insert; reflexivity|reflexivity].
  - inversion F as [|? ? Hl F']; subst. cbn [tmpl]. unfold emark. rewrite after_none by (apply N; now left).
    assert (T : truth l = true). { destruct Hl as (a & -> & _). destruct a as [|x [|y a]]; reflexivity. }
    rewrite T. cbn [andb negb]. rewrite IH; [|exact F'|intros x I; apply N; now right].
    destruct (tmpl p insert (Some n) input r) as [[o|] s]; cbn [option_map concat]; [destruct insert; [now rewrite app_assoc|reflexivity]|reflexivity].
Qed.
Lemma start_tmpl l input r : start_line p l ->
  tmpl p insert None input (l :: r) = let '(o, _) := tmpl p insert (Some (chars "TMPL")) [] r in (option_map (app (l ++ input)) o, true).
Proof.
  intros (a & b & F & W). cbn [tmpl]. unfold smark. rewrite (after_first _ _ _ _ F). rewrite word_app; [|intros c I; cbn in I; intuition; subst; reflexivity|exact W].
  replace (eqs (chars "TMPL") (chars "TMPL")) with true by reflexivity. reflexivity.
Qed.
Lemma end_tmpl n m l input r : end_line p n l -> n <> [] ->
  tmpl p insert (Some m) input (l :: r) = if eqs m n then let '(o, s) := tmpl p insert None input r in (option_map (app l) o, s) else (None, false).
Proof.
  intros (a & sp & b & F & Sp & W & N) Ne. cbn [tmpl].
  assert (H : has (p ++ chars "-end: ") l).
  { destruct F as (-> & _). exists a, (sp ++ n ++ b). rewrite <- !app_assoc. reflexivity. }
  destruct (after_some _ _ H) as (t & E). change (after (emark p) l = Some t) in E. rewrite E. cbn [negb]. rewrite Bool.andb_false_r.
  unfold emark0. rewrite (after_first _ _ _ _ F).
  replace (unspace (32 :: sp ++ n ++ b)) with (n ++ b) by (cbn [unspace space]; symmetry; now apply unspace_app).
  rewrite word_app by assumption. reflexivity.
Qed.
End P.

(* one section: the text between its marks becomes the input; with -insert the input comes in front of
   the text that was there; all other bytes stay; the exit status is 0 *)
Theorem C175_section_partial : forall p insert input A S B E C,
  Forall line (A ++ S :: B ++ E :: C) -> no_start p A -> start_line p S -> no_end p B -> end_line p (chars "TMPL") E -> no_start p C ->
  template p insert input (concat (A ++ S :: B ++ E :: C)) =
    (concat (A ++ [S]) ++ input ++ (if insert then concat B else []) ++ concat (E :: C), 0).
Proof.
  intros p insert input A S B E C F NA HS NB HE NC. unfold template. rewrite readlines_concat by exact F.
  rewrite copy_lines by exact NA. rewrite start_tmpl by exact HS.
  rewrite skip_lines; [|apply Forall_app in F; destruct F as [_ F]; inversion F as [|? ? _ F']; subst; now apply Forall_app in F'|exact NB].
  rewrite (end_tmpl p insert (chars "TMPL")) by (auto; discriminate). replace (eqs (chars "TMPL") (chars "TMPL")) with true by reflexivity.
  rewrite <- (app_nil_r C) at 1. rewrite copy_lines by exact NC. cbn [tmpl option_map]. f_equal.
  rewrite concat_app. cbn [concat]. rewrite !app_nil_r, <- !app_assoc. reflexivity.
Qed.
Print Assumptions C175_section_partial.
(* any number of sections: the first one gets the input, the others get nothing (see C175_second_refuted) *)
Record section := { s_start : list Z; s_old : list (list Z); s_end : list Z; s_rest : list (list Z) }.
Definition s_lines (x : section) : list (list Z) := s_start x :: s_old x ++ s_end x :: s_rest x.
Definition s_good (p : list Z) (x : section) : Prop :=
  start_line p (s_start x) /\ no_end p (s_old x) /\ end_line p (chars "TMPL") (s_end x) /\ no_start p (s_rest x).
Definition s_new (insert : bool) (input : list Z) (x : section) : list Z :=
  s_start x ++ input ++ (if insert then concat (s_old x) else []) ++ s_end x ++ concat (s_rest x).
Theorem C175_sections_partial : forall p insert input A x xs,
  Forall line (A ++ concat (map s_lines (x :: xs))) -> no_start p A -> Forall (s_good p) (x :: xs) ->
  template p insert input (concat (A ++ concat (map s_lines (x :: xs)))) =
    (concat A ++ s_new insert input x ++ concat (map (s_new insert []) xs), 0).
Proof.
  intros p insert input A x xs F NA G. unfold template. rewrite readlines_concat by exact F. rewrite copy_lines by exact NA.
  assert (H : forall input y ys, Forall line (concat (map s_lines (y :: ys))) -> Forall (s_good p) (y :: ys) ->
    tmpl p insert None input (concat (map s_lines (y :: ys))) = (Some (s_new insert input y ++ concat (map (s_new insert []) ys)), true)).
  { clear. intros input y ys. revert input y. induction ys as [|y' ys IH]; intros input y F G;
      pose proof (Forall_inv G) as (G1 & G2 & G3 & G4).
    - cbn [map concat] in *. rewrite app_nil_r in F. rewrite !app_nil_r. unfold s_lines in *. rewrite start_tmpl by exact G1.
      rewrite skip_lines; [|inversion F as [|? ? _ F']; subst; now apply Forall_app in F'|exact G2].
      rewrite (end_tmpl p insert (chars "TMPL")) by (auto; discriminate). replace (eqs (chars "TMPL") (chars "TMPL")) with true by reflexivity.
      rewrite <- (app_nil_r (s_rest y)) at 1. rewrite copy_lines by exact G4. cbn [tmpl option_map]. unfold s_new.
      rewrite app_nil_r, <- !app_assoc. reflexivity.
    - cbn [map concat] in F. apply Forall_app in F as [F1 F2]. apply Forall_inv_tail in G. specialize (IH [] y' F2 G).
      cbn [map concat] in *. unfold s_lines at 1. unfold s_lines at 1 in F1. cbn [app]. rewrite start_tmpl by exact G1.
      rewrite <- app_assoc. rewrite skip_lines; [|inversion F1 as [|? ? _ F']; subst; now apply Forall_app in F'|exact G2].
      cbn [app]. rewrite (end_tmpl p insert (chars "TMPL")) by (auto; discriminate).
      replace (eqs (chars "TMPL") (chars "TMPL")) with true by reflexivity.
      rewrite copy_lines by exact G4. rewrite IH. cbn [option_map]. unfold s_new at 3.
      rewrite <- !app_assoc. reflexivity. }
  rewrite H; [reflexivity| |exact G]. now apply Forall_app in F.
Qed.
Print Assumptions C175_sections_partial.
(* running it again with the same input changes nothing *)
Theorem C175_again : forall p L A S B E C,
  Forall line (A ++ S :: B ++ E :: C) -> no_start p A -> start_line p S -> no_end p B -> end_line p (chars "TMPL") E -> no_start p C ->
  Forall line L -> no_end p L ->
  let f := concat (A ++ S :: B ++ E :: C) in let g := fst (template p false (concat L) f) in template p false (concat L) g = (g, 0).
Proof.
  intros p L A S B E C F NA HS NB HE NC FL NL f g. unfold g, f. rewrite C175_section_partial by assumption. cbn [fst].
  assert (G : concat (A ++ [S]) ++ concat L ++ [] ++ concat (E :: C) = concat (A ++ S :: L ++ E :: C)).
  { cbn [app]. rewrite !concat_app. cbn [concat]. rewrite !concat_app, app_nil_r, <- !app_assoc. reflexivity. }
  rewrite G. rewrite C175_section_partial; [rewrite G; reflexivity| |assumption..].
  apply Forall_app in F. destruct F as [FA F]. inversion F as [|? ? FS F']; subst. apply Forall_app in F'. destruct F' as [_ F'].
  apply Forall_app. split; [exact FA|]. constructor; [exact FS|]. apply Forall_app. split; assumption.
Qed.
Print Assumptions C175_again.
(* without a mark the file stays and the exit status is 1, as well when the first section has another name;
   if the section is ended by another name the file stays *)
Theorem C175_unchanged : forall p insert input,
  (forall A, Forall line A -> no_start p A -> template p insert input (concat A) = (concat A, 1)) /\
  (forall A S B E C n, Forall line (A ++ S :: B ++ E :: C) -> no_start p A -> start_line p S -> no_end p B -> end_line p n E -> n <> [] -> n <> chars "TMPL" ->
    fst (template p insert input (concat (A ++ S :: B ++ E :: C))) = concat (A ++ S :: B ++ E :: C)) /\
  (forall A S C n, Forall line (A ++ S :: C) -> no_start p A -> start_named p n S -> n <> chars "TMPL" ->
    template p insert input (concat (A ++ S :: C)) = (concat (A ++ S :: C), 1)).
Proof.
  intros p insert input. split; [|split].
  - intros A F N. unfold template. rewrite readlines_concat by exact F. rewrite <- (app_nil_r A) at 1. rewrite copy_lines by exact N. cbn. now rewrite app_nil_r.
  - intros A S B E C n F NA HS NB HE Ne Nn. unfold template. rewrite readlines_concat by exact F.
    rewrite copy_lines by exact NA. rewrite start_tmpl by exact HS.
    rewrite skip_lines; [|apply Forall_app in F; destruct F as [_ F]; inversion F as [|? ? _ F']; subst; now apply Forall_app in F'|exact NB].
    rewrite (end_tmpl p insert n) by auto. destruct (eqs (chars "TMPL") n) eqn:Q; [apply eqs_eq in Q; congruence|]. reflexivity.
  - intros A S C n F NA (a & b & HS & W & N) Nn. unfold template. rewrite readlines_concat by exact F.
    rewrite copy_lines by exact NA. cbn [tmpl]. unfold smark. rewrite (after_first _ _ _ _ HS). rewrite word_app by assumption.
    destruct (eqs n (chars "TMPL")) eqn:Q; [apply eqs_eq in Q; congruence|]. reflexivity.
Qed.
Print Assumptions C175_unchanged.

Definition nl (s : string) : list Z := chars s ++ [10].
Lemma start_ex : start_line (chars "doc") (nl "// doc-start: TMPL").
Proof.
  exists (chars "// "), [10]. split; [|reflexivity]. split; [reflexivity|]. intros a' b' E.
  destruct a' as [|x1 [|x2 [|x3 a']]]; cbn in E |- *; try discriminate; lia.
Qed.
Lemma end_ex n : (forall c, In c (chars n) -> space c = false) -> end_line (chars "doc") (chars n) (chars "// doc-end: " ++ chars n ++ [10]).
Proof.
  intros N. exists (chars "// "), [], [10]. split; [|split; [intros c []|split; [reflexivity|exact N]]]. split; [reflexivity|]. intros a' b' E.
  destruct a' as [|x1 [|x2 [|x3 a']]]; cbn in E |- *; try discriminate; lia.
Qed.
Lemma no_ex s l : after (chars s) l = None -> ~ has (chars s) l.
Proof. intros E H. destruct (after_some _ _ H) as (t & T). congruence. Qed.
(* "a", start, "old", end, "b" with the input "new" *)
Example C175_case : let f := concat (map nl ["a"; "// doc-start: TMPL"; "old"; "// doc-end: TMPL"; "b"]%string) in
  template (chars "doc") false (nl "new") f = (concat (map nl ["a"; "// doc-start: TMPL"; "new"; "// doc-end: TMPL"; "b"]%string), 0) /\
  template (chars "doc") true (nl "new") f = (concat (map nl ["a"; "// doc-start: TMPL"; "new"; "old"; "// doc-end: TMPL"; "b"]%string), 0) /\
  start_line (chars "doc") (nl "// doc-start: TMPL") /\ end_line (chars "doc") (chars "TMPL") (nl "// doc-end: TMPL") /\ no_end (chars "doc") [nl "old"].
Proof.
  split; [reflexivity|]. split; [reflexivity|]. split; [exact start_ex|]. split; [apply (end_ex "TMPL"); intros c I; cbn in I; intuition; subst; reflexivity|].
  intros l [<-|[]]. apply (no_ex "doc-end: "). reflexivity.
Qed.

(* The full claim: everything outside of the sections is kept, every section gets the input, and the
   status says whether the file was changed.  It is false: without the end mark everything behind
   the start mark is deleted, with status 0 *)
Theorem C175_end_refuted : forall p input A S B, Forall line (A ++ S :: B) -> no_start p A -> start_line p S -> no_end p B ->
  template p false input (concat (A ++ S :: B)) = (concat (A ++ [S]) ++ input, 0).
Proof.
  intros p input A S B F NA HS NB. unfold template. rewrite readlines_concat by exact F. rewrite copy_lines by exact NA. rewrite start_tmpl by exact HS.
  rewrite <- (app_nil_r B) at 1. rewrite skip_lines; [|apply Forall_app in F; destruct F as [_ F]; now inversion F|exact NB].
  cbn [tmpl option_map]. f_equal. rewrite concat_app. cbn [concat app]. rewrite !app_nil_r, <- !app_assoc. reflexivity.
Qed.
Print Assumptions C175_end_refuted.
(* a second section of the same name is emptied *)
Theorem C175_second_refuted : exists p input f g, template p false input f = (g, 0) /\
  f = concat (map nl ["// doc-start: TMPL"; "1"; "// doc-end: TMPL"; "// doc-start: TMPL"; "2"; "// doc-end: TMPL"]%string) /\ input = nl "new" /\
  g = concat (map nl ["// doc-start: TMPL"; "new"; "// doc-end: TMPL"; "// doc-start: TMPL"; "// doc-end: TMPL"]%string).
Proof. exists (chars "doc"). do 3 eexists. split; [|split; [reflexivity|split; [reflexivity|reflexivity]]]. reflexivity. Qed.
Print Assumptions C175_second_refuted.
(* and a wrong end mark, which leaves the file as it is, gives status 0 too *)
Theorem C175_status_refuted : exists p input f, template p false input f = (f, 0) /\ input = nl "new" /\
  f = concat (map nl ["// doc-start: TMPL"; "1"; "// doc-end: OTHER"]%string).
Proof. exists (chars "doc"). do 2 eexists. split; [|split; reflexivity]. reflexivity. Qed.
Print Assumptions C175_status_refuted.
