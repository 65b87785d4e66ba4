(* C172: stripundefs.pl removes the blocks #if 0 ... #endif.  C173: ifdefs.pl shows the nesting. *)
From Coq Require Import String.
From Verif Require Import Base BaseLemmas StripModel.
Local Open Scope list_scope.

(* what a line is, by its first characters *)
Definition opens (l : list Z) : Prop := exists r, l = chars "#if" ++ r.
Definition opens0 (l : list Z) : Prop := exists r, l = chars "#if 0" ++ r.
Definition closes (l : list Z) : Prop := exists r, l = chars "#endif" ++ r.
Definition elses (l : list Z) : Prop := exists r, l = chars "#else" ++ r.
(* lines with every #if closed by its #endif *)
Inductive nested : list (list Z) -> Prop :=
| n_nil : nested []
| n_line : forall l r, ~ opens l -> ~ closes l -> nested r -> nested (l :: r)
| n_block : forall o b c r, opens o -> nested b -> closes c -> nested r -> nested (o :: b ++ c :: r).
(* [without0 lines out]: out is lines without the blocks that start with #if 0 *)
Inductive without0 : list (list Z) -> list (list Z) -> Prop :=
| w_nil : without0 [] []
| w_keep : forall l r o, ~ opens0 l -> without0 r o -> without0 (l :: r) (l :: o)
| w_drop : forall a b c r o, opens0 a -> nested b -> closes c -> without0 r o -> without0 (a :: b ++ c :: r) o.

Lemma begins_spec p : forall l, begins p l = true <-> exists r, l = p ++ r.
Proof.
  induction p as [|a p IH]; intros l; cbn [begins app].
  - split; [intros _; exists l; reflexivity|reflexivity].
  - destruct l as [|b l]; [split; [discriminate|intros (r & H); discriminate]|].
    rewrite Bool.andb_true_iff, Z.eqb_eq, IH. split.
    + intros (-> & r & ->). exists r. reflexivity.
    + intros (r & H). injection H as -> ->. split; [reflexivity|exists r; reflexivity].
Qed.
Lemma begins_no p l : begins p l = false <-> ~ exists r, l = p ++ r.
Proof. rewrite <- begins_spec. destruct (begins p l); split; congruence. Qed.
Ltac kind H := first [apply (proj2 (begins_spec _ _)) in H | apply (proj2 (begins_no _ _)) in H].
Lemma if_endif l : is_if l = true -> is_endif l = true -> False.
Proof.
  unfold is_if, is_endif. intros A B. apply begins_spec in A. apply begins_spec in B. destruct A as (r & ->), B as (s & E). cbn in E. discriminate.
Qed.
Lemma if0_if l : is_if0 l = true -> is_if l = true.
Proof. unfold is_if0, is_if. rewrite !begins_spec. intros (r & ->). exists (chars " 0" ++ r). reflexivity. Qed.

(* inside a block the counter of lines that are nested returns to its value *)
Lemma strip_nested b : nested b -> forall c r, 0 < c -> stripundefs c (b ++ r) = stripundefs c r.
Proof.
  induction 1 as [|l b Ho Hc N IH|o b d b' Ho N1 IH1 Hd N2 IH2]; intros c r Hp; [reflexivity| |]; cbn [app].
  - cbn [stripundefs]. replace (c =? 0) with false by lia. kind Ho. kind Hc. change (is_if l = false) in Ho. change (is_endif l = false) in Hc. rewrite Ho, Hc.
    replace (0 <? c) with true by lia. now apply IH.
  - cbn [stripundefs]. replace (c =? 0) with false by lia. kind Ho. kind Hd.
    change (is_if o = true) in Ho. change (is_endif d = true) in Hd.
    destruct (is_endif o) eqn:E; [destruct (if_endif _ Ho E)|]. rewrite Ho. replace (0 <? c + 1) with true by lia.
    rewrite <- app_assoc. rewrite IH1 by lia. cbn [app stripundefs]. replace (c + 1 =? 0) with false by lia. rewrite Hd.
    replace (c + 1 - 1) with c by lia. replace (0 <? c) with true by lia. now apply IH2.
Qed.
(* and if the loop ends, the lines up to there are a nested text and its #endif *)
Lemma strip_block k : forall lines, (length lines < k)%nat -> forall c o, 0 < c -> stripundefs c lines = Some o ->
  exists b d r, lines = b ++ d :: r /\ nested b /\ closes d /\ stripundefs (c - 1) r = Some o.
Proof.
  induction k as [|k IH]; intros lines Hl c o Hc E; [lia|]. destruct lines as [|l r]; cbn [stripundefs] in E.
  - replace (c =? 0) with false in E by lia. discriminate.
  - cbn [length] in Hl. replace (c =? 0) with false in E by lia. destruct (is_endif l) eqn:En; [|destruct (is_if l) eqn:Ei].
    + exists [], l, r. split; [reflexivity|]. split; [constructor|]. split; [now apply begins_spec|].
      destruct (Z.ltb_spec 0 (c - 1)); [exact E|]. replace (c - 1) with 0 by lia. exact E.
    + replace (0 <? c + 1) with true in E by lia.
      destruct (IH r ltac:(lia) (c + 1) o ltac:(lia) E) as (b & d & r' & -> & N & Cd & E'). replace (c + 1 - 1) with c in E' by lia.
      rewrite app_length in Hl. cbn [length] in Hl.
      destruct (IH r' ltac:(lia) c o Hc E') as (b2 & d2 & r2 & -> & N2 & Cd2 & E2).
      exists (l :: b ++ d :: b2), d2, r2. split; [cbn [app]; now rewrite <- app_assoc|].
      split; [constructor; auto; now apply begins_spec|]. split; [exact Cd2|exact E2].
    + replace (0 <? c) with true in E by lia.
      destruct (IH r ltac:(lia) c o Hc E) as (b & d & r' & -> & N & Cd & E').
      exists (l :: b), d, r'. split; [reflexivity|]. split; [constructor; auto; now apply begins_no|]. split; [exact Cd|exact E'].
Qed.

(* the script ends and prints out exactly if out is the input without its blocks #if 0 *)
Theorem C172_strip_partial : forall lines out, stripundefs 0 lines = Some out <-> without0 lines out.
Proof.
  intros lines out. split.
  - remember (S (length lines)) as k eqn:K. assert (L : (length lines < k)%nat) by lia. clear K. revert lines out L.
    induction k as [|k IH]; intros lines out L E; [lia|]. destruct lines as [|l r]; cbn [stripundefs] in E.
    + injection E as <-. constructor.
    + cbn [length] in L. rewrite Z.eqb_refl in E. destruct (is_if0 l) eqn:E0.
      * destruct (strip_block (S (length r)) r ltac:(lia) 1 out ltac:(lia) E) as (b & d & r' & -> & N & Cd & E').
        rewrite app_length in L. cbn [length] in L. constructor; auto; [now apply begins_spec|]. apply IH; [lia|exact E'].
      * destruct (stripundefs 0 r) as [o|] eqn:Er; [|discriminate]. injection E as <-. constructor; [now apply begins_no|]. apply IH; [lia|exact Er].
  - induction 1 as [|l r o N W IH|a b c r o Ha N Hc W IH]; [reflexivity| |]; cbn [stripundefs]; rewrite Z.eqb_refl.
    + kind N. change (is_if0 l = false) in N. rewrite N, IH. reflexivity.
    + kind Ha. change (is_if0 a = true) in Ha. rewrite Ha. rewrite strip_nested by (auto; lia). cbn [stripundefs]. replace (1 =? 0) with false by reflexivity.
      kind Hc. change (is_endif c = true) in Hc. rewrite Hc. exact IH.
Qed.
Print Assumptions C172_strip_partial.
(* a text without #if 0 is printed as it is *)
Theorem C172_kept : forall lines, (forall l, In l lines -> ~ opens0 l) -> stripundefs 0 lines = Some lines.
Proof.
  intros lines H. apply C172_strip_partial. induction lines as [|l r IH]; constructor; [apply H; now left|]. apply IH. intros x I. apply H. now right.
Qed.
Print Assumptions C172_kept.

(* a conditional within an #if 0 in another conditional *)
Definition src172 : list (list Z) := map chars ["#ifdef A"; "x"; "#if 0"; "y"; "#ifdef B"; "z"; "#endif"; "#else"; "#endif"; "u"; "#endif"]%string.
Example C172_case : stripundefs 0 src172 = Some (map chars ["#ifdef A"; "x"; "u"; "#endif"]%string) /\ nested src172.
Proof.
  split; [reflexivity|]. unfold src172. cbn [map].
  assert (O : forall s, begins (chars "#if") (chars s) = true -> opens (chars s)) by (intros s; apply begins_spec).
  assert (C : closes (chars "#endif")) by (exists []; reflexivity).
  assert (L : forall s, begins (chars "#if") (chars s) = false -> begins (chars "#endif") (chars s) = false -> ~ opens (chars s) /\ ~ closes (chars s))
    by (intros s A B; split; now apply begins_no).
  apply (n_block (chars "#ifdef A") [chars "x"; chars "#if 0"; chars "y"; chars "#ifdef B"; chars "z"; chars "#endif"; chars "#else"; chars "#endif"; chars "u"] (chars "#endif") []);
    [now apply O| |exact C|constructor].
  apply n_line; [now apply L..|].
  apply (n_block (chars "#if 0") [chars "y"; chars "#ifdef B"; chars "z"; chars "#endif"; chars "#else"] (chars "#endif") [chars "u"]); [now apply O| |exact C|].
  - apply n_line; [now apply L..|]. apply (n_block (chars "#ifdef B") [chars "z"] (chars "#endif") [chars "#else"]); [now apply O| |exact C|].
    + apply n_line; [now apply L..|constructor].
    + apply n_line; [now apply L..|constructor].
  - apply n_line; [now apply L..|constructor].
Qed.

(* The full claim: whatever the compiler compiles is kept and the script ends on every input.  It is
   false: the part behind #else of an #if 0 is lost *)
Theorem C172_else_refuted : exists a b c d x, opens0 a /\ elses c /\ closes d /\
  stripundefs 0 [a; b; c; x; d] = Some [].
Proof.
  exists (chars "#if 0"), (chars "old();"), (chars "#else"), (chars "#endif"), (chars "new();").
  split; [exists []; reflexivity|]. split; [exists []; reflexivity|]. split; [exists []; reflexivity|reflexivity].
Qed.
Print Assumptions C172_else_refuted.
(* a condition that only begins with 0, for example 0x40 or 0||1, which is true, counts as #if 0 *)
Theorem C172_condition_refuted : exists a b c, a = chars "#if 0x40" /\ b = chars "#if 0||1" /\ closes c /\
  forall x y, ~ opens x /\ ~ closes x -> ~ opens y /\ ~ closes y -> stripundefs 0 [a; x; c; b; y; c] = Some [].
Proof.
  exists (chars "#if 0x40"), (chars "#if 0||1"), (chars "#endif"). split; [reflexivity|]. split; [reflexivity|]. split; [exists []; reflexivity|].
  intros x y (A & B) (C & D). apply C172_strip_partial. assert (N : forall z, ~ opens z -> ~ closes z -> nested [z]) by (intros z U V; now constructor; [..|constructor]).
  apply (w_drop (chars "#if 0x40") [x] (chars "#endif")); [exists (chars "x40"); reflexivity|now apply N|exists []; reflexivity|].
  apply (w_drop (chars "#if 0||1") [y] (chars "#endif")); [exists (chars "||1"); reflexivity|now apply N|exists []; reflexivity|constructor].
Qed.
Print Assumptions C172_condition_refuted.
(* and without the #endif the script does not end, whatever follows *)
Theorem C172_unclosed_refuted : forall a b, opens0 a -> nested b -> stripundefs 0 (a :: b) = None.
Proof.
  intros a b Ha N. cbn [stripundefs]. rewrite Z.eqb_refl. kind Ha. change (is_if0 a = true) in Ha. rewrite Ha.
  rewrite <- (app_nil_r b). rewrite strip_nested by (auto; lia). reflexivity.
Qed.
Print Assumptions C172_unclosed_refuted.

(* --- C173.  A source as a tree: plain lines, and conditionals with their branches *)
Inductive src :=
| Plain (l : list Z) (r : src)
| Cond (o : list Z) (b : src) (c : list Z) (r : src)
| Else (l : list Z) (r : src)
| End.
(* its lines *)
Fixpoint lines_of (s : src) : list (list Z) :=
  match s with
  | Plain l r | Else l r => l :: lines_of r
  | Cond o b c r => o :: lines_of b ++ c :: lines_of r
  | End => []
  end.
(* the lines are what they are meant to be *)
Fixpoint proper (s : src) : Prop :=
  match s with
  | Plain l r => ~ opens l /\ ~ closes l /\ ~ elses l /\ proper r
  | Else l r => elses l /\ proper r
  | Cond o b c r => opens o /\ closes c /\ proper b /\ proper r
  | End => True
  end.
(* the conditionals with their depth: the #if, the #else and the #endif of a conditional that lies in d
   others have depth d + 1; n lines are in front of s *)
Fixpoint shown (d n : Z) (s : src) : list (Z * Z * list Z) :=
  match s with
  | Plain _ r => shown d (n + 1) r
  | Else l r => (d, n + 1, l) :: shown d (n + 1) r
  | Cond o b c r =>
      let e := n + 1 + zlen (lines_of b) + 1 in
      (d + 1, n + 1, o) :: shown (d + 1) (n + 1) b ++ (d + 1, e, c) :: shown d e r
  | End => []
  end.
Lemma else_if l : is_else l = true -> is_if l = false /\ is_endif l = false.
Proof.
  unfold is_else. rewrite begins_spec. intros (r & ->). split; reflexivity.
Qed.
Lemma ifdefs_src s : forall d n r, proper s -> ifdefs d n (lines_of s ++ r) = shown d n s ++ ifdefs d (n + zlen (lines_of s)) r.
Proof.
  induction s as [l s IH|o b IHb c s IH|l s IH|]; intros d n r P; cbn [lines_of shown app] in *.
  - destruct P as (A & B & C & P). kind A. kind B. kind C. change (is_if l = false) in A. change (is_endif l = false) in B. change (is_else l = false) in C.
    cbn [ifdefs]. rewrite A, B, C, IH by exact P. do 2 f_equal. unfold zlen. cbn [length]. lia.
  - destruct P as (A & B & Pb & P). kind A. kind B. change (is_if o = true) in A. change (is_endif c = true) in B.
    cbn [ifdefs]. rewrite A. rewrite <- app_assoc, IHb by exact Pb. cbn [app ifdefs].
    destruct (is_if c) eqn:E; [destruct (if_endif _ E B)|]. rewrite B. rewrite <- app_assoc. cbn [app]. do 3 f_equal.
    replace (d + 1 - 1) with d by lia. rewrite IH by exact P. do 2 f_equal. unfold zlen. cbn [length]. rewrite app_length. cbn [length]. lia.
  - destruct P as (A & P). kind A. change (is_else l = true) in A. destruct (else_if l A) as (B & C).
    cbn [ifdefs]. rewrite A, B, C, IH by exact P. do 3 f_equal. unfold zlen. cbn [length]. lia.
  - unfold zlen. cbn [length]. f_equal. lia.
Qed.
(* ifdefs.pl shows every conditional line with its number and with the depth of its conditional *)
Theorem C173_ifdefs : forall s, proper s -> ifdefs 0 0 (lines_of s) = shown 0 0 s.
Proof. intros s P. rewrite <- (app_nil_r (lines_of s)). rewrite ifdefs_src by exact P. cbn [ifdefs]. now rewrite app_nil_r. Qed.
Print Assumptions C173_ifdefs.
Definition tree173 : src := Plain (chars "a") (Cond (chars "#ifdef A") (Cond (chars "#if B") (Plain (chars "x") (Else (chars "#else") (Plain (chars "y") End))) (chars "#endif") End)
  (chars "#endif") (Plain (chars "z") End)).
Example C173_case : proper tree173 /\ ifdefs 0 0 (lines_of tree173) =
  [(1, 2, chars "#ifdef A"); (2, 3, chars "#if B"); (2, 5, chars "#else"); (2, 7, chars "#endif"); (1, 8, chars "#endif")].
Proof.
  split; [|reflexivity]. cbn [proper tree173].
  repeat split; try (exists []; reflexivity); try (eexists; reflexivity); try (apply begins_no; reflexivity).
Qed.
