(* C189, C190: the configuration file. *)
From Coq Require Import String Ascii.
From Verif Require Import Base DepModel DepProps GconfModel.
Local Open Scope string_scope.
Local Open Scope list_scope.

(* ---- C189 ---- *)
(* names in a text, separated by commas and blanks *)
Definition sep (c : ascii) : Prop := In c [" "; ","; "009"; "010"]%char.
Fixpoint chars_are (P : ascii -> Prop) (s : string) : Prop :=
  match s with EmptyString => True | String c r => P c /\ chars_are P r end.
Inductive spelled : list string -> string -> Prop :=
| sp_nil s : chars_are sep s -> spelled [] s
| sp_last s n : chars_are sep s -> n <> "" -> chars_are (fun c => ~ sep c) n -> spelled [n] (s ++ n)%string
| sp_cons s n c ns r : chars_are sep s -> n <> "" -> chars_are (fun c => ~ sep c) n -> sep c -> spelled ns r ->
    spelled (n :: ns) (s ++ n ++ String c r)%string.
(* the characters of identifiers of C *)
Definition ident_char (c : ascii) : Prop :=
  let n := nat_of_ascii c in (48 <= n <= 57)%nat \/ (65 <= n <= 90)%nat \/ n = 95%nat \/ (97 <= n <= 122)%nat.
Definition ends (t : string) : Prop := match t with EmptyString => True | String c _ => ~ ident_char c end.
(* a line of the header defines the macro mini_n *)
Definition defines (ls : list string) (n : string) : Prop :=
  exists l t, In l ls /\ l = ("#define mini_" ++ n ++ t)%string /\ ends t.
(* a line of the configuration asks for mini_n *)
Definition requests (l : string * list string) (n : string) : Prop :=
  let (c, args) := l in
  c = ("mini_" ++ n)%string \/
  ((c = "compile" \/ c = "COMPILE") /\ exists ns, spelled ns (String.concat " " args) /\ In n ns) \/
  (c = "mini_define" /\ exists t, hd "" args = (n ++ t)%string /\ ends t) \/
  ((c = "define" \/ c = "DEFINE") /\ exists t, hd "" args = ("mini_" ++ n ++ t)%string /\ ends t).

(* -- strings -- *)
Lemma app_s_assoc : forall a b c : string, ((a ++ b) ++ c = a ++ b ++ c)%string.
Proof. induction a as [|x a IH]; intros; cbn; [reflexivity|now rewrite IH]. Qed.
Lemma app_s_nil : forall a : string, (a ++ "" = a)%string.
Proof. induction a as [|x a IH]; cbn; [reflexivity|now rewrite IH]. Qed.
Lemma app_s_inv : forall a b c : string, (a ++ b = a ++ c)%string -> b = c.
Proof. induction a as [|x a IH]; cbn; intros b c H; [exact H|]. injection H as H. auto. Qed.
Lemma chars_app P a b : chars_are P (a ++ b)%string <-> chars_are P a /\ chars_are P b.
Proof. induction a as [|x a IH]; cbn [String.append chars_are]; [tauto|rewrite IH; tauto]. Qed.
(* an identifier and what follows *)
Lemma ident_cut : forall n w x t, chars_are ident_char n -> ends x -> (w ++ x = n ++ t)%string -> ends t ->
  exists t', w = (n ++ t')%string /\ ends t'.
Proof.
  induction n as [|c n IH]; intros w x t Hn Hx E Ht; cbn [String.append chars_are] in *.
  - exists w. split; [reflexivity|]. destruct w as [|d w]; [exact I|]. cbn in E. subst t. exact Ht.
  - destruct w as [|d w]; cbn [String.append] in E.
    + subst x. cbn [ends] in Hx. tauto.
    + injection E as -> E. destruct (IH w x t) as (t' & -> & H); [tauto|exact Hx|exact E|exact Ht|]. exists t'. auto.
Qed.
Lemma ident_eq : forall n f t, chars_are ident_char n -> chars_are ident_char f -> f = (n ++ t)%string -> ends t -> f = n.
Proof.
  intros n f t Hn Hf -> Ht. apply chars_app in Hf as [_ Hf]. destruct t as [|c t]; [now rewrite app_s_nil|]. cbn in *. tauto.
Qed.
Lemma drop_prefix_some : forall p s r, drop_prefix p s = Some r <-> s = (p ++ r)%string.
Proof.
  induction p as [|a p IH]; intros s r; cbn [drop_prefix String.append].
  - split; [now injection 1|now intros ->].
  - destruct s as [|b s]; [split; discriminate|]. destruct (Ascii.eqb_spec a b) as [->|Ne].
    + rewrite IH. split; [now intros ->|now injection 1].
    + split; [discriminate|injection 1; congruence].
Qed.

(* -- the table -- *)
Definition ident_charb (c : ascii) : bool :=
  let n := nat_of_ascii c in ((48 <=? n) && (n <=? 57) || (65 <=? n) && (n <=? 90) || (n =? 95) || (97 <=? n) && (n <=? 122))%nat%bool.
Fixpoint identb (s : string) : bool := match s with EmptyString => true | String c r => ident_charb c && identb r end.
Lemma identb_ok s : identb s = true -> chars_are ident_char s.
Proof.
  induction s as [|c s IH]; cbn [identb chars_are]; [auto|]. intros H. apply andb_prop in H as [H1 H2]. split; [|auto].
  unfold ident_charb in H1. unfold ident_char. cbv zeta in *. lia.
Qed.
Lemma generated_ok : forallb (fun n => identb n && negb (n =? "")%string) generated = true.
Proof. vm_compute. reflexivity. Qed.
Lemma generated_ident n : In n generated -> chars_are ident_char n /\ n <> "".
Proof.
  intros H. pose proof (proj1 (forallb_forall _ _) generated_ok _ H) as E. apply andb_prop in E as [E1 E2].
  split; [now apply identb_ok|]. intros ->. discriminate.
Qed.
Lemma defined_In n s : defined n s = true <-> In n s.
Proof.
  unfold defined. rewrite existsb_exists. split.
  - intros (x & H & E). apply String.eqb_eq in E. now subst.
  - intros H. exists n. split; [exact H|apply String.eqb_refl].
Qed.
Lemma not_generated n : defined n generated = false -> ~ In n generated.
Proof. intros E H. apply defined_In in H. congruence. Qed.

(* -- words -- *)
Lemma sep_blank c : sep c <-> is_blank (if Ascii.eqb c "," then " " else c)%char = true.
Proof.
  unfold sep, is_blank. cbn [In]. destruct (Ascii.eqb_spec c ",") as [->|Ne].
  - cbn. tauto.
  - rewrite !orb_true_iff, !Ascii.eqb_eq. intuition congruence.
Qed.
Lemma split_seps : forall s r, chars_are sep s -> split "" (tr_comma (s ++ r)%string) = split "" (tr_comma r).
Proof.
  induction s as [|c s IH]; intros r H; cbn [String.append tr_comma split chars_are] in *; [reflexivity|].
  destruct H as [H1 H2]. apply sep_blank in H1. rewrite H1. cbn. apply IH, H2.
Qed.
Lemma nonempty_app cur c r : ((cur ++ String c r =? "") = false)%string.
Proof. destruct cur; reflexivity. Qed.
Lemma split_word : forall n cur c r, chars_are (fun c => ~ sep c) n -> (cur ++ n)%string <> "" -> sep c ->
  split cur (tr_comma (n ++ String c r)%string) = (cur ++ n)%string :: split "" (tr_comma r).
Proof.
  induction n as [|d n IH]; intros cur c r H Ne Hc; cbn [String.append tr_comma split chars_are] in *.
  - apply sep_blank in Hc. rewrite Hc, app_s_nil in *. destruct (String.eqb_spec cur ""); [contradiction|reflexivity].
  - destruct H as [H1 H2]. assert (is_blank (if Ascii.eqb d "," then " " else d)%char = false) as ->.
    { destruct (is_blank _) eqn:E; [|reflexivity]. apply sep_blank in E. contradiction. }
    assert ((if Ascii.eqb d "," then " " else d)%char = d) as ->. { destruct (Ascii.eqb_spec d ","); [|reflexivity]. subst. exfalso. apply H1. unfold sep. cbn. tauto. }
    rewrite IH; [now rewrite app_s_assoc|exact H2| |exact Hc]. rewrite app_s_assoc. cbn. exact Ne.
Qed.
Lemma split_end : forall n cur, chars_are (fun c => ~ sep c) n -> (cur ++ n)%string <> "" -> split cur (tr_comma n) = [(cur ++ n)%string].
Proof.
  induction n as [|d n IH]; intros cur H Ne; cbn [String.append tr_comma split chars_are] in *.
  - rewrite app_s_nil in *. destruct (String.eqb_spec cur ""); [contradiction|reflexivity].
  - destruct H as [H1 H2]. assert (is_blank (if Ascii.eqb d "," then " " else d)%char = false) as ->.
    { destruct (is_blank _) eqn:E; [|reflexivity]. apply sep_blank in E. contradiction. }
    assert ((if Ascii.eqb d "," then " " else d)%char = d) as ->. { destruct (Ascii.eqb_spec d ","); [|reflexivity]. subst. exfalso. apply H1. unfold sep. cbn. tauto. }
    rewrite IH; [now rewrite app_s_assoc|exact H2|]. rewrite app_s_assoc. cbn. exact Ne.
Qed.
Lemma spelled_split ns s : spelled ns s -> split "" (tr_comma s) = ns.
Proof.
  induction 1 as [s H|s n H Ne Hn|s n c ns r H Ne Hn Hc _ IH].
  - rewrite <- (app_s_nil s), split_seps by exact H. reflexivity.
  - rewrite split_seps by exact H. now apply (split_end n "").
  - rewrite split_seps by exact H. rewrite (split_word n ""), IH by assumption. reflexivity.
Qed.
Lemma sep_dec c : sep c \/ ~ sep c.
Proof. destruct (is_blank (if Ascii.eqb c "," then " " else c)%char) eqn:E; [left; now apply sep_blank|right; rewrite sep_blank, E; discriminate]. Qed.
(* every text spells some names *)
Lemma spelled_some : forall s, (exists ns, spelled ns s) /\
  forall cur, cur <> "" -> chars_are (fun c => ~ sep c) cur -> exists ns, spelled ns (cur ++ s)%string.
Proof.
  induction s as [|c s [(ns & IH1) IH2]].
  - split; [exists []; now constructor|]. intros cur Ne Hc. exists [cur]. rewrite app_s_nil. now apply (sp_last "").
  - destruct (sep_dec c) as [Hc|Hc]; split.
    + destruct IH1 as [t Ht|t n Ht Hn1 Hn|t n d ns r Ht Hn1 Hn Hd IHr].
      * exists []. constructor. now split.
      * exists [n]. apply (sp_last (String c t)); [now split|assumption..].
      * exists (n :: ns). apply (sp_cons (String c t)); [now split|assumption..].
    + intros cur Ne Hcur. exists (cur :: ns). now apply (sp_cons "").
    + apply (IH2 (String c "")); [discriminate|]. now split.
    + intros cur Ne Hcur. replace (cur ++ String c s)%string with ((cur ++ String c "") ++ s)%string by now rewrite app_s_assoc.
      apply IH2; [destruct cur; discriminate|]. apply chars_app. split; [exact Hcur|]. now split.
Qed.

Theorem C189_compile : forall c args ns, c = "compile" \/ c = "COMPILE" -> spelled ns (String.concat " " args) -> (forall n, In n ns -> In n generated) ->
  print_line (c, args) = map (fun n => "#define mini_" ++ n ++ " " ++ n)%string ns.
Proof.
  intros c args ns Hc S H. assert (E : print_line (c, args) = compile args) by (destruct Hc as [-> | ->]; reflexivity).
  rewrite E. unfold compile. rewrite (spelled_split _ _ S). clear S E. induction ns as [|n ns IH]; [reflexivity|].
  cbn [flat_map map]. unfold call_mini at 1. rewrite (proj2 (defined_In n generated)) by (apply H; now left). cbn [hd]. cbn. f_equal.
  apply IH. intros; apply H; now right.
Qed.
Print Assumptions C189_compile.
Example C189_case : spelled ["printf"; "strlen"; "exit"] (String.concat " " ["printf,strlen"; ",exit"]) /\
  (forall n, In n ["printf"; "strlen"; "exit"] -> In n generated).
Proof.
  split.
  - apply (sp_cons "" "printf" "," ["strlen"; "exit"] "strlen ,exit"); [exact I|discriminate|cbn; unfold sep; cbn; intuition discriminate|unfold sep; cbn; tauto|].
    apply (sp_cons "" "strlen" " " ["exit"] ",exit"); [exact I|discriminate|cbn; unfold sep; cbn; intuition discriminate|unfold sep; cbn; tauto|].
    apply (sp_last "," "exit"); [cbn; unfold sep; cbn; tauto|discriminate|cbn; unfold sep; cbn; intuition discriminate].
  - intros n H. apply defined_In. cbn [In] in H. repeat destruct H as [<-|H]; try reflexivity. contradiction.
Qed.

(* -- one line -- *)
Lemma def_line w v n : chars_are ident_char n ->
  defines ["#define mini_" ++ w ++ " " ++ v]%string n <-> exists t, w = (n ++ t)%string /\ ends t.
Proof.
  intros Hn. split.
  - intros (l & t & [<-|[]] & E & Ht). apply app_s_inv in E. apply (ident_cut n w (" " ++ v)%string t); auto.
    cbn. unfold ident_char. cbn. lia.
  - intros (t & -> & Ht). do 2 eexists. split; [left; reflexivity|]. split; [now rewrite app_s_assoc|].
    destruct t as [|c t]; [|exact Ht]. cbn. unfold ident_char. cbn. lia.
Qed.
Lemma mini_line f v n : chars_are ident_char n -> (defines (mini_define f v) n <-> exists t, f = (n ++ t)%string /\ ends t).
Proof. intros Hn. unfold mini_define. destruct (v =? "")%string; apply def_line, Hn. Qed.
(* a macro that is none of the generated *)
Lemma fixed_line w t n : In n generated -> identb w = true -> ends t -> defined w generated = false -> ~ defines ["#define mini_" ++ w ++ t]%string n.
Proof.
  intros G I T D (l & x & [<-|[]] & E & Hx). apply app_s_inv in E. destruct (generated_ident _ G) as [Hn _].
  destruct (ident_cut n w t x) as (t' & E2 & E3); auto. assert (w = n) as -> by (apply (ident_eq n w t'); auto; now apply identb_ok).
  apply not_generated in D. contradiction.
Qed.
Lemma other_line l n : drop_prefix "#define mini_" l = None -> ~ defines [l] n.
Proof. intros E (l' & t & [<-|[]] & E2 & _). apply drop_prefix_some in E2. congruence. Qed.
Lemma hand_line f a n ls : In n generated -> by_hand f a = Some ls -> ~ defines ls n.
Proof.
  intros G. unfold by_hand.
  repeat match goal with |- (if ?b then _ else _) = _ -> _ => destruct b end; intros E; try discriminate E; injection E as <-.
  - apply (fixed_line "start" (" " ++ a)%string); auto. cbn. unfold ident_char. cbn. lia.
  - apply (fixed_line "setjmp" ""); auto. exact I.
  - apply (fixed_line "setjmp" ""); auto. exact I.
  - apply (fixed_line "buf" (" " ++ a)%string); auto. cbn. unfold ident_char. cbn. lia.
  - apply other_line. reflexivity.
  - apply (fixed_line "GETOPTS" ""); auto. exact I.
  - apply other_line. reflexivity.
  - apply (fixed_line "syscalls" ""); auto. exact I.
  - apply (fixed_line "getopt" ""); auto. exact I.
  - apply (fixed_line "getopt_long" ""); auto. exact I.
Qed.
Lemma defines_nil n : ~ defines [] n.
Proof. intros (l & t & [] & _). Qed.
(* the function mini_f *)
Lemma call_line f args n : In n generated ->
  defines (match call_mini f args with Some l => l | None => [] end) n <-> f = n \/ f = "define" /\ exists t, hd "" args = (n ++ t)%string /\ ends t.
Proof.
  intros G. destruct (generated_ident _ G) as [Hn Ne]. unfold call_mini. destruct (defined f generated) eqn:D.
  - apply defined_In in D. rewrite (mini_line f _ n Hn). split.
    + intros (t & E & Ht). left. apply (ident_eq n f t); auto. apply generated_ident, D.
    + intros [-> | [-> _]]; [exists ""; split; [now rewrite app_s_nil|exact I]|]. apply defined_In in D. discriminate D.
  - assert (Nf : f <> n) by (intros ->; apply not_generated in D; contradiction).
    destruct (String.eqb_spec f "define") as [->|Nd].
    + rewrite (mini_line _ _ n Hn). intuition.
    + destruct (by_hand f (hd "" args)) eqn:B; [pose proof (hand_line _ _ n _ G B)|pose proof (defines_nil n)]; intuition.
Qed.
Lemma defines_flat {A} (f : A -> list string) l n : defines (flat_map f l) n <-> exists x, In x l /\ defines (f x) n.
Proof.
  split.
  - intros (s & t & I & E). apply in_flat_map in I as (x & I1 & I2). exists x. split; [exact I1|]. exists s, t. auto.
  - intros (x & I1 & s & t & I2 & E). exists s, t. split; [apply in_flat_map; eauto|exact E].
Qed.
Lemma compile_line args n : In n generated -> (defines (compile args) n <-> exists ns, spelled ns (String.concat " " args) /\ In n ns).
Proof.
  intros G. unfold compile. rewrite defines_flat. destruct (spelled_some (String.concat " " args)) as [(ns & S) _]. rewrite (spelled_split _ _ S). split.
  - intros (f & I & D). apply (call_line f [] n G) in D as [->|[-> (t & E & _)]]; [eauto|].
    destruct (generated_ident _ G) as [_ Ne]. cbn [hd] in E. destruct n; [congruence|discriminate E].
  - intros (ns' & S' & I). exists n. assert (ns' = ns) as -> by (rewrite <- (spelled_split _ _ S'), <- (spelled_split _ _ S); reflexivity).
    split; [exact I|]. apply call_line; auto.
Qed.
Lemma line_ok l n : In n generated -> (defines (print_line l) n <-> requests l n).
Proof.
  intros G. destruct (generated_ident _ G) as [Hn Ne]. destruct l as [c args]. unfold print_line, requests.
  assert (M : forall w, drop_prefix "mini_" w = None -> w <> ("mini_" ++ n)%string /\ w <> "mini_define").
  { intros w E. split; intros ->; [|discriminate E]. rewrite (proj2 (drop_prefix_some "mini_" _ n) eq_refl) in E. discriminate E. }
  destruct (String.eqb_spec c "compile") as [->|N1]; [|destruct (String.eqb_spec c "COMPILE") as [->|N2]]; cbn [orb].
  1, 2: rewrite (compile_line args n G); intuition discriminate.
  destruct (String.eqb_spec c "define") as [->|N3]; [|destruct (String.eqb_spec c "DEFINE") as [->|N4]]; cbn [orb].
  1, 2: assert (D : defines (define_ args) n <-> exists t, hd "" args = ("mini_" ++ n ++ t)%string /\ ends t).
  1, 3: unfold define_; split;
    [ intros (l & t & [<-|[]] & E & Ht); apply (app_s_inv "#define ") in E;
      destruct (ident_cut ("mini_" ++ n)%string (hd "" args) (" """ ++ String.concat " " (tl args) ++ """")%string t) as (t' & E1 & E2);
      [cbn [String.append chars_are]; repeat (split; [unfold ident_char; cbn; lia|]); exact Hn|cbn; unfold ident_char; cbn; lia|
       rewrite E; rewrite app_s_assoc; reflexivity|exact Ht|exists t'; split; [rewrite E1, app_s_assoc; reflexivity|exact E2]]
    | intros (t & E & Ht); rewrite E; do 2 eexists; split; [left; reflexivity|]; split;
      [cbn; rewrite app_s_assoc; reflexivity|destruct t; [cbn; unfold ident_char; cbn; lia|exact Ht]] ].
  1, 2: rewrite D; intuition discriminate.
  assert (Rest : forall w, c = w -> drop_prefix "mini_" w = None -> forall ls, ~ defines ls n -> defines ls n <->
    c = ("mini_" ++ n)%string \/ ((c = "compile" \/ c = "COMPILE") /\ exists ns, spelled ns (String.concat " " args) /\ In n ns) \/
    (c = "mini_define" /\ exists t, hd "" args = (n ++ t)%string /\ ends t) \/ ((c = "define" \/ c = "DEFINE") /\ exists t, hd "" args = ("mini_" ++ n ++ t)%string /\ ends t)).
  { intros w E P ls ND. subst w. destruct (M c P). tauto. }
  destruct (String.eqb_spec c "ARCH") as [->|N5]; [apply (Rest "ARCH"); auto; apply other_line; reflexivity|].
  destruct (String.eqb_spec c "OS") as [->|N6]; [apply (Rest "OS"); auto; apply other_line; reflexivity|].
  destruct (String.eqb_spec c "OPTIMIZE") as [->|N7]; [apply (Rest "OPTIMIZE"); auto; apply (fixed_line "OPTIMIZE" ""); auto; exact I|].
  destruct (String.eqb_spec c "INCLUDESRC") as [->|N8]; [apply (Rest "INCLUDESRC"); auto; apply other_line; reflexivity|].
  destruct (String.eqb_spec c "HEADERGUARDS") as [->|N9]; [apply (Rest "HEADERGUARDS"); auto; apply other_line; reflexivity|]. cbn [orb].
  destruct (String.eqb_spec c "globals_on_stack") as [->|N10]; [apply (Rest "globals_on_stack"); auto; apply (fixed_line "globals_on_stack" ""); auto; exact I|].
  destruct (String.eqb_spec c "globalregister") as [->|N11].
  { apply (Rest "globalregister"); auto. apply (fixed_line "globalregister" (" " ++ _)%string); auto. cbn. unfold ident_char. cbn. lia. }
  destruct (drop_prefix "mini_" c) as [f|] eqn:P; [|apply (Rest c); auto; apply defines_nil].
  apply drop_prefix_some in P. subst c. rewrite (call_line f args n G). split.
  - intros [->|[-> H]]; [left; reflexivity|right; right; left; split; [reflexivity|exact H]].
  - intros [H|[[[H|H] _]|[[H X]|[[H|H] _]]]]; try discriminate H.
    + left. now apply (app_s_inv "mini_") in H.
    + right. split; [now apply (app_s_inv "mini_" f "define")|exact X].
Qed.

(* The header defines the switch of a function exactly when a line of the configuration asks for it *)
Theorem C189_selected : forall conf n, In n generated -> (defines (header conf) n <-> exists l, In l conf /\ requests l n).
Proof.
  intros conf n G. unfold header. rewrite defines_flat. split; intros (l & I & H); exists l; (split; [exact I|]); now apply line_ok.
Qed.
Print Assumptions C189_selected.
Example C189_selected_case : In "strlen" generated /\ requests ("compile", ["strlen,printf"]) "strlen" /\ ~ requests ("OPTFLAG", ["-Os"]) "strlen" /\
  header [("mini_buf", ["4096"]); ("mini_printf", ["1"]); ("compile", ["strlen,puts"; "exit"]); ("OS", ["LINUX"])] =
  ["#define mini_buf 4096"; "#define mini_printf 1"; "#define mini_strlen strlen"; "#define mini_puts puts"; "#define mini_exit exit"; "#define MINILIB_OS LINUX"].
Proof.
  split; [apply defined_In; reflexivity|]. split; [|split; [|vm_compute; reflexivity]].
  - right. left. split; [now left|]. exists ["strlen"; "printf"]. split; [|now left].
    apply (sp_cons "" "strlen" "," ["printf"] "printf"); [exact I|discriminate|cbn; unfold sep; cbn; intuition discriminate|unfold sep; cbn; tauto|].
    apply (sp_last "" "printf"); [exact I|discriminate|cbn; unfold sep; cbn; intuition discriminate].
  - intros [H|[[[H|H] _]|[[H _]|[[H|H] _]]]]; discriminate H.
Qed.
(* Every switch of minilib.h that needs others or is needed by others can be asked for; with what minilib.h
   adds (C180) everything that is needed is then selected.  Partial: without the five of C180. *)
Theorem C189_needed_partial : forall conf s, (forall n, In n s <-> defines (header conf) n) -> (forall x, In x s -> ~ In x five) ->
  forall l n m, In l conf -> requests l n -> In n generated -> needs (top ++ deps) [n] m -> In m (minilib_h s).
Proof.
  intros conf s Hs H5 l n m I R G N. apply C180_all_partial; [exact H5|].
  assert (In n s) by (apply Hs, C189_selected; eauto).
  clear - N H. remember [n] as q. induction N as [x I|x ds y N IH T I]; subst; [destruct I as [->|[]]; now constructor|].
  eapply dependency; [apply IH; auto|exact T|exact I].
Qed.
Print Assumptions C189_needed_partial.
(* "0" is no name: it is written by the generator of minilib.h where nothing is needed; mini_getopt is written by hand *)
Theorem C189_known : forall a ds n, In (a, ds) (top ++ deps) -> n = a \/ In n ds -> n <> "0" -> In n generated \/ n = "getopt".
Proof.
  assert (T : forallb (fun b : block => forallb (fun n => defined n generated || (n =? "0") || (n =? "getopt"))%string (fst b :: snd b)) (top ++ deps) = true) by (vm_compute; reflexivity).
  intros a ds n I Hn N0. pose proof (proj1 (forallb_forall _ _) T _ I) as E. pose proof (proj1 (forallb_forall _ _) E n) as F. cbn [fst snd] in F.
  assert (X : In n (a :: ds)) by (destruct Hn; [left; auto|right; auto]). specialize (F X). cbv beta in F.
  rewrite !orb_true_iff, !String.eqb_eq in F. rewrite defined_In in F. tauto.
Qed.
Print Assumptions C189_known.
(* Not every name that can be written behind compile defines its own switch: longjmp defines that of setjmp *)
Theorem C189_own_refuted : exists ls, call_mini "longjmp" [] = Some ls /\ header [("compile", ["longjmp"])] = ls /\ ~ defines ls "longjmp" /\ defines ls "setjmp".
Proof.
  eexists. split; [reflexivity|]. split; [reflexivity|]. split.
  - intros (l & t & [<-|[]] & E & _). discriminate E.
  - exists "#define mini_setjmp", "". split; [now left|]. split; [reflexivity|exact I].
Qed.
Print Assumptions C189_own_refuted.
(* "DEFINE var arg" is documented to be "#define var arg": the macro is the string constant instead (always) *)
Theorem C189_define_refuted : forall v args, header [("DEFINE", v :: args)] = ["#define " ++ v ++ " """ ++ String.concat " " args ++ """"]%string /\
  header [("DEFINE", v :: args)] <> ["#define " ++ v ++ " " ++ String.concat " " args]%string.
Proof.
  intros v args. split; [reflexivity|]. unfold header. cbn [flat_map print_line app]. unfold define_. cbn [hd tl]. intros E. injection E as E.
  apply app_s_inv in E. injection E as E. apply (f_equal String.length) in E. cbn [String.length] in E.
  assert (A : forall a b : string, String.length (a ++ b) = (String.length a + String.length b)%nat).
  { clear. induction a as [|x a IH]; intros b; cbn; [reflexivity|now rewrite IH]. }
  rewrite A in E. cbn [String.length] in E. lia.
Qed.
Print Assumptions C189_define_refuted.

(* ---- C190: the settings ---- *)
(* what DEBUG is to do: no optimization, debug symbols, not stripped, not shrunk *)
Definition occurs (c : string) (conf : list (string * list string)) : Prop := exists args, In (c, args) conf.
Lemma set_other s c args : ~ In c ["OPTFLAG"; "STRIPFLAG"; "shrinkelf"; "SHRINKELF"; "DEBUG"; "FULLDEBUG"] -> set_line s (c, args) = s.
Proof.
  intros H. unfold set_line. cbn [In] in H.
  repeat match goal with |- context [(c =? ?w)%string] => destruct (String.eqb_spec c w); [subst; exfalso; apply H; tauto|] end. reflexivity.
Qed.
Lemma opt_cases s c args : optflag (set_line s (c, args)) =
  (if c =? "DEBUG" then "-Og -g" else if (c =? "OPTFLAG") && (optflag s =? "") then hd "" args else optflag s)%string.
Proof.
  unfold set_line. destruct (String.eqb_spec c "OPTFLAG") as [->|N1]; [cbn; destruct (optflag s =? "")%string; reflexivity|].
  destruct (String.eqb_spec c "STRIPFLAG") as [->|N2]; [cbn; destruct (stripflag s =? "")%string; reflexivity|].
  destruct (String.eqb_spec c "shrinkelf") as [->|N3]; [reflexivity|]. destruct (String.eqb_spec c "SHRINKELF") as [->|N4]; [reflexivity|]. cbn [orb].
  destruct (String.eqb_spec c "DEBUG") as [->|N5]; [reflexivity|]. destruct (String.eqb_spec c "FULLDEBUG") as [->|N6]; reflexivity.
Qed.
Lemma opt_keep : forall conf s, optflag s <> "" -> ~ occurs "DEBUG" conf -> optflag (fold_left set_line conf s) = optflag s.
Proof.
  induction conf as [|[c args] conf IH]; intros s H D; cbn [fold_left]; [reflexivity|].
  assert (E : optflag (set_line s (c, args)) = optflag s).
  { rewrite opt_cases. destruct (String.eqb_spec c "DEBUG") as [->|]; [exfalso; apply D; exists args; now left|].
    destruct (String.eqb_spec (optflag s) ""); [contradiction|]. now rewrite andb_false_r. }
  rewrite IH; [exact E|now rewrite E|]. intros (a & I). apply D. exists a. now right.
Qed.
Lemma opt_debug : forall conf s, optflag s = "-Og -g" \/ occurs "DEBUG" conf -> optflag (fold_left set_line conf s) = "-Og -g".
Proof.
  induction conf as [|[c args] conf IH]; intros s H; cbn [fold_left].
  - destruct H as [H|(a & [])]. exact H.
  - apply IH. rewrite opt_cases. destruct (String.eqb_spec c "DEBUG") as [->|Ne]; [now left|].
    destruct H as [H|(a & [H|H])]; [left; rewrite H; cbn; now rewrite andb_false_r|congruence|right; exists a; exact H].
Qed.
Lemma full_keep : forall conf s, ~ occurs "FULLDEBUG" conf -> full (fold_left set_line conf s) = full s.
Proof.
  induction conf as [|[c args] conf IH]; intros s D; cbn [fold_left]; [reflexivity|].
  assert (c <> "FULLDEBUG") by (intros ->; apply D; exists args; now left).
  rewrite IH; [|intros (a & I); apply D; exists a; now right]. unfold set_line.
  destruct (c =? "OPTFLAG")%string; [destruct (optflag s =? "")%string; reflexivity|].
  destruct (c =? "STRIPFLAG")%string; [destruct (stripflag s =? "")%string; reflexivity|].
  destruct ((c =? "shrinkelf") || (c =? "SHRINKELF"))%string; [reflexivity|]. destruct (c =? "DEBUG")%string; [reflexivity|].
  destruct (String.eqb_spec c "FULLDEBUG"); [contradiction|reflexivity].
Qed.
Lemma shrink_no : forall conf s, shrink s <> "1" -> ~ occurs "SHRINKELF" conf -> ~ occurs "shrinkelf" conf -> shrink (fold_left set_line conf s) <> "1".
Proof.
  induction conf as [|[c args] conf IH]; intros s H D1 D2; cbn [fold_left]; [exact H|].
  assert (c <> "SHRINKELF") by (intros ->; apply D1; exists args; now left).
  assert (c <> "shrinkelf") by (intros ->; apply D2; exists args; now left).
  apply IH; [|intros (a & I); apply D1; exists a; now right|intros (a & I); apply D2; exists a; now right]. unfold set_line.
  destruct (c =? "OPTFLAG")%string; [destruct (optflag s =? "")%string; exact H|].
  destruct (c =? "STRIPFLAG")%string; [destruct (stripflag s =? "")%string; exact H|].
  destruct (String.eqb_spec c "shrinkelf"); [contradiction|]. destruct (String.eqb_spec c "SHRINKELF"); [contradiction|]. cbn [orb].
  destruct (c =? "DEBUG")%string; [discriminate|]. destruct (c =? "FULLDEBUG")%string; [discriminate|exact H].
Qed.

(* The optimization: a variable OPTFLAG of the environment counts, else the first OPTFLAG of the configuration
   (with an argument), else -Os; DEBUG, wherever it stands, replaces it by -Og -g *)
Theorem C190_optimize : forall conf s,
  (occurs "DEBUG" conf -> optflag (configure conf s) = "-Og -g") /\
  (~ occurs "DEBUG" conf -> optflag s <> "" -> optflag (configure conf s) = optflag s) /\
  (forall pre a args post, conf = pre ++ ("OPTFLAG", a :: args) :: post -> a <> "" -> ~ occurs "DEBUG" conf -> optflag s = "" ->
     (forall b, In ("OPTFLAG", b) pre -> hd "" b = "") -> optflag (configure conf s) = a) /\
  (~ occurs "DEBUG" conf -> optflag s = "" -> (forall b, In ("OPTFLAG", b) conf -> hd "" b = "") -> optflag (configure conf s) = "-Os").
Proof.
  intros conf s. unfold configure, defaultvalues. cbn [optflag].
  assert (Pre : forall pre t, optflag t = "" -> ~ occurs "DEBUG" pre -> (forall b, In ("OPTFLAG", b) pre -> hd "" b = "") -> optflag (fold_left set_line pre t) = "").
  { induction pre as [|[c b] pre IH]; intros t E D H; cbn [fold_left]; [exact E|]. apply IH; [|intros (x & X); apply D; exists x; now right|intros; apply H; now right].
    rewrite opt_cases, E. destruct (String.eqb_spec c "DEBUG") as [->|]; [exfalso; apply D; exists b; now left|].
    destruct (String.eqb_spec c "OPTFLAG") as [->|]; [apply H; now left|reflexivity]. }
  repeat split.
  - intros D. rewrite opt_debug by (now right). reflexivity.
  - intros D H. rewrite opt_keep by assumption. destruct (String.eqb_spec (optflag s) ""); [contradiction|reflexivity].
  - intros pre a args post -> Ha D E H. rewrite fold_left_app. cbn [fold_left].
    assert (E1 : optflag (fold_left set_line pre s) = "") by (apply Pre; auto; intros (x & X); apply D; exists x; apply in_app_iff; now left).
    assert (E2 : optflag (set_line (fold_left set_line pre s) ("OPTFLAG", a :: args)) = a) by (rewrite opt_cases, E1; reflexivity).
    rewrite opt_keep; rewrite ?E2; auto; [destruct (String.eqb_spec a ""); [contradiction|reflexivity]|].
    intros (x & X). apply D. exists x. apply in_app_iff. right. now right.
  - intros D E H. rewrite Pre by auto. reflexivity.
Qed.
Print Assumptions C190_optimize.
Example C190_optimize_case : optflag (configure [("OPTFLAG", []); ("OPTFLAG", ["-O1"]); ("OPTFLAG", ["-O2"])] {| optflag := ""; stripflag := ""; shrink := ""; full := "" |}) = "-O1".
Proof. reflexivity. Qed.
(* DEBUG: with -Og -g, and without shrinkelf unless it is asked for; Missing: the flag -s (see below) *)
Theorem C190_debug_partial : forall conf s, occurs "DEBUG" conf -> ~ occurs "FULLDEBUG" conf -> full s <> "1" ->
  ~ occurs "SHRINKELF" conf -> ~ occurs "shrinkelf" conf -> shrink s <> "1" ->
  gcc_flags (configure conf s) = ("-Og -g " ++ stripflag (configure conf s))%string /\ shrinks (configure conf s) = false.
Proof.
  intros conf s D F Hf S1 S2 Hs. destruct (C190_optimize conf s) as [O _]. split.
  - unfold gcc_flags. rewrite (O D). unfold configure, defaultvalues. cbn [full]. rewrite full_keep by assumption.
    destruct (String.eqb_spec (full s) "1"); [contradiction|]. cbn [String.append]. reflexivity.
  - unfold shrinks, configure, defaultvalues. cbn [shrink]. apply String.eqb_neq. now apply shrink_no.
Qed.
Print Assumptions C190_debug_partial.
Example C190_debug_case : occurs "DEBUG" [("OPTFLAG", ["-Os"]); ("DEBUG", [])] /\ ~ occurs "FULLDEBUG" [("OPTFLAG", ["-Os"]); ("DEBUG", [])].
Proof. split; [exists []; right; now left|intros (a & [H|[H|[]]]); discriminate H]. Qed.
(* Without FULLDEBUG there is always a flag for stripping: with DEBUG alone it is -s, and the symbols are removed *)
Theorem C190_strip_refuted : (forall conf s, stripflag (configure conf s) <> "") /\
  forall s, full s <> "1" -> gcc_flags (configure [("DEBUG", [])] s) = "-Og -g -s".
Proof.
  split.
  - intros conf s. unfold configure, defaultvalues. cbn [stripflag]. destruct (String.eqb_spec (stripflag (fold_left set_line conf s)) ""); [discriminate|assumption].
  - intros s H. unfold gcc_flags. cbn. destruct (String.eqb_spec (full s) "1"); [contradiction|reflexivity].
Qed.
Print Assumptions C190_strip_refuted.
(* the claim for SHRINKELF is false as well: behind DEBUG it takes effect *)
Theorem C190_shrink_refuted : forall s, shrinks (configure [("DEBUG", []); ("SHRINKELF", [])] s) = true.
Proof. reflexivity. Qed.
Print Assumptions C190_shrink_refuted.
