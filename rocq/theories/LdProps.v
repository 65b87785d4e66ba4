(* C182, C183: the linker scripts. *)
From Verif Require Import Base LdModel.
From Coq Require Import Permutation.
Open Scope Z_scope.

(* ---- specification ---- *)
(* the sections a C compiler makes: code, constants and variables, with any name behind the dot *)
Definition named (b n : string) : Prop := n = b \/ exists x, n = (b ++ "." ++ x)%string.
Definition code (i : input) : Prop := named ".text" (i_name i) /\ i_exec i = true /\ i_write i = false.
Definition const (i : input) : Prop := named ".rodata" (i_name i) /\ i_exec i = false /\ i_write i = false.
Definition var (i : input) : Prop :=
  (named ".data" (i_name i) \/ named ".bss" (i_name i) \/ i_name i = "COMMON"%string) /\ i_exec i = false /\ i_write i = true.
Definition standard (i : input) : Prop := (code i \/ const i \/ var i) /\ 0 <= i_size i /\ 0 < i_align i.
(* all scripts but bloating *)
Definition scripts : list script := [default; default_execstack; exec; text_and_bss; onlytext; onlytext_tiny].
Definition may (bit flags : Z) : Prop := Z.testbit flags bit = true.
(* the rights a section needs: 2 read, 1 write, 0 execute *)
Definition needs (i : input) (flags : Z) : Prop := may 2 flags /\ (code i -> may 0 flags) /\ (var i -> may 1 flags).

(* ---- lemmas about ld ---- *)
Lemma partition_perm {A} (f : A -> bool) l : forall a b, partition f l = (a, b) -> Permutation l (a ++ b).
Proof.
  induction l as [|x l IH]; cbn [partition]; intros a b E; [now injection E as <- <-|].
  destruct (partition f l) as [a' b']. specialize (IH a' b' eq_refl).
  destruct (f x); injection E as <- <-; cbn; [now constructor|]. now apply Permutation_cons_app.
Qed.
Lemma partition_in {A} (f : A -> bool) l : forall a b, partition f l = (a, b) ->
  Forall (fun x => f x = true) a /\ Forall (fun x => f x = false) b.
Proof.
  induction l as [|x l IH]; cbn [partition]; intros a b E; [now injection E as <- <-|].
  destruct (partition f l) as [a' b']. destruct (IH a' b' eq_refl).
  destruct (f x) eqn:F; injection E as <- <-; auto.
Qed.
Lemma select_perm sts : forall rest h m, select sts rest = (h, m) -> Permutation rest (h ++ m).
Proof.
  induction sts as [|st sts IH]; cbn [select]; intros rest h m E; [injection E as <- <-; reflexivity|].
  destruct (partition (hits st) rest) as [a b] eqn:P. destruct (select sts b) as [h' m'] eqn:S. injection E as <- <-.
  rewrite (partition_perm _ _ _ _ P), (IH _ _ _ S), app_assoc. reflexivity.
Qed.
Lemma select_in sts : forall rest h m, select sts rest = (h, m) ->
  Forall (fun i => existsb (fun st => hits st i) sts = true) h /\ Forall (fun i => existsb (fun st => hits st i) sts = false) m.
Proof.
  induction sts as [|st sts IH]; cbn [select]; intros rest h m E.
  { injection E as <- <-. split; [constructor|]. now apply Forall_forall. }
  destruct (partition (hits st) rest) as [a b] eqn:P. destruct (select sts b) as [h' m'] eqn:S. injection E as <- <-.
  destruct (partition_in _ _ _ _ P) as [P1 P2]. destruct (IH _ _ _ S) as [S1 S2]. cbn [existsb]. split.
  - apply Forall_app. split; eapply Forall_impl; try eassumption; cbn; intros i H; rewrite H; auto using orb_true_r.
  - apply Forall_forall. intros i Hi. rewrite Forall_forall in S2, P2. rewrite S2 by auto.
    rewrite P2; auto. pose proof (select_perm _ _ _ _ S) as Q. apply Permutation_sym in Q. eapply Permutation_in; [exact Q|]. apply in_app_iff. auto.
Qed.

Lemma align_up_spec a x : 0 < a -> x <= align_up a x < x + a /\ align_up a x mod a = 0.
Proof.
  intros Ha. unfold align_up. pose proof (Z.div_mod (x + a - 1) a ltac:(lia)) as D. pose proof (Z.mod_pos_bound (x + a - 1) a Ha).
  split; [nia|]. apply Z.mod_mul. lia.
Qed.
Definition fits (lo hi : Z) (x : Z * input) : Prop := lo <= fst x /\ fst x + i_size (snd x) <= hi /\ fst x mod i_align (snd x) = 0.
Definition before (x y : Z * input) : Prop := fst x + i_size (snd x) <= fst y.
Lemma FOP_cons {A} (R : A -> A -> Prop) x l : Forall (R x) l -> ForallOrdPairs R l -> ForallOrdPairs R (x :: l).
Proof. intros. now constructor. Qed.
Lemma FOP_app {A} (R : A -> A -> Prop) a b : ForallOrdPairs R a -> ForallOrdPairs R b -> (forall x y, In x a -> In y b -> R x y) -> ForallOrdPairs R (a ++ b).
Proof.
  induction 1 as [|x a Hx Ha IH]; cbn; intros Hb H; auto. constructor; [|apply IH; auto].
  apply Forall_app. split; auto. apply Forall_forall. auto.
Qed.
Lemma lay_ok l : Forall (fun i => 0 <= i_size i /\ 0 < i_align i) l -> forall dot p e, lay dot l = (p, e) ->
  map snd p = l /\ dot <= e /\ Forall (fits dot e) p /\ ForallOrdPairs before p.
Proof.
  induction 1 as [|i l [Hs Ha] H IH]; cbn [lay]; intros dot p e E.
  { injection E as <- <-. repeat split; try constructor; lia. }
  destruct (lay (align_up (i_align i) dot + i_size i) l) as [q e'] eqn:L. injection E as <- <-.
  destruct (IH _ _ _ L) as (M & D & F & O). destruct (align_up_spec (i_align i) dot Ha).
  split; [cbn; congruence|]. split; [lia|]. split.
  - constructor; [unfold fits; cbn; lia|]. eapply Forall_impl; [|exact F]. unfold fits. intros x (? & ? & ?). repeat split; auto. lia.
  - constructor; auto. eapply Forall_impl; [|exact F]. unfold fits, before. cbn. lia.
Qed.
Lemma largest_pos l : 0 < largest l.
Proof. unfold largest. induction l; cbn [fold_right]; lia. Qed.

Definition at_ (x : string * Z * input) : Z * input := (snd (fst x), snd x).
Definition ok_end (o : output) : Prop := 0 < o_end o.
Lemma outs_ok os : Forall ok_end os -> forall dot rest q e m, Forall (fun i => 0 <= i_size i /\ 0 < i_align i) rest ->
  outs os dot rest = (q, e, m) ->
  Permutation rest (map snd q ++ m) /\ dot <= e /\ Forall (fun x => fits dot e (at_ x)) q /\ ForallOrdPairs (fun x y => before (at_ x) (at_ y)) q /\
  Forall (fun x => exists o, In o os /\ o_seg o = fst (fst x) /\ existsb (fun st => hits st (snd x)) (o_stmts o) = true) q /\
  Forall (fun i => forall o, In o os -> existsb (fun st => hits st i) (o_stmts o) = false) m.
Proof.
  induction 1 as [|o os Ho Hos IH]; cbn [outs]; intros dot rest q e m R E.
  { injection E as <- <- <-. repeat split; auto; try constructor; try lia. apply Forall_forall. intros ? _ ? []. }
  destruct (select (o_stmts o) rest) as [h m1] eqn:S. destruct (lay (align_up (largest h) dot) h) as [p e1] eqn:L.
  set (e2 := match h with [] => dot | _ => align_up (o_end o) e1 end) in E.
  destruct (outs os e2 m1) as [[q' e'] m'] eqn:O. injection E as <- <- <-.
  pose proof (select_perm _ _ _ _ S) as SP. destruct (select_in _ _ _ _ S) as [S1 S2].
  assert (RS : Forall (fun i => 0 <= i_size i /\ 0 < i_align i) (h ++ m1)) by (eapply Permutation_Forall; eauto).
  apply Forall_app in RS as [Rh Rm]. destruct (lay_ok h Rh _ _ _ L) as (M & D & F & P).
  pose proof (align_up_spec (largest h) dot (largest_pos h)) as [A1 _].
  assert (E2 : dot <= e2 /\ (h <> [] -> e1 <= e2)).
  { subst e2. pose proof (align_up_spec (o_end o) e1 Ho) as [A2 _]. destruct h; [split; [lia|congruence]|]. split; intros; lia. }
  destruct (IH _ _ _ _ _ Rm O) as (P2 & D2 & F2 & O2 & G2 & N2).
  assert (FP : Forall (fun x => fits dot e2 x) p).
  { destruct h as [|i h].
    - cbn in L. injection L as <- <-. constructor.
    - eapply Forall_impl; [|exact F]. unfold fits. destruct E2 as [? E2]. specialize (E2 ltac:(discriminate)). intros x (? & ? & ?). repeat split; auto; lia. }
  split; [|split; [|split; [|split; [|split]]]].
  - rewrite SP, P2, map_app, map_map. cbn [fst snd]. change (map (fun x => snd x) p) with (map snd p). rewrite M, app_assoc. reflexivity.
  - lia.
  - apply Forall_app. split.
    + apply Forall_map. eapply Forall_impl; [|exact FP]. unfold fits, at_. cbn. intros x (? & ? & ?). repeat split; auto; lia.
    + eapply Forall_impl; [|exact F2]. unfold fits. intros x (? & ? & ?). repeat split; auto; lia.
  - apply FOP_app; auto.
    + clear -P. induction P; cbn; constructor; auto. apply Forall_map. exact H.
    + intros x y Hx Hy. apply in_map_iff in Hx as (z & <- & Hz). rewrite Forall_forall in FP, F2. specialize (FP _ Hz). specialize (F2 _ Hy).
      unfold fits, before, at_ in *. cbn in *. lia.
  - apply Forall_app. split.
    + apply Forall_map. apply Forall_forall. intros x Hx. exists o. split; [now left|]. split; [reflexivity|]. cbn.
      rewrite Forall_forall in S1. apply S1. rewrite <- M. now apply in_map.
    + eapply Forall_impl; [|exact G2]. intros x (o' & ? & ?). exists o'. split; [now right|auto].
  - apply Forall_forall. intros i Hi o' [<-|Ho'].
    + rewrite Forall_forall in S2. apply S2. apply Permutation_sym in P2. eapply Permutation_in; [exact P2|]. apply in_app_iff. auto.
    + rewrite Forall_forall in N2. now apply N2.
Qed.

(* ---- lemmas about names ---- *)
Lemma star_any x : wild "*" x = true.
Proof. induction x as [|c x IH]; [reflexivity|]. change (wild "" (String c x) || wild "*" x = true). now rewrite IH, orb_true_r. Qed.
Lemma Forall_impl2 {A} (P Q : A -> Prop) l : Forall P l -> (forall x, In x l -> P x -> Q x) -> Forall Q l.
Proof. rewrite !Forall_forall. auto. Qed.

Ltac names := cbn [existsb map app wild Ascii.eqb Bool.eqb orb andb String.append i_name default default_execstack exec three text_and_bss onlytext onlytext_tiny s_outputs o_stmts o_seg o_end
    code_stmts rodata_stmt data_stmt bss_stmt hits fst snd] in *.
Ltac kinds H := destruct H as [((H & ?) & ?)|[((H & ?) & ?)|((H & ?) & ?)]].

(* what a pattern matches: a star any text, other characters themselves *)
Inductive like : string -> string -> Prop :=
| like_nil : like "" ""
| like_star : forall p s t, like p t -> like (String "*" p) (s ++ t)
| like_char : forall c p s, c <> "*"%char -> like p s -> like (String c p) (String c s).
Theorem C182_patterns : forall p s, wild p s = true <-> like p s.
Proof.
  split.
  - revert s. induction p as [|c p IH]; intros s.
    + destruct s; [intros; constructor|discriminate].
    + cbn [wild]. destruct (Ascii.eqb_spec c "*") as [->|Hc].
      * induction s as [|d s IHs]; intros H.
        -- apply orb_prop in H as [H|H]; [|discriminate H]. apply (like_star p "" ""). now apply IH.
        -- apply orb_prop in H as [H|H].
           ++ apply (like_star p "" (String d s)). now apply IH.
           ++ specialize (IHs H). inversion IHs as [|p' s1 t1 Hl E1 E2|c' p' s' Hn]; subst; [|congruence].
              apply (like_star p (String d s1) t1). exact Hl.
      * destruct s as [|d s]; [discriminate|]. intros H. apply andb_prop in H as [H1 H2]. apply Ascii.eqb_eq in H1 as ->. constructor; auto.
  - induction 1 as [|p s t H IH|c p s Hc H IH]; [reflexivity| |].
    + induction s as [|d s IHs]; cbn [String.append].
      * cbn [wild]. rewrite Ascii.eqb_refl. destruct t; now rewrite IH.
      * cbn [wild] in IHs |- *. rewrite Ascii.eqb_refl in *. rewrite IHs. apply orb_true_r.
    + cbn [wild]. apply Ascii.eqb_neq in Hc. now rewrite Hc, Ascii.eqb_refl, IH.
Qed.
Print Assumptions C182_patterns.
(* a pattern of a script takes every name it matches *)
Lemma covered s p i : existsb (fun o => existsb (existsb (String.eqb p)) (o_stmts o)) (s_outputs s) = true -> wild p (i_name i) = true ->
  exists o, In o (s_outputs s) /\ existsb (fun st => hits st i) (o_stmts o) = true.
Proof.
  intros H W. apply existsb_exists in H as (o & Ho & H). apply existsb_exists in H as (st & Hst & H). apply existsb_exists in H as (q & Hq & H).
  apply String.eqb_eq in H as <-. exists o. split; auto. apply existsb_exists. exists st. split; auto. apply existsb_exists. exists p. auto.
Qed.
(* the pattern for each kind of name *)
Lemma wild_text y : wild ".text.*" (".text" ++ "." ++ y) = true. Proof. exact (star_any y). Qed.
Lemma wild_rodata y : wild ".rodata.*" (".rodata" ++ "." ++ y) = true. Proof. exact (star_any y). Qed.
Lemma wild_data y : wild ".data.*" (".data" ++ "." ++ y) = true. Proof. exact (star_any y). Qed.
Lemma wild_bss y : wild ".bss.*" (".bss" ++ "." ++ y) = true. Proof. exact (star_any y). Qed.

(* a section that the compiler makes is taken by some statement of every script *)
Lemma taken s i : In s scripts -> standard i -> exists o, In o (s_outputs s) /\ existsb (fun st => hits st i) (o_stmts o) = true.
Proof.
  intros Hs [K _]. unfold code, const, var in K.
  assert (C : forall p, In p [".text"; ".text.*"; ".rodata"; ".rodata.*"; ".data"; ".data.*"; ".bss"; ".bss.*"; "COMMON"]%string ->
    existsb (fun o => existsb (existsb (String.eqb p)) (o_stmts o)) (s_outputs s) = true).
  { apply Forall_forall. cbn [scripts In] in Hs. destruct Hs as [<-|[<-|[<-|[<-|[<-|[<-|[]]]]]]]; repeat constructor. }
  destruct K as [[[E|[y E]] _]|[[[E|[y E]] _]|[[[E|[y E]]|[[E|[y E]]|E]] _]]].
  - apply (covered s ".text"); [apply C; cbn; tauto|now rewrite E].
  - apply (covered s ".text.*"); [apply C; cbn; tauto|rewrite E; apply wild_text].
  - apply (covered s ".rodata"); [apply C; cbn; tauto|now rewrite E].
  - apply (covered s ".rodata.*"); [apply C; cbn; tauto|rewrite E; apply wild_rodata].
  - apply (covered s ".data"); [apply C; cbn; tauto|now rewrite E].
  - apply (covered s ".data.*"); [apply C; cbn; tauto|rewrite E; apply wild_data].
  - apply (covered s ".bss"); [apply C; cbn; tauto|now rewrite E].
  - apply (covered s ".bss.*"); [apply C; cbn; tauto|rewrite E; apply wild_bss].
  - apply (covered s "COMMON"); [apply C; cbn; tauto|now rewrite E].
Qed.

(* which statements don't take a name: by their first characters *)
Definition starts (p : string) (i : input) : Prop := exists y, i_name i = (p ++ y)%string.
Lemma code_starts i : code i -> starts ".text" i.
Proof. intros [[E|[y E]] _]; [exists ""%string; exact E|exists ("." ++ y)%string; exact E]. Qed.
Lemma const_starts i : const i -> starts ".rodata" i.
Proof. intros [[E|[y E]] _]; [exists ""%string; exact E|exists ("." ++ y)%string; exact E]. Qed.
Lemma var_starts i : var i -> starts ".data" i \/ starts ".bss" i \/ i_name i = "COMMON"%string.
Proof. intros [[[E|[y E]]|[[E|[y E]]|E]] _]; auto; [left|left|right; left|right; left]; solve [exists ""%string; exact E|exists ("." ++ y)%string; exact E]. Qed.

Lemma not_code i : starts ".rodata" i \/ starts ".data" i \/ starts ".bss" i \/ i_name i = "COMMON"%string ->
  existsb (fun st => hits st i) code_stmts = false.
Proof. intros [[y E]|[[y E]|[[y E]|E]]]; unfold hits; rewrite E; reflexivity. Qed.
Lemma not_data i : starts ".text" i \/ starts ".rodata" i -> existsb (fun st => hits st i) [data_stmt] = false.
Proof. intros [[y E]|[y E]]; unfold hits; rewrite E; reflexivity. Qed.
Lemma not_bss i : starts ".text" i \/ starts ".rodata" i -> existsb (fun st => hits st i) [["COMMON"%string]; [".dynbss"%string]; bss_stmt] = false.
Proof. intros [[y E]|[y E]]; unfold hits; rewrite E; reflexivity. Qed.
Lemma not_rodata i : starts ".data" i \/ starts ".bss" i \/ i_name i = "COMMON"%string -> existsb (fun st => hits st i) [rodata_stmt] = false.
Proof. intros [[y E]|[[y E]|E]]; unfold hits; rewrite E; reflexivity. Qed.
Lemma not_bss2 i : starts ".text" i -> existsb (fun st => hits st i) [[".dynbss"%string]; bss_stmt; ["COMMON"%string]; data_stmt; rodata_stmt] = false.
Proof. intros [y E]; unfold hits; rewrite E; reflexivity. Qed.

(* the segment of a section *)
Definition goes (s : script) (seg : string) (i : input) : Prop :=
  exists o, In o (s_outputs s) /\ o_seg o = seg /\ existsb (fun st => hits st i) (o_stmts o) = true.
Lemma existsb_app2 {A} (f : A -> bool) a b : existsb f (a ++ b) = false <-> existsb f a = false /\ existsb f b = false.
Proof. rewrite existsb_app, orb_false_iff. tauto. Qed.
Lemma goes_three t st b e more seg i : goes (three t st b e more) seg i ->
  (code i \/ const i -> seg = "text"%string) /\ (var i -> seg = "data"%string \/ seg = "bss"%string).
Proof.
  intros (o & Ho & <- & H). cbn [three s_outputs In] in Ho. destruct Ho as [<-|[<-|[<-|[]]]]; cbn [o_seg o_stmts] in *.
  - split; auto. intros V. exfalso. apply var_starts in V. rewrite existsb_app, not_code, not_rodata in H by tauto. discriminate.
  - split; auto. intros V. exfalso. rewrite not_data in H; [discriminate|]. destruct V; [left; now apply code_starts|right; now apply const_starts].
  - split; auto. intros V. exfalso. rewrite not_bss in H; [discriminate|]. destruct V; [left; now apply code_starts|right; now apply const_starts].
Qed.
Lemma goes_two seg i : goes text_and_bss seg i ->
  (code i -> seg = "text"%string) /\ (const i \/ var i -> seg = "bss"%string).
Proof.
  intros (o & Ho & <- & H). cbn [text_and_bss s_outputs In] in Ho. destruct Ho as [<-|[<-|[]]]; cbn [o_seg o_stmts] in *.
  - split; auto. intros V. exfalso. rewrite not_code in H; [discriminate|]. destruct V as [V|V]; [left; now apply const_starts|right; now apply var_starts].
  - split; auto. intros V. exfalso. rewrite not_bss2 in H; [discriminate|]. now apply code_starts.
Qed.
Lemma goes_one s seg i : s = onlytext \/ s = onlytext_tiny -> goes s seg i -> seg = "text"%string.
Proof. intros [-> | ->] (o & [<-|[]] & <- & _); reflexivity. Qed.

(* the flags of the segment of a section are those it needs *)
Lemma flags_ok s p seg a i : In s scripts -> (code i \/ const i \/ var i) -> goes s seg i -> In (seg, a, i) (p_placed p) -> needs i (seg_flags s p seg).
Proof.
  intros Hs K G Hp.
  assert (One : s = onlytext \/ s = onlytext_tiny -> needs i (seg_flags s p seg)).
  { intros Ho. pose proof (goes_one _ _ _ Ho G) as ->. unfold seg_flags.
    replace (find (fun x : string * option Z => (fst x =? "text")%string) (s_loads s)) with (Some ("text"%string, @None Z)) by (destruct Ho; subst; reflexivity).
    set (mine := filter _ _). assert (M : In ("text"%string, a, i) mine) by (apply filter_In; split; auto).
    assert (W : i_write i = true -> existsb (fun x => i_write (snd x)) mine = true) by (intros; apply existsb_exists; eauto).
    assert (X : i_exec i = true -> existsb (fun x => i_exec (snd x)) mine = true) by (intros; apply existsb_exists; eauto).
    unfold needs, may, code, var.
    destruct (existsb (fun x => i_write (snd x)) mine), (existsb (fun x => i_exec (snd x)) mine); cbn; repeat split; auto; intros [_ [? ?]]; try reflexivity; try (now discriminate W); try (now discriminate X). }
  assert (V : needs i 7) by (repeat split).
  cbn [scripts In] in Hs. destruct Hs as [<-|[<-|[<-|[<-|[<-|[<-|[]]]]]]]; auto.
  - destruct (goes_three _ _ _ _ _ _ _ G) as [A B]. destruct K as [K|[K|K]].
    + rewrite A by auto. repeat split. intros [_ [? ?]]. destruct K as [_ [? ?]]. congruence.
    + rewrite A by auto. repeat split; intros [_ [? ?]]; destruct K as [_ [? ?]]; congruence.
    + destruct (B K) as [-> | ->]; exact V.
  - destruct (goes_three _ _ _ _ _ _ _ G) as [A B]. destruct K as [K|[K|K]].
    + rewrite A by auto. repeat split. intros [_ [? ?]]. destruct K as [_ [? ?]]. congruence.
    + rewrite A by auto. repeat split; intros [_ [? ?]]; destruct K as [_ [? ?]]; congruence.
    + destruct (B K) as [-> | ->]; exact V.
  - destruct (goes_three _ _ _ _ _ _ _ G) as [A B]. destruct K as [K|[K|K]].
    + rewrite A by auto. exact V.
    + rewrite A by auto. exact V.
    + destruct (B K) as [-> | ->]; exact V.
  - destruct (goes_two _ _ G) as [A B]. destruct K as [K|[K|K]].
    + rewrite A by auto. repeat split. intros [_ [? ?]]. destruct K as [_ [? ?]]. congruence.
    + rewrite B by auto. exact V.
    + rewrite B by auto. exact V.
Qed.

(* everything about a linked program in one lemma *)
Lemma link_gen s headers l : Forall ok_end (s_outputs s) -> 0 < s_end s -> Forall standard l ->
  Forall (fun i => exists o, In o (s_outputs s) /\ existsb (fun st => hits st i) (o_stmts o) = true) l ->
  let p := link s headers l in
  Permutation (map snd (p_placed p)) l /\ p_lost p = [] /\ p_orphans p = [] /\
  Forall (fun x => fits (base + headers) (p_end p) (at_ x)) (p_placed p) /\
  ForallOrdPairs (fun x y => before (at_ x) (at_ y)) (p_placed p) /\
  Forall (fun x => goes s (fst (fst x)) (snd x)) (p_placed p).
Proof.
  intros Ends Se Hl HT p. unfold p, link. destruct (outs (s_outputs s) (base + headers) l) as [[q e] m] eqn:O.
  assert (R : Forall (fun i => 0 <= i_size i /\ 0 < i_align i) l) by (eapply Forall_impl; [|exact Hl]; intros i [_ H]; exact H).
  destruct (outs_ok _ Ends _ _ _ _ _ R O) as (P & D & F & B & G & N).
  assert (m = []) as ->.
  { destruct m as [|i m]; auto. exfalso. apply Forall_inv in N. assert (I : In i l) by (apply Permutation_sym in P; eapply Permutation_in; [exact P|]; apply in_app_iff; right; now left).
    rewrite Forall_forall in HT. destruct (HT i I) as (o & Ho & T). rewrite (N o Ho) in T. discriminate. }
  cbn [partition p_placed p_lost p_orphans p_end]. rewrite app_nil_r in P.
  destruct (align_up_spec (s_end s) e Se).
  repeat split; auto.
  - now apply Permutation_sym.
  - eapply Forall_impl; [|exact F]. unfold fits. intros x (? & ? & ?). repeat split; auto. lia.
Qed.
Lemma link_ok s headers l : In s scripts -> Forall standard l ->
  let p := link s headers l in
  Permutation (map snd (p_placed p)) l /\ p_lost p = [] /\ p_orphans p = [] /\
  Forall (fun x => fits (base + headers) (p_end p) (at_ x)) (p_placed p) /\
  ForallOrdPairs (fun x y => before (at_ x) (at_ y)) (p_placed p) /\
  Forall (fun x => goes s (fst (fst x)) (snd x)) (p_placed p).
Proof.
  intros Hs Hl.
  assert (Ends : Forall ok_end (s_outputs s) /\ 0 < s_end s).
  { cbn [scripts In] in Hs. destruct Hs as [<-|[<-|[<-|[<-|[<-|[<-|[]]]]]]]; split; repeat constructor. }
  apply link_gen; try tauto. eapply Forall_impl; [|exact Hl]. intros i. now apply taken.
Qed.

(* ---- C182 ---- *)
(* Missing: .data in the script bloating (for the rest see C182_bloating_partial), and sections with other names: see the refutations. *)
Theorem C182_placed_partial : forall s headers l, In s scripts -> Forall standard l ->
  let p := link s headers l in
  (* every section is in the program once *)
  Permutation (map snd (p_placed p)) l /\ p_lost p = [] /\ p_orphans p = [] /\
  (* aligned, behind the headers and in front of _end, in a segment with the rights it needs *)
  (forall seg a i, In (seg, a, i) (p_placed p) ->
     a mod i_align i = 0 /\ base + headers <= a /\ a + i_size i <= p_end p /\ needs i (seg_flags s p seg)) /\
  (* no two of them overlap *)
  ForallOrdPairs (fun x y => snd (fst x) + i_size (snd x) <= snd (fst y)) (p_placed p).
Proof.
  intros s headers l Hs Hl p. destruct (link_ok s headers l Hs Hl) as (P & L & O & F & B & G). fold p in P, L, O, F, B, G.
  repeat split; auto.
  all: match goal with H : In (?seg, ?a, ?i) _ |- _ => rewrite Forall_forall in F, G; pose proof (F _ H) as F1; pose proof (G _ H) as G1; unfold fits, at_ in F1; cbn [fst snd] in F1, G1;
    assert (St : standard i) by (rewrite Forall_forall in Hl; apply Hl; eapply Permutation_in; [exact P|]; change i with (snd (seg, a, i)); now apply in_map) end; try tauto.
  all: match goal with H : In (?seg, ?a, ?i) _ |- _ => destruct St as [K _]; destruct (flags_ok s p seg a i Hs K G1 H) as (? & ? & ?); auto end.
Qed.
Print Assumptions C182_placed_partial.
Definition sec (n : string) (sz al : Z) (w x : bool) : input := {| i_name := n; i_size := sz; i_align := al; i_write := w; i_exec := x |}.
(* a program with all kinds of sections *)
Definition prog : list input :=
  [sec ".text" 100 1 false true; sec ".text.main" 50 16 false true; sec ".rodata.str1.1" 13 1 false false; sec ".data" 8 8 true false;
   sec ".bss.buf" 4096 32 true false; sec "COMMON" 4 4 true false].
Lemma prog_standard : Forall standard prog.
Proof.
  repeat (apply Forall_cons; [split; [unfold code, const, var, named; cbn [i_name i_exec i_write sec]|cbn; lia]|]); [..|constructor].
  - left. repeat split. now left.
  - left. repeat split. right. now exists "main"%string.
  - right. left. repeat split. right. now exists "str1.1"%string.
  - right. right. repeat split. left. now left.
  - right. right. repeat split. right. left. right. now exists "buf"%string.
  - right. right. repeat split. now right; right.
Qed.
Example C182_case : In default scripts /\ Forall standard prog /\
  map (fun x => (fst (fst x), snd (fst x) - base, i_name (snd x))) (p_placed (link default 288 prog)) =
  [("text", 288, ".text.main"); ("text", 338, ".text"); ("text", 438, ".rodata.str1.1"); ("data", 456, ".data"); ("bss", 480, "COMMON"); ("bss", 512, ".bss.buf")]%string /\
  p_end (link default 288 prog) = base + 4608.
Proof. split; [now left|]. split; [exact prog_standard|]. split; vm_compute; reflexivity. Qed.

(* the script bloating: everything but initialised variables *)
Theorem C182_bloating_partial : forall headers l, Forall standard l -> Forall (fun i => ~ named ".data" (i_name i)) l ->
  let p := link bloating headers l in
  Permutation (map snd (p_placed p)) l /\ p_lost p = [] /\ p_orphans p = [] /\
  (forall seg a i, In (seg, a, i) (p_placed p) ->
     a mod i_align i = 0 /\ base + headers <= a /\ a + i_size i <= p_end p /\ needs i (seg_flags bloating p seg)) /\
  ForallOrdPairs (fun x y => snd (fst x) + i_size (snd x) <= snd (fst y)) (p_placed p).
Proof.
  intros headers l Hl Hd p.
  assert (T : Forall (fun i => exists o, In o (s_outputs bloating) /\ existsb (fun st => hits st i) (o_stmts o) = true) l).
  { rewrite Forall_forall in *. intros i Hi. specialize (Hl i Hi). specialize (Hd i Hi). destruct Hl as [K _]. unfold code, const, var in K.
    destruct K as [[[E|[y E]] _]|[[[E|[y E]] _]|[[E|[[E|[y E]]|E]] _]]].
    - apply (covered bloating ".text"); [reflexivity|now rewrite E].
    - apply (covered bloating ".text.*"); [reflexivity|rewrite E; apply wild_text].
    - apply (covered bloating ".rodata"); [reflexivity|now rewrite E].
    - apply (covered bloating ".rodata.*"); [reflexivity|rewrite E; apply wild_rodata].
    - now elim Hd.
    - apply (covered bloating ".bss"); [reflexivity|now rewrite E].
    - apply (covered bloating ".bss.*"); [reflexivity|rewrite E; apply wild_bss].
    - apply (covered bloating "COMMON"); [reflexivity|now rewrite E]. }
  assert (Ends : Forall ok_end (s_outputs bloating) /\ 0 < s_end bloating) by (split; repeat constructor).
  destruct (link_gen bloating headers l (proj1 Ends) (proj2 Ends) Hl T) as (P & L & O & F & B & G). fold p in P, L, O, F, B, G.
  split; [exact P|]. split; [exact L|]. split; [exact O|]. split; [|exact B].
  intros seg a i H. rewrite Forall_forall in F, G, Hl. specialize (F _ H). specialize (G _ H). unfold fits, at_ in F. cbn [fst snd] in F, G.
  assert (St : standard i) by (apply Hl; eapply Permutation_in; [exact P|]; change i with (snd (seg, a, i)); now apply in_map).
  split; [tauto|]. split; [tauto|]. split; [tauto|].
  assert (seg = "text"%string) as -> by (destruct G as (o & [<-|[<-|[]]] & <- & _); reflexivity).
  unfold seg_flags. cbn [bloating s_loads find fst String.eqb Ascii.eqb Bool.eqb].
  set (mine := filter _ _). assert (M : In ("text"%string, a, i) mine) by (apply filter_In; split; auto).
  assert (W : i_write i = true -> existsb (fun x => i_write (snd x)) mine = true) by (intros; apply existsb_exists; eauto).
  assert (X : i_exec i = true -> existsb (fun x => i_exec (snd x)) mine = true) by (intros; apply existsb_exists; eauto).
  unfold needs, may, code, var.
  destruct (existsb (fun x => i_write (snd x)) mine), (existsb (fun x => i_exec (snd x)) mine); cbn; repeat split; auto; intros [_ [? ?]]; try reflexivity; try (now discriminate W); try (now discriminate X).
Qed.
Print Assumptions C182_bloating_partial.
Definition bprog : list input :=
  [sec ".text" 100 1 false true; sec ".text.main" 50 16 false true; sec ".rodata.str1.1" 13 1 false false; sec ".bss.buf" 4096 32 true false; sec "COMMON" 5 4 true false].
Example C182_bloating_case : Forall standard bprog /\ Forall (fun i => ~ named ".data" (i_name i)) bprog /\
  map (fun x => (fst (fst x), snd (fst x) - base, i_name (snd x))) (p_placed (link bloating 288 bprog)) =
  [("text", 288, ".text"); ("text", 400, ".text.main"); ("text", 480, ".bss.buf"); ("text", 4576, "COMMON"); ("text", 4581, ".rodata.str1.1")]%string /\
  p_end (link bloating 288 bprog) = base + 4596 /\ seg_flags bloating (link bloating 288 bprog) "text" = 7.
Proof.
  split; [|split; [|split; [|split]; vm_compute; reflexivity]].
  - repeat (apply Forall_cons; [split; [unfold code, const, var, named; cbn [i_name i_exec i_write sec]|cbn; lia]|]); [..|constructor].
    + left. repeat split. now left.
    + left. repeat split. right. now exists "main"%string.
    + right. left. repeat split. right. now exists "str1.1"%string.
    + right. right. repeat split. right. left. right. now exists "buf"%string.
    + right. right. repeat split. now right; right.
  - repeat (apply Forall_cons; [intros [E|[y E]]; discriminate E|]). constructor.
Qed.
(* initialised variables have no place in the script bloating *)
Theorem C182_bloating_refuted : exists i, standard i /\ forall headers, p_placed (link bloating headers [i]) = [] /\ p_orphans (link bloating headers [i]) = [i].
Proof. exists (sec ".data" 8 8 true false). split; [|split; reflexivity]. split; [|cbn; lia]. right. right. repeat split. left. now left. Qed.
Print Assumptions C182_bloating_refuted.
(* sections with other names get lost without a message: with every script those whose names begin with .rel, and with
   onlytext all others, among them the pointers to constructors *)
Theorem C182_lost_refuted :
  (forall s headers y sz al w x, In s (bloating :: scripts) -> let i := sec (".rel" ++ y) sz al w x in p_lost (link s headers [i]) = [i] /\ p_placed (link s headers [i]) = []) /\
  (forall s headers sz, s = onlytext \/ s = onlytext_tiny -> let i := sec ".init_array" sz 8 true false in p_lost (link s headers [i]) = [i] /\ p_placed (link s headers [i]) = []).
Proof.
  split.
  - intros s headers y sz al w x Hs i. unfold i, link. cbn [scripts In] in Hs.
    assert (W : wild ".rel*" (".rel" ++ y) = true) by exact (star_any y).
    assert (H : hits discards (sec (".rel" ++ y) sz al w x) = true).
    { apply existsb_exists. exists ".rel*"%string. split; [cbn; tauto|exact W]. }
    assert (H2 : forall more, hits (discards ++ more) (sec (".rel" ++ y) sz al w x) = true) by (intros; unfold hits in *; now rewrite existsb_app, H).
    destruct Hs as [<-|[<-|[<-|[<-|[<-|[<-|[<-|[]]]]]]]];
    match goal with |- context [outs ?o ?d ?r] => replace (outs o d r) with (@nil (string * Z * input), d, r) by reflexivity end;
    cbn [partition default default_execstack exec three text_and_bss onlytext onlytext_tiny bloating s_discard]; rewrite ?H2, ?H; split; reflexivity.
  - intros s headers sz [-> | ->]; split; reflexivity.
Qed.
Print Assumptions C182_lost_refuted.

(* ---- C183 ---- *)
Definition holds_byte (x : Z) (y : string * Z * input) : Prop := snd (fst y) <= x < snd (fst y) + i_size (snd y).
Lemma holds_touches x y : holds_byte x y -> touches x y = true.
Proof.
  destruct y as [[seg a] i]. unfold holds_byte, touches, page. cbn [fst snd]. intros H.
  rewrite !andb_true_iff, !Z.leb_le, Z.ltb_lt. repeat split; [lia|apply Z.div_le_mono; lia|apply Z.div_le_mono; lia].
Qed.
Lemma touches_holds x y : touches x y = true -> exists z, holds_byte z y /\ z / 4096 = x / 4096.
Proof.
  destruct y as [[seg a] i]. unfold holds_byte, touches, page. cbn [fst snd]. rewrite !andb_true_iff, !Z.leb_le, Z.ltb_lt. intros [[H0 H1] H2].
  destruct (Z.eq_dec (a / 4096) (x / 4096)) as [E|E]; [exists a; split; [lia|exact E]|].
  exists (x / 4096 * 4096). split; [|apply Z.div_mul; lia].
  pose proof (Z.div_mod a 4096) as Da. pose proof (Z.mod_pos_bound a 4096) as Ba.
  pose proof (Z.div_mod (a + i_size i - 1) 4096) as Db. pose proof (Z.mod_pos_bound (a + i_size i - 1) 4096) as Bb. lia.
Qed.
Lemma seg_found p seg a i x : In (seg, a, i) (p_placed p) -> holds_byte x (seg, a, i) ->
  existsb (fun y => String.eqb (fst (fst y)) seg && touches x y) (p_placed p) = true.
Proof. intros H B. apply existsb_exists. exists (seg, a, i). split; auto. cbn [fst]. rewrite String.eqb_refl, (holds_touches _ _ B). reflexivity. Qed.

(* Code and constants can't be written with the scripts default and default_execstack, if no variable is in the
   same page.  Missing: the other scripts and the page the variables begin in. *)
Theorem C183_constant_partial : forall s headers l, s = default \/ s = default_execstack -> Forall standard l ->
  let p := link s headers l in
  forall seg a i x, In (seg, a, i) (p_placed p) -> code i \/ const i -> holds_byte x (seg, a, i) ->
  (forall y z, In y (p_placed p) -> var (snd y) -> holds_byte z y -> z / 4096 <> x / 4096) -> rights s p x = Some 5.
Proof.
  intros s headers l Hs Hl p seg a i x Hp K B N'.
  assert (N : forall y, In y (p_placed p) -> var (snd y) -> touches x y = false).
  { intros y Hy V. apply Bool.not_true_is_false. intros T. apply touches_holds in T as (z & Hz & E). exact (N' y z Hy V Hz E). }
  assert (In s scripts) as Hin by (destruct Hs; subst; cbn; tauto).
  destruct (link_ok s headers l Hin Hl) as (P & _ & _ & _ & _ & G). fold p in P, G. rewrite Forall_forall in G.
  assert (G3 : forall y, In y (p_placed p) -> (code (snd y) \/ const (snd y) -> fst (fst y) = "text"%string) /\ (var (snd y) -> fst (fst y) = "data"%string \/ fst (fst y) = "bss"%string)).
  { intros y Hy. specialize (G y Hy). destruct Hs; subst; eapply goes_three; exact G. }
  pose proof (proj1 (G3 _ Hp) K) as E. cbn [fst] in E. subst seg.
  assert (Z0 : forall sg, sg <> "text"%string -> existsb (fun y => String.eqb (fst (fst y)) sg && touches x y) (p_placed p) = false).
  { intros sg Hsg. apply Bool.not_true_is_false. intros H. apply existsb_exists in H as (y & Hy & H). apply andb_true_iff in H as [H1 H2]. apply String.eqb_eq in H1.
    assert (St : standard (snd y)) by (rewrite Forall_forall in Hl; apply Hl; eapply Permutation_in; [exact P|]; now apply in_map).
    destruct St as [[Ky|[Ky|Ky]] _]; [apply Hsg; rewrite <- H1; apply G3; auto|apply Hsg; rewrite <- H1; apply G3; auto|]. rewrite (N y Hy Ky) in H2. discriminate. }
  pose proof (seg_found p _ _ _ _ Hp B) as T. unfold rights.
  replace (s_loads s) with [("text", Some 5); ("data", Some 7); ("bss", Some 7)]%string by (destruct Hs; subst; reflexivity). cbn [fold_left fst].
  rewrite T, !Z0 by discriminate. unfold seg_flags. destruct Hs; subst s; reflexivity.
Qed.
Print Assumptions C183_constant_partial.
(* the constant behind the code of prog is in the page of the variables: it can be written *)
Theorem C183_page_refuted : exists l seg a i, Forall standard l /\ In (seg, a, i) (p_placed (link default 288 l)) /\ const i /\ 0 < i_size i /\
  rights default (link default 288 l) a = Some 7.
Proof.
  exists prog. do 2 eexists. exists (sec ".rodata.str1.1" 13 1 false false). split; [exact prog_standard|]. split; [vm_compute; right; right; left; reflexivity|].
  split; [|split; [reflexivity|vm_compute; reflexivity]]. repeat split. right. now exists "str1.1"%string.
Qed.
Print Assumptions C183_page_refuted.
(* with text_and_bss every constant can be written, with exec the code as well *)
Theorem C183_scripts_refuted : forall headers l, Forall standard l ->
  (forall seg a i x, In (seg, a, i) (p_placed (link text_and_bss headers l)) -> const i -> holds_byte x (seg, a, i) -> rights text_and_bss (link text_and_bss headers l) x = Some 7) /\
  (forall seg a i x, In (seg, a, i) (p_placed (link exec headers l)) -> code i -> holds_byte x (seg, a, i) -> rights exec (link exec headers l) x = Some 7).
Proof.
  intros headers l Hl. split.
  - intros seg a i x Hp K B. destruct (link_ok text_and_bss headers l ltac:(cbn; tauto) Hl) as (P & _ & _ & _ & _ & G). rewrite Forall_forall in G.
    pose proof (proj2 (goes_two _ _ (G _ Hp)) (or_introl K)) as E. cbn [fst] in E. subst seg. unfold rights. cbn [text_and_bss s_loads fold_left fst].
    fold text_and_bss. rewrite (seg_found _ _ _ _ _ Hp B). reflexivity.
  - intros seg a i x Hp K B. destruct (link_ok exec headers l ltac:(cbn; tauto) Hl) as (P & _ & _ & _ & _ & G). rewrite Forall_forall in G.
    pose proof (proj1 (goes_three _ _ _ _ _ _ _ (G _ Hp)) (or_introl K)) as E. cbn [fst] in E. subst seg. unfold rights. cbn [exec three s_loads fold_left fst].
    fold (three 7 7 4 8 []). fold exec. rewrite (seg_found _ _ _ _ _ Hp B).
    repeat match goal with |- context [if existsb ?f ?q then _ else _] => destruct (existsb f q) end; reflexivity.
Qed.
Print Assumptions C183_scripts_refuted.
(* Variables can be written with every script; but with every script a program can execute them. *)
Theorem C183_variables_refuted : forall s headers l, In s scripts -> Forall standard l -> (exists i, In i l /\ code i) ->
  let p := link s headers l in
  forall seg a i x, In (seg, a, i) (p_placed p) -> var i -> holds_byte x (seg, a, i) -> rights s p x = Some 7.
Proof.
  intros s headers l Hs Hl (c & Hc & Kc) p seg a i x Hp K B.
  destruct (link_ok s headers l Hs Hl) as (P & _ & _ & _ & _ & G). fold p in P, G. rewrite Forall_forall in G. pose proof (G _ Hp) as Gi. cbn [fst snd] in Gi.
  pose proof (seg_found _ _ _ _ _ Hp B) as T.
  assert (One : s = onlytext \/ s = onlytext_tiny -> rights s p x = Some 7).
  { intros Ho. pose proof (goes_one _ _ _ Ho Gi) as ->. unfold rights.
    replace (s_loads s) with [("text"%string, @None Z)] by (destruct Ho; subst; reflexivity). cbn [fold_left fst]. rewrite T. f_equal. unfold seg_flags.
    replace (find (fun x : string * option Z => (fst x =? "text")%string) (s_loads s)) with (Some ("text"%string, @None Z)) by (destruct Ho; subst; reflexivity).
    set (mine := filter _ _).
    replace (existsb (fun x => i_write (snd x)) mine) with true.
    2:{ symmetry. apply existsb_exists. exists ("text"%string, a, i). split; [apply filter_In; auto|apply K]. }
    replace (existsb (fun x => i_exec (snd x)) mine) with true; auto.
    symmetry. apply existsb_exists. assert (I : In c (map snd (p_placed p))) by (eapply Permutation_in; [apply Permutation_sym; exact P|exact Hc]).
    apply in_map_iff in I as (y & <- & Hy). exists y. split; [|apply Kc]. apply filter_In. split; auto. apply String.eqb_eq. eapply goes_one; [exact Ho|exact (G y Hy)]. }
  assert (Three : forall t st b e more, s = three t st b e more -> rights s p x = Some 7).
  { intros t st b e more ->. destruct (proj2 (goes_three _ _ _ _ _ _ _ Gi) K) as [-> | ->]; unfold rights; cbn [three s_loads fold_left fst]; rewrite T;
    repeat match goal with |- context [if existsb ?f ?q then _ else _] => destruct (existsb f q) end; reflexivity. }
  cbn [scripts In] in Hs. destruct Hs as [<-|[<-|[<-|[<-|[<-|[<-|[]]]]]]]; auto; try (eapply Three; reflexivity).
  pose proof (proj2 (goes_two _ _ Gi) (or_intror K)) as ->. unfold rights. cbn [text_and_bss s_loads fold_left fst]. rewrite T. reflexivity.
Qed.
Print Assumptions C183_variables_refuted.
(* the stack can't be executed with default, text_and_bss and onlytext *)
Theorem C183_stack_partial : forall s, In s [default; text_and_bss; onlytext] -> ~ may 0 (stack_rights s) /\ may 1 (stack_rights s) /\ may 2 (stack_rights s).
Proof. intros s [<-|[<-|[<-|[]]]]; repeat split; discriminate. Qed.
Print Assumptions C183_stack_partial.
Theorem C183_stack_refuted : forall s, In s [default_execstack; exec; onlytext_tiny; bloating] -> may 0 (stack_rights s).
Proof. intros s [<-|[<-|[<-|[<-|[]]]]]; reflexivity. Qed.
Print Assumptions C183_stack_refuted.
(* a program whose code fills a page: the code is protected, the variable is not *)
Definition prog2 : list input := [sec ".text" 5000 16 false true; sec ".data" 8 8 true false].
Example C183_case : Forall standard prog2 /\ (exists i, In i prog2 /\ code i) /\
  rights default (link default 288 prog2) (base + 288) = Some 5 /\ rights default (link default 288 prog2) (base + 5288) = Some 7 /\
  (forall y z, In y (p_placed (link default 288 prog2)) -> var (snd y) -> holds_byte z y -> z / 4096 <> (base + 288) / 4096).
Proof.
  split; [repeat (apply Forall_cons; [split; [|cbn; lia]|]); [left; repeat split; now left|right; right; repeat split; left; now left|constructor]|].
  split; [exists (sec ".text" 5000 16 false true); split; [now left|]; repeat split; now left|].
  split; [vm_compute; reflexivity|]. split; [vm_compute; reflexivity|].
  intros y z Hy V B. vm_compute in Hy. destruct Hy as [<-|[<-|[]]]; [exfalso; destruct V as [_ [? ?]]; discriminate|].
  unfold holds_byte, base in *. cbn [fst snd i_size] in B. intros E. change ((0x08048000 + 288) / 4096) with 32840 in E.
  pose proof (Z.div_mod z 4096). pose proof (Z.mod_pos_bound z 4096). lia.
Qed.
