(* C176: combinesources.pl puts the included files into the text. *)
From Coq Require Import String.
From Verif Require Import Base BaseLemmas StripModel StripProps TmplModel TmplProps CombModel.
Local Open Scope list_scope.

(* the line l includes m: m stands between the last two quotes, or, if there are no two quotes, between
   a < and the last > *)
Definition includes (l m : list Z) : Prop :=
  let q := chars "#include" in
  (exists a b, l = q ++ a ++ 34 :: m ++ 34 :: b /\ ~ In 34 m /\ ~ In 34 b) \/
  ((~ exists a b c, l = q ++ a ++ 34 :: b ++ 34 :: c) /\ exists a b, l = q ++ a ++ 60 :: m ++ 62 :: b /\ ~ In 60 m /\ ~ In 62 b).
(* [found fs f ls]: f is the name of a file, or there is one in the directories, in their order *)
Definition dirs : list string := [""; "include/"; "src/"; "asm/"; "macros/"; "headers/common/"; "headers/linux_x64/"]%string.
Inductive found (fs : files) (f : list Z) : list string -> list (list Z) -> Prop :=
| f_here : forall d r ls a b, fs = a ++ (chars d ++ f, ls) :: b -> ~ In (chars d ++ f) (map fst a) -> found fs f (d :: r) ls
| f_next : forall d r ls, ~ In (chars d ++ f) (map fst fs) -> found fs f r ls -> found fs f (d :: r) ls.
(* the text of a file: its lines that do not include *)
Inductive text_of : list (list Z) -> list (list Z) -> Prop :=
| t_nil : text_of [] []
| t_line : forall l ls o, (forall m, ~ includes l m) -> text_of ls o -> text_of (l :: ls) (l :: o)
| t_inc : forall l m ls o, includes l m -> text_of ls o -> text_of (l :: ls) o.
(* the lines printed from the file that was included by the name n, in their order *)
Definition from (n : list Z) (out : list (list Z * list Z)) : list (list Z) := map snd (filter (fun x => eqs n (fst x)) out).
(* the names that are not included again: in line 49 *)
Definition rare : list (list Z) := map chars ["minilib.h"; "syscall_stubs.h"; "syscall.h"; "timeval.h"; "msprintf.c"; "mfprintf.c"; "exit.h"]%string.
Definition looks_rare (f : list Z) : Prop := exists n a b c, In n rare /\ n = a ++ b ++ c /\ Forall2 (fun x y => x = 46 \/ x = y) f b.

(* the text with the includes replaced, while the files [seen] are known already: of a file that was seen or
   that does not exist nothing; otherwise its lines, and in the place of each #include the text of that
   file.  A name that looks rare may be left out. *)
Inductive expands (fs : files) : list (list Z) -> list Z -> list (list Z) -> list (list Z) -> Prop :=
| x_seen seen f : In f seen -> expands fs seen f seen []
| x_rare seen f : looks_rare f -> expands fs seen f seen []
| x_none seen f : ~ In f seen -> (forall d, In d dirs -> ~ In (chars d ++ f) (map fst fs)) -> expands fs seen f (f :: seen) []
| x_file seen f ls seen' out : ~ In f seen -> found fs f dirs ls -> expands_lines fs (f :: seen) ls seen' out -> expands fs seen f seen' out
with expands_lines (fs : files) : list (list Z) -> list (list Z) -> list (list Z) -> list (list Z) -> Prop :=
| xl_nil seen : expands_lines fs seen [] seen []
| xl_line seen l ls seen' out : (forall m, ~ includes l m) -> expands_lines fs seen ls seen' out -> expands_lines fs seen (l :: ls) seen' (l :: out)
| xl_empty seen l m ls seen' out : includes l m -> m = [] \/ m = [48] -> expands_lines fs seen ls seen' out -> expands_lines fs seen (l :: ls) seen' out
| xl_inc seen l m ls seen1 seen' o1 o2 : includes l m -> m <> [] -> m <> [48] -> expands fs seen m seen1 o1 -> expands_lines fs seen1 ls seen' o2 ->
    expands_lines fs seen (l :: ls) seen' (o1 ++ o2).

Lemma cut_some c l : forall a b, cut_last c l = Some (a, b) <-> l = a ++ c :: b /\ ~ In c b.
Proof.
  induction l as [|x l IH]; intros a b; cbn [cut_last].
  - split; [discriminate|]. intros [H _]. destruct a; discriminate.
  - destruct (cut_last c l) as [[a' b']|] eqn:E.
    + destruct (proj1 (IH a' b') eq_refl) as [-> N]. split.
      * intros H. injection H as <- <-. split; [reflexivity|exact N].
      * intros [H M]. destruct a as [|y a]; cbn [app] in H.
        -- injection H as -> <-. exfalso. apply M. apply in_or_app. right. now left.
        -- injection H as <- H. assert (Q : Some (a', b') = Some (a, b)) by (apply IH; split; [exact H|exact M]). injection Q as -> ->. reflexivity.
    + split.
      * destruct (Z.eqb_spec x c) as [->|]; [|discriminate]. intros H. injection H as <- <-. split; [reflexivity|].
        intros I. apply in_split in I. destruct I as (u & v & ->). clear IH. revert E. induction u as [|z u IHu]; cbn [app cut_last].
        -- destruct (cut_last c v) as [[? ?]|]; [discriminate|]. now rewrite Z.eqb_refl.
        -- destruct (cut_last c (u ++ c :: v)) as [[? ?]|]; [discriminate|]. intros _. now apply IHu.
      * intros [H M]. destruct a as [|y a]; cbn [app] in H; injection H as -> ->; [now rewrite Z.eqb_refl|].
        assert (Q : None = Some (a, b)) by (apply IH; split; [reflexivity|exact M]). discriminate.
Qed.
Lemma cut_none c l : cut_last c l = None -> ~ In c l.
Proof.
  intros E I. apply in_split in I. destruct I as (u & v & ->). revert E. induction u as [|z u IHu]; cbn [app cut_last].
  - destruct (cut_last c v) as [[? ?]|]; [discriminate|]. now rewrite Z.eqb_refl.
  - destruct (cut_last c (u ++ c :: v)) as [[? ?]|]; [discriminate|]. intros _. now apply IHu.
Qed.
Definition between a b (l : list Z) := match cut_last b l with Some (x, _) => match cut_last a x with Some (_, n) => Some n | None => None end | None => None end.
Lemma between_some a b l m : between a b l = Some m <-> exists u v, l = u ++ a :: m ++ b :: v /\ ~ In a m /\ ~ In b v.
Proof.
  unfold between. split.
  - destruct (cut_last b l) as [[x v]|] eqn:E; [|discriminate]. apply cut_some in E. destruct E as [-> N].
    destruct (cut_last a x) as [[u n]|] eqn:E; [|discriminate]. apply cut_some in E. destruct E as [-> M].
    intros H. injection H as <-. exists u, v. split; [now rewrite <- app_assoc|]. split; assumption.
  - intros (u & v & -> & M & N). assert (E : cut_last b (u ++ a :: m ++ b :: v) = Some (u ++ a :: m, v)).
    { apply cut_some. split; [now rewrite <- app_assoc|exact N]. }
    rewrite E. assert (E2 : cut_last a (u ++ a :: m) = Some (u, m)) by (apply cut_some; split; [reflexivity|exact M]). now rewrite E2.
Qed.
Lemma between_none a b l : between a b l = None -> ~ exists u m v, l = u ++ a :: m ++ b :: v.
Proof.
  unfold between. intros H (u & m & v & E). destruct (cut_last b l) as [[x w]|] eqn:C.
  - destruct (cut_last a x) as [[? ?]|] eqn:D; [discriminate|]. apply cut_none in D. apply cut_some in C. destruct C as [-> N].
    apply D. assert (P : (length (u ++ a :: m) <= length x)%nat).
    { destruct (le_lt_dec (length (u ++ a :: m)) (length x)) as [L|L]; [exact L|exfalso]. apply N.
      assert (Q : nth (length (u ++ a :: m)) (x ++ b :: w) 0 = b).
      { rewrite E. replace (u ++ a :: m ++ b :: v) with ((u ++ a :: m) ++ b :: v) by now rewrite <- app_assoc. rewrite app_nth2, Nat.sub_diag by lia. reflexivity. }
      assert (R : (length (u ++ a :: m) < length (x ++ b :: w))%nat). { rewrite E, !app_length. cbn [length]. rewrite app_length. cbn [length]. lia. }
      rewrite app_nth2 in Q by lia. rewrite (app_length x) in R. cbn [length] in R. destruct (length (u ++ a :: m) - length x)%nat as [|k] eqn:K; [lia|]. cbn [nth] in Q.
      rewrite <- Q. apply nth_In. lia. }
    assert (S : nth (length u) (x ++ b :: w) 0 = a). { rewrite E. rewrite app_nth2, Nat.sub_diag by lia. reflexivity. }
    rewrite app_length in P. cbn [length] in P. rewrite app_nth1 in S by lia. rewrite <- S. apply nth_In. lia.
  - apply cut_none in C. apply C. rewrite E. apply in_or_app. right. right. apply in_or_app. right. now left.
Qed.
Lemma include_spec l m : include_name l = Some m <-> includes l m.
Proof.
  unfold include_name, includes. change (match cut_last 34 (skipn 8 l) with Some (x, _) => match cut_last 34 x with Some (_, n) => Some n | None => None end | None => None end)
    with (between 34 34 (skipn 8 l)). change (match cut_last 62 (skipn 8 l) with Some (x, _) => match cut_last 60 x with Some (_, n) => Some n | None => None end | None => None end)
    with (between 60 62 (skipn 8 l)).
  destruct (begins (chars "#include") l) eqn:B.
  - apply begins_spec in B. destruct B as (r & ->). change (skipn 8 (chars "#include" ++ r)) with r.
    assert (Inj : forall x, chars "#include" ++ r = chars "#include" ++ x <-> r = x). { intros x. split; [apply app_inv_head|congruence]. }
    destruct (between 34 34 r) as [n|] eqn:E.
    + split.
      * intros H. injection H as <-. left. apply between_some in E. destruct E as (u & v & E & M & N). exists u, v. rewrite Inj. auto.
      * intros [(a & b & H & M & N)|[H _]].
        -- apply Inj in H. rewrite <- E. apply between_some. eauto.
        -- destruct H. apply between_some in E. destruct E as (u & v & E & _). exists u, n, v. now apply Inj.
    + apply between_none in E. split.
      * intros H. right. split; [intros (a & b & c & Q); apply Inj in Q; apply E; eauto|]. apply between_some in H. destruct H as (u & v & H & M & N).
        exists u, v. rewrite Inj. auto.
      * intros [(a & b & H & _)|[_ (a & b & H & M & N)]]; [destruct E; apply Inj in H; eauto|]. apply Inj in H. apply between_some. eauto.
  - split; [discriminate|]. apply begins_no in B. intros [(a & b & H & _)|[_ (a & b & H & _)]]; destruct B; eauto.
Qed.
Definition plain (l : list Z) : bool := match include_name l with None => true | Some _ => false end.
Lemma text_filter ls : text_of ls (filter plain ls).
Proof.
  induction ls as [|l ls IH]; [constructor|]. cbn [filter]. unfold plain at 1. destruct (include_name l) as [m|] eqn:E.
  - apply (t_inc l m); [now apply include_spec|exact IH].
  - apply t_line; [|exact IH]. intros m H. apply include_spec in H. congruence.
Qed.
Lemma lookup_some fs n ls : lookup fs n = Some ls -> exists a b, fs = a ++ (n, ls) :: b /\ ~ In n (map fst a).
Proof.
  induction fs as [|[x y] fs IH]; cbn [lookup]; [discriminate|]. destruct (eqs x n) eqn:E.
  - apply eqs_eq in E. subst x. intros H. injection H as ->. exists [], fs. split; [reflexivity|intros []].
  - intros H. destruct (IH H) as (a & b & -> & N). exists ((x, y) :: a), b. split; [reflexivity|]. intros [I|I]; [|contradiction]. cbn in I. subst x.
    assert (eqs n n = true) by now apply eqs_eq. congruence.
Qed.
Lemma lookup_none fs n : lookup fs n = None -> ~ In n (map fst fs).
Proof.
  induction fs as [|[x y] fs IH]; cbn [lookup map]; [intros _ []|]. destruct (eqs x n) eqn:E; [discriminate|]. intros H [I|I]; [|now apply IH].
  cbn in I. subst x. assert (eqs n n = true) by now apply eqs_eq. congruence.
Qed.
Lemma opened_some fs f ls : forall ds, opened fs (map chars ds) f = Some ls -> found fs f ds ls.
Proof.
  induction ds as [|d ds IH]; cbn [map opened]; [discriminate|]. destruct (lookup fs (chars d ++ f)) as [x|] eqn:E.
  - intros H. injection H as ->. destruct (lookup_some _ _ _ E) as (a & b & F & N). eapply f_here; eauto.
  - intros H. apply f_next; [now apply lookup_none|now apply IH].
Qed.
Lemma opened_none fs f : forall ds, opened fs (map chars ds) f = None -> forall d, In d ds -> ~ In (chars d ++ f) (map fst fs).
Proof.
  induction ds as [|d ds IH]; cbn [map opened]; [intros _ d []|]. destruct (lookup fs (chars d ++ f)) as [x|] eqn:E; [discriminate|].
  intros H e [<-|I]; [now apply lookup_none|now apply IH].
Qed.
Lemma mem_name_in f inc : mem_name f inc = true <-> In f inc.
Proof.
  unfold mem_name. rewrite existsb_exists. split.
  - intros (x & I & E). apply eqs_eq in E. now subst.
  - intros I. exists f. split; [exact I|now apply eqs_eq].
Qed.
Lemma rbegins_spec f : forall l, rbegins f l = true -> exists b c, l = b ++ c /\ Forall2 (fun x y => x = 46 \/ x = y) f b.
Proof.
  induction f as [|a f IH]; intros l H; cbn [rbegins] in H; [exists [], l; split; [reflexivity|constructor]|].
  destruct l as [|x l]; [discriminate|]. apply Bool.andb_true_iff in H. destruct H as [H1 H2]. destruct (IH _ H2) as (b & c & -> & F).
  exists (x :: b), c. split; [reflexivity|]. constructor; [lia|exact F].
Qed.
Lemma listed_rare f : listed f = true -> looks_rare f.
Proof.
  unfold listed. rewrite existsb_exists. intros (n & I & H). enough (exists a b c, n = a ++ b ++ c /\ Forall2 (fun x y => x = 46 \/ x = y) f b) as (a & b & c & E & F)
    by (exists n, a, b, c; auto).
  clear I. induction n as [|x n IH]; cbn [rmatch] in H; apply Bool.orb_true_iff in H; destruct H as [H|H]; try discriminate.
  - destruct (rbegins_spec _ _ H) as (b & c & -> & F). exists [], b, c. auto.
  - destruct (rbegins_spec _ _ H) as (b & c & -> & F). exists [], b, c. auto.
  - destruct (IH H) as (a & b & c & -> & F). exists (x :: a), b, c. auto.
Qed.

(* --- the invariant of slurpfile *)
Definition left (U inc : list (list Z)) : nat := length (filter (fun n => negb (mem_name n inc)) U).
Lemma left_le U inc new : (left U (new ++ inc) <= left U inc)%nat.
Proof.
  unfold left. induction U as [|n V IH]; cbn [filter]; [lia|]. destruct (mem_name n inc) eqn:E; cbn [negb].
  - replace (mem_name n (new ++ inc)) with true; [exact IH|]. symmetry. apply mem_name_in. apply in_or_app. right. now apply mem_name_in.
  - destruct (mem_name n (new ++ inc)); cbn [negb length]; lia.
Qed.
Lemma left_lt U inc f : In f U -> ~ In f inc -> (left U (f :: inc) < left U inc)%nat.
Proof.
  intros I N. induction U as [|n V IH]; [destruct I|].
  assert (L := left_le V inc [f]). cbn [app] in L. unfold left in *. cbn [filter]. destruct I as [->|I].
  - replace (mem_name f (f :: inc)) with true by (symmetry; apply mem_name_in; now left).
    assert (E : mem_name f inc = false). { destruct (mem_name f inc) eqn:E; [apply mem_name_in in E; contradiction|reflexivity]. }
    rewrite E. cbn [negb length]. lia.
  - specialize (IH I). assert (L1 := left_le [n] inc [f]). cbn [app] in L1. unfold left in L1. cbn [filter] in L1.
    destruct (mem_name n (f :: inc)), (mem_name n inc); cbn [negb length] in *; lia.
Qed.
Definition text (fs : files) (n : list Z) : list (list Z) := match opened fs paths n with Some ls => filter plain ls | None => [] end.
Lemma from_app n a b : from n (a ++ b) = from n a ++ from n b.
Proof. unfold from. now rewrite filter_app, map_app. Qed.

Section INV.
Variables (fs : files) (U : list (list Z)).
Hypothesis HU : forall n ls l m, opened fs paths n = Some ls -> In l ls -> include_name l = Some m -> In m U.
(* what a call adds: new names, each with its text, and what the texts include *)
Definition adds (inc inc' : list (list Z)) (out : list (list Z * list Z)) (new : list (list Z)) : Prop :=
  inc' = new ++ inc /\ NoDup new /\ (forall n, In n new -> ~ In n inc) /\
  (forall n, In n new -> from n out = text fs n) /\ (forall n, ~ In n new -> from n out = []) /\
  (forall n ls l m, In n new -> opened fs paths n = Some ls -> In l ls -> include_name l = Some m -> truth m = true -> In m inc' \/ listed m = true).
Definition good (k : nat) : Prop := forall inc rec f, In f U -> (left U inc < k)%nat ->
  exists inc' rec' out new, slurpfile k fs inc rec f = Ok (inc', rec', out) /\ adds inc inc' out new /\ (In f inc' \/ listed f = true).
Lemma lines_inv k f : good k -> forall ls inc rec, (forall l m, In l ls -> include_name l = Some m -> In m U) -> (left U inc < k)%nat -> In f inc ->
  exists inc' rec' out new, slurp_lines (slurpfile k fs) f ls inc rec = Ok (inc', rec', out) /\
    inc' = new ++ inc /\ NoDup new /\ (forall n, In n new -> ~ In n inc) /\
    (forall n, In n new -> from n out = text fs n) /\ (forall n, ~ In n new -> from n out = if eqs n f then filter plain ls else []) /\
    (forall n ls l m, In n new -> opened fs paths n = Some ls -> In l ls -> include_name l = Some m -> truth m = true -> In m inc' \/ listed m = true) /\
    (forall l m, In l ls -> include_name l = Some m -> truth m = true -> In m inc' \/ listed m = true).
Proof.
  intros G. induction ls as [|l ls IH]; intros inc rec HL Hk Hf; cbn [slurp_lines].
  - exists inc, rec, [], []. split; [reflexivity|]. split; [reflexivity|]. split; [constructor|]. split; [intros n []|]. split; [intros n []|].
    split; [intros n _; destruct (eqs n f); reflexivity|]. split; [intros n ? ? ? []|intros ? ? []].
  - destruct (include_name l) as [m|] eqn:E.
    + destruct (truth m) eqn:T.
      * destruct (G inc rec m) as (inc1 & rec1 & o1 & new1 & E1 & (A1 & A2 & A3 & A4 & A5 & A6) & A7); [apply (HL l); [now left|exact E]|exact Hk|].
        rewrite E1. cbn [bind].
        destruct (IH inc1 rec1) as (inc2 & rec2 & o2 & new2 & E2 & B1 & B2 & B3 & B4 & B5 & B6 & B7).
        { intros x y I. apply HL. now right. }
        { rewrite A1. specialize (left_le U inc new1). lia. }
        { rewrite A1. apply in_or_app. now right. }
        rewrite E2. cbn [bind]. exists inc2, rec2, (o1 ++ o2), (new2 ++ new1). split; [reflexivity|].
        assert (Up : forall x, In x inc1 -> In x inc2) by (intros x I; rewrite B1; apply in_or_app; now right).
        assert (Dis : forall n, In n new2 -> ~ In n new1). { intros n I J. apply (B3 n I). rewrite A1. apply in_or_app. now left. }
        split; [rewrite B1, A1; apply app_assoc|].
        split. { clear -A2 B2 Dis. induction new2 as [|x new2 IH2]; cbn [app]; [exact A2|]. inversion B2; subst. constructor.
          - intros I. apply in_app_or in I. destruct I as [I|I]; [contradiction|]. apply (Dis x); [now left|exact I].
          - apply IH2; [assumption|]. intros n I. apply Dis. now right. }
        split. { intros n I J. apply in_app_or in I. destruct I as [I|I]; [|now apply (A3 n)]. apply (B3 n I). rewrite A1. apply in_or_app. now right. }
        split; [|split; [|split]].
        -- intros n I. rewrite from_app. apply in_app_or in I. destruct (in_dec (list_eq_dec Z.eq_dec) n new2) as [J|J].
           ++ rewrite (A5 n) by (intros Q; apply (Dis n J Q)). now rewrite B4.
           ++ destruct I as [I|I]; [contradiction|]. rewrite A4 by exact I. rewrite B5 by exact J. destruct (eqs n f) eqn:Q; [|apply app_nil_r].
              apply eqs_eq in Q. subst n. destruct (A3 f I Hf).
        -- intros n I. rewrite from_app. rewrite A5, B5 by (intros J; apply I; apply in_or_app; auto). cbn [app filter]. unfold plain at 2. now rewrite E.
        -- intros n ls' l' m' I O L' M T'. apply in_app_or in I. destruct I as [I|I]; [now apply (B6 n ls' l')|].
           destruct (A6 n ls' l' m' I O L' M T'); auto.
        -- intros l' m' [<-|I] M T'; [|now apply (B7 l')]. rewrite E in M. injection M as <-. destruct A7; auto.
      * cbn [bind].
        destruct (IH inc rec) as (inc2 & rec2 & o2 & new2 & E2 & B1 & B2 & B3 & B4 & B5 & B6 & B7); [intros x y I; apply HL; now right|exact Hk|exact Hf|].
        rewrite E2. cbn [bind app]. exists inc2, rec2, o2, new2. split; [reflexivity|]. split; [exact B1|]. split; [exact B2|]. split; [exact B3|]. split; [exact B4|].
        split; [intros n I; rewrite B5 by exact I; cbn [filter]; unfold plain at 2; now rewrite E|]. split; [exact B6|].
        intros l' m' [<-|I] M T'; [congruence|now apply (B7 l')].
    + destruct (IH inc rec) as (inc2 & rec2 & o2 & new2 & E2 & B1 & B2 & B3 & B4 & B5 & B6 & B7); [intros x y I; apply HL; now right|exact Hk|exact Hf|].
      rewrite E2. cbn [bind]. exists inc2, rec2, ((f, l) :: o2), new2. split; [reflexivity|]. split; [exact B1|]. split; [exact B2|]. split; [exact B3|].
      assert (C : forall n, from n ((f, l) :: o2) = (if eqs n f then [l] else []) ++ from n o2). { intros n. unfold from. cbn [filter fst]. destruct (eqs n f); reflexivity. }
      split; [|split; [|split; [exact B6|]]].
      * intros n I. rewrite C, B4 by exact I. destruct (eqs n f) eqn:Q; [|reflexivity]. apply eqs_eq in Q. subst n. destruct (B3 f I Hf).
      * intros n I. rewrite C, B5 by exact I. cbn [filter]. unfold plain at 2. rewrite E. destruct (eqs n f); reflexivity.
      * intros l' m' [<-|I] M T'; [congruence|now apply (B7 l')].
Qed.
Lemma all_good : forall k, good k.
Proof.
  induction k as [|k IH]; intros inc rec f If Hk; [lia|]. cbn [slurpfile]. destruct (mem_name f inc) eqn:M.
  - apply mem_name_in in M. exists inc, (rec + 1), [], []. split; [reflexivity|]. split; [|now left]. split; [reflexivity|]. split; [constructor|]. split; [intros n []|].
    split; [intros n []|]. split; [reflexivity|intros n ? ? ? []].
  - assert (N : ~ In f inc) by (intros I; apply mem_name_in in I; congruence). destruct ((2 <? rec + 1) && listed f) eqn:L.
    + apply Bool.andb_true_iff in L. exists inc, (rec + 1 - 1), [], []. split; [reflexivity|]. split; [|right; apply L]. split; [reflexivity|]. split; [constructor|].
      split; [intros n []|]. split; [intros n []|]. split; [reflexivity|intros n ? ? ? []].
    + destruct (opened fs paths f) as [ls|] eqn:O.
      * destruct (lines_inv k f IH ls (f :: inc) (rec + 1)) as (inc2 & rec2 & o2 & new2 & E2 & B1 & B2 & B3 & B4 & B5 & B6 & B7).
        { intros l m I E. exact (HU f ls l m O I E). }
        { specialize (left_lt U inc f If N). lia. }
        { now left. }
        rewrite E2. cbn [bind]. exists inc2, (rec2 - 1), o2, (new2 ++ [f]). split; [reflexivity|].
        assert (Nf : ~ In f new2) by (intros I; apply (B3 f I); now left). split; [|left; rewrite B1; apply in_or_app; right; now left].
        split; [rewrite B1, <- app_assoc; reflexivity|].
        split. { clear -B2 Nf. induction new2 as [|x l IH]; cbn [app]; [constructor; [intros []|constructor]|]. inversion B2; subst. constructor.
          - intros I. apply in_app_or in I. destruct I as [I|[<-|[]]]; [contradiction|]. apply Nf. now left.
          - apply IH; [assumption|]. intros I. apply Nf. now right. }
        split. { intros n I J. apply in_app_or in I. destruct I as [I|[<-|[]]]; [|contradiction]. apply (B3 n I). now right. }
        split; [|split].
        -- intros n I. apply in_app_or in I. destruct I as [I|[<-|[]]]; [now apply B4|]. rewrite B5 by exact Nf.
           replace (eqs f f) with true by (symmetry; now apply eqs_eq). unfold text. now rewrite O.
        -- intros n I. rewrite B5 by (intros J; apply I; apply in_or_app; now left). destruct (eqs n f) eqn:Q; [|reflexivity]. apply eqs_eq in Q. subst n.
           destruct I. apply in_or_app. right. now left.
        -- intros n ls' l m I O' L' M' T. apply in_app_or in I. destruct I as [I|[<-|[]]]; [now apply (B6 n ls' l)|]. rewrite O in O'. injection O' as <-. now apply (B7 l).
      * exists (f :: inc), (rec + 1), [], [f]. split; [reflexivity|]. split; [|left; now left].
        split; [reflexivity|]. split; [constructor; [intros []|constructor]|]. split; [intros n [<-|[]]; exact N|].
        split; [intros n [<-|[]]; unfold text; now rewrite O|]. split; [reflexivity|]. intros n ls l m [<-|[]]. congruence.
Qed.
End INV.

(* all names that occur in the files *)
Definition names (fs : files) : list (list Z) :=
  flat_map (fun x => flat_map (fun l => match include_name l with Some m => [m] | None => [] end) (snd x)) fs.
Lemma lookup_in fs n ls : lookup fs n = Some ls -> In (n, ls) fs.
Proof. intros H. destruct (lookup_some _ _ _ H) as (a & b & -> & _). apply in_or_app. right. now left. Qed.
Lemma opened_in fs f ls : forall pa, opened fs pa f = Some ls -> exists n, In (n, ls) fs.
Proof.
  induction pa as [|d pa IH]; cbn [opened]; [discriminate|]. destruct (lookup fs (d ++ f)) as [x|] eqn:E; [|exact IH].
  intros H. injection H as ->. exists (d ++ f). now apply lookup_in.
Qed.
Lemma names_in fs n ls l m : opened fs paths n = Some ls -> In l ls -> include_name l = Some m -> In m (names fs).
Proof.
  intros O I E. destruct (opened_in _ _ _ _ O) as (x & J). apply in_flat_map. exists (x, ls). split; [exact J|]. cbn [snd].
  apply in_flat_map. exists l. split; [exact I|]. rewrite E. now left.
Qed.
Lemma filter_len {A} (p : A -> bool) l : (length (filter p l) <= length l)%nat.
Proof. induction l as [|x l IH]; cbn [filter length]; [lia|]. destruct (p x); cbn [length]; lia. Qed.

(* The script ends, even if files include each other in a circle.  Every file that is reached by its name
   is read once, and its text is in the output once, in its order; nothing else is in the output.  Reached
   are the file given and everything a file reached includes, except for names like those in rare. *)
Theorem C176_combine_partial : forall fs f fuel, (length (names fs) + 2 <= fuel)%nat -> exists inc rec out,
  slurpfile fuel fs [] 0 f = Ok (inc, rec, out) /\ combine fuel fs f = Ok (map snd out) /\
  NoDup inc /\ In f inc /\
  (forall n, In n inc -> (exists ls, found fs n dirs ls /\ text_of ls (from n out)) \/ ((forall d, In d dirs -> ~ In (chars d ++ n) (map fst fs)) /\ from n out = [])) /\
  (forall n l, In (n, l) out -> In n inc) /\
  (forall n ls l m, In n inc -> found fs n dirs ls -> In l ls -> includes l m -> m <> [] -> m <> [48] -> In m inc \/ looks_rare m).
Proof.
  intros fs f fuel Hf. destruct (all_good fs (f :: names fs)) with (k := fuel) (inc := @nil (list Z)) (rec := 0) (f := f) as (inc & rec & out & new & E & (A1 & A2 & A3 & A4 & A5 & A6) & A7).
  - intros n ls l m O I Q. right. exact (names_in fs n ls l m O I Q).
  - now left.
  - unfold left. assert (L := filter_len (fun n => negb (mem_name n [])) (f :: names fs)). cbn [length] in L. lia.
  - rewrite app_nil_r in A1. subst new. exists inc, rec, out. split; [exact E|]. split; [unfold combine; rewrite E; reflexivity|]. split; [exact A2|].
    split.
    { destruct A7 as [I|I]; [exact I|]. destruct fuel as [|k]; [lia|]. cbn [slurpfile mem_name existsb] in E. change (2 <? 0 + 1) with false in E. cbn [andb] in E.
      destruct (opened fs paths f) as [ls|] eqn:O.
      - assert (HUx : forall n ls l m, opened fs paths n = Some ls -> In l ls -> include_name l = Some m -> In m (f :: names fs))
          by (intros n l0 l m O' I' Q; right; exact (names_in fs n l0 l m O' I' Q)).
        destruct (lines_inv fs (f :: names fs) HUx k f) with (ls := ls) (inc := [f]) (rec := 0 + 1) as (inc2 & rec2 & o2 & new2 & E2 & B1 & _).
        + now apply all_good.
        + intros l m I' Q. right. exact (names_in fs f ls l m O I' Q).
        + assert (L := left_lt (f :: names fs) [] f (or_introl eq_refl) (fun x => x)).
          assert (L2 := filter_len (fun n => negb (mem_name n [])) (f :: names fs)). unfold left in L. cbn [length] in L2. unfold left. lia.
        + now left.
        + rewrite E2 in E. cbn [bind] in E. injection E as <- _ _. rewrite B1. apply in_or_app. right. now left.
      - injection E as <- _ _. now left. }
    split; [|split].
    + intros n I. rewrite (A4 n I). unfold text. destruct (opened fs paths n) as [ls|] eqn:O.
      * left. exists ls. split; [now apply opened_some|apply text_filter].
      * right. split; [now apply opened_none|reflexivity].
    + intros n l I. destruct (in_dec (list_eq_dec Z.eq_dec) n inc) as [J|J]; [exact J|]. specialize (A5 n J). exfalso.
      assert (K : In l (from n out)). { unfold from. apply in_map_iff. exists (n, l). split; [reflexivity|]. apply filter_In. split; [exact I|]. now apply eqs_eq. }
      rewrite A5 in K. destruct K.
    + intros n ls l m I F L Q N0 N1. assert (O : opened fs paths n = Some ls).
      { clear -F. unfold paths. fold dirs. induction F as [d r ls a b -> N|d r ls N F IH]; cbn [map opened].
        - replace (lookup (a ++ (chars d ++ n, ls) :: b) (chars d ++ n)) with (Some ls); [reflexivity|]. symmetry. clear r.
          induction a as [|[x y] a IHa]; cbn [app lookup]; [replace (eqs (chars d ++ n) (chars d ++ n)) with true by (symmetry; now apply eqs_eq); reflexivity|].
          destruct (eqs x (chars d ++ n)) eqn:Q; [apply eqs_eq in Q; destruct N; left; exact Q|]. apply IHa. intros J. apply N. now right.
        - destruct (lookup fs (chars d ++ n)) as [x|] eqn:Q; [|exact IH]. apply lookup_in in Q. destruct N. apply in_map_iff. exists (chars d ++ n, x). auto. }
      destruct (A6 n ls l m I O L) as [J|J]; [now apply include_spec| |now left|right; now apply listed_rare].
      destruct m as [|c [|c2 m]]; cbn [truth]; [congruence| |reflexivity]. destruct (Z.eqb_spec c 48); [subst; congruence|reflexivity].
Qed.
Print Assumptions C176_combine_partial.

(* two headers that include each other, one of them in include/ *)
(* the included text stands in the place of the first #include of it, for all files *)
Lemma lines_place fs slurp f : (forall inc rec m inc' rec' out, slurp inc rec m = Ok (inc', rec', out) -> expands fs inc m inc' (map snd out)) ->
  forall ls inc rec inc' rec' out, slurp_lines slurp f ls inc rec = Ok (inc', rec', out) -> expands_lines fs inc ls inc' (map snd out).
Proof.
  intros Hs. induction ls as [|l ls IH]; intros inc rec inc' rec' out E; cbn [slurp_lines] in E.
  - injection E as <- <- <-. constructor.
  - destruct (include_name l) as [m|] eqn:I.
    + apply include_spec in I. destruct (truth m) eqn:T.
      * destruct (slurp inc rec m) as [[[inc1 rec1] o1]| |] eqn:S; try discriminate. rewrite bind_Ok in E. cbv beta iota in E.
        destruct (slurp_lines slurp f ls inc1 rec1) as [[[inc2 rec2] o2]| |] eqn:S2; try discriminate. rewrite bind_Ok in E. injection E as <- <- <-.
        pose proof (Hs _ _ _ _ _ _ S) as X. pose proof (IH _ _ _ _ _ S2) as Y. rewrite map_app.
        eapply xl_inc; eauto; intros ->; discriminate.
      * rewrite bind_Ok in E. cbv beta iota in E. destruct (slurp_lines slurp f ls inc rec) as [[[inc2 rec2] o2]| |] eqn:S2; try discriminate. rewrite bind_Ok in E. injection E as <- <- <-.
        pose proof (IH _ _ _ _ _ S2) as Y. cbn [app]. eapply xl_empty; eauto.
        destruct m as [|c [|d m]]; [left; reflexivity| |discriminate]. cbn in T. destruct (Z.eqb_spec c 48) as [->|]; [right; reflexivity|discriminate].
    + destruct (slurp_lines slurp f ls inc rec) as [[[inc2 rec2] o2]| |] eqn:S2; try discriminate. rewrite bind_Ok in E. injection E as <- <- <-.
      pose proof (IH _ _ _ _ _ S2) as Y. cbn [map snd]. constructor; [|exact Y].
      intros m M. apply include_spec in M. congruence.
Qed.
Lemma file_place fs : forall fuel inc rec f inc' rec' out, slurpfile fuel fs inc rec f = Ok (inc', rec', out) ->
  expands fs inc f inc' (map snd out).
Proof.
  induction fuel as [|k IH]; intros inc rec f inc' rec' out E; cbn [slurpfile] in E; [discriminate|]. cbv zeta in E.
  destruct (mem_name f inc) eqn:M. { injection E as <- <- <-. constructor. apply mem_name_in. exact M. }
  assert (Nf : ~ In f inc) by (intros I; apply mem_name_in in I; congruence).
  destruct ((2 <? rec + 1) && listed f) eqn:L.
  { injection E as <- <- <-. apply andb_prop in L as [_ L]. apply x_rare, listed_rare; exact L. }
  destruct (opened fs paths f) as [ls|] eqn:O.
  - destruct (slurp_lines (slurpfile k fs) f ls (f :: inc) (rec + 1)) as [[[inc1 rec1] o]| |] eqn:S; try discriminate. rewrite bind_Ok in E. injection E as <- <- <-.
    eapply x_file; [exact Nf|apply opened_some; exact O|]. eapply lines_place; [|exact S]. intros. eapply IH. eassumption.
  - injection E as <- <- <-. apply x_none; [exact Nf|]. intros d D. eapply opened_none; eauto.
Qed.
Lemma found_unique fs f ds a b : found fs f ds a -> found fs f ds b -> a = b.
Proof.
  intros A. revert b. induction A as [d r ls x y E N|d r ls N A IH]; intros b B; inversion B as [d' r' ls' x' y' E' N'|d' r' ls' N' B']; subst.
  - assert (G : forall (x x' y y' : files) n l l', x ++ (n, l) :: y = x' ++ (n, l') :: y' -> ~ In n (map fst x) -> ~ In n (map fst x') -> l = l').
    { clear. induction x as [|[n0 l0] x IH]; intros [|[n1 l1] x'] y y' n l l' E N N'; cbn [app] in E.
      - congruence.
      - injection E as E1 E2 E3. subst. destruct N'. left. reflexivity.
      - injection E as E1 E2 E3. subst. destruct N. left. reflexivity.
      - injection E as E1 E2 E3. eapply IH; [exact E3| |]; intros I; [apply N|apply N']; right; exact I. }
    eapply G; eauto.
  - destruct N'. rewrite map_app. apply in_app_iff. right. left. reflexivity.
  - destruct N. rewrite map_app. apply in_app_iff. right. left. reflexivity.
  - auto.
Qed.
Theorem C176_place_partial : forall fs f fuel ls, (length (names fs) + 2 <= fuel)%nat -> found fs f dirs ls ->
  exists seen out, combine fuel fs f = Ok out /\ expands_lines fs [f] ls seen out.
Proof.
  intros fs f fuel ls H F. destruct (C176_combine_partial fs f fuel H) as (inc & rec & out & E & C & _). exists inc, (map snd out). split; [exact C|].
  destruct fuel as [|k]; [lia|]. cbn [slurpfile] in E. cbv zeta in E. cbn [mem_name existsb] in E.
  change (0 + 1) with 1 in E. change (2 <? 1) with false in E. cbn [andb] in E. destruct (opened fs paths f) as [ls'|] eqn:O.
  - destruct (slurp_lines (slurpfile k fs) f ls' [f] 1) as [[[inc1 rec1] o]| |] eqn:S; try discriminate. rewrite bind_Ok in E. injection E as <- <- <-.
    apply opened_some in O. rewrite (found_unique fs f dirs ls ls' F O). eapply lines_place; [|exact S]. intros. eapply file_place. eassumption.
  - pose proof (opened_none fs f dirs O) as N. exfalso. clear -F N. induction F as [d r ls a b E _|d r ls _ F IH].
    + apply (N d (or_introl eq_refl)). rewrite E, map_app. apply in_app_iff. right. left. reflexivity.
    + apply IH. intros x X. apply N. right. exact X.
Qed.
Print Assumptions C176_place_partial.

Definition fs176 : files := [
  (chars "main.c", map chars ["#include <a.h>"; "int main(){}"; "#include ""c.h"""; "end"]%string);
  (chars "include/a.h", map chars ["1"; "#include ""c.h"""; "2"]%string);
  (chars "c.h", map chars ["#include ""a.h"""; "3"]%string)].
Example C176_case : (length (names fs176) + 2 <= 6)%nat /\ combine 6 fs176 (chars "main.c") = Ok (map chars ["1"; "3"; "2"; "int main(){}"; "end"]%string) /\
  exists ls, found fs176 (chars "main.c") dirs ls.
Proof.
  split; [apply Nat.leb_le; reflexivity|]. split; [reflexivity|]. eexists. eapply (f_here _ _ ""%string _ _ []); [reflexivity|intros []].
Qed.

(* The full claim: every file that is included is in the output once, with the name between the quotes.
   It is false: exit.h, included by a header, is never put into the output (and so is b.h, as
   the names of line 49 only have to contain it) *)
Theorem C176_lost_refuted : exists fs, map fst fs = map chars ["main.c"; "a.h"; "exit.h"]%string /\
  lookup fs (chars "main.c") = Some [chars "#include ""a.h"""] /\ lookup fs (chars "a.h") = Some [chars "#include ""exit.h"""] /\
  lookup fs (chars "exit.h") = Some [chars "code"] /\ combine 10 fs (chars "main.c") = Ok [].
Proof.
  exists [(chars "main.c", [chars "#include ""a.h"""]); (chars "a.h", [chars "#include ""exit.h"""]); (chars "exit.h", [chars "code"])].
  split; [reflexivity|]. split; [reflexivity|]. split; [reflexivity|]. split; reflexivity.
Qed.
Print Assumptions C176_lost_refuted.
(* a file that is included by two names is there twice *)
Theorem C176_twice_refuted : exists fs, map fst fs = map chars ["main.c"; "include/a.h"]%string /\
  lookup fs (chars "main.c") = Some [chars "#include ""a.h"""; chars "#include ""include/a.h"""] /\ lookup fs (chars "include/a.h") = Some [chars "code"] /\
  combine 10 fs (chars "main.c") = Ok [chars "code"; chars "code"].
Proof.
  exists [(chars "main.c", [chars "#include ""a.h"""; chars "#include ""include/a.h"""]); (chars "include/a.h", [chars "code"])].
  split; [reflexivity|]. split; [reflexivity|]. split; reflexivity.
Qed.
Print Assumptions C176_twice_refuted.
(* and quotes in a comment behind the name give another name *)
Theorem C176_name_refuted : exists l, l = chars "#include ""a.h"" // not ""b.h""" /\ includes l (chars "b.h") /\ ~ includes l (chars "a.h").
Proof.
  eexists. split; [reflexivity|]. split; [apply include_spec; reflexivity|]. intros H. apply include_spec in H. discriminate.
Qed.
Print Assumptions C176_name_refuted.
