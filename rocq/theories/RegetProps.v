(* C100 - C104: regetopt, the GNU style parser of command lines in contrib *)
From Coq Require Import ZifyBool.
From Verif Require Import Base BaseLemmas StrModel StrSpec StrProofs GetoptModel GetoptSpec GetoptProofs RegetModel RegetSpec RegetProofs RegetProofs2.

Lemma run fuel m argc q os colon ls ns li args st :
  tables m fuel q os colon ls ns -> orderly ns -> argv_is m fuel (roargv st) args -> argc = 1 + zlen args ->
  roind st = 1 -> rocix st = 1 -> rocnt st < 0 \/ rocnt st = argc ->
  let P := parse os ns (kinds ls) args in
  exists p0, forall pre post, evs P = pre ++ post -> Forall (fun e => ~ is_error e) pre ->
    match post with [] => True | e :: _ => is_error e /\ fine colon e end ->
  exists rs x, regetopts (S (length pre)) fuel fuel m argc q (Some ls) li st = Ok (rs ++ [x]) /\ Forall2 (reports m colon ls li) rs pre /\
    match post with [] => fst x = -1 /\ rocix (snd x) = 1 /\ final m fuel argc p0 [] [] P (snd x) | e :: _ => reports m colon ls li x e end.
Proof.
  intros (T1 & T2 & T3 & T4 & T5 & T6 & T7 & T8) O (A1 & A2 & p0 & ptrs & A3 & A4) EA I1 C1 N P. exists p0. intros pre post E F G.
  destruct (regetopt_all m fuel argc q os colon ls ns li p0 T1 T2 T3 T4 T5 T6 T8 T7) with (args := args) (ptrs := ptrs) (T := fuel) (st := st) (pre := pre) (post := post)
    as (rs & x & R1 & R2 & R3); auto; try (unfold zlen in *; lia).
  exists rs, x. split; [|auto]. replace (length pre) with (length rs); [exact R1|]. clear - R2. induction R2; cbn; auto.
Qed.

(* A program that calls regetopt until -1 gets exactly the options of the command line, in
   order and each with its argument, wherever operands stand between them. *)
Theorem C100_sequence : forall fuel m argc q os colon ls ns li args st,
  tables m fuel q os colon ls ns -> orderly ns -> argv_is m fuel (roargv st) args -> argc = 1 + zlen args -> fresh st ->
  let P := parse os ns (kinds ls) args in
  Forall (fun e => ~ is_error e) (evs P) ->
  exists rs x, regetopts (S (length (evs P))) fuel fuel m argc q (Some ls) li st = Ok (rs ++ [x]) /\
    Forall2 (reports m colon ls li) rs (evs P) /\ fst x = -1.
Proof.
  intros fuel m argc q os colon ls ns li args st T O A EA (F1 & F2 & F3) P NE.
  destruct (run fuel m argc q os colon ls ns li args st T O A EA F1 F2 (or_introl F3)) as (p0 & R).
  destruct (R (evs P) []) as (rs & x & R1 & R2 & R3 & _); [now rewrite app_nil_r|exact NE|exact I|]. exists rs, x. auto.
Qed.
Print Assumptions C100_sequence.

Lemma F2_map fuel m pd dn : Forall2 (pstr m fuel) pd dn -> Forall2 (fun p a => string_at m p a /\ (length a < fuel)%nat) pd dn.
Proof. intros F. exact F. Qed.
Lemma final_permuted m fuel argc p0 P st : argc < INT_MAX - 2 -> argc < Z.of_nat fuel -> final m fuel argc p0 [] [] P st -> after P = None \/ opers P = [] -> permuted m fuel P st.
Proof.
  intros H1 H2 F C. unfold final in F. unfold permuted, argv_is, front, operands. destruct (after P) as [r|] eqn:EA.
  - destruct C as [C|C]; [discriminate|]. rewrite C in *. cbn [app] in F. destruct F as (st0 & [HA HI HC HN] & E1 & E2 & _).
    destruct HA as (pd & pr & po & E & G1 & G2 & G3). assert (po = []) by (inversion G3; reflexivity). subst po. rewrite zlen_cons in HC. change (zlen (@nil str)) with 0 in HN. cbn [app] in *.
    rewrite !zlen_app. change (zlen [[45; 45]]) with 1. nneg r. nneg (words P). rewrite !app_length. cbn [length].
    split; [|lia]. split; [lia|]. split; [unfold zlen in *; lia|]. exists p0, (pd ++ pr). split; [rewrite E1, E, <- app_assoc; reflexivity|].
    rewrite <- app_assoc. apply Forall2_app; auto.
  - cbn [app] in F. destruct F as [HA HI HC HN]. destruct HA as (pd & pr & po & E & G1 & G2 & G3). assert (pr = []) by (inversion G2; reflexivity). subst pr. change (zlen (@nil str)) with 0 in HC.
    rewrite !app_nil_r. nneg (words P). nneg (opers P). rewrite zlen_app, app_length. split; [|lia]. split; [lia|]. split; [unfold zlen in *; lia|].
    exists p0, (pd ++ po). split; [rewrite E; cbn [app]; rewrite <- app_assoc; reflexivity|]. apply Forall2_app; auto.
Qed.
(* When -1 is returned argv holds first the words of the options, then, from re_optind on,
   the operands in their order.  Missing: command lines with operands in front of a "--". *)
Theorem C101_operands_partial : forall fuel m argc q os colon ls ns li args st,
  tables m fuel q os colon ls ns -> orderly ns -> argv_is m fuel (roargv st) args -> argc = 1 + zlen args -> fresh st ->
  let P := parse os ns (kinds ls) args in
  Forall (fun e => ~ is_error e) (evs P) -> after P = None \/ opers P = [] ->
  exists rs x, regetopts (S (length (evs P))) fuel fuel m argc q (Some ls) li st = Ok (rs ++ [x]) /\ fst x = -1 /\ permuted m fuel P (snd x).
Proof.
  intros fuel m argc q os colon ls ns li args st T O A EA (F1 & F2 & F3) P NE C.
  destruct (run fuel m argc q os colon ls ns li args st T O A EA F1 F2 (or_introl F3)) as (p0 & R).
  destruct (R (evs P) []) as (rs & x & R1 & R2 & R3 & _ & R4); [now rewrite app_nil_r|exact NE|exact I|]. exists rs, x. split; [exact R1|]. split; [exact R3|].
  destruct A as (A1 & A2 & _). apply (final_permuted m fuel argc p0); auto; unfold zlen in *; lia.
Qed.
Print Assumptions C101_operands_partial.

(* The first error on a command line is reported behind the options in front of it: '?' for
   an unknown option (re_optopt is the character), for an unknown or ambiguous long option
   and for a long option without its argument; ':' for a short option without its
   argument if the option string begins with a colon.  Missing: characters from 128 on, and
   what is refuted below. *)
Theorem C102_error_partial : forall fuel m argc q os colon ls ns li args st pre e post,
  tables m fuel q os colon ls ns -> orderly ns -> argv_is m fuel (roargv st) args -> argc = 1 + zlen args -> fresh st ->
  evs (parse os ns (kinds ls) args) = pre ++ e :: post -> Forall (fun e => ~ is_error e) pre -> is_error e ->
  (forall c, e = EUnknown c -> 1 <= c < 128 /\ c <> 58) -> (forall c, e = EMissing c -> colon = true) -> (forall k, e <> ELongSurplus k) ->
  exists rs x, regetopts (S (length pre)) fuel fuel m argc q (Some ls) li st = Ok (rs ++ [x]) /\
    Forall2 (reports m colon ls li) rs pre /\ reports m colon ls li x e.
Proof.
  intros fuel m argc q os colon ls ns li args st pre e post T O A EA (F1 & F2 & F3) E NE IE X1 X2 X3.
  destruct (run fuel m argc q os colon ls ns li args st T O A EA F1 F2 (or_introl F3)) as (p0 & R).
  assert (FN : fine colon e). { destruct e; cbn; auto. - apply (X2 c); auto. - apply (X3 k); auto. }
  destruct (R pre (e :: post) E NE (conj IE FN)) as (rs & x & R1 & R2 & R3). exists rs, x. auto.
Qed.
Print Assumptions C102_error_partial.

Lemma exact_first ns w : forall i k, first_named ns w k -> exact ns w i = Some (i + k).
Proof.
  induction ns as [|n ns IH]; intros i k (N & K0 & M); [destruct (Z.to_nat k); discriminate|]. cbn [exact]. unfold same.
  destruct (list_eq_dec Z.eq_dec n w) as [E|NE].
  - subst n. assert (Z.to_nat k <= 0)%nat by (apply M; reflexivity). f_equal. lia.
  - destruct (Z.to_nat k) as [|j] eqn:Ek; [cbn in N; congruence|]. rewrite (IH (i + 1) (k - 1)); [f_equal; lia|]. unfold first_named.
    replace (Z.to_nat (k - 1)) with j by lia. split; [exact N|]. split; [lia|]. intros j' Hj. specialize (M (S j') Hj). lia.
Qed.
Lemma exact_none ns w : forall i, ~ In w ns -> exact ns w i = None.
Proof.
  induction ns as [|n ns IH]; intros i N; [reflexivity|]. cbn [exact]. unfold same. destruct (list_eq_dec Z.eq_dec n w) as [E|NE].
  - exfalso. apply N. left. exact E.
  - apply IH. intros I. apply N. right. exact I.
Qed.
Lemma cand_in ns w : forall i k, In k (candidates ns w i) <-> exists n, nth_error ns (Z.to_nat (k - i)) = Some n /\ i <= k /\ prefix w n = true.
Proof.
  induction ns as [|n ns IH]; intros i k; cbn [candidates].
  - split; [intros []|]. intros (n & N & _). destruct (Z.to_nat (k - i)); discriminate.
  - assert (S : In k (candidates ns w (i + 1)) <-> exists n', nth_error (n :: ns) (Z.to_nat (k - i)) = Some n' /\ i + 1 <= k /\ prefix w n' = true).
    { rewrite IH. split; intros (n' & N & L & P); exists n'; (split; [|auto]).
      - replace (Z.to_nat (k - i)) with (S (Z.to_nat (k - (i + 1)))) by lia. exact N.
      - replace (Z.to_nat (k - i)) with (S (Z.to_nat (k - (i + 1)))) in N by lia. exact N. }
    destruct (prefix w n) eqn:P; [cbn [In]|]; rewrite S; clear S IH.
    + split.
      * intros [<-|(n' & N & L & P')]; [|exists n'; auto with zarith]. exists n. rewrite Z.sub_diag. auto with zarith.
      * intros (n' & N & L & P'). destruct (Z.eq_dec i k); [auto|]. right. exists n'. auto with zarith.
    + split; intros (n' & N & L & P'); exists n'; (split; [exact N|]); (split; [|exact P']); [lia|].
      destruct (Z.eq_dec i k) as [<-|]; [|lia]. rewrite Z.sub_diag in N. cbn in N. injection N as <-. congruence.
Qed.
Lemma cand_nodup ns w : forall i, NoDup (candidates ns w i).
Proof.
  induction ns as [|n ns IH]; intros i; cbn [candidates]; [constructor|]. destruct (prefix w n); [|apply IH]. constructor; [|apply IH].
  rewrite cand_in. intros (n' & _ & L & _). lia.
Qed.
Lemma cand_one ns w k : only_candidate ns w k <-> candidates ns w 0 = [k].
Proof.
  split.
  - intros (n & N & K & P & U). pose proof (cand_nodup ns w 0) as ND. assert (I : In k (candidates ns w 0)).
    { rewrite cand_in. exists n. rewrite Z.sub_0_r. auto. }
    assert (A : forall j, In j (candidates ns w 0) -> j = k).
    { intros j J. rewrite cand_in in J. destruct J as (n' & N' & L & P'). rewrite Z.sub_0_r in N'. specialize (U _ _ N' P'). lia. }
    destruct (candidates ns w 0) as [|a [|b l]]; [destruct I| |].
    + f_equal. apply A. left. reflexivity.
    + exfalso. assert (a = k) by (apply A; left; reflexivity). assert (b = k) by (apply A; right; left; reflexivity). inversion ND as [|? ? NI _]. apply NI. left. congruence.
  - intros E. assert (I : In k (candidates ns w 0)) by (rewrite E; left; reflexivity). rewrite cand_in in I. destruct I as (n & N & L & P). rewrite Z.sub_0_r in N.
    exists n. split; [exact N|]. split; [exact L|]. split; [exact P|]. intros j n' N' P'.
    assert (J : In (Z.of_nat j) (candidates ns w 0)). { rewrite cand_in. exists n'. rewrite Z.sub_0_r, Nat2Z.id. auto with zarith. }
    rewrite E in J. destruct J as [J|[]]. lia.
Qed.
Lemma split_plain w : ~ In 61 w -> split_eq w = (w, None).
Proof.
  induction w as [|c w IH]; intros N; [reflexivity|]. cbn [split_eq]. destruct (Z.eqb_spec c 61) as [->|]; [exfalso; apply N; left; reflexivity|].
  rewrite IH; [reflexivity|]. intros I. apply N. right. exact I.
Qed.
(* "--w" selects the first long option with the name w; if there is none, the only one
   whose name begins with w; otherwise it is an error. Here for long options without a
   required argument.  Missing: tables where a name stands behind two longer names that
   begin with it. *)
Theorem C103_abbreviation_partial : forall fuel m argc q os colon ls ns li (w : str) (rest : list str) st,
  tables m fuel q os colon ls ns -> orderly ns -> argv_is m fuel (roargv st) ((45 :: 45 :: w) :: rest) -> argc = 2 + zlen rest -> fresh st ->
  w <> [] -> ~ In 61 w -> Forall (fun o => lhas o <> 1) ls ->
  exists r, regetopt fuel fuel m argc q (Some ls) li st = Ok r /\
    (forall k, first_named ns w k \/ ~ In w ns /\ only_candidate ns w k -> reports m colon ls li r (ELong k None)) /\
    (~ In w ns -> (forall k, ~ only_candidate ns w k) -> fst r = 63).
Proof.
  intros fuel m argc q os colon ls ns li w rest st T O A EA (F1 & F2 & F3) NW NE H1.
  set (P := parse os ns (kinds ls) ((45 :: 45 :: w) :: rest)).
  destruct (run fuel m argc q os colon ls ns li ((45 :: 45 :: w) :: rest) st T O A ltac:(rewrite (@zlen_cons str); lia) F1 F2 (or_introl F3)) as (p0 & R).
  assert (KN : forall k, kinds ls k <> 1).
  { intros k. unfold kinds. destruct (nth_error ls (Z.to_nat k)) as [o|] eqn:N; [|lia]. rewrite Forall_forall in H1. apply H1. eapply nth_error_In; eauto. }
  assert (EP : match resolve ns w with None => evs P = [ELongUnknown] | Some k => exists l, evs P = ELong k None :: l end).
  { unfold P. cbn [parse]. replace (shape_of (45 :: 45 :: w)) with (SLong w) by (destruct w; [contradiction|reflexivity]). rewrite (split_plain w NE).
    destruct (resolve ns w) as [k|]; [|reflexivity]. specialize (KN k). destruct (Z.eqb_spec (kinds ls k) 1); [lia|]. destruct (kinds ls k =? 2); eexists; reflexivity. }
  assert (ONE : forall k, first_named ns w k \/ ~ In w ns /\ only_candidate ns w k -> resolve ns w = Some k).
  { intros k [K|[K1 K2]]; unfold resolve.
    - rewrite (exact_first ns w 0 k K). reflexivity.
    - rewrite exact_none by auto. apply cand_one in K2. rewrite K2. reflexivity. }
  assert (NONE : ~ In w ns -> (forall k, ~ only_candidate ns w k) -> resolve ns w = None).
  { intros N1 N2. unfold resolve. rewrite exact_none by auto. destruct (candidates ns w 0) as [|a [|b l]] eqn:C; auto. exfalso. apply (N2 a). apply cand_one. exact C. }
  destruct (resolve ns w) as [k|] eqn:RE.
  - assert (G : exists r, regetopt fuel fuel m argc q (Some ls) li st = Ok r /\ reports m colon ls li r (ELong k None)).
    { destruct T as (T1 & T2 & T3 & T4 & T5 & T6 & T7 & T8), A as (A1 & A2 & p1 & ptrs & A3 & A4).
      apply (first_long m fuel argc q os colon ls ns li p1) with (a := 45 :: 45 :: w) (w := w) (rest := rest) (ptrs := ptrs); auto; try (rewrite ?zlen_cons in *; cbn [length] in *; unfold zlen in *; lia).
      - destruct w; [contradiction|reflexivity].
      - apply split_plain; auto. }
    destruct G as (r & G1 & G2). exists r. split; [exact G1|]. split.
    + intros k' K'. specialize (ONE k' K'). injection ONE as <-. exact G2.
    + intros N1 N2. specialize (NONE N1 N2). discriminate.
  - destruct (R [] [ELongUnknown]) as (rs & x & R1 & R2 & R3); [exact EP|constructor|cbn; auto|]. assert (rs = []) by (inversion R2; reflexivity). subst rs. cbn [length regetopts app] in R1.
    destruct (regetopt fuel fuel m argc q (Some ls) li st) as [r| |]; try discriminate R1. repeat rewrite bind_Ok in R1. injection R1 as ->. exists x. split; [reflexivity|]. split.
    + intros k K. specialize (ONE k K). discriminate.
    + intros _ _. exact R3.
Qed.
Print Assumptions C103_abbreviation_partial.

(* A second command line is parsed correctly after re_optind = 1.  Missing: a first command
   line with operands (in front of a "--"), a second one with another number of words. *)
Theorem C104_restart_partial : forall fuel m argc q os colon ls ns li args args2 argv2 st,
  tables m fuel q os colon ls ns -> orderly ns -> argv_is m fuel (roargv st) args -> argc = 1 + zlen args -> fresh st ->
  let P := parse os ns (kinds ls) args in
  Forall (fun e => ~ is_error e) (evs P) -> opers P = [] ->
  argv_is m fuel argv2 args2 -> zlen args2 = zlen args ->
  let P2 := parse os ns (kinds ls) args2 in
  Forall (fun e => ~ is_error e) (evs P2) -> after P2 = None \/ opers P2 = [] ->
  exists rs x, regetopts (S (length (evs P))) fuel fuel m argc q (Some ls) li st = Ok (rs ++ [x]) /\ fst x = -1 /\
  exists rs2 x2, regetopts (S (length (evs P2))) fuel fuel m argc q (Some ls) li (restart (snd x) argv2) = Ok (rs2 ++ [x2]) /\
    Forall2 (reports m colon ls li) rs2 (evs P2) /\ fst x2 = -1 /\ permuted m fuel P2 (snd x2).
Proof.
  intros fuel m argc q os colon ls ns li args args2 argv2 st T O A EA (F1 & F2 & F3) P NE NO A2 EL P2 NE2 C2.
  destruct (run fuel m argc q os colon ls ns li args st T O A EA F1 F2 (or_introl F3)) as (p0 & R).
  destruct (R (evs P) []) as (rs & x & R1 & R2 & R3 & R4 & R5); [now rewrite app_nil_r|exact NE|exact I|]. exists rs, x. split; [exact R1|]. split; [exact R3|].
  fold P in R5.
  assert (CN : rocnt (snd x) = argc).
  { unfold final in R5. rewrite NO in R5. cbn [app] in R5. destruct (after P) as [r|].
    - destruct R5 as (st0 & [_ _ _ HN] & _ & _ & E). change (zlen (@nil str)) with 0 in HN. lia.
    - destruct R5 as [_ _ _ HN]. change (zlen (@nil str)) with 0 in HN. lia. }
  destruct (run fuel m argc q os colon ls ns li args2 (restart (snd x) argv2) T O A2 ltac:(lia) eq_refl R4 (or_intror CN)) as (p2 & Q).
  destruct (Q (evs P2) []) as (rs2 & x2 & Q1 & Q2 & Q3 & _ & Q4); [now rewrite app_nil_r|exact NE2|exact I|]. exists rs2, x2. split; [exact Q1|]. split; [exact Q2|].
  split; [exact Q3|]. destruct A2 as (B1 & B2 & _). apply (final_permuted m fuel argc p2); auto; unfold zlen in *; lia.
Qed.
Print Assumptions C104_restart_partial.

(* ---- a program: option string "ab:c", long options all, file (with argument), force
   (optional argument) ----------------------------------------------------------------- *)
Definition ex_m : mem := mem_of
  [(100, [97; 98; 58; 99; 0]); (110, [97; 108; 108; 0]); (120, [102; 105; 108; 101; 0]); (130, [102; 111; 114; 99; 101; 0]);
   (200, [45; 97; 98; 0]); (210, [120; 0]); (220, [111; 112; 0]); (230, [45; 45; 102; 105; 108; 61; 121; 0]); (240, [45; 45; 97; 108; 108; 0]);
   (250, [45; 45; 0]); (260, [45; 99; 0]); (270, [45; 45; 102; 0]); (280, [45; 45; 102; 111; 0]); (290, [45; 45; 97; 108; 108; 61; 0]); (300, [45; 58; 0]);
   (310, [45; 98; 0]); (320, [45; 120; 0])].
Definition ex_os : list (Z * bool) := [(97, false); (98, true); (99, false)].
Definition ex_ls : list lopt := [mklopt 110 0 900 7; mklopt 120 1 0 300; mklopt 130 2 0 301].
Definition ex_ns : list str := [[97; 108; 108]; [102; 105; 108; 101]; [102; 111; 114; 99; 101]].
(* -ab x op --fil=y --all -- -c *)
Definition ex_args : list str := [[45; 97; 98]; [120]; [111; 112]; [45; 45; 102; 105; 108; 61; 121]; [45; 45; 97; 108; 108]; [45; 45]; [45; 99]].
Definition ex_st (ptrs : list Z) : rst := rst0 (190 :: ptrs ++ [0]) 0 (fun _ => 0).
Definition ex_run (n : nat) (ptrs : list Z) : res (list (Z * rst)) :=
  regetopts n 20 20 ex_m (1 + zlen ptrs) 100 (Some ex_ls) true (ex_st ptrs).

Ltac strn := repeat (split; [vm_compute; reflexivity|]; split; [lia|]); vm_compute; reflexivity.
Ltac str1 := split; [vm_compute; reflexivity|]; split; [strn|]; vm_compute; reflexivity.
Ltac tabl := split; [repeat (apply Forall_cons; [unfold alnum; cbn; lia|]); apply Forall_nil|]; split; [lia|]; split; [strn|]; split; [vm_compute; discriminate|]; split; [cbn; lia|];
  split; [repeat (apply Forall2_cons; [split; [str1|cbn; lia]|]); apply Forall2_nil|]; split; [vm_compute; discriminate|]; repeat (apply Forall_cons; [cbn; lia|]); apply Forall_nil.
Ltac argl := split; [vm_compute; reflexivity|]; split; [cbn; lia|]; eexists; eexists; split; [reflexivity|];
  repeat (apply Forall2_cons; [split; [str1|cbn; lia]|]); apply Forall2_nil.
Ltac argx l := split; [vm_compute; reflexivity|]; split; [cbn; lia|]; exists 190, l; split; [reflexivity|];
  repeat (apply Forall2_cons; [split; [str1|cbn; lia]|]); apply Forall2_nil.
Ltac ordl := let w := fresh in let H := fresh in intros w H; repeat (destruct H as [<-|H]; [vm_compute; lia|]); destruct H.
Ltac noerr := vm_compute; repeat (apply Forall_cons; [intros H; exact H|]); apply Forall_nil.

Example ex_tables : tables ex_m 20 100 ex_os false ex_ls ex_ns /\ orderly ex_ns.
Proof. split; [tabl|ordl]. Qed.
Example C100_sequence_ex :
  let ptrs := [200; 210; 220; 230; 240; 250; 260] in let P := parse ex_os ex_ns (kinds ex_ls) ex_args in
  argv_is ex_m 20 (roargv (ex_st ptrs)) ex_args /\ fresh (ex_st ptrs) /\
  evs P = [EShort 97 None; EShort 98 (Some [120]); ELong 1 (Some [121]); ELong 0 None] /\ Forall (fun e => ~ is_error e) (evs P) /\
  opers P = [[111; 112]] /\ after P = Some [[45; 99]] /\
  (let* rs := ex_run 5 ptrs in Ok (map (fun r => (fst r, roind (snd r), rolong (snd r))) rs)) = Ok [(97, 1, 0); (98, 3, 0); (300, 4, 1); (1, 5, 0); (-1, 6, 0)].
Proof. cbv zeta. split; [argl|]. split; [repeat split; reflexivity|]. split; [reflexivity|]. split; [noerr|]. split; [reflexivity|]. split; [reflexivity|]. vm_compute. reflexivity. Qed.
(* op -ab x x *)
Example C101_operands_ex :
  let ptrs := [220; 200; 210; 210] in let P := parse ex_os ex_ns (kinds ex_ls) [[111; 112]; [45; 97; 98]; [120]; [120]] in
  argv_is ex_m 20 (roargv (ex_st ptrs)) [[111; 112]; [45; 97; 98]; [120]; [120]] /\ Forall (fun e => ~ is_error e) (evs P) /\ after P = None /\
  words P = [[45; 97; 98]; [120]] /\ opers P = [[111; 112]; [120]] /\
  (let* rs := ex_run 3 ptrs in Ok (map (fun r => (fst r, roind (snd r), roargv (snd r))) rs)) =
    Ok [(97, 1, [190; 200; 210; 210; 220; 0]); (98, 3, [190; 200; 210; 210; 220; 0]); (-1, 3, [190; 200; 210; 220; 210; 0])].
Proof. cbv zeta. split; [argl|]. split; [noerr|]. split; [reflexivity|]. split; [reflexivity|]. split; [reflexivity|]. vm_compute. reflexivity. Qed.
(* --all --f: f is ambiguous; -x is unknown *)
Example C102_error_ex :
  argv_is ex_m 20 (roargv (ex_st [240; 270])) [[45; 45; 97; 108; 108]; [45; 45; 102]] /\
  evs (parse ex_os ex_ns (kinds ex_ls) [[45; 45; 97; 108; 108]; [45; 45; 102]]) = [ELong 0 None] ++ ELongUnknown :: [] /\
  evs (parse ex_os ex_ns (kinds ex_ls) [[45; 120]]) = [] ++ EUnknown 120 :: [] /\
  (let* rs := ex_run 2 [240; 270] in Ok (map fst rs)) = Ok [1; 63] /\
  (let* rs := ex_run 1 [320] in Ok (map (fun r => (fst r, roopt (snd r))) rs)) = Ok [(63, 120)].
Proof. split; [argl|]. split; [reflexivity|]. split; [reflexivity|]. split; vm_compute; reflexivity. Qed.
(* all and force alone: --fo is force *)
Example C103_abbreviation_ex : let ls := [mklopt 110 0 900 7; mklopt 130 2 0 301] in let ns := [[97; 108; 108]; [102; 111; 114; 99; 101]] in
  tables ex_m 20 100 ex_os false ls ns /\ orderly ns /\ argv_is ex_m 20 (roargv (ex_st [280])) [[45; 45; 102; 111]] /\
  ~ In [102; 111] ns /\ only_candidate ns [102; 111] 1 /\ Forall (fun o => lhas o <> 1) ls /\
  (let* r := regetopt 20 20 ex_m 2 100 (Some ls) true (ex_st [280]) in Ok (fst r, rolong (snd r))) = Ok (301, 1).
Proof.
  cbv zeta. split; [tabl|]. split; [ordl|]. split; [argl|]. split; [intros [E|[E|[]]]; discriminate|].
  split; [|split; [repeat constructor; cbn; lia|vm_compute; reflexivity]]. apply cand_one. reflexivity.
Qed.
Example C104_restart_ex : let ptrs := [200; 210] in let ptrs2 := [220; 260] in
  argv_is ex_m 20 (roargv (ex_st ptrs)) [[45; 97; 98]; [120]] /\ argv_is ex_m 20 (190 :: ptrs2 ++ [0]) [[111; 112]; [45; 99]] /\
  opers (parse ex_os ex_ns (kinds ex_ls) [[45; 97; 98]; [120]]) = [] /\
  (let* rs := ex_run 3 ptrs in match rs with
    | [r1; r2; r3] => let* rs2 := regetopts 2 20 20 ex_m 3 100 (Some ex_ls) true (restart (snd r3) (190 :: ptrs2 ++ [0])) in Ok (map fst rs, map (fun r => (fst r, roind (snd r), roargv (snd r))) rs2)
    | _ => Fault end) = Ok ([97; 98; -1], [(99, 1, [190; 260; 220; 0]); (-1, 2, [190; 260; 220; 0])]).
Proof. cbv zeta. split; [argl|]. split; [argl|]. split; [reflexivity|]. vm_compute. reflexivity. Qed.

(* ---- what is false -------------------------------------------------------------------- *)
(* op -- x : argv ends as -- x op, so the operands get into another order. *)
Theorem C101_operands_refuted : exists m fuel q os ls ns args argv x,
  let P := parse os ns (kinds ls) args in let st := rst0 argv 0 (fun _ => 0) in
  tables m fuel q os false ls ns /\ orderly ns /\ argv_is m fuel argv args /\ evs P = [] /\
  regetopts 1 fuel fuel m (1 + zlen args) q (Some ls) true st = Ok [x] /\ fst x = -1 /\ ~ permuted m fuel P (snd x).
Proof.
  exists ex_m, 20%nat, 100, ex_os, ex_ls, ex_ns, [[111; 112]; [45; 45]; [120]], [190; 220; 250; 210; 0].
  eexists. cbv zeta. split; [apply ex_tables|]. split; [apply ex_tables|].
  split; [argx constr:([220; 250; 210])|]. split; [reflexivity|].
  split; [vm_compute; reflexivity|]. split; [reflexivity|]. intros ((_ & _ & p0 & ptrs & E & F) & _). cbn [snd roargv] in E.
  change (front (parse ex_os ex_ns (kinds ex_ls) [[111; 112]; [45; 45]; [120]]) ++ operands (parse ex_os ex_ns (kinds ex_ls) [[111; 112]; [45; 45]; [120]])) with [[45; 45]; [111; 112]; [120]] in F.
  inversion F as [|p1 a1 l1 b1 P1 F1]; subst. inversion F1 as [|p2 a2 l2 b2 P2 F2]; subst. injection E as _ _ E2 _. subst p2.
  destruct P2 as ((_ & (P2 & _) & _) & _). vm_compute in P2. discriminate.
Qed.
Print Assumptions C101_operands_refuted.

Lemma stuck turns fuel m argc q ls li st r : regetopt turns fuel m argc q ls li st = Ok (r, st) ->
  forall n, exists rs, regetopts n turns fuel m argc q ls li st = Ok rs /\ length rs = n /\ Forall (fun x => x = (r, st)) rs.
Proof.
  intros K. induction n as [|n (rs & E & L & F)]; [exists []; auto|]. cbn [regetopts]. rewrite K, bind_Ok. cbn [snd]. rewrite E, bind_Ok. eexists. split; [reflexivity|]. cbn. auto.
Qed.
(* After an error regetopt does not go on: -x and --f are reported forever, re_optind stays. *)
Theorem C102_progress_refuted : exists m fuel q os ls ns args args2 argv argv2,
  tables m fuel q os false ls ns /\ orderly ns /\ argv_is m fuel argv args /\ argv_is m fuel argv2 args2 /\
  evs (parse os ns (kinds ls) args) = [EUnknown 120] /\ evs (parse os ns (kinds ls) args2) = [ELongUnknown] /\
  forall n,
    (exists rs, regetopts n fuel fuel m (1 + zlen args) q (Some ls) true (rst0 argv 0 (fun _ => 0)) = Ok rs /\ length rs = n /\ Forall (fun x => fst x = 63 /\ roind (snd x) = 1) rs) /\
    (exists rs, regetopts n fuel fuel m (1 + zlen args2) q (Some ls) true (rst0 argv2 0 (fun _ => 0)) = Ok rs /\ length rs = n /\ Forall (fun x => fst x = 63 /\ roind (snd x) = 1) rs).
Proof.
  exists ex_m, 20%nat, 100, ex_os, ex_ls, ex_ns, [[45; 120]; [45; 99]], [[45; 45; 102]; [45; 99]], [190; 320; 260; 0], [190; 270; 260; 0].
  split; [apply ex_tables|]. split; [apply ex_tables|]. split; [argx constr:([320; 260])|]. split; [argx constr:([270; 260])|]. split; [reflexivity|]. split; [reflexivity|].
  intros n. split.
  - destruct n as [|n]; [exists []; repeat split; constructor|].
    destruct (stuck 20 20 ex_m 3 100 (Some ex_ls) true (mkrst 1 120 0 1 3 [190; 320; 260; 0] 0 (fun _ => 0)) 63 ltac:(vm_compute; reflexivity) n) as (rs & E & L & F).
    exists ((63, mkrst 1 120 0 1 3 [190; 320; 260; 0] 0 (fun _ => 0)) :: rs). cbn [regetopts].
    change (1 + zlen [[45; 120]; [45; 99]]) with 3. replace (regetopt 20 20 ex_m 3 100 (Some ex_ls) true (rst0 [190; 320; 260; 0] 0 (fun _ => 0))) with (Ok (63, mkrst 1 120 0 1 3 [190; 320; 260; 0] 0 (fun _ => 0))) by (vm_compute; reflexivity).
    rewrite bind_Ok. cbn [snd]. rewrite E, bind_Ok. split; [reflexivity|]. split; [cbn; auto|]. constructor; [auto|]. revert F. apply Forall_impl. intros a ->. auto.
  - destruct n as [|n]; [exists []; repeat split; constructor|].
    destruct (stuck 20 20 ex_m 3 100 (Some ex_ls) true (mkrst 1 0 0 1 3 [190; 270; 260; 0] 0 (fun _ => 0)) 63 ltac:(vm_compute; reflexivity) n) as (rs & E & L & F).
    exists ((63, mkrst 1 0 0 1 3 [190; 270; 260; 0] 0 (fun _ => 0)) :: rs). cbn [regetopts].
    change (1 + zlen [[45; 45; 102]; [45; 99]]) with 3. replace (regetopt 20 20 ex_m 3 100 (Some ex_ls) true (rst0 [190; 270; 260; 0] 0 (fun _ => 0))) with (Ok (63, mkrst 1 0 0 1 3 [190; 270; 260; 0] 0 (fun _ => 0))) by (vm_compute; reflexivity).
    rewrite bind_Ok. cbn [snd]. rewrite E, bind_Ok. split; [reflexivity|]. split; [cbn; auto|]. constructor; [auto|]. revert F. apply Forall_impl. intros a ->. auto.
Qed.
Print Assumptions C102_progress_refuted.
(* A missing argument is reported as ':' also without a leading colon; --all=, an argument
   for an option that takes none, is accepted; so is the option -: *)
Theorem C102_report_refuted : exists m fuel q os ls ns args args2 args3 argv argv2 argv3 x1 x2 x3,
  tables m fuel q os false ls ns /\ orderly ns /\ argv_is m fuel argv args /\ argv_is m fuel argv2 args2 /\ argv_is m fuel argv3 args3 /\
  evs (parse os ns (kinds ls) args) = [EMissing 98] /\ evs (parse os ns (kinds ls) args2) = [ELongSurplus 0] /\ evs (parse os ns (kinds ls) args3) = [EUnknown 58] /\
  regetopts 1 fuel fuel m 2 q (Some ls) true (rst0 argv 0 (fun _ => 0)) = Ok [x1] /\ fst x1 = 58 /\ ~ reports m false ls true x1 (EMissing 98) /\
  regetopts 1 fuel fuel m 2 q (Some ls) true (rst0 argv2 0 (fun _ => 0)) = Ok [x2] /\ reports m false ls true x2 (ELong 0 None) /\
  regetopts 1 fuel fuel m 2 q (Some ls) true (rst0 argv3 0 (fun _ => 0)) = Ok [x3] /\ fst x3 = 58.
Proof.
  exists ex_m, 20%nat, 100, ex_os, ex_ls, ex_ns, [[45; 98]], [[45; 45; 97; 108; 108; 61]], [[45; 58]], [190; 310; 0], [190; 290; 0], [190; 300; 0].
  do 3 eexists. split; [apply ex_tables|]. split; [apply ex_tables|]. split; [argx constr:([310])|]. split; [argx constr:([290])|]. split; [argx constr:([300])|].
  split; [reflexivity|]. split; [reflexivity|]. split; [reflexivity|].
  split; [vm_compute; reflexivity|]. split; [reflexivity|]. split; [intros [E _]; discriminate|].
  split; [vm_compute; reflexivity|]. split; [eexists; split; [reflexivity|]; cbn; split; [auto|]; split; [auto|discriminate]|].
  split; [vm_compute; reflexivity|reflexivity].
Qed.
Print Assumptions C102_report_refuted.
(* Without a table (longopts NULL) any long option makes regetopt read from address 0. *)
Theorem C102_null_refuted : exists m fuel q os args argv,
  tables m fuel q os false [] [] /\ argv_is m fuel argv args /\ evs (parse os [] (kinds []) args) = [ELongUnknown] /\
  regetopt fuel fuel m 2 q None true (rst0 argv 0 (fun _ => 0)) = Fault.
Proof.
  exists ex_m, 20%nat, 100, ex_os, [[45; 45; 97; 108; 108]], [190; 240; 0]. split; [tabl|]. split; [argx constr:([240])|]. split; [reflexivity|]. vm_compute. reflexivity.
Qed.
Print Assumptions C102_null_refuted.
(* The name fo behind force and forge is reported as ambiguous. *)
Theorem C103_abbreviation_refuted : exists m fuel q os ls ns args argv st,
  tables m fuel q os false ls ns /\ argv_is m fuel argv args /\ args = [[45; 45; 102; 111]] /\ first_named ns [102; 111] 2 /\ Forall (fun o => lhas o = 0) ls /\
  evs (parse os ns (kinds ls) args) = [ELong 2 None] /\
  regetopt fuel fuel m 2 q (Some ls) true (rst0 argv 0 (fun _ => 0)) = Ok (63, st).
Proof.
  exists (mem_of [(100, [97; 98; 58; 99; 0]); (110, [102; 111; 114; 99; 101; 0]); (120, [102; 111; 114; 103; 101; 0]); (130, [102; 111; 0]); (200, [45; 45; 102; 111; 0])]).
  exists 20%nat, 100, ex_os, [mklopt 110 0 0 1; mklopt 120 0 0 2; mklopt 130 0 0 3], [[102; 111; 114; 99; 101]; [102; 111; 114; 103; 101]; [102; 111]], [[45; 45; 102; 111]], [190; 200; 0].
  eexists. split; [tabl|]. split; [argx constr:([200])|]. split; [reflexivity|]. split.
  { split; [reflexivity|]. split; [lia|]. intros [|[|j]] J; try discriminate J. cbn. lia. }
  split; [repeat constructor|]. split; [reflexivity|]. vm_compute. reflexivity.
Qed.
Print Assumptions C103_abbreviation_refuted.
(* After a command line with an operand, re_optind = 1 and another command line: its last
   word is not looked at. *)
Theorem C104_restart_refuted : exists m fuel q os ls ns args args2 argv argv2 x x2,
  tables m fuel q os false ls ns /\ orderly ns /\ argv_is m fuel argv args /\ argv_is m fuel argv2 args2 /\ zlen args2 = zlen args /\
  evs (parse os ns (kinds ls) args) = [] /\ evs (parse os ns (kinds ls) args2) = [EShort 99 None] /\
  regetopts 1 fuel fuel m (1 + zlen args) q (Some ls) true (rst0 argv 0 (fun _ => 0)) = Ok [x] /\ fst x = -1 /\
  regetopts 1 fuel fuel m (1 + zlen args2) q (Some ls) true (restart (snd x) argv2) = Ok [x2] /\ fst x2 = -1.
Proof.
  exists ex_m, 20%nat, 100, ex_os, ex_ls, ex_ns, [[111; 112]], [[45; 99]], [190; 220; 0], [190; 260; 0]. do 2 eexists.
  split; [apply ex_tables|]. split; [apply ex_tables|]. split; [argx constr:([220])|]. split; [argx constr:([260])|]. split; [reflexivity|]. split; [reflexivity|]. split; [reflexivity|].
  split; [vm_compute; reflexivity|]. split; [reflexivity|]. split; [vm_compute; reflexivity|reflexivity].
Qed.
Print Assumptions C104_restart_refuted.
