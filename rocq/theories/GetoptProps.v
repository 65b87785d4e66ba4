(* C61, C82: getopt *)
From Coq Require Import ZifyBool.
From Verif Require Import Base BaseLemmas GetoptModel GetoptSpec GetoptProofs GetoptProofs2.

Lemma reset_eq fuel m argv q st : optind st = 0 -> getopt fuel m argv q st = getopt fuel m argv q (mkgost 1 1 (optopt st) (optarg st)).
Proof. intros E. unfold getopt. rewrite E. reflexivity. Qed.
(* A program that calls getopt until -1 gets exactly the options of the command line, with
   their arguments, and optind is then the index of the first operand.  The state is the
   initial one or one with optind reset to 0. *)
Theorem C61_sequence : forall fuel m argv q colon os args st evs j,
  Forall (fun o => alnum (fst o)) os -> 0 < q -> str_at m q (optstring_of colon os) -> (length (optstring_of colon os) < fuel)%nat ->
  args_at m argv 1 args -> zlen args < INT_MAX - 2 ->
  st = gost0 \/ optind st = 0 ->
  parse os args 1 = (evs, j) -> Forall (fun e => ~ error e) evs ->
  exists rs x, getopts (S (length evs)) fuel m argv q st = Ok (rs ++ [x]) /\ Forall2 (reports m colon) rs evs /\
    fst x = -1 /\ optind (snd x) = j.
Proof.
  intros fuel m argv q colon os args st evs j F Hq S Hf A Ha Hst E Fe.
  assert (K : forall st, optind st = 1 -> optpos st = 1 -> goal m argv colon q fuel st (parse os args 1)).
  { intros s E1 E2. apply (goal_parse m argv os colon q fuel F Hq S Hf (length args) args 1); auto; lia. }
  rewrite E in K. destruct Hst as [->|E0].
  - destruct (K gost0 eq_refl eq_refl evs []) as (rs & x & R1 & R2 & R3); [cbn; now rewrite app_nil_r|exact Fe|exact I|]. exists rs, x. auto.
  - destruct (K (mkgost 1 1 (optopt st) (optarg st)) eq_refl eq_refl evs []) as (rs & x & R1 & R2 & R3); [cbn; now rewrite app_nil_r|exact Fe|exact I|]. exists rs, x.
    split; [|auto]. rewrite <- R1. cbn [getopts]. now rewrite (reset_eq fuel m argv q st E0).
Qed.
Print Assumptions C61_sequence.
(* The calls up to the first error, and how it is reported.  Missing: unknown option
   characters that are not alphanumeric. *)
Theorem C82_error_partial : forall fuel m argv q colon os args st pre e post,
  Forall (fun o => alnum (fst o)) os -> 0 < q -> str_at m q (optstring_of colon os) -> (length (optstring_of colon os) < fuel)%nat ->
  args_at m argv 1 args -> zlen args < INT_MAX - 2 ->
  st = gost0 \/ optind st = 0 ->
  fst (parse os args 1) = pre ++ e :: post -> Forall (fun e => ~ error e) pre -> error e -> (forall c, e = Unknown c -> alnum c) ->
  exists rs x, getopts (S (length pre)) fuel m argv q st = Ok (rs ++ [x]) /\ Forall2 (reports m colon) rs pre /\ reports m colon x e.
Proof.
  intros fuel m argv q colon os args st pre e post F Hq S Hf A Ha Hst E Fe He Hu.
  assert (K : forall st, optind st = 1 -> optpos st = 1 -> goal m argv colon q fuel st (parse os args 1)).
  { intros s E1 E2. apply (goal_parse m argv os colon q fuel F Hq S Hf (length args) args 1); auto; lia. }
  assert (Op : okpost (e :: post)) by (destruct e; cbn; auto).
  destruct Hst as [->|E0].
  - destruct (K gost0 eq_refl eq_refl pre (e :: post) E Fe Op) as (rs & x & R1 & R2 & R3). exists rs, x. auto.
  - destruct (K (mkgost 1 1 (optopt st) (optarg st)) eq_refl eq_refl pre (e :: post) E Fe Op) as (rs & x & R1 & R2 & R3). exists rs, x.
    split; [|auto]. rewrite <- R1. cbn [getopts]. now rewrite (reset_eq fuel m argv q st E0).
Qed.
Print Assumptions C82_error_partial.

(* optstring ":ab:c:", argv: prog -ac9 -b -- -a -- -a *)
Definition ex_m : mem := mem_of [(100, [58; 97; 98; 58; 99; 58; 0]); (200, [45; 97; 99; 57; 0]); (210, [45; 98; 0]); (220, [45; 45; 0]); (230, [45; 97; 0])].
Definition ex_argv : mem := mem_of [(0, [190; 200; 210; 220; 230; 220; 230; 0])].
Definition ex_os : list (Z * bool) := [(97, false); (98, true); (99, true)].
Definition ex_args : list (list Z) := [[45; 97; 99; 57]; [45; 98]; [45; 45]; [45; 97]; [45; 45]; [45; 97]].
Ltac strn := repeat (split; [vm_compute; reflexivity|]; split; [lia|]); vm_compute; reflexivity.
Ltac alist := repeat (eexists; split; [vm_compute; reflexivity|]; split; [discriminate|]; split; [strn|]; split; [vm_compute; reflexivity|]); vm_compute; reflexivity.
Example C61_sequence_ex : Forall (fun o => alnum (fst o)) ex_os /\ str_at ex_m 100 (optstring_of true ex_os) /\ args_at ex_m ex_argv 1 ex_args /\
  parse ex_os ex_args 1 = ([Opt 97 None; Opt 99 (Some [57]); Opt 98 (Some [45; 45]); Opt 97 None], 6) /\
  match getopts 5 20 ex_m ex_argv 100 gost0 with Ok rs => map (fun r => (fst r, optind (snd r))) rs = [(97, 1); (99, 2); (98, 4); (97, 5); (-1, 6)] | _ => False end.
Proof.
  split; [repeat constructor; unfold alnum; cbn; lia|]. split; [strn|]. split; [alist|]. split; [reflexivity|]. vm_compute. reflexivity.
Qed.
(* prog -ax -a: x unknown; prog -b: the argument is missing *)
Example C82_error_ex : fst (parse ex_os [[45; 97; 120]; [45; 97]] 1) = [Opt 97 None; Unknown 120; Opt 97 None] /\
  (let m := mem_of [(100, [58; 97; 98; 58; 99; 58; 0]); (200, [45; 97; 120; 0]); (210, [45; 97; 0])] in
   match getopts 2 20 m (mem_of [(0, [190; 200; 210; 0])]) 100 gost0 with Ok rs => map (fun r => (fst r, optopt (snd r))) rs = [(97, 97); (63, 120)] | _ => False end) /\
  fst (parse ex_os [[45; 98]] 1) = [Missing 98] /\
  (match getopts 1 20 ex_m (mem_of [(0, [190; 210; 0])]) 100 gost0 with Ok rs => map (fun r => (fst r, optopt (snd r))) rs = [(58, 98)] | _ => False end).
Proof. split; [reflexivity|]. split; [vm_compute; reflexivity|]. split; [reflexivity|]. vm_compute; reflexivity. Qed.

Lemma stuck fuel m argv q r c : (forall o a, getopt fuel m argv q (mkgost 1 1 o a) = Ok (r, mkgost 1 1 c a)) ->
  forall n o a, exists rs, getopts n fuel m argv q (mkgost 1 1 o a) = Ok rs /\ Forall (fun x => fst x = r /\ optind (snd x) = 1) rs.
Proof.
  intros K. induction n as [|n IH]; intros o a; [exists []; split; [reflexivity|constructor]|].
  cbn [getopts]. rewrite K, bind_Ok. cbn [snd]. destruct (IH c a) as (rs & E & R). rewrite E, bind_Ok. eexists. split; [reflexivity|]. constructor; auto.
Qed.
(* After an unknown option getopt does not go on: -xa with optstring "a" gives '?' forever
   and the option a is never reported. *)
Theorem C82_progress_refuted : exists m argv q os args, Forall (fun o => alnum (fst o)) os /\ 0 < q /\ str_at m q (optstring_of false os) /\ args_at m argv 1 args /\
  fst (parse os args 1) = [Unknown 120; Opt 97 None] /\
  forall fuel n, (4 < fuel)%nat -> exists rs, getopts n fuel m argv q gost0 = Ok rs /\ Forall (fun r => fst r = 63) rs.
Proof.
  exists (mem_of [(100, [97; 0]); (200, [45; 120; 97; 0])]), (mem_of [(0, [190; 200; 0])]), 100, [(97, false)], [[45; 120; 97]].
  split; [repeat constructor; unfold alnum; cbn; lia|]. split; [lia|]. split; [strn|]. split; [alist|]. split; [reflexivity|].
  intros fuel n Hf. do 5 (destruct fuel as [|fuel]; [exfalso; lia|]).
  unfold gost0. match goal with |- exists rs, getopts _ ?f ?m ?a ?q _ = _ /\ _ => destruct (stuck f m a q 63 120 ltac:(intros; reflexivity) n 0 0) as (rs & E & R) end. exists rs. split; [exact E|]. revert R. apply Forall_impl. tauto.
Qed.
Print Assumptions C82_progress_refuted.
(* The same for a missing argument: '?' forever instead of -1 at the end. *)
Theorem C82_missing_refuted : exists m argv q os args, Forall (fun o => alnum (fst o)) os /\ 0 < q /\ str_at m q (optstring_of false os) /\ args_at m argv 1 args /\
  parse os args 1 = ([Missing 97], 2) /\
  forall fuel n, (4 < fuel)%nat -> exists rs, getopts n fuel m argv q gost0 = Ok rs /\ Forall (fun r => fst r = 63 /\ optind (snd r) = 1) rs.
Proof.
  exists (mem_of [(100, [97; 58; 0]); (200, [45; 97; 0])]), (mem_of [(0, [190; 200; 0])]), 100, [(97, true)], [[45; 97]].
  split; [repeat constructor; unfold alnum; cbn; lia|]. split; [lia|]. split; [strn|]. split; [alist|]. split; [reflexivity|].
  intros fuel n Hf. do 5 (destruct fuel as [|fuel]; [exfalso; lia|]).
  unfold gost0. match goal with |- exists rs, getopts _ ?f ?m ?a ?q _ = _ /\ _ => destruct (stuck f m a q 63 97 ltac:(intros; reflexivity) n 0 0) as (rs & E & R) end. exists rs. split; [exact E|exact R].
Qed.
Print Assumptions C82_missing_refuted.
(* A colon in an option position is accepted as an option, and -_ ends the options. *)
Theorem C82_chars_refuted : exists m argv argv2 q os args args2, Forall (fun o => alnum (fst o)) os /\ 0 < q /\ str_at m q (optstring_of false os) /\
  args_at m argv 1 args /\ fst (parse os args 1) = [Opt 97 None; Unknown 58] /\
  args_at m argv2 1 args2 /\ fst (parse os args2 1) = [Unknown 95] /\
  forall fuel, (9 < fuel)%nat ->
  (exists r st st', getopts 2 fuel m argv q gost0 = Ok [r; (58, st)] /\ getopts 1 fuel m argv2 q gost0 = Ok [(-1, st')]).
Proof.
  exists (mem_of [(100, [97; 98; 58; 99; 0]); (200, [45; 97; 58; 0]); (210, [45; 95; 0])]), (mem_of [(0, [190; 200; 0])]), (mem_of [(0, [190; 210; 0])]), 100, [(97, false); (98, true); (99, false)], [[45; 97; 58]], [[45; 95]].
  split; [repeat constructor; unfold alnum; cbn; lia|]. split; [lia|]. split; [strn|]. split; [alist|]. split; [reflexivity|]. split; [alist|]. split; [reflexivity|].
  intros fuel Hf. do 10 (destruct fuel as [|fuel]; [exfalso; lia|]). do 3 eexists. split; reflexivity.
Qed.
Print Assumptions C82_chars_refuted.
