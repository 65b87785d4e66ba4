(* C143: the filters stripblanks and stripblanklines. *)
From Verif Require Import Base BaseLemmas StreamModel StreamSpec StreamProofs OutModel OutSpec OutProps BlankModel BlankSpec BlankProofs.

(* For every text whose lines are shorter than the buffer, with their newline: standard output
   gets the lines without the blanks in front, or the lines that are not blank; nothing is written
   to other descriptors, and no memory beside the buffer is changed. *)
Theorem C143_strip_partial : forall {W} (k : kernel W) files fuel n warn m s buf w input, takes_all k files ->
  INT_MIN <= word s <= INT_MAX -> content (word s) (StreamModel.input s) = input -> text input -> (forall x, In x (lines input) -> zlen x <= 1023) ->
  room m buf 1024 -> buf > 0 -> (1024 < fuel)%nat -> (length input < n)%nat ->
  (exists m' s' w', strip false k fuel n warn m s buf w = Ok (m', s', w') /\ same_outside m m' buf 1024 /\ wrote files 1 (strip_blanks input) w w') /\
  (exists m' s' w', strip true k fuel n warn m s buf w = Ok (m', s', w') /\ same_outside m m' buf 1024 /\ wrote files 1 (strip_blank_lines input) w w').
Proof.
  intros W k files fuel n warn m s buf w input Ka Hw Hc Ht Hl R Hb Hf Hn. change (content (word s) (StreamModel.input s)) with (cont s) in Hc. subst input.
  assert (Ln : forall l, (length (lines l) <= length l)%nat).
  { induction l as [|c r IH]; [reflexivity|]. cbn [lines length]. destruct (c =? 10); [cbn [length]; lia|]. destruct (lines r); cbn [length] in *; lia. }
  specialize (Ln (cont s)). assert (Fl : Forall (fun x => zlen x < 1024) (lines (cont s))) by (apply Forall_forall; intros x Hx; apply Hl in Hx; lia).
  split.
  - destruct (strip_ok k files Ka false fuel warn buf Hf Hb n m s w Hw Ht Fl R) as (m' & s' & w' & E & _ & O & Wr); [lia|]. exists m', s', w'. auto.
  - destruct (strip_ok k files Ka true fuel warn buf Hf Hb n m s w Hw Ht Fl R) as (m' & s' & w' & E & _ & O & Wr); [lia|]. exists m', s', w'. split; [exact E|]. split; [exact O|].
    assert (Q : forall ls, concat (map (kept true) ls) = concat (filter (fun x => negb (forallb blank x)) ls)).
    { induction ls as [|x ls IH]; [reflexivity|]. cbn [map concat filter]. unfold kept at 1. destruct (forallb blank x); cbn [negb]; [exact IH|]. cbn [concat]. now rewrite IH. }
    unfold strip_blank_lines. rewrite <- Q. exact Wr.
Qed.
Print Assumptions C143_strip_partial.
Definition m143 : mem := fun a => if (5000 <=? a) && (a <? 6024) then Some 7 else None.
(* "  a b\n \n\tc" *)
Example C143_case : room m143 5000 1024 /\ (forall x, In x (lines [32; 32; 97; 32; 98; 10; 32; 10; 9; 99]) -> zlen x <= 1023) /\
  strip_blanks [32; 32; 97; 32; 98; 10; 32; 10; 9; 99] = [97; 32; 98; 10; 99] /\
  strip_blank_lines [32; 32; 97; 32; 98; 10; 32; 10; 9; 99] = [32; 32; 97; 32; 98; 10; 9; 99].
Proof.
  split; [|split; [|split; reflexivity]].
  - intros x Hx. unfold m143. replace ((5000 <=? x) && (x <? 6024)) with true by lia. discriminate.
  - intros x Hx. cbn in Hx. destruct Hx as [<-|[<-|[<-|[]]]]; vm_compute; discriminate.
Qed.
(* Every text with a longer line: fgets stores behind the buffer (see C46) *)
Theorem C143_long_refuted : forall {W} (k : kernel W) files whole fuel n warn m s buf w x, takes_all k files ->
  INT_MIN <= word s <= INT_MAX -> text (content (word s) (input s)) -> In x (lines (content (word s) (input s))) -> 1024 <= zlen x ->
  room m buf 1024 -> m (buf + 1024) = None -> buf > 0 -> (1024 < fuel)%nat -> (length (content (word s) (input s)) < n)%nat ->
  strip whole k fuel n warn m s buf w = Fault.
Proof.
  intros W k files whole fuel n warn m s buf w x Ka Hw Ht Hx Lx R Nm Hb Hf Hn.
  assert (Ln : forall l, (length (lines l) <= length l)%nat).
  { induction l as [|c r IH]; [reflexivity|]. cbn [lines length]. destruct (c =? 10); [cbn [length]; lia|]. destruct (lines r); cbn [length] in *; lia. }
  specialize (Ln (content (word s) (input s))). apply (strip_long k files Ka); auto.
  - apply Exists_exists. exists x. auto.
  - unfold cont. lia.
Qed.
Print Assumptions C143_long_refuted.
Example C143_long_case : In (repeat 97 1024) (lines (content 0 (repeat 97 1024))) /\ 1024 <= zlen (repeat 97 1024) /\ m143 (5000 + 1024) = None.
Proof.
  split; [|split; [|reflexivity]].
  - change (content 0 (repeat 97 1024)) with (repeat 97 1024). assert (G : forall n, lines (repeat 97 (S n)) = [repeat 97 (S n)]).
    { induction n as [|n IH]; [reflexivity|]. remember (S n) as j. cbn [repeat lines]. cbn [Z.eqb Pos.eqb]. rewrite IH. reflexivity. }
    change 1024%nat with (S 1023). rewrite G. left. reflexivity.
  - rewrite zlen_repeat. lia.
Qed.
(* a text with a 0 byte at the start of a line: the rest is left out *)
Theorem C143_zero_refuted : exists m s buf, room m buf 1024 /\ input s = [0; 97; 10] /\ strip_blanks (input s) <> [] /\
  exists m' s', strip false plain 1025 10 0 m s buf (fun _ => []) = Ok (m', s', fun _ => []).
Proof.
  exists m143, {| word := 0; input := [0; 97; 10] |}, 5000. split; [apply C143_case|]. split; [reflexivity|]. split; [vm_compute; discriminate|].
  exists (upd m143 5000 0), {| word := 0; input := [97; 10] |}. reflexivity.
Qed.
Print Assumptions C143_zero_refuted.
