(* C184: a file that a program copies from one stream to another. *)
From Coq Require Import ZifyBool.
From Verif Require Import Base BaseLemmas StrModel StrProofs StreamModel StreamSpec StreamProofs StreamProofs2 OutModel OutSpec OutProofs OutProofs2 OutProofs3 OutProps StreamProps.

(* ---- the programs (of the user, not minilib code): in is the stream s, out the FILE word f, w the files written so far ---- *)
(* while ( fgets(buf,size,in) ) fputs(buf,out); *)
Fixpoint copy_lines {W} (k : kernel W) (turns fuel : nat) (m : mem) (s : stream) (buf size f : Z) (w : W) : res (mem * stream * W) :=
  match turns with
  | O => NoFuel
  | S n =>
      let* r := fgets fuel m s buf size in let '(m, s, p) := r in
      if p =? 0 then Ok (m, s, w)
      else let* r := fputs k fuel m buf f w in copy_lines k n fuel m s buf size f (snd r)
  end.
(* while ( (n = fread(buf,1,size,in)) > 0 ) fwrite(buf,1,n,out); *)
Fixpoint copy_blocks {W} (k : kernel W) (turns fuel : nat) (m : mem) (s : stream) (buf size f : Z) (w : W) : res (mem * stream * W) :=
  match turns with
  | O => NoFuel
  | S t =>
      let* r := fread m s buf 1 size in let '(m, s, n) := r in
      if n <=? 0 then Ok (m, s, w)
      else let* r := fwrite k fuel m buf 1 n f w in let '(_, f, w) := r in copy_blocks k t fuel m s buf size f w
  end.
(* while ( (c = fgetc(in)) != stop ) fputc(c,out);  the state after n turns, and whether the loop has ended *)
Fixpoint copy_chars {W} (k : kernel W) (stop : Z) (n : nat) (s : stream) (f : Z) (w : W) : bool * stream * W :=
  match n with
  | O => (false, s, w)
  | S n => let (c, s) := fgetc s in if c =? stop then (true, s, w) else copy_chars k stop n s f (snd (fputc k c f w))
  end.

(* ---- lines ---- *)
Lemma text_app a b : text (a ++ b) <-> text a /\ text b.
Proof. unfold text. apply Forall_app. Qed.
Lemma line_ne n l : (0 < n)%nat -> l <> [] -> line n l <> [].
Proof. destruct n; [lia|]. destruct l as [|c l]; [congruence|]. cbn [line]. destruct (c =? 10); discriminate. Qed.
Lemma line_short size l : 1 <= size -> zlen (line (Z.to_nat size) l) <= size.
Proof. pose proof (line_len (Z.to_nat size) l). lia. Qed.

Lemma wrote0 {W} (written : W -> Z -> list Z) fd w : wrote written fd [] w w.
Proof. intros x. destruct (x =? fd); now rewrite app_nil_r. Qed.
Lemma wrote_then {W} (written : W -> Z -> list Z) fd a b w1 w2 w3 : wrote written fd a w1 w2 -> wrote written fd b w2 w3 -> wrote written fd (a ++ b) w1 w3.
Proof. intros A B x. rewrite B, A. destruct (x =? fd); rewrite <- app_assoc; reflexivity. Qed.
Lemma str_bytes0 l : forall m p, str_at m p l -> bytes_at m p (l ++ [0]).
Proof. induction l as [|c l IH]; intros m p H; cbn [str_at app bytes_at] in *; [auto|]. destruct H as (H & _ & T). auto. Qed.

(* Missing: files with NUL bytes, and a buffer of size bytes; see the refutations. *)
Theorem C184_lines_partial : forall W (k : kernel W) written turns fuel m s buf size f w, takes_all k written ->
  INT_MIN <= word s <= INT_MAX -> text (content (word s) (input s)) -> 1 <= size <= INT_MAX -> room m buf (size + 1) -> buf <> 0 ->
  (length (content (word s) (input s)) < turns)%nat -> (Z.to_nat size < fuel)%nat ->
  exists m' s' w', copy_lines k turns fuel m s buf size f w = Ok (m', s', w') /\
    wrote written (fileno f) (content (word s) (input s)) w w' /\ content (word s') (input s') = [] /\ same_outside m m' buf (size + 1).
Proof.
  intros W k written turns. induction turns as [|n IH]; intros fuel m s buf size f w Ka Hw Ht Hs Hr Hb Hn Hf; [lia|]. cbn [copy_lines]. unfold fgets. fold (cont s) in Ht, Hn |- *.
  destruct (list_eq_dec Z.eq_dec (cont s) []) as [E|E].
  - assert (Hr1 : room m buf 1) by (eapply room_sub; [exact Hr| |]; lia). rewrite (fgets_eof fuel m s buf size E Hw Hr1). rewrite !bind_Ok. cbn [Z.eqb].
    exists (upd m buf 0), s, w. split; [reflexivity|]. rewrite E. split; [apply wrote0|]. split; [exact E|]. intros a Ha. apply upd_other. lia.
  - pose proof (line_short size (cont s) ltac:(lia)) as Ll.
    assert (Hr1 : room m buf (zlen (line (Z.to_nat size) (cont s)) + 1)) by (eapply room_sub; [exact Hr| |]; lia).
    destruct (fgets_ok fuel m s buf size Hw Ht Hs ltac:(lia) E Hr1) as (m1 & s1 & E1 & S1 & O1 & C1 & W1). set (l := line (Z.to_nat size) (cont s)) in *.
    rewrite E1, !bind_Ok. replace (buf =? 0) with false by lia.
    destruct (fputs_ok k written fuel m1 buf f l w Ka) as (w1 & E2 & Wr); [split; auto|lia|unfold zlen in *; lia|]. rewrite E2, bind_Ok. cbn [snd].
    assert (Ne : l <> []) by (apply line_ne; [lia|exact E]).
    rewrite C1 in Ht, Hn. apply text_app in Ht as [_ Ht]. rewrite app_length in Hn.
    destruct (IH fuel m1 s1 buf size f w1 Ka W1 Ht Hs) as (m2 & s2 & w2 & E3 & Wr2 & C2 & O2); auto.
    + eapply (room_over m m1 buf (size + 1) buf (l ++ [0])); [exact Hr|rewrite zlen_app; exact O1|now apply str_bytes0].
    + fold (cont s1). destruct l; [congruence|]. cbn in Hn. lia.
    + exists m2, s2, w2. split; [exact E3|]. split; [rewrite C1; eapply wrote_then; eauto|]. split; [exact C2|].
      eapply same_outside_trans; [eapply same_outside_weaken; [exact O1| |]; lia|exact O2].
Qed.
Print Assumptions C184_lines_partial.

(* a buffer of size bytes is too short for fgets (C46): the program faults with every size *)
Theorem C184_size_refuted : forall W (k : kernel W) size buf m f w turns fuel, 1 <= size <= INT_MAX -> (Z.to_nat size <= fuel)%nat -> room m buf size -> m (buf + size) = None ->
  exists inp, text inp /\ copy_lines k (S turns) fuel m {| word := 3; input := inp |} buf size f w = Fault.
Proof.
  intros W k size buf m f w turns fuel Hs Hf Hr Hn. destruct (StreamProps.C46_fgets_refuted m buf size fuel Hs Hf Hr Hn) as (inp & Ht & E & _).
  exists inp. split; [exact Ht|]. cbn [copy_lines]. now rewrite E.
Qed.
Print Assumptions C184_size_refuted.
(* a NUL byte: "a", NUL, "b" is copied as "ab", and a NUL at the start of a line ends the loop *)
Theorem C184_nul_refuted :
  match copy_lines plain 9 9 (mem_of [(100, repeat 7 9)]) {| word := 3; input := [97; 0; 98] |} 100 8 4 empty with Ok (_, s, w) => w 4 = [97; 98] /\ input s = [] | _ => False end /\
  match copy_lines plain 9 9 (mem_of [(100, repeat 7 9)]) {| word := 3; input := [97; 10; 0; 98; 10] |} 100 8 4 empty with Ok (_, s, w) => w 4 = [97; 10] /\ input s = [98; 10] | _ => False end.
Proof. split; vm_compute; split; reflexivity. Qed.
Print Assumptions C184_nul_refuted.

(* ---- blocks: every file ---- *)
Theorem C184_blocks : forall W (k : kernel W) written turns fuel m s buf size f w, takes_all k written ->
  1 <= size <= INT_MAX -> room m buf size -> (length (input s) < turns)%nat -> (Z.to_nat size < fuel)%nat ->
  exists m' s' w', copy_blocks k turns fuel m s buf size f w = Ok (m', s', w') /\
    wrote written (fileno f) (input s) w w' /\ input s' = [] /\ same_outside m m' buf size.
Proof.
  intros W k written turns. induction turns as [|t IH]; intros fuel m s buf size f w Ka Hs Hr Hn Hf; [lia|]. cbn [copy_blocks]. unfold fread.
  assert (E1 : (Z.to_nat size * Z.to_nat 1)%nat = Z.to_nat size) by (change (Z.to_nat 1) with 1%nat; lia).
  assert (Ll : zlen (firstn (Z.to_nat size) (input s)) = Z.min size (zlen (input s))) by (rewrite zlen_firstn; nneg (input s); lia).
  assert (Hr1 : room m buf (zlen (firstn (Z.to_nat size * Z.to_nat 1) (input s)))) by (rewrite E1, Ll; eapply room_sub; [exact Hr| |]; lia).
  destruct (fread_loop_ok 1 ltac:(lia) (Z.to_nat size) m s buf 0 ltac:(lia) ltac:(lia) Hr1) as (m1 & s1 & n & R & N & B & O & I & _).
  rewrite E1 in *. rewrite Z.div_1_r in N. rewrite R, bind_Ok, Z.add_0_l. nneg (input s).
  assert (O1 : same_outside m m1 buf size) by (eapply same_outside_weaken; [exact O| |]; lia).
  destruct (Z.leb_spec n 0).
  - assert (En : input s = []) by (destruct (input s) as [|c r]; [reflexivity|]; rewrite zlen_cons in *; nneg r; lia).
    exists m1, s1, w. split; [reflexivity|]. rewrite En. split; [apply wrote0|]. split; [rewrite I, En; apply skipn_nil|exact O1].
  - destruct (C110_complete W k written fuel m1 buf (firstn (Z.to_nat size) (input s)) 1 n f w Ka B) as (w1 & E & Wr); try (unfold INT_MAX in *; lia).
    rewrite E, bind_Ok. destruct (IH fuel m1 s1 buf size f w1 Ka Hs) as (m2 & s2 & w2 & E2 & Wr2 & I2 & O2); auto.
    + eapply (room_over m m1); [exact Hr|exact O|exact B].
    + rewrite I, skipn_length. unfold zlen in *. lia.
    + exists m2, s2, w2. split; [exact E2|]. split; [|split; [exact I2|eapply same_outside_trans; eauto]].
      rewrite <- (firstn_skipn (Z.to_nat size) (input s)), <- I. eapply wrote_then; eauto.
Qed.
Print Assumptions C184_blocks.

(* ---- single characters ---- *)
Lemma fgetc_plain s : 0 <= word s < 16777216 -> fgetc s = match input s with [] => (0, s) | c :: r => (c, {| word := word s; input := r |}) end.
Proof.
  intros H. unfold fgetc. rewrite Z.shiftr_div_pow2 by lia. change (2 ^ 24) with 16777216. rewrite Z.div_small by lia. cbn [Z.eqb negb].
  destruct s as [v [|c r]]; reflexivity.
Qed.
(* texts without NUL bytes are copied if the loop stops at 0 *)
Theorem C184_chars_partial : forall W (k : kernel W) written s f w n, takes_all k written -> 0 <= word s < 16777216 -> text (input s) -> (length (input s) < n)%nat ->
  exists s' w', copy_chars k 0 n s f w = (true, s', w') /\ input s' = [] /\ wrote written (fileno f) (input s) w w'.
Proof.
  intros W k written s f w n Ka Hw. revert s f w Hw. induction n as [|n IH]; intros s f w Hw Ht Hn; [lia|]. cbn [copy_chars]. rewrite fgetc_plain by auto.
  destruct (input s) as [|c r] eqn:E.
  - exists s, w. cbn [Z.eqb]. split; [reflexivity|]. split; [exact E|apply wrote0].
  - pose proof (Forall_inv Ht) as Hc. pose proof (Forall_inv_tail Ht) as Hr. cbn beta in Hc. replace (c =? 0) with false by lia.
    destruct (C113_fputc_partial W k written c f w Ka ltac:(lia)) as [_ Wr].
    destruct (IH {| word := word s; input := r |} f (snd (fputc k c f w))) as (s' & w' & E1 & I & Wr2); auto; [cbn in *; lia|].
    exists s', w'. split; [exact E1|]. split; [exact I|]. change (c :: r) with ([c] ++ r). eapply wrote_then; eauto.
Qed.
Print Assumptions C184_chars_partial.
(* With EOF (-1) as in ISO C the loop never ends, whatever the file: fgetc returns 0 at its end.  After n turns more
   than the file has bytes, n NUL bytes have been appended to the copy; feof does not report the end either. *)
Theorem C184_chars_refuted : forall W (k : kernel W) written s f w n, takes_all k written -> 0 <= word s < 16777216 -> Forall (fun c => 0 <= c < 256) (input s) ->
  exists s' w', copy_chars k (-1) (length (input s) + n) s f w = (false, s', w') /\
    wrote written (fileno f) (input s ++ repeat 0 n) w w' /\ input s' = [] /\ feof s' = feof s.
Proof.
  intros W k written s f w n Ka Hw. revert f w. remember (input s) as l eqn:E. revert s Hw E. induction l as [|c r IH]; intros s Hw E f w Hl.
  - cbn [length Nat.add app]. revert w. induction n as [|n IHn]; intros w.
    + exists s, w. split; [reflexivity|]. split; [apply wrote0|]. split; [now symmetry|reflexivity].
    + cbn [copy_chars]. rewrite fgetc_plain, <- E by auto. cbn [Z.eqb].
      destruct (C113_fputc_partial W k written 0 f w Ka ltac:(lia)) as [_ Wr]. destruct (IHn (snd (fputc k 0 f w))) as (s' & w' & E1 & Wr2 & I & F).
      exists s', w'. split; [exact E1|]. split; [|auto]. change (repeat 0 (S n)) with ([0] ++ repeat 0 n). eapply wrote_then; eauto.
  - pose proof (Forall_inv Hl) as Hc. pose proof (Forall_inv_tail Hl) as Hr. cbn beta in Hc. cbn [length Nat.add copy_chars]. rewrite fgetc_plain, <- E by auto.
    replace (c =? -1) with false by lia. destruct (C113_fputc_partial W k written c f w Ka ltac:(lia)) as [_ Wr].
    destruct (IH {| word := word s; input := r |} Hw eq_refl f (snd (fputc k c f w)) Hr) as (s' & w' & E1 & Wr2 & I & F).
    exists s', w'. split; [exact E1|]. split; [|auto]. change ((c :: r) ++ repeat 0 n) with ([c] ++ (r ++ repeat 0 n)). eapply wrote_then; eauto.
Qed.
Print Assumptions C184_chars_refuted.
Example C184_case :
  match copy_lines plain 9 9 (mem_of [(100, repeat 7 5)]) {| word := 3; input := [97; 98; 99; 100; 101; 10; 120] |} 100 4 5 empty with Ok (_, _, w) => w 5 = [97; 98; 99; 100; 101; 10; 120] | _ => False end /\
  match copy_blocks plain 9 9 (mem_of [(100, repeat 7 4)]) {| word := 3; input := [97; 0; 99; 200; 255; 10; 120] |} 100 4 5 empty with Ok (_, _, w) => w 5 = [97; 0; 99; 200; 255; 10; 120] | _ => False end /\
  takes_all plain (fun w => w) /\ text [97; 98; 99; 100; 101; 10; 120] /\ room (mem_of [(100, repeat 7 5)]) 100 5.
Proof. split; [vm_compute; reflexivity|]. split; [vm_compute; reflexivity|]. split; [apply plain_takes|]. split; [repeat constructor|apply room_check; reflexivity]. Qed.
