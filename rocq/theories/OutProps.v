(* C105 - C113: unformatted output, fprintfs, snprintfs, fwrite, positions, error messages *)
From Coq Require Import ZifyBool.
From Verif Require Import Base BaseLemmas StrModel StrProofs StreamModel OutModel OutSpec OutProofs OutProofs2 OutProofs3.

(* for the examples: files that take everything, and a full disk *)
Definition plain : kernel (Z -> list Z) := fun fd l w => (zlen l, fun x => w x ++ (if x =? fd then l else [])).
Lemma plain_takes : takes_all plain (fun w => w).
Proof. intros fd l w. split; [reflexivity|]. intros x. reflexivity. Qed.
Definition full : kernel (Z -> list Z) := fun fd l w => (-1, w).
Lemma full_takes : takes_some full (fun w => w).
Proof. intros fd l w. left. split; [reflexivity|]. intros x. cbn. destruct (x =? fd); now rewrite app_nil_r. Qed.
Definition empty : Z -> list Z := fun _ => [].

(* ---- C105 ---- *)
Section C105.
Context {W : Type} (k : kernel W) (content : W -> Z -> list Z) (Ka : takes_all k content).
Variables (fuel : nat) (m : mem) (p : Z) (s : list Z) (msgs : list Z) (ss : list (list Z)) (w : W).
Hypotheses (S1 : string_at m p s) (S2 : Forall2 (string_at m) msgs ss)
  (L : zlen s + zlen (concat ss) < INT_MAX) (F1 : (length s < fuel)%nat) (F2 : Forall (fun s => (length s < fuel)%nat) ss).
Lemma dprints_all fd : exists w', dprints k fuel m fd p (msgs ++ [0]) w = Ok (zlen s + zlen (concat ss), w') /\ wrote content fd (s ++ concat ss) w w'.
Proof. destruct (dprints_ok k content Ka fuel m fd ss msgs p s [] 0 w) as (w' & E & Wr); auto; try lia. exists w'. auto. Qed.
Lemma printsl_all nl : string_at m nl [10] -> (1 < fuel)%nat -> exists w', printsl k fuel m nl p msgs w = Ok (zlen s + zlen (concat ss) + 1, w') /\ wrote content 1 (s ++ concat ss ++ [10]) w w'.
Proof.
  intros N F. destruct (dprints_ok k content Ka fuel m 1 (ss ++ [[10]]) (msgs ++ [nl]) p s [] 0 w) as (w' & E & Wr); auto; try lia.
  - apply Forall2_app; auto.
  - rewrite concat_app, zlen_app. change (zlen (concat [[10]])) with 1. lia.
  - apply Forall_app. auto.
  - unfold printsl, dprints. rewrite <- app_assoc in E. cbn [app] in E. rewrite E. exists w'. rewrite concat_app, zlen_app in *. change (zlen (concat [[10]])) with 1 in *. change (concat [[10]]) with [10] in *.
    split; [do 2 f_equal; lia|exact Wr].
Qed.
End C105.
(* dprints, prints, eprints and printsl write the strings one behind the other to their
   descriptor and nothing else, and return the number of bytes. *)
Theorem C105_strings : forall W (k : kernel W) content fuel m fd nl p s msgs ss w, takes_all k content ->
  string_at m p s -> Forall2 (string_at m) msgs ss -> string_at m nl [10] ->
  zlen s + zlen (concat ss) < INT_MAX -> (length s < fuel)%nat -> Forall (fun s => (length s < fuel)%nat) ss -> (1 < fuel)%nat ->
  let total := zlen s + zlen (concat ss) in
  (exists w', dprints k fuel m fd p (msgs ++ [0]) w = Ok (total, w') /\ wrote content fd (s ++ concat ss) w w') /\
  (exists w', prints k fuel m p msgs w = Ok (total, w') /\ wrote content 1 (s ++ concat ss) w w') /\
  (exists w', eprints k fuel m p msgs w = Ok (total, w') /\ wrote content 2 (s ++ concat ss) w w') /\
  (exists w', printsl k fuel m nl p msgs w = Ok (total + 1, w') /\ wrote content 1 (s ++ concat ss ++ [10]) w w').
Proof.
  intros W k content fuel m fd nl p s msgs ss w Ka S1 S2 N L F1 F2 F3 total.
  split; [|split; [|split]]; try (apply (dprints_all k content Ka); auto; fail). apply (printsl_all k content Ka); auto.
Qed.
Print Assumptions C105_strings.
(* "ab", "" and "c" *)
Definition three := mem_of [(100, [97; 98; 0]); (200, [0]); (300, [99; 0]); (400, [10; 0])].
Example C105_case :
  (let* r := printsl plain 10 three 400 100 [200; 300] empty in Ok (fst r, snd r 1, snd r 2)) = Ok (4, [97; 98; 99; 10], []) /\
  string_at three 100 [97; 98] /\ Forall2 (string_at three) [200; 300] [[]; [99]] /\ string_at three 400 [10] /\ takes_all plain (fun w => w).
Proof.
  split; [vm_compute; reflexivity|]. assert (H : forall p, p <> 0 -> forall s, str_at three p s -> string_at three p s) by (split; auto).
  split; [apply H; [lia|]; vm_compute; repeat split; congruence|]. split; [|split; [apply H; [lia|]; vm_compute; repeat split; congruence|apply plain_takes]].
  apply Forall2_cons; [apply H; [lia|reflexivity]|]. apply Forall2_cons; [apply H; [lia|]; vm_compute; repeat split; congruence|apply Forall2_nil].
Qed.

(* ---- C106: print and puts ---- *)
(* print writes the string; puts writes the string and a newline and returns the number of bytes.  The
   string comes first if the left operand of the addition in the macro is evaluated first, which C does
   not promise; otherwise the newline does. *)
Theorem C106_puts_partial : forall W (k : kernel W) content fuel m nl fd p s w (left_first : bool), takes_all k content ->
  string_at m p s -> string_at m nl [10] -> zlen s < INT_MAX -> (length s < fuel)%nat ->
  (exists w', print k fuel m fd p w = Ok (zlen s, w') /\ wrote content fd s w w') /\
  (exists w', puts left_first k fuel m nl fd p w = Ok (zlen s + 1, w') /\
     wrote content fd (if left_first then s ++ [10] else [10] ++ s) w w').
Proof.
  intros W k content fuel m nl fd p s w first Ka [S0 S] [N0 N] L F. nneg s.
  assert (P : forall w, exists w', print k fuel m fd p w = Ok (zlen s, w') /\ wrote content fd s w w').
  { intros w0. unfold print. rewrite (strlen_ok s), bind_Ok by (auto; lia). apply (write_all k content Ka); [apply str_at_bytes; exact S|lia]. }
  assert (Q : forall w, exists w', printl k m nl fd w = Ok (1, w') /\ wrote content fd [10] w w').
  { intros w0. unfold printl. apply (write_all k content Ka m fd nl [10] w0); [apply str_at_bytes; exact N|vm_compute; discriminate]. }
  split; [apply P|]. unfold puts. destruct first.
  - destruct (P w) as (w1 & E1 & W1). destruct (Q w1) as (w2 & E2 & W2). rewrite E1, bind_Ok. cbn [fst snd]. rewrite E2, bind_Ok. cbn [fst snd].
    rewrite iop_ok, bind_Ok by (unfold INT_MIN; lia). exists w2. split; [reflexivity|]. eapply wrote_app; eauto.
  - destruct (Q w) as (w1 & E1 & W1). destruct (P w1) as (w2 & E2 & W2). rewrite E1, bind_Ok. cbn [fst snd]. rewrite E2, bind_Ok. cbn [fst snd].
    rewrite iop_ok, bind_Ok by (unfold INT_MIN; lia). exists w2. split; [reflexivity|]. eapply wrote_app; eauto.
Qed.
Print Assumptions C106_puts_partial.
Example C106_case : (let* r := puts true plain 10 three 400 1 100 empty in Ok (fst r, snd r 1)) = Ok (3, [97; 98; 10]).
Proof. vm_compute. reflexivity. Qed.
(* with the other order the newline comes first *)
Theorem C106_order_refuted : exists m p nl s n w', string_at m p s /\ string_at m nl [10] /\ s <> [] /\
  puts false plain 10 m nl 1 p empty = Ok (n, w') /\ w' 1 = [10] ++ s.
Proof.
  exists three, 100, 400, [97; 98]. do 2 eexists. split; [split; [lia|vm_compute; repeat split; congruence]|]. split; [split; [lia|vm_compute; repeat split; congruence]|].
  split; [discriminate|]. split; [vm_compute; reflexivity|]. vm_compute. reflexivity.
Qed.
Print Assumptions C106_order_refuted.

(* ---- C107: writes ---- *)
(* writes, ewrites and fwrites write the constant - and one 0 byte behind it. *)
Theorem C107_writes_partial : forall W (k : kernel W) content m fd p s w, takes_all k content -> str_at m p s -> zlen s < INT_MAX ->
  exists w', writes k m fd p (zlen s) w = Ok (zlen s + 1, w') /\ wrote content fd (s ++ [0]) w w'.
Proof.
  intros W k content m fd p s w Ka S L. nneg s. unfold writes.
  assert (B : bytes_at m p (s ++ [0])). { apply bytes_at_app. split; [apply str_at_bytes; exact S|]. cbn [bytes_at]. split; [|exact I]. apply str_at_end. exact S. }
  destruct (write_all k content Ka m fd p (s ++ [0]) w B) as (w' & E & Wr); rewrite zlen_app in *; change (zlen [0]) with 1 in *; [lia|]. exists w'. auto.
Qed.
Print Assumptions C107_writes_partial.
Theorem C107_nul_refuted : exists m p s n w', str_at m p s /\ writes plain m 1 p (zlen s) empty = Ok (n, w') /\ w' 1 <> s.
Proof.
  exists three, 100, [97; 98]. do 2 eexists. split; [vm_compute; repeat split; congruence|]. split; [vm_compute; reflexivity|]. vm_compute. discriminate.
Qed.
Print Assumptions C107_nul_refuted.

(* ---- C108: fprintfs ---- *)
(* The format written with the arguments in the places of %s and %c, everything else as it
   stands.  Missing: formats that end with a single % (see the refutation). *)
Theorem C108_fprintfs_partial : forall W (k : kernel W) content fuel m f fmt is args w, takes_all k content ->
  str_at m fmt (fmt_of is) -> Forall good_item is -> args_of (string_at m) is args ->
  zlen (fmt_of is) < INT_MAX -> zlen (out_of is) <= INT_MAX -> (length (fmt_of is) + length (out_of is) < fuel)%nat ->
  exists w', fprintfs k fuel m f fmt args w = Ok (zlen (out_of is), w') /\ wrote content (fileno f) (out_of is) w w'.
Proof.
  intros W k content fuel m f fmt is args w Ka S G A L1 L2 F. unfold fprintfs.
  destruct (fprintfs_ok k content Ka m f fmt is fuel 0 0 [] args 0 w) as (w' & E & Wr); auto; try (change (zlen (@nil Z)) with 0; lia); try (now rewrite Z.add_0_r); try exact I.
  exists w'. rewrite E. change (zlen (@nil Z)) with 0 in *. split; [do 2 f_equal; lia|exact Wr].
Qed.
Print Assumptions C108_fprintfs_partial.
(* every format without a single % at its end, and without 0, is of this form *)
Theorem C108_formats : forall l n, (length l <= n)%nat -> Forall (fun c => 1 <= c < 256) l ->
  (exists is, fmt_of is = l /\ Forall good_item is) \/ exists is, fmt_of is ++ [37] = l /\ Forall good_item is.
Proof.
  intros l n. revert l. induction n as [|n IH]; intros [|c l] L F; cbn [length] in L; try lia; try (left; exists []; split; [reflexivity|constructor]).
  apply Forall_cons_iff in F. destruct F as [Fc F]. destruct (Z.eq_dec c 37) as [->|N].
  - destruct l as [|d l]; [right; exists []; split; [reflexivity|constructor]|]. apply Forall_cons_iff in F. destruct F as [Fd F]. cbn [length] in L.
    set (i := if d =? 115 then FStr [] else if d =? 99 then FChr 0 else FOth d).
    assert (G : good_item i /\ item_fmt i = [37; d]). { unfold i. destruct (Z.eqb_spec d 115) as [->|]; [split; [exact I|reflexivity]|]. destruct (Z.eqb_spec d 99) as [->|]; [split; [exact I|reflexivity]|]. cbn. split; [lia|reflexivity]. }
    destruct G as [G1 G2]. destruct (IH l) as [(is & E & H)|(is & E & H)]; [lia|exact F| |]; [left|right]; exists (i :: is); split; try (constructor; auto; fail);
      cbn [fmt_of flat_map]; rewrite G2; cbn [app]; fold (fmt_of is); rewrite E; reflexivity.
  - destruct (IH l) as [(is & E & H)|(is & E & H)]; [lia|exact F| |]; [left|right]; exists (FLit c :: is); split; try (constructor; [cbn; lia|auto]; fail);
      cbn [fmt_of flat_map item_fmt app]; fold (fmt_of is); rewrite E; reflexivity.
Qed.
Print Assumptions C108_formats.
(* fprintfs(stderr, "%s=%c%d", "ab", 'x') *)
Definition fmts := mem_of [(100, [37; 115; 61; 37; 99; 37; 100; 0]); (200, [97; 98; 0])].
Example C108_case :
  (let* r := fprintfs plain 30 fmts 2 100 [200; 120] empty in Ok (fst r, snd r 2)) = Ok (6, [97; 98; 61; 120; 37; 100]) /\
  fmt_of [FStr [97; 98]; FLit 61; FChr 120; FOth 100] = [37; 115; 61; 37; 99; 37; 100] /\
  args_of (string_at fmts) [FStr [97; 98]; FLit 61; FChr 120; FOth 100] [200; 120].
Proof.
  split; [vm_compute; reflexivity|]. split; [reflexivity|]. cbn [args_of]. exists 200, [120]. split; [reflexivity|]. split; [split; [lia|vm_compute; repeat split; congruence]|].
  exists []. auto.
Qed.
(* "%" alone: the end of the format is skipped, and the bytes behind it are written *)
Theorem C108_percent_refuted : exists m n w', str_at m 100 [37] /\ fprintfs plain 30 m 1 100 [] empty = Ok (n, w') /\ n <> 1 /\ w' 1 = [37; 0; 120; 121].
Proof.
  exists (mem_of [(100, [37; 0; 120; 121; 0])]). do 2 eexists. split; [vm_compute; repeat split; congruence|]. split; [vm_compute; reflexivity|]. split; [discriminate|]. vm_compute. reflexivity.
Qed.
Print Assumptions C108_percent_refuted.

(* ---- C109: snprintfs ---- *)
(* The text is the format with %s and %c replaced and without the other % sequences.
   If it fits, the buffer holds the text and a 0, and its length is returned; otherwise the
   first size bytes are there.  Never is anything written outside of buf[0..size].
   Missing: the byte buf[size] belongs to the caller; other % sequences should be copied. *)
Theorem C109_snprintfs_partial : forall fuel m buf size fmt is args, str_at m fmt (fmt_of is) -> Forall good_item is ->
  args_of (fun p s => string_at m p s /\ apart buf (size + 1) p (zlen s + 1)) is args -> apart buf (size + 1) fmt (zlen (fmt_of is) + 1) ->
  0 <= size <= INT_MAX -> room m buf (size + 1) -> zlen (fmt_of is) < INT_MAX -> (length (fmt_of is) + length (kept_of is) + Z.to_nat size < fuel)%nat ->
  exists m', snprintfs fuel m buf size fmt args = Ok (m', Z.min size (zlen (kept_of is))) /\
    (zlen (kept_of is) < size -> bytes_at m' buf (kept_of is ++ [0]) /\ same_outside m m' buf size) /\
    (size <= zlen (kept_of is) -> bytes_at m' buf (firstn (Z.to_nat size) (kept_of is) ++ [0]) /\ same_outside m m' buf (size + 1)).
Proof.
  intros fuel m buf size fmt is args S G A Ap Sz R L F. unfold snprintfs.
  destruct (snprintfs_ok fmt buf size is fuel m buf 0 args) as (m' & E & B & Z0 & O1 & O2); auto; try lia; try (now rewrite Z.add_0_r).
  rewrite E, bind_Ok. cbn [fst snd]. replace (buf + size - buf) with size in * by lia. exists m'. nneg (kept_of is).
  split; [f_equal; f_equal; rewrite s32_small by (unfold INT_MIN; lia); lia|]. split; intros C; (split; [apply bytes_at_app; split; [|cbn [bytes_at]; split; [|exact I]]|]); auto.
  - rewrite firstn_all2 in B; [exact B|]. unfold zlen in C. lia.
  - rewrite <- Z0. f_equal. lia.
  - rewrite <- Z0. f_equal. rewrite zlen_firstn. lia.
Qed.
Print Assumptions C109_snprintfs_partial.
(* snprintfs(buf, 8, "%s=%d%c", "ab", 'x') *)
Definition sfmt := mem_of [(100, [37; 115; 61; 37; 100; 37; 99; 0]); (200, [97; 98; 0]); (300, repeat 7 9)].
Example C109_case :
  (let* r := snprintfs 40 sfmt 300 8 100 [200; 120] in Ok (snd r, map (fst r) [300; 301; 302; 303; 304; 308])) = Ok (4, map Some [97; 98; 61; 120; 0; 7]) /\
  args_of (fun p s => string_at sfmt p s /\ apart 300 9 p (zlen s + 1)) [FStr [97; 98]; FLit 61; FOth 100; FChr 120] [200; 120] /\ room sfmt 300 9.
Proof.
  split; [vm_compute; reflexivity|]. split.
  - cbn [args_of]. exists 200, [120]. split; [reflexivity|]. split; [split; [split; [lia|vm_compute; repeat split; congruence]|right; vm_compute; discriminate]|]. exists []. auto.
  - apply room_check. vm_compute. reflexivity.
Qed.
(* a byte behind the buffer is written when the text does not fit, also with size 0 *)
Theorem C109_overrun_refuted :
  (exists m m' n, room m 300 2 /\ snprintfs 40 m 300 2 100 [] = Ok (m', n) /\ str_at m 100 [97; 98] /\ m' 302 <> m 302) /\
  (exists m m' n, snprintfs 40 m 300 0 100 [] = Ok (m', n) /\ str_at m 100 [97; 98] /\ m' 300 <> m 300).
Proof.
  split; exists (mem_of [(100, [97; 98; 0]); (300, [7; 7; 7])]); do 2 eexists.
  - split; [apply room_check; vm_compute; reflexivity|]. split; [vm_compute; reflexivity|]. split; [vm_compute; repeat split; congruence|]. vm_compute. discriminate.
  - split; [vm_compute; reflexivity|]. split; [vm_compute; repeat split; congruence|]. vm_compute. discriminate.
Qed.
Print Assumptions C109_overrun_refuted.
(* "100%d" becomes "100" *)
Theorem C109_percent_refuted : exists m m', str_at m 100 [49; 48; 48; 37; 100] /\ snprintfs 40 m 300 8 100 [] = Ok (m', 3) /\ str_at m' 300 [49; 48; 48].
Proof.
  exists (mem_of [(100, [49; 48; 48; 37; 100; 0]); (300, repeat 7 9)]). eexists. split; [vm_compute; repeat split; congruence|]. split; [vm_compute; reflexivity|]. vm_compute. repeat split; congruence.
Qed.
Print Assumptions C109_percent_refuted.

(* ---- C110: fwrite ---- *)
(* The result n: the bytes of the first n items are written, and if n is less than nmemb a
   proper part of the next item, and the error flag is set; otherwise the stream keeps its
   flags.  Missing: size 0. *)
Theorem C110_fwrite_partial : forall W (k : kernel W) content fuel m p bytes size nmemb f w, takes_some k content ->
  bytes_at m p bytes -> zlen bytes = nmemb * size -> 0 < size <= INT_MAX -> 0 <= nmemb <= INT_MAX -> nmemb < Z.of_nat fuel ->
  exists n f' w' part, fwrite k fuel m p size nmemb f w = Ok (n, f', w') /\ 0 <= n <= nmemb /\
    wrote content (fileno f) (firstn (Z.to_nat (n * size)) bytes ++ part) w w' /\ fileno f' = fileno f /\
    (n = nmemb -> part = [] /\ f' = f) /\
    (n < nmemb -> (forall inp, ferror {| word := f'; input := inp |} = 1) /\
                  exists j, 0 <= j < size /\ part = firstn (Z.to_nat j) (skipn (Z.to_nat (n * size)) bytes)).
Proof.
  intros W k content fuel m p bytes size nmemb f w Kt B L Hs Hn F.
  destruct (fwrite_ok k content m size nmemb f Kt Hs (proj2 Hn) fuel bytes p 0 w B) as (n & f' & w' & t & E & N & Wr & C); try lia.
  rewrite !Z.sub_0_r in *. exists n, f', w', t. split; [exact E|]. split; [lia|]. split; [exact Wr|].
  destruct C as [(C1 & C2 & C3)|(C1 & C2 & C3)]; subst f'.
  - split; [reflexivity|]. split; [auto|lia].
  - split; [apply fileno_set|]. split; [lia|]. intros _. split; [intros inp; apply ferror_set|exact C3].
Qed.
Print Assumptions C110_fwrite_partial.
(* files that take everything always get everything *)
Theorem C110_complete : forall W (k : kernel W) content fuel m p bytes size nmemb f w, takes_all k content ->
  bytes_at m p bytes -> zlen bytes = nmemb * size -> 0 < size <= INT_MAX -> 0 <= nmemb <= INT_MAX -> nmemb < Z.of_nat fuel ->
  exists w', fwrite k fuel m p size nmemb f w = Ok (nmemb, f, w') /\ wrote content (fileno f) bytes w w'.
Proof.
  intros W k content fuel m p bytes size nmemb f w Ka B L Hs Hn F. unfold fwrite.
  enough (H : forall fuel bytes p a w, bytes_at m p bytes -> zlen bytes = (nmemb - a) * size -> 0 <= a <= nmemb -> nmemb - a < Z.of_nat fuel ->
    exists w', fwrite_loop k fuel m p size nmemb f a w = Ok (nmemb, f, w') /\ wrote content (fileno f) bytes w w').
  { apply H; auto; lia. }
  clear fuel bytes p w B L F. induction fuel as [|fuel IH]; intros bytes p a w B L A F; [lia|]. cbn [fwrite_loop]. destruct (Z.ltb_spec a nmemb) as [LT|GE].
  - set (hd := firstn (Z.to_nat size) bytes). set (tl := skipn (Z.to_nat size) bytes). assert (Er : bytes = hd ++ tl) by (symmetry; apply firstn_skipn).
    assert (Lh : zlen hd = size) by (unfold hd; rewrite zlen_firstn; nia). assert (Lt : zlen tl = (nmemb - (a + 1)) * size) by (rewrite Er, zlen_app in L; nia).
    assert (B2 : bytes_at m p hd /\ bytes_at m (p + size) tl) by (rewrite Er in B; apply bytes_at_app in B; rewrite Lh in B; exact B). destruct B2 as [B1 B2].
    destruct (write_all k content Ka m (fileno f) p hd w B1) as (w1 & E1 & W1); [lia|]. rewrite Lh in E1. rewrite E1, bind_Ok. cbn [fst snd]. rewrite Z.eqb_refl. cbn [negb].
    rewrite iop_ok, bind_Ok by (unfold INT_MIN; lia). destruct (IH tl (p + size) (a + 1) w1 B2 Lt) as (w2 & E2 & W2); try lia. exists w2. split; [exact E2|]. rewrite Er. eapply wrote_app; eauto.
  - assert (a = nmemb) by lia. subst a. exists w. split; [reflexivity|]. assert (bytes = []) by (destruct bytes; [reflexivity|rewrite zlen_cons in L; nneg bytes; lia]). subst bytes. apply wrote_nil.
Qed.
Print Assumptions C110_complete.
(* 3 items of 2 bytes; a disk that takes 3 bytes *)
Definition small : kernel (list Z) := fun fd l w => let n := Z.min (zlen l) (3 - zlen w) in (n, w ++ firstn (Z.to_nat n) l).
Example C110_case :
  fwrite small 9 (mem_of [(100, [1; 2; 3; 4; 5; 6])]) 100 2 3 1 [] = Ok (1, 0x400001, [1; 2; 3]) /\
  (let* r := fwrite plain 9 (mem_of [(100, [1; 2; 3; 4; 5; 6])]) 100 2 3 1 empty in Ok (fst r, snd r 1)) = Ok (3, 1, [1; 2; 3; 4; 5; 6]) /\
  takes_all plain (fun w => w) /\ takes_some full (fun w => w).
Proof. split; [vm_compute; reflexivity|]. split; [vm_compute; reflexivity|]. split; [apply plain_takes|apply full_takes]. Qed.
(* fwrite(p, 0, 3, f) returns 3, not 0 *)
Theorem C110_size0_refuted : exists w', fwrite plain 9 (fun _ => None) 100 0 3 1 empty = Ok (3, 1, w') /\ w' 1 = [].
Proof. eexists. split; [vm_compute; reflexivity|]. vm_compute. reflexivity. Qed.
Print Assumptions C110_size0_refuted.

(* ---- C111: positions ---- *)
(* where lseek with offset and whence leads to *)
Definition target (offset whence : Z) (o : ofile) : Z := (if whence =? 0 then 0 else if whence =? 1 then opos o else osize o) + offset.
(* fseek, fsetpos and ftell up to 2^31-1: fseek to a target from 1 on, fsetpos to any, moves
   there, clears feof and keeps the descriptor; ftell tells it, and rewind goes to 0; a
   negative target gives -1 and leaves everything.
   Missing: the flags at position 0, the result 0, positions from 2^31 on. *)
Theorem C111_positions_partial : forall f offset whence o, whence = 0 \/ whence = 1 \/ whence = 2 -> INT_MIN <= offset <= INT_MAX ->
  0 <= opos o <= INT_MAX -> 0 <= osize o ->
  let t := target offset whence o in
  (1 <= t <= INT_MAX -> exists f' o', fseek f offset whence o = (t, f', o') /\ opos o' = t /\ osize o' = osize o /\
     (forall inp, feof {| word := f'; input := inp |} = 0) /\ fileno f' = fileno f /\ ftell o' = (t, o')) /\
  (0 <= offset -> exists f' o', fsetpos f offset o = (offset, f', o') /\ opos o' = offset /\ osize o' = osize o /\
     (forall inp, feof {| word := f'; input := inp |} = 0) /\ fileno f' = fileno f /\ ftell o' = (offset, o')) /\
  (t < 0 -> fseek f offset whence o = (-1, f, o)) /\
  (exists f', rewind f o = (f', mkof 0 (osize o)) /\ fileno f' = fileno f).
Proof.
  intros f offset whence o C O P Sz t. change t with (base_of whence o + offset).
  assert (T : forall x, 0 <= x <= INT_MAX -> ftell (mkof x (osize o)) = (x, mkof x (osize o))).
  { intros x Hx. unfold ftell. rewrite lseek_ok; unfold base_of; cbn [Z.eqb opos osize]; rewrite ?Z.add_0_r; auto; unfold INT_MIN, INT_MAX; lia. }
  split; [|split; [|split]].
  - intros Ht. do 2 eexists. unfold fseek. rewrite lseek_ok by (auto; lia). cbn [fst snd]. replace (0 <? base_of whence o + offset) with true by lia. split; [reflexivity|].
    cbn [opos osize]. repeat (split; [reflexivity|]). split; [intros inp; apply mask_clear|]. split; [apply fileno_mask|]. apply T. lia.
  - intros Ho. do 2 eexists. unfold fsetpos. rewrite (lseek_ok offset 0) by (auto; unfold base_of; cbn; lia). unfold base_of. cbn [Z.eqb fst snd]. rewrite Z.add_0_l, Z.eqb_refl. split; [reflexivity|].
    cbn [opos osize]. repeat (split; [reflexivity|]). split; [intros inp; apply mask_clear|]. split; [apply fileno_mask|]. apply T. lia.
  - intros Ht. unfold fseek. rewrite lseek_bad by auto. reflexivity.
  - exists f. unfold rewind, fseek. rewrite (lseek_ok 0 0) by (auto; unfold base_of, INT_MIN, INT_MAX; cbn; lia). unfold base_of. cbn [Z.eqb fst snd]. rewrite Z.add_0_l. split; reflexivity.
Qed.
Print Assumptions C111_positions_partial.
(* the stream 5 at its end (flag set): back by 3 *)
Example C111_case : fseek 0x800005 (-3) 2 (mkof 100 100) = (97, 5, mkof 97 100) /\ target (-3) 2 (mkof 100 100) = 97 /\
  fseek 0x800005 (-3) 0 (mkof 100 100) = (-1, 0x800005, mkof 100 100).
Proof. vm_compute. auto. Qed.
(* fseek returns the position, not 0; rewind does not clear feof; offsets are cut to 32
   bits; ftell fails from 2^31 on *)
Theorem C111_positions_refuted :
  (exists f o r, fseek f 7 0 o = r /\ fst (fst r) = 7) /\
  (exists f o, feof {| word := fst (rewind f o); input := [] |} = 1) /\
  (exists f o, snd (fseek f (2 ^ 32 + 5) 0 o) = mkof 5 (osize o)) /\
  (exists o, opos o = 2 ^ 31 /\ fst (ftell o) = -1).
Proof.
  split; [exists 1, (mkof 0 9); eexists; split; reflexivity|]. split; [exists 0x800001, (mkof 9 9); reflexivity|].
  split; [exists 1, (mkof 0 9); reflexivity|]. exists (mkof (2 ^ 31) (2 ^ 32)). split; reflexivity.
Qed.
Print Assumptions C111_positions_refuted.

(* ---- C112: strerror, perror ---- *)
Definition errno_text : list Z := [69; 114; 114; 111; 114; 44; 32; 101; 114; 114; 110; 111; 58; 32]. (* "Error, errno: " *)
(* strerror(n) is "Error, errno: " and n in three digits, within its buffer of 18 bytes *)
Theorem C112_strerror : forall m e n, room m e 18 -> 0 <= n <= 999 ->
  exists m', strerror m e n = Ok (m', e) /\ str_at m' e (errno_text ++ digits3 n) /\ same_outside m m' e 18.
Proof. exact strerror_ok. Qed.
Print Assumptions C112_strerror.
(* perror writes the message and the text of errno to stderr, and nothing else.
   Missing: ": " between them and the newline. *)
Theorem C112_perror_partial : forall W (k : kernel W) content fuel m e n msg s w, takes_all k content -> room m e 18 -> e <> 0 -> 0 <= n <= 999 ->
  msg = 0 /\ s = [] \/ string_at m msg s -> zlen s <= INT_MAX -> (length s + 17 < fuel)%nat ->
  exists m' w', perror k fuel m e n msg w = Ok (m', w') /\ wrote content 2 (s ++ errno_text ++ digits3 n) w w' /\ same_outside m m' e 18.
Proof. intros W k content fuel m e n msg s w Ka R E0 N C L F. apply (perror_ok k content); auto; lia. Qed.
Print Assumptions C112_perror_partial.
Definition pmem := mem_of [(100, [120; 0]); (300, repeat 7 18)].
Example C112_case :
  (let* r := perror plain 30 pmem 300 2 100 empty in Ok (snd r 2)) = Ok ([120] ++ errno_text ++ [48; 48; 50]) /\ string_at pmem 100 [120] /\ room pmem 300 18.
Proof. split; [vm_compute; reflexivity|]. split; [split; [lia|vm_compute; repeat split; congruence]|apply room_check; vm_compute; reflexivity]. Qed.
(* perror("x") does not write "x: " and no newline *)
Theorem C112_format_refuted : exists m' w', string_at pmem 100 [120] /\ perror plain 30 pmem 300 2 100 empty = Ok (m', w') /\
  forall t, w' 2 <> [120; 58; 32] ++ t /\ w' 2 <> t ++ [10].
Proof.
  destruct (C112_perror_partial _ plain (fun w => w) 30 pmem 300 2 100 [120] empty plain_takes) as (m' & w' & E & Wr & _); try lia.
  - apply room_check. vm_compute. reflexivity.
  - right. split; [lia|vm_compute; repeat split; congruence].
  - vm_compute. discriminate.
  - cbn. lia.
  - exists m', w'. split; [split; [lia|vm_compute; repeat split; congruence]|]. split; [exact E|]. specialize (Wr 2). cbn in Wr. rewrite Wr. intros t. split; [discriminate|].
    intros H. apply (f_equal (@rev Z)) in H. rewrite rev_app_distr in H. vm_compute in H. discriminate.
Qed.
Print Assumptions C112_format_refuted.

(* ---- C113: errors of write ---- *)
(* print and fputs give the whole string to one write and return its result. *)
Theorem C113_result_partial : forall W (k : kernel W) fuel m fd f p s w, string_at m p s -> zlen s <= INT_MAX -> (length s < fuel)%nat ->
  print k fuel m fd p w = Ok (k fd s w) /\ fputs k fuel m p f w = Ok (k (fileno f) s w).
Proof.
  intros W k fuel m fd f p s w [S0 S] L F. unfold print, fputs. rewrite (strlen_ok s), !bind_Ok by auto. rewrite !write_ok by (auto; apply str_at_bytes; exact S). auto.
Qed.
Print Assumptions C113_result_partial.
Example C113_case : (let* r := print full 10 three 1 100 empty in Ok (fst r)) = Ok (-1).
Proof. vm_compute. reflexivity. Qed.
(* fputc writes the one byte to the file of the stream and nothing else, and returns it. *)
Theorem C113_fputc_partial : forall W (k : kernel W) content c f w, takes_all k content -> 0 <= c < 256 ->
  fst (fputc k c f w) = c /\ wrote content (fileno f) [c] w (snd (fputc k c f w)).
Proof.
  intros W k content c f w T C. split; [reflexivity|]. unfold fputc. cbn [snd]. replace (ubyte c) with c; [apply T|].
  unfold ubyte. now rewrite Z.mod_small.
Qed.
Print Assumptions C113_fputc_partial.
(* On a full disk dprints of two strings returns -2 and fprintfs -3; fputc returns the
   character *)
Theorem C113_errors_refuted :
  (exists w', dprints full 10 three 1 100 [300; 0] empty = Ok (-2, w')) /\
  (exists m w', str_at m 100 [37; 115] /\ str_at m 200 [97] /\ fprintfs full 30 m 1 100 [200] empty = Ok (-3, w')) /\
  (forall c, fst (fputc full c 1 empty) = c).
Proof.
  split; [eexists; vm_compute; reflexivity|]. split.
  - exists (mem_of [(100, [37; 115; 0]); (200, [97; 0])]). eexists. split; [vm_compute; repeat split; congruence|]. split; [vm_compute; repeat split; congruence|]. vm_compute. reflexivity.
  - intros c. reflexivity.
Qed.
Print Assumptions C113_errors_refuted.
