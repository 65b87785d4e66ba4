(* Theorems about tools/removeccomments.c (C153, C154). *)
From Verif Require Import Base BaseLemmas RmcModel RmcSpec RmcProofs1 RmcProofs2 RmcProofs3.

Lemma rstrip_shown l : Forall (fun c => 1 <= c <= 127) l -> shown (rstrip l) = rstrip l.
Proof.
  induction 1 as [|c l Hc H IH]; [reflexivity|]. cbn [rstrip]. destruct (rstrip l) as [|d s] eqn:E.
  - destruct (Z.leb_spec c 32); [reflexivity|]. cbn [shown]. destruct (Z.eqb_spec c 0); [lia|reflexivity].
  - cbn [shown] in *. destruct (Z.eqb_spec c 0); [lia|]. rewrite IH. reflexivity.
Qed.
Lemma shown_all ls os : without_comments ls os -> Forall (Forall (fun c => 1 <= c <= 127)) ls -> map shown os = os.
Proof.
  induction 1 as [|l ls os H1 H2 IH|b x ls os H1 H2 H3 IH|b x b' ls os H1 H2 H3 H4 IH|b x mid y b' ls os H1 H2 H3 H4 H5 H6 IH]; intros F.
  - reflexivity.
  - inversion F; subst. cbn [map]. rewrite rstrip_shown, IH by assumption. reflexivity.
  - inversion F; subst. cbn [map shown]. rewrite IH by assumption. reflexivity.
  - inversion F; subst. cbn [map shown]. rewrite IH by assumption. reflexivity.
  - inversion F as [|? ? _ F2]; subst. apply Forall_app in F2. destruct F2 as [_ F2]. inversion F2; subst.
    cbn [map shown]. rewrite map_app, map_map. cbn [map shown]. rewrite IH by assumption. reflexivity.
Qed.
Lemma lines_forall (P : Z -> Prop) : forall k t, (length t < k)%nat -> Forall P t -> Forall (Forall P) (lines_of t).
Proof.
  induction k as [|k IH]; intros t K F; [lia|]. destruct t as [|c t]; [constructor|].
  destruct (lines_first (c :: t)) as (l & r & L1 & L2 & L3); [discriminate|]. rewrite L1.
  assert (G : Forall P l /\ Forall P r /\ (length r < length (c :: t))%nat).
  { destruct L3 as [L3|[L3|[(L3 & L4)|(L3 & L4)]]].
    - rewrite L3 in F |- *. apply Forall_app in F. destruct F as [F1 F2]. inversion F2; subst. rewrite app_length. cbn [length]. split; [assumption|split; [assumption|lia]].
    - rewrite L3 in F |- *. apply Forall_app in F. destruct F as [F1 F2]. inversion F2 as [|? ? ? F3]; subst. inversion F3; subst. rewrite app_length. cbn [length]. split; [assumption|split; [assumption|lia]].
    - rewrite L3 in F |- *. apply Forall_app in F. destruct F as [F1 F2]. inversion F2; subst. rewrite app_length. cbn [length]. split; [assumption|split; [assumption|lia]].
    - subst r. rewrite <- L3. split; [assumption|]. split; [constructor|cbn [length]; lia]. }
  destruct G as (G1 & G2 & G3). constructor; [assumption|]. apply IH; [lia|assumption].
Qed.

(* ---- C153 ---- *)
(* Whatever the text is, of less than 10^6 bytes and at most 500000 lines: the output has as
   many lines, and each of them is a piece of the line of the input (in front of a zero byte). *)
Theorem C153_lines_partial : forall m buf t fuel,
  bytes_at m buf t -> room m (buf - 1) (zlen t + 2) -> zlen t < 1000000 -> zlen (lines_of t) <= 500000 ->
  zlen t + 8 < Z.of_nat fuel ->
  exists rs, removeccomments fuel m buf (zlen t) = Ok (text_of (map shown rs)) /\ Forall2 piece rs (lines_of t).
Proof. intros. apply remove_pieces; assumption. Qed.
Print Assumptions C153_lines_partial.

(* the array is readable, but not the byte in front of it: an empty first line *)
Theorem C153_before_refuted : exists m buf t,
  bytes_at m buf t /\ room m buf (zlen t + 1) /\ removeccomments 20 m buf (zlen t) = Fault.
Proof.
  exists (mem_of [(100, [10; 0])]), 100, [10]. split; [repeat split|]. split; [|reflexivity].
  apply room_check. reflexivity.
Qed.
Print Assumptions C153_before_refuted.

(* ---- C154 ---- *)
(* ASCII text whose comments are on lines of their own *)
Theorem C154_comments_partial : forall m buf t os fuel,
  bytes_at m buf t -> room m (buf - 1) (zlen t + 2) -> zlen t < 1000000 -> zlen (lines_of t) <= 500000 ->
  zlen t + 8 < Z.of_nat fuel -> Forall (fun c => 1 <= c <= 127) t -> without_comments (lines_of t) os ->
  removeccomments fuel m buf (zlen t) = Ok (text_of os).
Proof.
  intros m buf t os fuel A B C D E F W. rewrite <- (shown_all _ _ W).
  - apply remove_comments; assumption.
  - apply (lines_forall _ (S (length t))); [lia|assumption].
Qed.
Print Assumptions C154_comments_partial.

(* text at 101 of a memory *)
Definition run (t : list Z) : res (list Z) := removeccomments 60 (mem_of [(100, 0 :: t ++ [0])]) 101 (zlen t).
(* "a // b": the comment stays *)
Theorem C154_trailing_refuted : exists a b, run (a ++ [47; 47] ++ b ++ [10]) = Ok (a ++ [47; 47] ++ b ++ [10]) /\ b <> [] /\
  Forall (fun c => c <> 34 /\ c <> 47) (a ++ b).
Proof. exists [97; 32], [32; 98]. split; [reflexivity|]. split; [discriminate|]. repeat constructor; discriminate. Qed.
Print Assumptions C154_trailing_refuted.
(* "/* c */ x": the code behind the comment is removed as well *)
Theorem C154_code_refuted : exists a b, run ([47; 42] ++ a ++ [42; 47] ++ b ++ [10]) = Ok [10] /\ rstrip b <> [] /\
  Forall (fun c => c <> 34 /\ c <> 47 /\ c <> 42) (a ++ b).
Proof. exists [99], [32; 120]. split; [reflexivity|]. split; [discriminate|]. repeat constructor; discriminate. Qed.
Print Assumptions C154_code_refuted.
(* two bytes above 127 (a letter in UTF-8) at the end of a line disappear *)
Theorem C154_utf8_refuted : exists a, run (a ++ [10]) = Ok [10] /\ Forall (fun c => 128 <= c <= 255) a /\ a <> [].
Proof. exists [195; 169]. split; [reflexivity|]. split; [repeat constructor; discriminate|discriminate]. Qed.
Print Assumptions C154_utf8_refuted.
(* the line  "\\","/*"  has no comment, but the next one is removed *)
Theorem C154_string_refuted : exists x, run ([34; 92; 92; 34; 44; 34; 47; 42; 34; 10] ++ x ++ [10]) = Ok ([34; 92; 92; 34; 44; 34; 10; 10]) /\
  Forall (fun c => c <> 34 /\ c <> 47) x /\ rstrip x <> [].
Proof. exists [120]. split; [reflexivity|]. split; [repeat constructor; discriminate|discriminate]. Qed.
Print Assumptions C154_string_refuted.

(* ---- cases for the hypotheses ---- *)
(* "x \n // y\n/* a\n b */\r\nz" *)
Definition sample : list Z :=
  [120; 32; 10] ++ [32; 47; 47; 32; 121; 10] ++ [47; 42; 32; 97; 10] ++ [32; 98; 42; 47; 13; 10] ++ [122].
Example sample_lines : lines_of sample = [[120; 32]; [32; 47; 47; 32; 121]; [47; 42; 32; 97]; [32; 98; 42; 47]; [122]].
Proof. reflexivity. Qed.
Fixpoint has_end (l : list Z) : bool :=
  match l with c :: r => match r with d :: _ => (c =? 42) && (d =? 47) | [] => false end || has_end r | [] => false end.
Lemma no_end_check l : has_end l = false -> no_end l.
Proof.
  intros H (a & b & ->). induction a as [|c a IH]; cbn [app has_end] in H; [discriminate|].
  apply Bool.orb_false_iff in H. apply IH, H.
Qed.
Example sample_without : without_comments (lines_of sample) [[120]; []; []; []; [122]].
Proof.
  rewrite sample_lines. apply (wc_code [120; 32]); [repeat constructor; discriminate|].
  apply (wc_line [32] [32; 121]); [repeat constructor|discriminate|].
  apply (wc_block [] [32; 97] [] [32; 98] [] [[122]]); try (apply no_end_check; reflexivity); [constructor|constructor|constructor|].
  apply (wc_code [122]); [repeat constructor; discriminate|constructor].
Qed.
Example C154_case : bytes_at (mem_of [(100, 0 :: sample ++ [0])]) 101 sample /\
  room (mem_of [(100, 0 :: sample ++ [0])]) 100 (zlen sample + 2) /\ run sample = Ok [120; 10; 10; 10; 10; 122; 10].
Proof. split; [repeat split|]. split; [apply room_check; reflexivity|reflexivity]. Qed.
