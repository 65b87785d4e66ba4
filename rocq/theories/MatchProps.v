(* C50, C77, C78: match. *)
From Verif Require Import Base BaseLemmas SysModel MatchModel MatchSpec MatchProofs MatchProofs2 MatchProofs3 MatchProofs4 MatchProofs5.

Ltac gl := repeat (apply Forall_cons; [first [right; left; reflexivity | right; right; reflexivity | left; split; [lia|cbn; intuition discriminate]]|]); apply Forall_nil.
(* ---- C50: glob patterns ---- *)
(* Missing: patterns that end in "**". *)
Theorem C50_glob_partial : forall fuel m text re st s p, str_at m text s -> str_at m re p -> zlen s <= INT_MAX ->
  Forall (fun c => plain c \/ c = 63 \/ c = 42) p -> (forall q, p <> q ++ [42; 42]) -> (length s + length p < fuel)%nat ->
  exists r st', match_ fuel m text re st = Ok (r, st') /\ ((r = 1 /\ glob p s) \/ (r = 0 /\ ~ glob p s)).
Proof.
  intros fuel m text re st s p Hs Hre Hmax F NS Hf. pose proof (glob_supported p s F NS) as S. pose proof (str_at_range _ _ _ Hs) as R.
  pose proof (wrap_iff (map item_of p) text s R S) as W.
  rewrite (match_run fuel m text re st (map item_of p) s); [|apply S|exact Hs|now rewrite pattern_of|exact Hmax|rewrite pattern_of; exact Hf].
  assert (G : matches true (map item_of p) s <-> glob p s).
  { rewrite glob_iff. split; intros H; [|now apply (matches_mono _ _ _ H)]. apply (matches_flag _ _ _ H). clear - F.
    induction F as [|c p Hc F IH]; [discriminate|]. cbn [map]. unfold item_of at 1. destruct (c =? 63); [discriminate|]. destruct (c =? 42); [exact IH|discriminate]. }
  destruct (wrap (map item_of p) text s) as [c|]; cbn [out]; do 2 eexists; (split; [reflexivity|]).
  - left. split; [reflexivity|]. apply G, W. discriminate.
  - right. split; [reflexivity|]. rewrite <- G, <- W. congruence.
Qed.
Print Assumptions C50_glob_partial.
(* "a**" does not match "a" *)
Theorem C50_glob_refuted : exists m text re s p, str_at m text s /\ str_at m re p /\ Forall (fun c => plain c \/ c = 63 \/ c = 42) p /\ glob p s /\
  forall fuel, (9 < fuel)%nat -> match_ fuel m text re None = Ok (0, None).
Proof.
  exists (mem_of [(100, [97; 0]); (200, [97; 42; 42; 0])]), 100, 200, [97], [97; 42; 42].
  split; [vm_compute; repeat split; discriminate|]. split; [vm_compute; repeat split; discriminate|]. split; [|split].
  - gl.
  - apply glob_lit; [discriminate|discriminate|]. apply (glob_star []). apply (glob_star []). constructor.
  - intros fuel H. do 10 (destruct fuel as [|fuel]; [exfalso; lia|]). reflexivity.
Qed.
Print Assumptions C50_glob_refuted.
(* "a*b?" and "aabbc" *)
Example C50_glob_ex : let m := mem_of [(100, [97; 97; 98; 98; 99; 0]); (200, [97; 42; 98; 63; 0])] in
  str_at m 100 [97; 97; 98; 98; 99] /\ str_at m 200 [97; 42; 98; 63] /\ Forall (fun c => plain c \/ c = 63 \/ c = 42) [97; 42; 98; 63] /\
  (forall q, [97; 42; 98; 63] <> q ++ [42; 42]) /\ match_ 30 m 100 200 None = Ok (1, None).
Proof.
  split; [vm_compute; repeat split; discriminate|]. split; [vm_compute; repeat split; discriminate|]. split; [|split].
  - gl.
  - intros q E. apply (f_equal (@rev Z)) in E. rewrite rev_app_distr in E. discriminate.
  - vm_compute. reflexivity.
Qed.

(* ---- C77: the documented patterns ---- *)
(* Missing: the patterns and texts excluded by [supported], and negation in front of other
   items than characters, escapes and predefined classes. *)
Theorem C77_match_partial : forall fuel m text re st s p, str_at m text s -> str_at m re (pattern p) -> zlen s <= INT_MAX ->
  supported p s -> (length s + length (pattern p) < fuel)%nat ->
  exists r st', match_ fuel m text re st = Ok (r, st') /\ ((r = 1 /\ matches true p s) \/ (r = 0 /\ ~ matches true p s)).
Proof.
  intros fuel m text re st s p Hs Hre Hmax S Hf. pose proof (str_at_range _ _ _ Hs) as R. pose proof (wrap_iff p text s R S) as W.
  rewrite (match_run fuel m text re st p s); auto; [|apply S].
  destruct (wrap p text s) as [c|]; cbn [out]; do 2 eexists; (split; [reflexivity|]).
  - left. split; [reflexivity|]. apply W. discriminate.
  - right. split; [reflexivity|]. rewrite <- W. congruence.
Qed.
Print Assumptions C77_match_partial.
(* whatever bytes the pattern is made of, nothing is read behind the text or the pattern,
   and the answer is 0 or 1 *)
Theorem C77_safe : forall fuel m text re st s p, str_at m text s -> str_at m re p -> (length s + length p < fuel)%nat ->
  exists r st', match_ fuel m text re st = Ok (r, st') /\ (r = 0 \/ r = 1).
Proof. exact match_safe. Qed.
Print Assumptions C77_safe.
(* the pattern "[ab" (no closing bracket) and the text "b" *)
Example C77_safe_ex : let m := mem_of [(100, [98; 0]); (200, [91; 97; 98; 0])] in
  str_at m 100 [98] /\ str_at m 200 [91; 97; 98] /\ match_ 5 m 100 200 None = Ok (0, None).
Proof. cbv zeta. split; [vm_compute; repeat split; discriminate|]. split; [vm_compute; repeat split; discriminate|]. vm_compute. reflexivity. Qed.
Ltac lits := repeat (apply Forall_cons; [cbn; try exact I; try (split; [lia|cbn; intuition discriminate]); try (repeat (apply Forall_cons; [lia|]); apply Forall_nil)|]); apply Forall_nil.
Ltac refu := split; [vm_compute; repeat split; discriminate|]; split; [vm_compute; repeat split; discriminate|]; split; [lits|].
(* "%=%#" of the documentation, with a value of one character: "l=3", pattern "l=%#" *)
Theorem C77_take_refuted : exists m text re s p, str_at m text s /\ str_at m re (pattern p) /\ Forall item_ok p /\ matches true p s /\
  forall fuel, (19 < fuel)%nat -> match_ fuel m text re None = Ok (0, None).
Proof.
  exists (mem_of [(100, [108; 61; 51; 0]); (200, [108; 61; 37; 35; 0])]), 100, 200, [108; 61; 51], [One false (SLit 108); One false (SLit 61); Take; Hash].
  refu. split.
  - apply m_one; [reflexivity|]. apply m_one; [reflexivity|]. apply (m_plus _ _ _ [51]); [auto|discriminate|]. apply m_end; [auto|constructor].
  - intros fuel H. do 20 (destruct fuel as [|fuel]; [exfalso; lia|]). reflexivity.
Qed.
Print Assumptions C77_take_refuted.
(* "+" does not match "a" *)
Theorem C77_plus_refuted : exists m text re s p, str_at m text s /\ str_at m re (pattern p) /\ Forall item_ok p /\ matches true p s /\
  forall fuel, (19 < fuel)%nat -> match_ fuel m text re None = Ok (0, None).
Proof.
  exists (mem_of [(100, [97; 0]); (200, [43; 0])]), 100, 200, [97], [Plus]. refu. split.
  - apply (m_plus _ _ _ [97]); [auto|discriminate|constructor].
  - intros fuel H. do 20 (destruct fuel as [|fuel]; [exfalso; lia|]). reflexivity.
Qed.
Print Assumptions C77_plus_refuted.
(* "*$" does not match the empty text *)
Theorem C77_end_refuted : exists m text re s p, str_at m text s /\ str_at m re (pattern p) /\ Forall item_ok p /\ matches true p s /\
  forall fuel, (19 < fuel)%nat -> match_ fuel m text re None = Ok (0, None).
Proof.
  exists (mem_of [(100, [0]); (200, [42; 36; 0])]), 100, 200, [], [Star; Dollar]. refu. split.
  - apply m_star, m_end; [auto|constructor].
  - intros fuel H. do 20 (destruct fuel as [|fuel]; [exfalso; lia|]). reflexivity.
Qed.
Print Assumptions C77_end_refuted.
(* "[a]" matches "]" *)
Theorem C77_class_refuted : exists m text re s p, str_at m text s /\ str_at m re (pattern p) /\ Forall item_ok p /\ ~ matches true p s /\
  forall fuel, (19 < fuel)%nat -> match_ fuel m text re None = Ok (1, None).
Proof.
  exists (mem_of [(100, [93; 0]); (200, [91; 97; 93; 0])]), 100, 200, [93], [Class [97]]. refu. split.
  - intros H. inversion H; subst; try discriminate. match goal with H : _ = Plus \/ _ |- _ => destruct H; discriminate end.
  - intros fuel H. do 20 (destruct fuel as [|fuel]; [exfalso; lia|]). reflexivity.
Qed.
Print Assumptions C77_class_refuted.
(* "![a]bc" matches "x": the rest of the pattern is forgotten *)
Theorem C77_not_class_refuted : exists m text re, str_at m text [120] /\ str_at m re [33; 91; 97; 93; 98; 99] /\
  forall fuel, (19 < fuel)%nat -> match_ fuel m text re None = Ok (1, None).
Proof.
  exists (mem_of [(100, [120; 0]); (200, [33; 91; 97; 93; 98; 99; 0])]), 100, 200.
  split; [vm_compute; repeat split; discriminate|]. split; [vm_compute; repeat split; discriminate|].
  intros fuel H. do 20 (destruct fuel as [|fuel]; [exfalso; lia|]). reflexivity.
Qed.
Print Assumptions C77_not_class_refuted.
(* "\w" does not match the character 200 *)
Theorem C77_word_refuted : exists m text re s p, str_at m text s /\ str_at m re (pattern p) /\ Forall item_ok p /\ matches true p s /\
  forall fuel, (19 < fuel)%nat -> match_ fuel m text re None = Ok (0, None).
Proof.
  exists (mem_of [(100, [200; 0]); (200, [92; 119; 0])]), 100, 200, [200], [One false SWord]. refu. split.
  - apply m_one; [reflexivity|constructor].
  - intros fuel H. do 20 (destruct fuel as [|fuel]; [exfalso; lia|]). reflexivity.
Qed.
Print Assumptions C77_word_refuted.

(* ---- C78: what '%' matched ---- *)
(* Missing: as in C77; with several '%' the theorem tells the first. *)
Theorem C78_capture_partial : forall fuel m text re pos0 len0 s pre post, str_at m text s -> str_at m re (pattern (pre ++ Take :: post)) -> zlen s <= INT_MAX ->
  supported (pre ++ Take :: post) s -> ~ In Take pre -> (length s + length (pattern (pre ++ Take :: post)) < fuel)%nat ->
  exists r pos len, match_ fuel m text re (Some (pos0, len0)) = Ok (r, Some (pos, len)) /\
    ((r = 0 /\ len = 0) \/
     (r = 1 /\ exists a x b, s = a ++ x ++ b /\ matches true pre a /\ taken post x b /\ pos = text + zlen a /\ len = zlen x)).
Proof.
  intros fuel m text re pos0 len0 s pre post Hs Hre Hmax S N Hf. pose proof (str_at_range _ _ _ Hs) as R.
  rewrite (match_run fuel m text re _ (pre ++ Take :: post) s); auto; [|apply S].
  destruct (wrap (pre ++ Take :: post) text s) as [c|] eqn:E; cbn [out].
  - destruct (wrap_cap pre post text s c R S N E) as (a & x & b & -> & M & T & ->). cbn [put_cap]. do 3 eexists. split; [reflexivity|]. right. split; [reflexivity|]. exists a, x, b. auto.
  - cbn [reset]. do 3 eexists. split; [reflexivity|]. left. auto.
Qed.
Print Assumptions C78_capture_partial.
(* "%[a]" of "x]": reports that '%' matched "x" although the rest "]" does not match "[a]" *)
Theorem C78_class_refuted : exists m text re s p, str_at m text s /\ str_at m re (pattern (Take :: p)) /\ Forall item_ok (Take :: p) /\
  (forall x b, s = x ++ b -> ~ matches true p b) /\
  forall fuel pos0 len0, (19 < fuel)%nat -> match_ fuel m text re (Some (pos0, len0)) = Ok (1, Some (text, 1)).
Proof.
  exists (mem_of [(100, [120; 93; 0]); (200, [37; 91; 97; 93; 0])]), 100, 200, [120; 93], [Class [97]]. refu. split.
  - intros x b E. destruct x as [|? [|? [|? x]]]; cbn [app] in E; try discriminate; inversion E; subst;
    intros M; inversion M; subst; try discriminate; match goal with H : _ = _ \/ _ |- _ => destruct H; discriminate end.
  - intros fuel pos0 len0 H. do 20 (destruct fuel as [|fuel]; [exfalso; lia|]). reflexivity.
Qed.
Print Assumptions C78_class_refuted.
(* "*@%\n*" of "ab\ncd\n": "ab" *)
(* meets the hypotheses of C77_match_partial too *)
Example C78_capture_ex : let s := [97; 98; 10; 99; 100; 10] in let pre := [Star; At] in let post := [One false (SLit 10); Star] in
  let m := mem_of [(100, s ++ [0]); (200, pattern (pre ++ Take :: post) ++ [0])] in
  str_at m 100 s /\ str_at m 200 (pattern (pre ++ Take :: post)) /\ supported (pre ++ Take :: post) s /\ ~ In Take pre /\
  match_ 30 m 100 200 (Some (7, 7)) = Ok (1, Some (100, 2)).
Proof.
  cbv zeta. split; [vm_compute; repeat split; discriminate|]. split; [vm_compute; repeat split; discriminate|]. split; [|split; [cbn; intuition discriminate|vm_compute; reflexivity]].
  split; [|split; [|split; [|split; [|split]]]].
  - lits.
  - intros q E. apply (f_equal (@rev item)) in E. rewrite (rev_app_distr q) in E. discriminate.
  - intros q i r E Hi. exfalso. assert (In i ([Star; At] ++ Take :: [One false (SLit 10); Star])) by (rewrite E; apply in_app_iff; right; now left). cbn in H. intuition congruence.
  - intros q i r E Hi. destruct q as [|? [|? [|? q]]]; cbn [app] in E; injection E; intros; subst; try (destruct Hi; discriminate); [exists (One false (SLit 10)); split; [now left|reflexivity]|].
    exfalso. assert (K : In i [One false (SLit 10); Star]) by (rewrite H; apply in_app_iff; right; now left). cbn in K. intuition congruence.
  - discriminate.
  - intros i c Hi _. cbn in Hi. intuition (subst; exact I).
Qed.
