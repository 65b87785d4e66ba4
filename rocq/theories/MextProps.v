(* C114 - C118: match_ext. *)
From Coq Require Import ZifyBool.
From Verif Require Import Base BaseLemmas SysModel MatchModel MatchSpec MatchProofs MatchProofs3 MatchProofs5 MextModel MextSpec MextProofs MextProofs3 MextProofs4 MextProofs5 MextProofs6 MextProofs7.

Ltac sa := vm_compute; repeat split; congruence.
(* ---- C114: the documented patterns ---- *)
(* Missing: the patterns and texts excluded by [xsupported], negation in front of other
   items than characters, escapes and predefined classes, and a p_match_char callback. *)
Theorem C114_match_partial : forall fuel m text re e s p, str_at m text s -> str_at m re (xpattern p) -> zlen s <= INT_MAX -> xsupported p s -> pmc e = None ->
  (3 * (length s + length (xpattern p)) + 3 <= fuel)%nat ->
  exists r e', match_ext fuel m text re e = Ok (r, e') /\ ((r = 1 /\ matches false (xmeaning p) s) \/ (r = 0 /\ ~ matches false (xmeaning p) s)).
Proof.
  intros fuel m text re e s p Hs Hp Hm S He Hf. rewrite (ext_run _ _ _ _ _ p s) by assumption. pose proof (str_at_range _ _ _ Hs) as R. pose proof (runx_iff p s 0 text R S) as I.
  destruct (runx p 0 text s) as [l|]; cbn [outx]; do 2 eexists; (split; [reflexivity|]).
  - left. split; [reflexivity|]. apply I. discriminate.
  - right. split; [reflexivity|]. rewrite <- I. congruence.
Qed.
Print Assumptions C114_match_partial.
(* nothing set, nothing wanted *)
Definition quiet : ext := {| pm := false; pmc := None; stm := None; calls := [] |}.
(* "[a]" matches "]" *)
Theorem C114_class_refuted : exists m text re s p, str_at m text s /\ str_at m re (xpattern p) /\ well_written p /\ ~ matches false (xmeaning p) s /\
  forall fuel, (19 < fuel)%nat -> match_ext fuel m text re quiet = Ok (1, quiet).
Proof.
  exists (mem_of [(100, [93; 0]); (200, [91; 97; 93; 0])]), 100, 200, [93], [XI false (Class [97])].
  split; [sa|]. split; [sa|]. split; [cbn; repeat split; try discriminate; repeat (apply Forall_cons; [lia|]); apply Forall_nil|]. split.
  - intros H. apply (fixed_iff (Class [97]) [] 93 [] eq_refl) in H as [H _]. discriminate.
  - intros fuel H. do 20 (destruct fuel as [|fuel]; [exfalso; lia|]). vm_compute. reflexivity.
Qed.
Print Assumptions C114_class_refuted.
(* the pattern "![a]bc": the class fails for "x" and the answer is "matches" at once *)
Theorem C114_negated_refuted : exists m text re, str_at m text [120] /\ str_at m re [33; 91; 97; 93; 98; 99] /\
  forall fuel, (19 < fuel)%nat -> match_ext fuel m text re quiet = Ok (1, quiet).
Proof.
  exists (mem_of [(100, [120; 0]); (200, [33; 91; 97; 93; 98; 99; 0])]), 100, 200. split; [sa|]. split; [sa|]. intros fuel H. do 20 (destruct fuel as [|fuel]; [exfalso; lia|]). vm_compute. reflexivity.
Qed.
Print Assumptions C114_negated_refuted.
(* "+" does not match "a" *)
Theorem C114_plus_refuted : exists m text re s p, str_at m text s /\ str_at m re (xpattern p) /\ well_written p /\ matches false (xmeaning p) s /\
  forall fuel, (19 < fuel)%nat -> match_ext fuel m text re quiet = Ok (0, quiet).
Proof.
  exists (mem_of [(100, [97; 0]); (200, [43; 0])]), 100, 200, [97], [XI false Plus].
  split; [sa|]. split; [sa|]. split; [cbn; repeat split; discriminate|]. split.
  - cbn. apply (m_plus _ _ _ [97]); [auto|discriminate|constructor].
  - intros fuel H. do 20 (destruct fuel as [|fuel]; [exfalso; lia|]). vm_compute. reflexivity.
Qed.
Print Assumptions C114_plus_refuted.
(* "*runlevel=%#" of the documentation, for a value of one character: here "l=3", "*l=%#" *)
Theorem C114_take_refuted : exists m text re s p, str_at m text s /\ str_at m re (xpattern p) /\ well_written p /\ matches false (xmeaning p) s /\
  forall fuel, (39 < fuel)%nat -> match_ext fuel m text re quiet = Ok (0, quiet).
Proof.
  exists (mem_of [(100, [108; 61; 51; 0]); (200, [42; 108; 61; 37; 35; 0])]), 100, 200, [108; 61; 51], [XI false Star; XI false (One false (SLit 108)); XI false (One false (SLit 61)); XTake false None; XI false Hash].
  split; [sa|]. split; [sa|]. split; [cbn; unfold xplain; cbn; repeat split; try lia; discriminate|]. split.
  - cbn. apply m_star. apply m_one; [reflexivity|]. apply m_one; [reflexivity|]. apply (m_plus _ _ _ [51]); [auto|discriminate|]. apply m_end; [auto|constructor].
  - intros fuel H. do 40 (destruct fuel as [|fuel]; [exfalso; lia|]). vm_compute. reflexivity.
Qed.
Print Assumptions C114_take_refuted.
(* "\w" does not match the character 200 *)
Theorem C114_word_refuted : exists m text re s p, str_at m text s /\ str_at m re (xpattern p) /\ well_written p /\ matches false (xmeaning p) s /\
  forall fuel, (19 < fuel)%nat -> match_ext fuel m text re quiet = Ok (0, quiet).
Proof.
  exists (mem_of [(100, [200; 0]); (200, [92; 119; 0])]), 100, 200, [200], [XI false (One false SWord)].
  split; [sa|]. split; [sa|]. split; [cbn; repeat split; discriminate|]. split.
  - cbn. apply m_one; [reflexivity|constructor].
  - intros fuel H. do 20 (destruct fuel as [|fuel]; [exfalso; lia|]). vm_compute. reflexivity.
Qed.
Print Assumptions C114_word_refuted.
(* "a**" does not match "a" *)
Theorem C114_stars_refuted : exists m text re s p, str_at m text s /\ str_at m re (xpattern p) /\ well_written p /\ matches false (xmeaning p) s /\
  forall fuel, (19 < fuel)%nat -> match_ext fuel m text re quiet = Ok (0, quiet).
Proof.
  exists (mem_of [(100, [97; 0]); (200, [97; 42; 42; 0])]), 100, 200, [97], [XI false (One false (SLit 97)); XI false Star; XI false Star].
  split; [sa|]. split; [sa|]. split; [cbn; unfold xplain; cbn; repeat split; try lia; discriminate|]. split.
  - cbn. apply m_one; [reflexivity|]. apply m_star. apply m_star. constructor.
  - intros fuel H. do 20 (destruct fuel as [|fuel]; [exfalso; lia|]). vm_compute. reflexivity.
Qed.
Print Assumptions C114_stars_refuted.
(* "%1=%2,5{2x}z" and "ab=c5xxz" *)
Definition ex_p : list xitem := [XTake false (Some 1); XI false (One false (SLit 61)); XTake false (Some 2); XI true (One false (SLit 53)); XCount 2 false (One false (SLit 120)); XI false (One false (SLit 122))].
Definition ex_s : list Z := [97; 98; 61; 99; 53; 120; 120; 122].
Definition ex_m : mem := mem_of [(100, ex_s ++ [0]); (200, xpattern ex_p ++ [0])].
Lemma ex_ok : xsupported ex_p ex_s.
Proof.
  assert (L : forall c, In c [53; 61; 120; 122] -> xplain c) by (intros c H; split; [cbn in H; intuition lia|]; intros H2; cbn in H, H2; intuition lia).
  split; [|split; [split; [|split; [|split]]|]].
  - cbn [ex_p well_written xitem_ok number_ok]. repeat split; try lia; try (apply L; cbn; tauto); try discriminate; intros; reflexivity.
  - intros a E. apply (f_equal (@rev item)) in E. rewrite (rev_app_distr a) in E. discriminate.
  - intros a i b E Hi. exfalso. assert (H : In i (xmeaning ex_p)) by (rewrite E; apply in_app_iff; right; now left). vm_compute in H. destruct Hi; subst i; intuition discriminate.
  - intros a i b E Hi. exists (One false (SLit 122)). split; [|reflexivity]. change (xmeaning ex_p) with ([Take; One false (SLit 61); Take; One false (SLit 53); One false (SLit 120); One false (SLit 120)] ++ [One false (SLit 122)]) in E.
    destruct b as [|y b' _] using rev_ind; [apply app_inj_tail in E as [_ <-]; destruct Hi; discriminate|]. rewrite (app_comm_cons b'), app_assoc in E. apply app_inj_tail in E as [_ <-]. apply in_app_iff. right. now left.
  - intros i c Hi _. vm_compute in Hi. intuition (subst; exact I).
  - intros a d sep i b E. unfold ex_p in E. assert (K : b = [XI false (One false (SLit 122))] /\ i = One false (SLit 120)).
    { destruct a as [|a1 [|a2 [|a3 [|a4 [|a5 [|a6 a]]]]]]; cbn [app] in E; injection E; intros; subst; try discriminate; auto. destruct a; discriminate. }
    destruct K as [-> ->]. split; [reflexivity|]. split; [|intros sp s b' H; discriminate]. eexists. split; [now left|reflexivity].
Qed.
Example C114_match_ex : str_at ex_m 100 ex_s /\ str_at ex_m 200 (xpattern ex_p) /\ xsupported ex_p ex_s /\ xpattern ex_p = [37; 49; 61; 37; 50; 44; 53; 123; 50; 120; 125; 122] /\
  match_ext 99 ex_m 100 200 quiet = Ok (1, quiet) /\ match_ext 99 (upd ex_m 105 99) 100 200 quiet = Ok (0, quiet).
Proof. split; [sa|]. split; [sa|]. split; [exact ex_ok|]. split; [reflexivity|]. split; vm_compute; reflexivity. Qed.

(* ---- C115: what p_match and st_match get ---- *)
(* Missing: as for C114, and a '%' without number behind a '&' with one. *)
Theorem C115_report_partial : forall fuel m text re e s p, str_at m text s -> str_at m re (xpattern p) -> zlen s <= INT_MAX -> xsupported p s -> pmc e = None ->
  (3 * (length s + length (xpattern p)) + 3 <= fuel)%nat ->
  (forall a sep b, p = a ++ XTake sep None :: b -> forall sep' d, ~ In (XAmp sep' (Some d)) a) ->
  exists r e', match_ext fuel m text re e = Ok (r, e') /\ pm e' = pm e /\
    ((r = 0 /\ calls e' = calls e) \/
     (r = 1 /\ exists l, reported p text s l /\
        (* the calls so far, latest first: the leftmost '%' is reported last *)
        calls e' = (if pm e then l ++ calls e else calls e) /\
        match l with
        | [] => stm e' = reset (stm e)
        | (_, pos, len) :: _ => stm e' = match stm e with Some _ => Some (pos, len) | None => None end
        end)).
Proof.
  intros fuel m text re e s p Hs Hp Hm S He Hf A. rewrite (ext_run _ _ _ _ _ p s) by assumption. pose proof (str_at_range _ _ _ Hs) as R. apply xsupported_parts in S as (W & S & F & _).
  destruct (runx p 0 text s) as [l|] eqn:E; cbn [outx]; do 2 eexists; (split; [reflexivity|]); (split; [reflexivity|]); [|left; auto]. right. split; [reflexivity|]. exists l. split; [|split; [reflexivity|]].
  - apply (runx_reported (length p) p 0 text s l); auto. intros a sep b Ep. split; [reflexivity|]. apply Forall_forall. intros x Hx. destruct x as [ | |sp [d|]| ]; try exact I. exact (A a sep b Ep sp d Hx).
  - destruct l as [|[[n pos] len] l]; cbn [put_caps stm first_cap xreset]; destruct (stm e) as [[]|]; reflexivity.
Qed.
Print Assumptions C115_report_partial.
(* "&1%b": the '%' has no number and is reported with 1 *)
Theorem C115_number_refuted : exists m text re s p l, str_at m text s /\ str_at m re (xpattern p) /\ well_written p /\ reported p text s l /\ l = [(0, text + 1, 1)] /\
  forall fuel, (29 < fuel)%nat -> match_ext fuel m text re {| pm := true; pmc := None; stm := None; calls := [] |} = Ok (1, {| pm := true; pmc := None; stm := None; calls := [(1, text + 1, 1)] |}).
Proof.
  exists (mem_of [(100, [97; 97; 98; 0]); (200, [38; 49; 37; 98; 0])]), 100, 200, [97; 97; 98], [XAmp false (Some 1); XTake false None; XI false (One false (SLit 98))], [(0, 101, 1)].
  split; [sa|]. split; [sa|]. split; [cbn; unfold xplain; cbn; repeat split; try lia; discriminate|]. split; [|split; [reflexivity|]].
  - apply (r_take [XAmp false (Some 1)] false None [XI false (One false (SLit 98))] 100 [97] [97] [98] []).
    + repeat constructor.
    + cbn. apply m_one; [reflexivity|constructor].
    + split; [discriminate|]. split; [cbn; apply m_one; [reflexivity|constructor]|]. intros x' b' _ Hx _. destruct x'; [congruence|]. rewrite !zlen_cons. pose proof (zlen_nonneg x'). change (zlen (@nil Z)) with 0. lia.
    + constructor. repeat constructor.
  - intros fuel H. do 30 (destruct fuel as [|fuel]; [exfalso; lia|]). vm_compute. reflexivity.
Qed.
Print Assumptions C115_number_refuted.
(* "ab" for %1, "c" for %2; %2 is reported first *)
Example C115_report_ex : str_at ex_m 100 ex_s /\ str_at ex_m 200 (xpattern ex_p) /\ xsupported ex_p ex_s /\
  (forall a sep b, ex_p = a ++ XTake sep None :: b -> forall sep' d, ~ In (XAmp sep' (Some d)) a) /\
  match_ext 99 ex_m 100 200 {| pm := true; pmc := None; stm := Some (5, 5); calls := [] |} =
    Ok (1, {| pm := true; pmc := None; stm := Some (100, 2); calls := [(1, 100, 2); (2, 103, 1)] |}).
Proof.
  split; [sa|]. split; [sa|]. split; [exact ex_ok|]. split; [|vm_compute; reflexivity].
  intros a sep b E sep' d H. assert (K : In (XAmp sep' (Some d)) ex_p) by (rewrite E; apply in_app_iff; auto). vm_compute in K. intuition discriminate.
Qed.

(* ---- C116: {nX} ---- *)
(* Missing: counts above 9, other X, and patterns that end behind the '}' or go on with a
   negated item. *)
Theorem C116_counted_partial : forall fuel m text re re2 e s a d sep i b, str_at m text s -> zlen s <= INT_MAX -> pmc e = None -> xsupported (a ++ XCount d sep i :: b) s ->
  str_at m re (xpattern (a ++ XCount d sep i :: b)) ->
  (* X written d times *)
  str_at m re2 (xpattern (a ++ repeat (XI true i) (Z.to_nat d) ++ b)) ->
  (3 * (length s + length (xpattern (a ++ XCount d sep i :: b)) + length (xpattern (a ++ repeat (XI true i) (Z.to_nat d) ++ b))) + 3 <= fuel)%nat ->
  exists r e1 e2, match_ext fuel m text re e = Ok (r, e1) /\ match_ext fuel m text re2 e = Ok (r, e2) /\
    ((r = 1 /\ matches false (xmeaning a ++ repeat i (Z.to_nat d) ++ xmeaning b) s) \/ (r = 0 /\ ~ matches false (xmeaning a ++ repeat i (Z.to_nat d) ++ xmeaning b) s)).
Proof.
  intros fuel m text re re2 e s a d sep i b Hs Hm He S Hp Hp2 Hf. pose proof (xsupported_replace _ _ _ _ _ _ S) as S2.
  destruct (C114_match_partial fuel m text re e s _ Hs Hp Hm S He ltac:(lia)) as (r & e1 & E1 & K1).
  destruct (C114_match_partial fuel m text re2 e s _ Hs Hp2 Hm S2 He ltac:(lia)) as (r2 & e2 & E2 & K2).
  change (repeat (XI true i) (Z.to_nat d)) with (times d i) in *. rewrite (xm_replace a d sep i b) in K2. rewrite xm_app, xmeaning_cons in K1, K2. cbn [meaning] in K1, K2.
  exists r, e1, e2. split; [exact E1|]. split; [|exact K1]. rewrite E2. assert (r2 = r) as -> by (destruct K1 as [[? ?]|[? ?]], K2 as [[? ?]|[? ?]]; try contradiction; congruence). reflexivity.
Qed.
Print Assumptions C116_counted_partial.
(* "{12x}z" wants 13 times 'x' *)
Theorem C116_number_refuted : exists m text text2 re, str_at m text (repeat 120 12 ++ [122]) /\ str_at m text2 (repeat 120 13 ++ [122]) /\ str_at m re [123; 49; 50; 120; 125; 122] /\
  match_ext 99 m text re quiet = Ok (0, quiet) /\ match_ext 99 m text2 re quiet = Ok (1, quiet).
Proof.
  exists (mem_of [(100, repeat 120 12 ++ [122; 0]); (200, repeat 120 13 ++ [122; 0]); (300, [123; 49; 50; 120; 125; 122; 0])]), 100, 200, 300.
  split; [sa|]. split; [sa|]. split; [sa|]. split; vm_compute; reflexivity.
Qed.
Print Assumptions C116_number_refuted.
(* "{3a}" does not match "aaa" *)
Theorem C116_end_refuted : exists m text re s d sep i, str_at m text s /\ str_at m re (xpattern [XCount d sep i]) /\ well_written [XCount d sep i] /\ matches false (repeat i (Z.to_nat d)) s /\
  forall fuel, (29 < fuel)%nat -> match_ext fuel m text re quiet = Ok (0, quiet).
Proof.
  exists (mem_of [(100, [97; 97; 97; 0]); (200, [123; 51; 97; 125; 0])]), 100, 200, [97; 97; 97], 3, false, (One false (SLit 97)).
  split; [sa|]. split; [sa|]. split; [cbn; unfold xplain; cbn; repeat split; try lia; discriminate|]. split.
  - cbn. repeat (apply m_one; [reflexivity|]). constructor.
  - intros fuel H. do 30 (destruct fuel as [|fuel]; [exfalso; lia|]). vm_compute. reflexivity.
Qed.
Print Assumptions C116_end_refuted.
(* "{1a}!bc" matches "a!bc" and not "axc": behind a '}' the '!' is a character *)
Theorem C116_negated_refuted : exists m text text2 re, str_at m text [97; 120; 99] /\ str_at m text2 [97; 33; 98; 99] /\ str_at m re [123; 49; 97; 125; 33; 98; 99] /\
  matches false [One false (SLit 97); One true (SLit 98); One false (SLit 99)] [97; 120; 99] /\
  match_ext 99 m text re quiet = Ok (0, quiet) /\ match_ext 99 m text2 re quiet = Ok (1, quiet).
Proof.
  exists (mem_of [(100, [97; 120; 99; 0]); (200, [97; 33; 98; 99; 0]); (300, [123; 49; 97; 125; 33; 98; 99; 0])]), 100, 200, 300.
  split; [sa|]. split; [sa|]. split; [sa|]. split; [repeat (apply m_one; [reflexivity|]); constructor|]. split; vm_compute; reflexivity.
Qed.
Print Assumptions C116_negated_refuted.
(* "{2x}" in the pattern of C114, and the same pattern with ",x,x" *)
Example C116_counted_ex : let a := firstn 4 ex_p in let b := [XI false (One false (SLit 122))] in let i := One false (SLit 120) in
  let q := a ++ repeat (XI true i) 2 ++ b in let m := mem_of [(100, ex_s ++ [0]); (200, xpattern ex_p ++ [0]); (300, xpattern q ++ [0])] in
  ex_p = a ++ XCount 2 false i :: b /\ xpattern q = [37; 49; 61; 37; 50; 44; 53; 44; 120; 44; 120; 122] /\ xsupported ex_p ex_s /\ str_at m 100 ex_s /\ str_at m 200 (xpattern ex_p) /\ str_at m 300 (xpattern q) /\
  match_ext 99 m 100 200 quiet = Ok (1, quiet) /\ match_ext 99 m 100 300 quiet = Ok (1, quiet).
Proof. cbv zeta. split; [reflexivity|]. split; [reflexivity|]. split; [exact ex_ok|]. split; [sa|]. split; [sa|]. split; [sa|]. split; vm_compute; reflexivity. Qed.

(* ---- C117: nothing outside the two strings is read ---- *)
(* Missing: patterns with '{'; callbacks that return 1 or more for the last characters. *)
Theorem C117_safe_partial : forall fuel m text re e s p, str_at m text s -> str_at m re p -> ~ In 123 p ->
  (forall f n a b, pmc e = Some f -> s = a ++ b -> b <> [] -> f n (text + zlen a) = 0 \/ f n (text + zlen a) = -1 \/ 1 <= f n (text + zlen a) < zlen b) ->
  (3 * (length s + length p) + 3 <= fuel)%nat ->
  exists r e', match_ext fuel m text re e = Ok (r, e') /\ (r = 0 \/ r = 1).
Proof.
  intros fuel m text re e s p Hs Hp N CB Hf. unfold match_ext.
  destruct (x_safe m text s (pmc e) Hs CB fuel text re 0 (xreset e) s p) as (v & e' & E & Hv & _); auto.
  - exists []. split; [reflexivity|]. change (zlen (@nil Z)) with 0. lia.
  - eauto.
Qed.
Print Assumptions C117_safe_partial.
(* "{5?}" goes on behind the end of "a"; here nothing is behind the 0 *)
Theorem C117_counted_refuted : exists m text re, str_at m text [97] /\ str_at m re [123; 53; 63; 125] /\ forall fuel, (29 < fuel)%nat -> match_ext fuel m text re quiet = Fault.
Proof.
  exists (mem_of [(100, [97; 0]); (200, [123; 53; 63; 125; 0])]), 100, 200. split; [sa|]. split; [sa|]. intros fuel H. do 30 (destruct fuel as [|fuel]; [exfalso; lia|]). vm_compute. reflexivity.
Qed.
Print Assumptions C117_counted_refuted.
(* the pattern "![a\" without end and a callback that takes two characters *)
Example C117_safe_ex : let m := mem_of [(100, [98; 99; 97; 0]); (200, [38; 33; 91; 97; 92; 0])] in let f := fun _ t => if t =? 100 then 1 else 0 in let e := {| pm := false; pmc := Some f; stm := None; calls := [] |} in
  str_at m 100 [98; 99; 97] /\ str_at m 200 [38; 33; 91; 97; 92] /\ ~ In 123 [38; 33; 91; 97; 92] /\
  (forall g n a b, pmc e = Some g -> [98; 99; 97] = a ++ b -> b <> [] -> g n (100 + zlen a) = 0 \/ g n (100 + zlen a) = -1 \/ 1 <= g n (100 + zlen a) < zlen b) /\
  match_ext 99 m 100 200 e = Ok (0, e).
Proof.
  cbv zeta. split; [sa|]. split; [sa|]. split; [cbn; intuition discriminate|]. split; [|vm_compute; reflexivity].
  intros g n a b [= <-] E Hb. destruct a as [|x a]; [right; right; cbn [app] in E; subst b; vm_compute; split; congruence|]. left. rewrite zlen_cons. pose proof (zlen_nonneg a). cbv beta. replace (100 + (zlen a + 1) =? 100) with false by lia. reflexivity.
Qed.

(* ---- C118: '&' with a callback ---- *)
(* Missing: what is documented for other results than RE_NOMATCH (0) and RE_MATCHEND (-1),
   and other patterns in front of the '&'. *)
Theorem C118_callback_partial : forall fuel m text re e f n a c s rest, str_at m text (a ++ c :: s) -> str_at m re (a ++ 38 :: number n ++ rest) -> Forall xplain a ->
  number_ok n -> (n = None -> is_digit (hd 0 rest) = false) -> pmc e = Some f -> (3 * length a + 3 <= fuel)%nat ->
  let r := f (match n with Some d => d | None => 0 end) (text + zlen a) in
  (r = -1 -> match_ext fuel m text re e = Ok (1, xreset e)) /\ (r = 0 -> match_ext fuel m text re e = Ok (0, xreset e)).
Proof. intros fuel m text re e f n a c s rest Hs Hp F Hn Hd Hf Hfu. cbv zeta. unfold match_ext. apply (amp_prefix f n rest m (xreset e) Hf Hn Hd a fuel text re c s); auto. Qed.
Print Assumptions C118_callback_partial.
(* "x&x" with a callback that returns 2 does not match "xaax", but "xaaax" *)
Theorem C118_count_refuted : exists m text text2 re, str_at m text [120; 97; 97; 120] /\ str_at m text2 [120; 97; 97; 97; 120] /\ str_at m re [120; 38; 120] /\
  let e := {| pm := false; pmc := Some (fun _ _ => 2); stm := None; calls := [] |} in
  match_ext 99 m text re e = Ok (0, e) /\ match_ext 99 m text2 re e = Ok (1, e).
Proof.
  exists (mem_of [(100, [120; 97; 97; 120; 0]); (200, [120; 97; 97; 97; 120; 0]); (300, [120; 38; 120; 0])]), 100, 200, 300.
  split; [sa|]. split; [sa|]. split; [sa|]. split; vm_compute; reflexivity.
Qed.
Print Assumptions C118_count_refuted.
(* "&" with a callback that returns RE_MATCH (1) for the text "a" reads behind its end *)
Theorem C118_match_refuted : exists m text re, str_at m text [97] /\ str_at m re [38] /\
  forall fuel, (9 < fuel)%nat -> match_ext fuel m text re {| pm := false; pmc := Some (fun _ _ => 1); stm := None; calls := [] |} = Fault.
Proof.
  exists (mem_of [(100, [97; 0]); (200, [38; 0])]), 100, 200. split; [sa|]. split; [sa|]. intros fuel H. do 10 (destruct fuel as [|fuel]; [exfalso; lia|]). vm_compute. reflexivity.
Qed.
Print Assumptions C118_match_refuted.
(* "ab&3z" and "abc": RE_MATCHEND for number 3 at the 'c' *)
Example C118_callback_ex : let m := mem_of [(100, [97; 98; 99; 0]); (200, [97; 98; 38; 51; 122; 0])] in let f := fun n t => if (n =? 3) && (t =? 102) then -1 else 0 in
  let e := {| pm := false; pmc := Some f; stm := None; calls := [] |} in
  str_at m 100 [97; 98; 99] /\ str_at m 200 ([97; 98] ++ 38 :: number (Some 3) ++ [122]) /\ Forall xplain [97; 98] /\ f 3 (100 + zlen [97; 98]) = -1 /\ match_ext 9 m 100 200 e = Ok (1, e).
Proof.
  cbv zeta. split; [sa|]. split; [sa|]. split; [|split; vm_compute; reflexivity]. repeat (apply Forall_cons; [split; [lia|cbn; intuition discriminate]|]). apply Forall_nil.
Qed.
