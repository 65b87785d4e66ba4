(* C155 - C157: match_ext2. *)
From Coq Require Import ZifyBool.
From Verif Require Import Base BaseLemmas SysModel MatchModel MextModel MtwoModel MtwoSpec MtwoProofs1 MtwoProofs3 MtwoProofs4 MtwoProofs5 MtwoProofs6 MtwoProofs7.

Ltac sa := vm_compute; repeat split; congruence.
(* nothing set, nothing wanted *)
Definition quiet : ext2 := mk2 {| pm := false; pmc := None; stm := None; calls := [] |} 0.
(* text at 100, pattern at 200 *)
Definition two (s r : list Z) : mem := mem_of [(100, s ++ [0]); (200, r ++ [0])].

(* ---- C155: the documented patterns ---- *)
(* Missing: the patterns and texts excluded by [supported] and [start_ok]; a callback for '&'. *)
Theorem C155_match_partial : forall fuel m text re e s p, str_at m text s -> str_at m re (pattern p) -> zlen s <= INT_MAX -> 0 < text -> supported p s -> start_ok p -> pmc (base e) = None ->
  (length s + length (pattern p) + 2 <= fuel)%nat ->
  exists r e', match_ext2 fuel m text re e = Ok (r, e') /\ ((r = 1 /\ matches true p s) \/ (r = 0 /\ ~ matches true p s)).
Proof.
  intros fuel m text re e s p Hs Hp Hm Ht S St He Hf. destruct (wrap_ok fuel m text re e s p Hs Hp Hm Ht S He Hf) as [o E]. destruct S as (W & F & _). pose proof (wrun_iff p s text W F St) as I. rewrite E.
  destruct (wrun p text s) as [l|]; do 2 eexists; (split; [reflexivity|]).
  - left. split; [reflexivity|]. apply I. discriminate.
  - right. split; [reflexivity|]. rewrite <- I. congruence.
Qed.
Print Assumptions C155_match_partial.

Definition lit (c : Z) : item := It false (One false (Lit c)).
Lemma plain_ok c : (1 <=? c) && (c <=? 255) && negb (existsb (Z.eqb c) [33; 35; 36; 37; 38; 40; 41; 42; 43; 44; 63; 64; 91; 92; 123; 125]) = true -> plain c.
Proof.
  intros H. apply andb_prop in H as [H1 H2]. split; [lia|]. intros H. apply negb_true_iff in H2. assert (E : existsb (Z.eqb c) [33; 35; 36; 37; 38; 40; 41; 42; 43; 44; 63; 64; 91; 92; 123; 125] = true) by (apply existsb_exists; exists c; split; [exact H|lia]). congruence.
Qed.
Ltac ww := cbn [well_written what comma test_ok number_ok lit]; repeat split; try (apply plain_ok; reflexivity); try discriminate; try reflexivity; try lia; auto; try (repeat (apply Forall_cons; [lia|]); apply Forall_nil).
Tactic Notation "code" int_or_var(n) := intros fuel H; do n (destruct fuel as [|fuel]; [exfalso; lia|]); vm_compute; reflexivity.
Ltac no := let H := fresh in intros H; repeat match goal with K : matches _ _ _ |- _ => inversion K; clear K; subst end; try discriminate; try congruence.

(* "a#b" matches "a" *)
Theorem C155_behind_end_refuted : exists m text re s p, str_at m text s /\ str_at m re (pattern p) /\ well_written p /\ ~ matches true p s /\
  forall fuel, (19 < fuel)%nat -> exists e', match_ext2 fuel m text re quiet = Ok (1, e').
Proof.
  exists (two [97] [97; 35; 98]), 100, 200, [97], [lit 97; It false (One false Hash); lit 98]. split; [sa|]. split; [sa|]. split; [ww|]. split; [no|].
  intros fuel H. eexists. revert fuel H. code 20.
Qed.
Print Assumptions C155_behind_end_refuted.
(* "*#" does not match "a" *)
Theorem C155_star_end_refuted : exists m text re s p, str_at m text s /\ str_at m re (pattern p) /\ well_written p /\ matches true p s /\
  forall fuel, (19 < fuel)%nat -> exists e', match_ext2 fuel m text re quiet = Ok (0, e').
Proof.
  exists (two [97] [42; 35]), 100, 200, [97], [It false Star; It false (One false Hash)]. split; [sa|]. split; [sa|]. split; [ww|]. split; [apply m_star_more, m_star, m_hash; constructor|].
  intros fuel H. eexists. revert fuel H. code 20.
Qed.
Print Assumptions C155_star_end_refuted.
(* "(a)" does not match "a" *)
Theorem C155_bracket_refuted : exists m text re s p, str_at m text s /\ str_at m re (pattern p) /\ well_written p /\ matches true p s /\
  forall fuel, (19 < fuel)%nat -> exists e', match_ext2 fuel m text re quiet = Ok (0, e').
Proof.
  exists (two [97] [40; 97; 41]), 100, 200, [97], [It false Open; lit 97; It false Close]. split; [sa|]. split; [sa|]. split; [ww|]. split; [apply m_open, m_one; [reflexivity|]; apply m_close; constructor|].
  intros fuel H. eexists. revert fuel H. code 20.
Qed.
Print Assumptions C155_bracket_refuted.
(* "{3a}" does not match "aaa" *)
Theorem C155_count_end_refuted : exists m text re s p, str_at m text s /\ str_at m re (pattern p) /\ well_written p /\ matches true p s /\
  forall fuel, (19 < fuel)%nat -> exists e', match_ext2 fuel m text re quiet = Ok (0, e').
Proof.
  exists (two [97; 97; 97] [123; 51; 97; 125]), 100, 200, [97; 97; 97], [It false (Count 3 false (Lit 97))]. split; [sa|]. split; [sa|]. split; [ww|]. split.
  - apply (m_count true false 3 false (Lit 97) [] [97; 97; 97] []); [reflexivity|repeat constructor|constructor].
  - intros fuel H. eexists. revert fuel H. code 20.
Qed.
Print Assumptions C155_count_end_refuted.
(* "+" does not match "a" *)
Theorem C155_plus_end_refuted : exists m text re s p, str_at m text s /\ str_at m re (pattern p) /\ well_written p /\ matches true p s /\
  forall fuel, (19 < fuel)%nat -> exists e', match_ext2 fuel m text re quiet = Ok (0, e').
Proof.
  exists (two [97] [43]), 100, 200, [97], [It false Plus]. split; [sa|]. split; [sa|]. split; [ww|]. split.
  - apply (m_plus true false [] [97] []); [discriminate|constructor].
  - intros fuel H. eexists. revert fuel H. code 20.
Qed.
Print Assumptions C155_plus_end_refuted.
(* "![a]b" matches "x" *)
Theorem C155_not_class_refuted : exists m text re s p, str_at m text s /\ str_at m re (pattern p) /\ well_written p /\ ~ matches true p s /\
  forall fuel, (19 < fuel)%nat -> exists e', match_ext2 fuel m text re quiet = Ok (1, e').
Proof.
  exists (two [120] [33; 91; 97; 93; 98]), 100, 200, [120], [It false (One true (Cls [97])); lit 98]. split; [sa|]. split; [sa|]. split; [ww|]. split; [no|].
  intros fuel H. eexists. revert fuel H. code 20.
Qed.
Print Assumptions C155_not_class_refuted.
(* \w and the character 228 *)
Theorem C155_word_refuted : exists m text re s p, str_at m text s /\ str_at m re (pattern p) /\ well_written p /\ matches true p s /\
  forall fuel, (19 < fuel)%nat -> exists e', match_ext2 fuel m text re quiet = Ok (0, e').
Proof.
  exists (two [228] [92; 119]), 100, 200, [228], [It false (One false Word)]. split; [sa|]. split; [sa|]. split; [ww|]. split; [apply m_one; [reflexivity|constructor]|].
  intros fuel H. eexists. revert fuel H. code 20.
Qed.
Print Assumptions C155_word_refuted.
(* "@*%1=&,{2\d}?(x)*[yz]" with a line that begins with "key=..." *)
Definition ex_p : list item :=
  [It false (One false At); It false Star; lit 107; It false (Take (Some 1)); lit 61; It false (Amp None); It true (Count 2 false Digit); It false (One false Any); It false Open; It true (One false (Lit 120)); It false Close; It false Star;
   It false (One true Space); It false (One false (Cls [121; 122]))].
Definition ex_s : list Z := [97; 107; 101; 121; 61; 45; 52; 50; 33; 120; 32; 97; 122].
Definition ex_m : mem := two ex_s (pattern ex_p).
Lemma ex_ok : supported ex_p ex_s /\ start_ok ex_p.
Proof.
  split; [split; [|split]|].
  - unfold ex_p. ww.
  - unfold ex_p. cbn [fits what ending lit]. repeat split; try discriminate; try (eexists; split; [right; now left|reflexivity]); try (eexists; split; [now left|reflexivity]); try (intros; discriminate).
    intros H. cbn in H. lia.
  - intros i c Hi Hc. unfold ex_p, ex_s in *. cbn [In] in Hi, Hc. repeat (destruct Hi as [<-|Hi]; [cbn [what test_of lit]; try exact I|]); [|destruct Hi]. intuition lia.
  - cbn. discriminate.
Qed.
Example C155_match_ex : str_at ex_m 100 ex_s /\ str_at ex_m 200 (pattern ex_p) /\ supported ex_p ex_s /\ start_ok ex_p /\
  pattern ex_p = [64; 42; 107; 37; 49; 61; 38; 44; 123; 50; 92; 100; 125; 63; 40; 44; 120; 41; 42; 33; 92; 115; 91; 121; 122; 93] /\
  (exists e', match_ext2 99 ex_m 100 200 quiet = Ok (1, e')) /\ (exists e', match_ext2 99 (upd ex_m 112 120) 100 200 quiet = Ok (0, e')).
Proof. split; [sa|]. split; [sa|]. destruct ex_ok as [A B]. split; [exact A|]. split; [exact B|]. split; [reflexivity|]. split; eexists; vm_compute; reflexivity. Qed.

(* ---- C156: what p_match and st_match get ---- *)
(* Missing: as for C155, and a '%' without number behind a '&' with one. *)
Theorem C156_report_partial : forall fuel m text re e s p, str_at m text s -> str_at m re (pattern p) -> zlen s <= INT_MAX -> 0 < text -> supported p s -> start_ok p -> pmc (base e) = None ->
  (length s + length (pattern p) + 2 <= fuel)%nat ->
  (forall a k b, p = a ++ It k (Take None) :: b -> forall i d, In i a -> what i <> Amp (Some d)) ->
  exists r e', match_ext2 fuel m text re e = Ok (r, e') /\ pm (base e') = pm (base e) /\
    ((r = 0 /\ calls (base e') = calls (base e)) \/
     (r = 1 /\ exists l p', (p' = p \/ begun p = Some p') /\ matches false p' s /\ reported p' text s l /\
        (* the calls so far, latest first: the leftmost '%' is reported last *)
        calls (base e') = (if pm (base e) then l ++ calls (base e) else calls (base e)) /\
        match l with
        | [] => stm (base e') = reset (stm (base e))
        | (_, pos, len) :: _ => stm (base e') = match stm (base e) with Some _ => Some (pos, len) | None => None end
        end)).
Proof.
  intros fuel m text re e s p Hs Hp Hm Ht S St He Hf A. destruct (wrap_ok fuel m text re e s p Hs Hp Hm Ht S He Hf) as [o E]. destruct S as (W & F & _). rewrite E.
  assert (K : forall p' l, (p' = p \/ begun p = Some p') -> yrun p' 0 text s = Some l -> matches false p' s /\ reported p' text s l).
  { intros p' l Hp' E'. assert (Ea : exists a, p = a ++ p') by (destruct Hp' as [-> |Hb]; [now exists []|now apply begun_parts]). destruct Ea as [a Ea].
    assert (W' : well_written p') by (rewrite Ea in W; now apply ww_app in W). assert (F' : fits p') by (rewrite Ea in F; now apply fits_app in F).
    split; [apply (yrun_iff p' W' F' s 0 text); congruence|]. apply (yrun_reported (length p') p' 0 text s l); auto. intros b k c Eb. split; [reflexivity|]. intros i d Hi. apply (A (a ++ b) k c); [rewrite Ea, Eb; apply app_assoc|apply in_app_iff; auto]. }
  assert (Y : forall p' l, (p' = p \/ begun p = Some p') -> yrun p' 0 text s = Some l -> exists r e', Ok (1, mk2 (put (xreset (base e)) l) o) = Ok (r, e') /\ pm (base e') = pm (base e) /\
    ((r = 0 /\ calls (base e') = calls (base e)) \/
     (r = 1 /\ exists l p', (p' = p \/ begun p = Some p') /\ matches false p' s /\ reported p' text s l /\
        calls (base e') = (if pm (base e) then l ++ calls (base e) else calls (base e)) /\
        match l with
        | [] => stm (base e') = reset (stm (base e))
        | (_, pos, len) :: _ => stm (base e') = match stm (base e) with Some _ => Some (pos, len) | None => None end
        end))).
  { intros p' l Hp' E'. destruct (K p' l Hp' E') as [K1 K2]. do 2 eexists. split; [reflexivity|]. split; [reflexivity|]. right. split; [reflexivity|]. exists l, p'. split; [exact Hp'|]. split; [exact K1|]. split; [exact K2|]. split; [reflexivity|].
    destruct l as [|[[n pos] len] l]; cbn [MextProofs.put_caps stm MextProofs.first_cap xreset base]; destruct (stm (base e)) as [[]|]; reflexivity. }
  unfold wrun in *. destruct (begun p) as [q|] eqn:Eb.
  - destruct (yrun q 0 text s) as [l|] eqn:Eq; [now apply (Y q); auto|]. destruct (yrun p 0 text s) as [l|] eqn:Ep; [now apply (Y p); auto|]. do 2 eexists. split; [reflexivity|]. split; [reflexivity|]. left. auto.
  - destruct (yrun p 0 text s) as [l|] eqn:Ep; [now apply (Y p); auto|]. do 2 eexists. split; [reflexivity|]. split; [reflexivity|]. left. auto.
Qed.
Print Assumptions C156_report_partial.
(* "&1%b": the '%' has no number and is reported with 1 *)
Theorem C156_number_refuted : exists m text re s p l, str_at m text s /\ str_at m re (pattern p) /\ well_written p /\ matches false p s /\ reported p text s l /\ l = [(0, text + 1, 1)] /\
  forall fuel, (29 < fuel)%nat -> exists e', match_ext2 fuel m text re (mk2 {| pm := true; pmc := None; stm := None; calls := [] |} 0) = Ok (1, e') /\ calls (base e') = [(1, text + 1, 1)].
Proof.
  exists (two [97; 97; 98] [38; 49; 37; 98]), 100, 200, [97; 97; 98], [It false (Amp (Some 1)); It false (Take None); lit 98], [(0, 101, 1)].
  assert (M : matches false [lit 98] [98]) by (apply m_one; [reflexivity|constructor]).
  split; [sa|]. split; [sa|]. split; [ww|]. split; [apply m_amp, (m_take false false None [lit 98] [97] [98]); [discriminate|exact M]|]. split; [|split; [reflexivity|]].
  - apply (r_take [It false (Amp (Some 1))] false None [lit 98] 100 [97] [97] [98] []).
    + intros i n [<-|[]]. discriminate.
    + apply m_amp. constructor.
    + split; [discriminate|]. split; [exact M|]. intros x' b' _ Hx _. destruct x'; [congruence|]. rewrite !zlen_cons. pose proof (zlen_nonneg x'). change (zlen (@nil Z)) with 0. lia.
    + apply r_none. intros i n [<-|[]]. discriminate.
  - intros fuel H. eexists. split; [revert fuel H; code 30|reflexivity].
Qed.
Print Assumptions C156_number_refuted.
(* "%#" and "ab": no match, but p_match is called and st_match is set *)
Theorem C156_no_match_refuted : exists m text re s, str_at m text s /\ str_at m re [37; 35] /\
  forall fuel, (29 < fuel)%nat -> exists e', match_ext2 fuel m text re (mk2 {| pm := true; pmc := None; stm := Some (5, 0); calls := [] |} 0) = Ok (0, e') /\ calls (base e') = [(0, text, zlen s)] /\ stm (base e') = Some (text, zlen s).
Proof.
  exists (two [97; 98] [37; 35]), 100, 200, [97; 98]. split; [sa|]. split; [sa|]. intros fuel H. eexists. split; [revert fuel H; code 30|]. split; reflexivity.
Qed.
Print Assumptions C156_no_match_refuted.
(* "ey" for %1 *)
Example C156_report_ex : str_at ex_m 100 ex_s /\ str_at ex_m 200 (pattern ex_p) /\ supported ex_p ex_s /\ start_ok ex_p /\
  (forall a k b, ex_p = a ++ It k (Take None) :: b -> forall i d, In i a -> what i <> Amp (Some d)) /\
  exists e', match_ext2 99 ex_m 100 200 (mk2 {| pm := true; pmc := None; stm := Some (5, 5); calls := [] |} 0) = Ok (1, e') /\ calls (base e') = [(1, 102, 2)] /\ stm (base e') = Some (102, 2).
Proof.
  split; [sa|]. split; [sa|]. destruct ex_ok as [A B]. split; [exact A|]. split; [exact B|]. split; [|eexists; split; [vm_compute; reflexivity|split; reflexivity]].
  intros a k b E i d Hi. assert (K : In i ex_p) by (rewrite E; apply in_app_iff; auto). intros Hw. unfold ex_p in K. cbn [In] in K. repeat (destruct K as [<-|K]; [discriminate|]). destruct K.
Qed.

(* ---- C157: memory, termination, output ---- *)
(* Missing: patterns with '{'; callbacks that return 1 or more for the last characters; the
   messages for other patterns. *)
Theorem C157_safe_partial : forall fuel m text re e s p, str_at m text s -> str_at m re p -> 0 < text -> ~ In 123 p ->
  (forall f n a b, pmc (base e) = Some f -> s = a ++ b -> b <> [] -> f n (text + zlen a) = 0 \/ f n (text + zlen a) = -1 \/ 1 <= f n (text + zlen a) < zlen b) ->
  (length s + length p + 2 <= fuel)%nat ->
  exists r e', match_ext2 fuel m text re e = Ok (r, e') /\ (r = 0 \/ r = 1) /\ (silent p -> out e' = out e).
Proof.
  intros fuel m text re e s p Hs Hp Ht N CB Hf. unfold match_ext2.
  assert (S0 : MextProofs6.sub text s text s) by (exists []; split; [reflexivity|change (zlen (@nil Z)) with 0; lia]).
  assert (SUB : forall a q re1 e1, p = a ++ q -> str_at m re1 q -> pmc (base e1) = pmc (base e) -> out e1 = out e \/ ~ silent p -> exists v e2, match_sub fuel m text re1 e1 = Ok (v, e2) /\ pmc (base e2) = pmc (base e) /\ (silent p -> out e2 = out e)).
  { intros a q re1 e1 Ea H H1 H2. unfold match_sub. rewrite Ea, app_length in Hf. destruct (y_safe m text s (pmc (base e)) Hs Ht CB fuel text re1 0 (yreset e1) s q S0 H) as (v & e2 & E & _ & B1 & B2); auto; [rewrite Ea in N; now apply not_in_app in N|lia|].
    exists v, e2. split; [exact E|]. split; [exact B1|]. intros Si. destruct H2 as [H2|H2]; [|contradiction]. rewrite <- H2. apply B2. rewrite Ea in Si. now apply silent_app in Si. }
  assert (FIN : forall v e1, pmc (base e1) = pmc (base e) -> (silent p -> out e1 = out e) -> exists r e',
    (if v =? 0 then let* r := match_sub fuel m text re e1 in let '(r, e) := r in Ok (if r =? 0 then 0 else 1, e) else Ok (1, e1)) = Ok (r, e') /\ (r = 0 \/ r = 1) /\ (silent p -> out e' = out e)).
  { intros v e1 H1 H2. destruct (v =? 0); [|exists 1, e1; auto]. unfold match_sub. destruct (y_safe m text s (pmc (base e)) Hs Ht CB fuel text re 0 (yreset e1) s p S0 Hp N H1 Hf) as (v2 & e2 & E & _ & _ & B2). rewrite E, bind_Ok. exists (if v2 =? 0 then 0 else 1), e2. split; [reflexivity|]. split; [destruct (v2 =? 0); auto|].
    intros Si. rewrite <- (H2 Si). now apply B2. }
  ld (MatchProofs5.hd_at _ _ _ Hp). destruct (hd 0 p =? 42) eqn:E42.
  - destruct (MatchProofs5.tl_at _ _ _ Hp ltac:(lia)) as (c & q & Ep & Hq). ld (MatchProofs5.hd_at _ _ _ Hq). destruct (hd 0 q =? 64) eqn:E64.
    + destruct (MatchProofs5.tl_at _ _ _ Hq ltac:(lia)) as (d & r & Eq & Hr). replace (re + 1 + 1) with (re + 2) in Hr by lia. destruct (SUB [c; d] r (re + 2) e) as (v & e2 & E & B1 & B2); auto; [now rewrite Ep, Eq|]. rewrite E, bind_Ok. now apply FIN.
    + assert (hd 0 p =? 64 = false) as -> by lia. rewrite bind_Ok. now apply FIN.
  - rewrite bind_Ok. change (0 =? 64) with false. cbv iota. destruct (hd 0 p =? 64) eqn:E64.
    + destruct (MatchProofs5.tl_at _ _ _ Hp ltac:(lia)) as (d & r & Eq & Hr). destruct (SUB [d] r (re + 1) e) as (v & e2 & E & B1 & B2); auto. rewrite E, bind_Ok. now apply FIN.
    + rewrite bind_Ok. now apply FIN.
Qed.
Print Assumptions C157_safe_partial.
(* "*" writes a message *)
Theorem C157_message_refuted : exists m text re s, str_at m text s /\ str_at m re [42] /\ forall fuel, (9 < fuel)%nat -> exists e', match_ext2 fuel m text re quiet = Ok (1, e') /\ out e' = out quiet + 1.
Proof. exists (two [97] [42]), 100, 200, [97]. split; [sa|]. split; [sa|]. intros fuel H. eexists. split; [revert fuel H; code 10|reflexivity]. Qed.
Print Assumptions C157_message_refuted.
Lemma endless m k : m 201 = Some 42 /\ m 202 = Some 125 /\ m 100 = Some 97 -> forall j count e, count < 0 -> - 2 ^ 31 <= count - Z.of_nat j -> y_rep (fun ret e => call2 (y_loop (S k) m) ret 202 e) j count 100 e = NoFuel.
Proof.
  intros (H1 & H2 & H3). induction j as [|j IH]; intros count e Hc Hb; [reflexivity|]. cbn [y_rep]. replace (count =? 0) with false by lia. unfold call2 at 1. cbn [y_loop]. ld H3. change (97 =? 0) with false. cbv iota.
  unfold y_head. ld H2. change (125 =? 33) with false. change (125 =? 44) with false. cbn [orb]. cbv iota zeta. ld H2. change (125 =? 41) with false. change (125 =? 125) with true. cbv iota. rewrite bind_Ok. change (100 =? 0) with false. cbv iota.
  rewrite iop_ok by (unfold INT_MIN, INT_MAX; lia). rewrite bind_Ok. apply IH; lia.
Qed.
(* "{*}" and "a": no result in 2^31 iterations (then the counter overflows) *)
Theorem C157_endless_refuted : exists m text re, str_at m text [97] /\ str_at m re [123; 42; 125] /\ forall fuel, Z.of_nat fuel < 2 ^ 31 -> match_ext2 fuel m text re quiet = NoFuel.
Proof.
  exists (two [97] [123; 42; 125]), 100, 200. split; [sa|]. split; [sa|]. intros fuel H. unfold match_ext2. set (m := two [97] [123; 42; 125]).
  assert (H0 : m 200 = Some 123) by reflexivity. assert (H1 : m 201 = Some 42) by reflexivity. assert (H2 : m 202 = Some 125) by reflexivity. assert (H3 : m 100 = Some 97) by reflexivity. clearbody m.
  ld H0. change (123 =? 42) with false. cbv iota. rewrite bind_Ok. change (0 =? 64) with false. change (123 =? 64) with false. cbv iota. rewrite bind_Ok. change (0 =? 0) with true. cbv iota. unfold match_sub.
  destruct fuel as [|fuel]; [reflexivity|]. cbn [y_loop]. ld H3. change (97 =? 0) with false. cbv iota. unfold y_head. ld H0. change (123 =? 33) with false. change (123 =? 44) with false. cbn [orb]. cbv iota zeta. ld H0. change (123 =? 41) with false. change (123 =? 125) with false. change (123 =? 123) with true. cbv iota.
  unfold y_count. change (200 + 1) with 201. ld H1. change (42 =? 43) with false. change (42 =? 42) with true. cbv iota. rewrite bind_Ok. change (100 =? 0) with false. cbv iota. change (201 + 1) with 202.
  destruct fuel as [|fuel]; [reflexivity|]. rewrite endless; [reflexivity|auto|lia|lia].
Qed.
Print Assumptions C157_endless_refuted.
(* "&" with a callback that returns RE_MATCH (1) for the text "a" reads behind its end *)
Theorem C157_callback_refuted : exists m text re, str_at m text [97] /\ str_at m re [38] /\
  forall fuel, (9 < fuel)%nat -> match_ext2 fuel m text re (mk2 {| pm := false; pmc := Some (fun _ _ => 1); stm := None; calls := [] |} 0) = Fault.
Proof. exists (two [97] [38]), 100, 200. split; [sa|]. split; [sa|]. code 10. Qed.
Print Assumptions C157_callback_refuted.
(* the pattern "*@a&)![a\" and a callback that takes two characters *)
Example C157_safe_ex : let r := [42; 64; 38; 41; 33; 91; 97; 92] in let m := two [98; 99; 97] r in let f := fun _ t => if t =? 100 then 1 else 0 in let e := mk2 {| pm := false; pmc := Some f; stm := None; calls := [] |} 7 in
  str_at m 100 [98; 99; 97] /\ str_at m 200 r /\ ~ In 123 r /\ silent r /\
  (forall g n a b, pmc (base e) = Some g -> [98; 99; 97] = a ++ b -> b <> [] -> g n (100 + zlen a) = 0 \/ g n (100 + zlen a) = -1 \/ 1 <= g n (100 + zlen a) < zlen b) /\
  match_ext2 99 m 100 200 e = Ok (0, e).
Proof.
  cbv zeta. split; [sa|]. split; [sa|]. split; [cbn; intuition discriminate|]. split; [|split; [|vm_compute; reflexivity]].
  - repeat (split; [cbn; intuition discriminate|]). intros x d. repeat split; intros E; apply (f_equal (@rev Z)) in E; rewrite rev_app_distr in E; discriminate.
  - intros g n a b [= <-] E Hb. destruct a as [|x a]; [right; right; cbn [app] in E; subst b; vm_compute; split; congruence|]. left. rewrite zlen_cons. pose proof (zlen_nonneg a). cbv beta. replace (100 + (zlen a + 1) =? 100) with false by lia. reflexivity.
Qed.
