From Coq Require Import ZifyBool.
From Verif Require Import Base BaseLemmas StrModel StrSpec StrProofs StrProofs2 GetoptModel GetoptSpec GetoptProofs RegetModel RegetSpec.

(* ---- arrays of pointers ---------------------------------------------------------- *)
Lemma aget_ok l1 p l2 i : i = zlen l1 -> aget (l1 ++ p :: l2) i = Ok p.
Proof.
  intros ->. unfold aget. nneg l1. destruct (Z.ltb_spec (zlen l1) 0); [lia|].
  unfold zlen. rewrite Nat2Z.id, nth_error_app2, Nat.sub_diag by lia. reflexivity.
Qed.
Lemma lset_ok l1 p q l2 : lset (l1 ++ p :: l2) (length l1) q = l1 ++ q :: l2.
Proof. induction l1 as [|x l1 IH]; cbn [app lset length]; [reflexivity|]. now rewrite IH. Qed.
Lemma aset_ok l1 p l2 i q : i = zlen l1 -> aset (l1 ++ p :: l2) i q = Ok (l1 ++ q :: l2).
Proof.
  intros ->. unfold aset. nneg l1. nneg l2. rewrite zlen_app, zlen_cons.
  replace ((0 <=? zlen l1) && (zlen l1 <? zlen l1 + (zlen l2 + 1))) with true by lia.
  unfold zlen. now rewrite Nat2Z.id, lset_ok.
Qed.
Lemma shift_ok argc tail : argc < INT_MAX -> forall rest pre x fuel, argc = zlen pre + 1 + zlen rest -> (length rest < fuel)%nat ->
  exists z, shift_loop fuel argc (pre ++ x :: rest ++ tail) (zlen pre + 1) = Ok (pre ++ rest ++ z :: tail).
Proof.
  intros HM. induction rest as [|y r IH]; intros pre x [|fuel] Ha Hf; cbn [length] in Hf; try lia; cbn [shift_loop].
  - rewrite zlen_nil in Ha. replace (zlen pre + 1 <? argc) with false by lia. exists x. reflexivity.
  - rewrite zlen_cons in Ha. nneg r. nneg pre. replace (zlen pre + 1 <? argc) with true by lia.
    replace (pre ++ x :: (y :: r) ++ tail) with ((pre ++ [x]) ++ y :: r ++ tail) by (rewrite <- app_assoc; reflexivity).
    rewrite aget_ok, bind_Ok by (zl; lia).
    replace ((pre ++ [x]) ++ y :: r ++ tail) with (pre ++ x :: y :: r ++ tail) by (rewrite <- app_assoc; reflexivity).
    rewrite aset_ok, bind_Ok by lia. rewrite iop_ok, bind_Ok by (unfold INT_MIN; lia).
    destruct (IH (pre ++ [y]) y fuel) as (z & E); [zl; lia|lia|]. exists z.
    replace (zlen pre + 1 + 1) with (zlen (pre ++ [y]) + 1) by (zl; lia).
    replace (pre ++ y :: y :: r ++ tail) with ((pre ++ [y]) ++ y :: r ++ tail) by (rewrite <- app_assoc; reflexivity).
    rewrite E. rewrite <- app_assoc. reflexivity.
Qed.
Lemma reorder_ok argc tail rest pre x fuel : argc < INT_MAX -> argc = zlen pre + 1 + zlen rest -> (length rest < fuel)%nat ->
  reorder_option fuel argc (pre ++ x :: rest ++ tail) (zlen pre) = Ok (pre ++ rest ++ x :: tail).
Proof.
  intros HM Ha Hf. unfold reorder_option. rewrite aget_ok, bind_Ok by reflexivity. nneg pre. nneg rest.
  rewrite iop_ok, bind_Ok by (unfold INT_MIN; lia). destruct (shift_ok argc tail HM rest pre x fuel Ha Hf) as (z & ->).
  rewrite bind_Ok, app_assoc, aset_ok by (zl; lia). now rewrite <- app_assoc.
Qed.

(* ---- short options --------------------------------------------------------------- *)
Lemma short_os m q c n : 1 <= c < 128 -> c <> 58 -> forall os fuel i, Forall (fun o => alnum (fst o)) os -> str_at m (q + i) (ostr os) ->
  n = i + zlen (ostr os) -> (length (ostr os) < fuel)%nat ->
  short_loop fuel m q n c i = Ok (kind os c).
Proof.
  intros Hc Hc2. induction os as [|[d b] os IH]; intros fuel i F S Hn Hf; (destruct fuel as [|k]; [cbn in Hf; lia|]); cbn [short_loop].
  - cbn [ostr flat_map] in Hn. rewrite zlen_nil in Hn. replace (i <? n) with false by lia. reflexivity.
  - apply Forall_cons_iff in F. destruct F as [Fd F]. cbn [fst] in Fd.
    change (ostr ((d, b) :: os)) with ((d :: if b then [58] else []) ++ ostr os) in *.
    assert (Sd : m (q + i) = Some d) by (cbn in S; tauto). nneg (ostr os).
    assert (Hn2 : n = i + 1 + (if b then 1 else 0) + zlen (ostr os)).
    { rewrite zlen_app, zlen_cons in Hn. destruct b; [change (zlen [58]) with 1 in Hn|rewrite zlen_nil in Hn]; lia. }
    replace (i <? n) with true by (destruct b; lia).
    unfold load at 1. rewrite Sd, bind_Ok, (schar_alnum d Fd). unfold kind. cbn [find fst]. destruct (d =? c) eqn:E.
    + cbn [option_map snd]. destruct b.
      * replace (i + 1 <? n) with true by lia. assert (m (q + i + 1) = Some 58) as M by (cbn in S; tauto).
        unfold load. rewrite M. reflexivity.
      * cbn [app str_at] in S. destruct S as (_ & _ & S). destruct (ostr os) as [|y r] eqn:Eo.
        -- change (zlen []) with 0 in Hn2. replace (i + 1 <? n) with false by lia. reflexivity.
        -- nneg r. rewrite zlen_cons in Hn2. replace (i + 1 <? n) with true by lia. pose proof (ostr_first os F _ _ Eo).
           cbn [str_at] in S. destruct S as (S & _). unfold load. rewrite S, bind_Ok. do 2 f_equal. lia.
    + destruct b.
      * cbn [app str_at] in S. destruct S as (_ & _ & S5 & _ & S). destruct k as [|k]; [cbn in Hf; lia|]. cbn [short_loop].
        replace (i + 1 <? n) with true by lia. unfold load at 1. replace (q + (i + 1)) with (q + i + 1) by lia. rewrite S5, bind_Ok.
        change (schar 58) with 58. replace (58 =? c) with false by lia.
        apply IH; [exact F| |lia|cbn in Hf; lia]. replace (q + (i + 1 + 1)) with (q + i + 1 + 1) by lia. exact S.
      * cbn [app str_at] in S. destruct S as (_ & _ & S). apply IH; [exact F| |lia|cbn in Hf; lia]. replace (q + (i + 1)) with (q + i + 1) by lia. exact S.
Qed.
Lemma short_opt m q c os colon fuel : 1 <= c < 128 -> c <> 58 -> Forall (fun o => alnum (fst o)) os ->
  str_at m q (optstring_of colon os) -> (length (optstring_of colon os) < fuel)%nat ->
  short_loop fuel m q (zlen (optstring_of colon os)) c 0 = Ok (kind os c).
Proof.
  intros Hc Hc2 F S Hf. unfold optstring_of in *. fold (ostr os) in *. destruct colon; cbn [app] in *.
  - cbn [str_at] in S. destruct S as (S & _ & S2). destruct fuel as [|k]; [cbn in Hf; lia|]. cbn [short_loop].
    nneg (ostr os). rewrite zlen_cons. replace (0 <? zlen (ostr os) + 1) with true by lia.
    rewrite Z.add_0_r. unfold load at 1. rewrite S, bind_Ok. change (schar 58) with 58. replace (58 =? c) with false by lia.
    apply short_os; auto; [lia|cbn in Hf; lia].
  - apply short_os; auto. now rewrite Z.add_0_r.
Qed.

(* ---- names ---------------------------------------------------------------------- *)
Lemma same_eq a b : same a b = true <-> a = b.
Proof. unfold same. destruct (list_eq_dec Z.eq_dec a b); split; congruence. Qed.
Lemma prefix_firstn a : forall b, prefix a b = true <-> firstn (length a) b = a.
Proof.
  induction a as [|x a IH]; intros b; cbn [prefix length firstn]; [tauto|].
  destruct b as [|y b]; [split; discriminate|]. rewrite Bool.andb_true_iff, IH. split.
  - intros [E ->]. f_equal. lia.
  - intros E. injection E as -> ->. split; [lia|reflexivity].
Qed.
Lemma prefix_same a b : length a = length b -> prefix a b = same b a.
Proof.
  intros E. apply Bool.eq_true_iff_eq. rewrite prefix_firstn, same_eq. rewrite firstn_all2 by lia. tauto.
Qed.
Lemma prefix_len a : forall b, prefix a b = true -> (length a <= length b)%nat.
Proof.
  induction a as [|x a IH]; intros [|y b]; cbn; try lia; try discriminate. intros H. apply Bool.andb_true_iff in H.
  destruct H as [_ H]. apply IH in H. lia.
Qed.
Lemma lexcmp_0 a : forall b, lexcmp a b = 0 <-> a = b.
Proof.
  induction a as [|x a IH]; intros [|y b]; cbn [lexcmp]; try (split; [discriminate|congruence]); [tauto|].
  destruct (Z.ltb_spec x y); [split; [discriminate|intros E; injection E; lia]|].
  destruct (Z.ltb_spec y x); [split; [discriminate|intros E; injection E; lia]|]. rewrite IH. split; [|congruence].
  intros ->. f_equal. lia.
Qed.
Lemma src_str m p s n : str_at m p s -> src_ok m p s n.
Proof.
  intros H. pose proof (str_at_range _ _ _ H) as R. split; [|split; [exact R|]].
  - revert p n H. clear R. induction s as [|x s IH]; intros p n H; [now rewrite firstn_nil|].
    destruct (Z.to_nat n) as [|k] eqn:E; [exact I|]. cbn [firstn bytes_at str_at] in *. split; [tauto|].
    specialize (IH (p + 1) (Z.of_nat k)). rewrite Nat2Z.id in IH. apply IH. tauto.
  - intros _. apply str_at_end. exact H.
Qed.

(* the first |w| bytes of the string at p are w *)
Lemma cmp_name m fuel p q w v n : str_at m p (w ++ v) -> str_at m q n -> zlen w <= INT_MAX -> (length (w ++ v) < fuel)%nat ->
  exists x, strncmp fuel m p q (zlen w) = Ok x /\ (x =? 0) = prefix w n.
Proof.
  intros Sp Sq Hl Hf. nneg w. destruct (strncmp_ok (w ++ v) n fuel m p q (zlen w)) as (x & E & Sx); auto using src_str.
  exists x. split; [exact E|]. unfold zlen in Sx. rewrite Nat2Z.id, firstn_app, Nat.sub_diag, firstn_all, firstn_O, app_nil_r in Sx.
  destruct (prefix w n) eqn:P.
  - apply prefix_firstn in P. assert (lexcmp w (firstn (length w) n) = 0) by (now apply lexcmp_0). lia.
  - assert (x <> 0); [|lia]. intros ->. assert (L : lexcmp w (firstn (length w) n) = 0) by (rewrite <- Sx; reflexivity).
    apply lexcmp_0 in L. symmetry in L. apply prefix_firstn in L. congruence.
Qed.

(* what the loop over the names finds *)
Fixpoint scan (ns : list str) (w : str) (i mi : Z) : option Z :=
  match ns with
  | [] => Some mi
  | n :: r =>
      if same n w then Some i
      else if prefix w n then if 0 <=? mi then None else scan r w (i + 1) i
      else scan r w (i + 1) mi
  end.
Lemma long_ok m fuel cur w v : str_at m (cur + 2) (w ++ v) -> zlen w <= INT_MAX -> (length (w ++ v) < fuel)%nat ->
  forall ls ns i mi, table m ls ns -> Forall (fun n => (length n < fuel)%nat) ns -> 0 <= i -> i + zlen ls <= INT_MAX ->
  long_loop fuel m cur (zlen w) ls i mi = Ok (scan ns w i mi).
Proof.
  intros Sc Hw Hf. induction ls as [|o ls IH]; intros ns i mi T F Hi Hl; inversion T as [|a n b ns' H1 H2]; subst; [reflexivity|].
  apply Forall_cons_iff in F. destruct F as [F1 F2]. destruct H1 as ((N0 & N1 & N2) & _). cbn [long_loop scan].
  nneg ls. rewrite zlen_cons in Hl.
  rewrite (strlen_ok n), bind_Ok by (auto; lia).
  destruct (cmp_name m fuel (cur + 2) (lname o) w v n Sc N1 Hw Hf) as (x & Ex & Px).
  assert (X : (let* exact := (if zlen n =? zlen w then
       let* x := strncmp fuel m (cur + 2) (lname o) (zlen n) in Ok (x =? 0) else Ok false) in Ok exact) = Ok (same n w)).
  { destruct (Z.eqb_spec (zlen n) (zlen w)) as [E|E].
    - rewrite E, Ex, !bind_Ok, Px. f_equal. apply prefix_same. unfold zlen in E. lia.
    - rewrite bind_Ok. f_equal. symmetry. apply Bool.not_true_iff_false. rewrite same_eq. intros ->. lia. }
  destruct (if zlen n =? zlen w then _ else _) as [e| |] eqn:EE; try discriminate X. injection X as ->. rewrite bind_Ok. clear EE.
  destruct (same n w) eqn:SM; [reflexivity|].
  assert (X : (let* part := (if zlen w <? zlen n then
       let* x := strncmp fuel m (cur + 2) (lname o) (zlen w) in Ok (x =? 0) else Ok false) in Ok part) = Ok (prefix w n)).
  { destruct (Z.ltb_spec (zlen w) (zlen n)) as [E|E].
    - rewrite Ex, !bind_Ok, Px. reflexivity.
    - rewrite bind_Ok. f_equal. symmetry. apply Bool.not_true_iff_false. intros P. pose proof (prefix_len _ _ P) as L.
      rewrite prefix_same, SM in P by (unfold zlen in E; lia). discriminate. }
  destruct (if zlen w <? zlen n then _ else _) as [e| |] eqn:EE; try discriminate X. injection X as ->. rewrite bind_Ok. clear EE.
  destruct (prefix w n).
  - destruct (0 <=? mi); [reflexivity|]. rewrite iop_ok, bind_Ok by (unfold INT_MIN; lia). apply IH; auto; lia.
  - rewrite iop_ok, bind_Ok by (unfold INT_MIN; lia). apply IH; auto; lia.
Qed.

Lemma scan_found ns w : forall i mi, mi < 0 -> 0 <= i -> (In w ns -> (length (filter (prefix w) (early ns w)) <= 1)%nat) ->
  match exact ns w i with
  | Some k => scan ns w i mi = Some k
  | None => match candidates ns w i with
            | [] => scan ns w i mi = Some mi
            | [k] => scan ns w i mi = Some k
            | _ => scan ns w i mi = None
            end
  end.
Proof.
  assert (B : forall ns i mi, 0 <= mi -> (In w ns -> filter (prefix w) (early ns w) = []) ->
    match exact ns w i with
    | Some k => scan ns w i mi = Some k
    | None => match candidates ns w i with [] => scan ns w i mi = Some mi | _ => scan ns w i mi = None end
    end).
  { clear. induction ns as [|n ns IH]; intros i mi Hm O; cbn [exact candidates scan early] in *; [reflexivity|].
    destruct (same n w) eqn:S; [reflexivity|]. assert (D : n <> w) by (intros E; apply same_eq in E; congruence).
    cbn [filter] in O. destruct (prefix w n) eqn:P.
    - replace (0 <=? mi) with true by lia. destruct (exact ns w (i + 1)) eqn:E; [|reflexivity]. exfalso.
      assert (In w ns). { clear - E. revert i z E. induction ns as [|a ns IH]; intros i z E; [discriminate|]. cbn in E.
        destruct (same a w) eqn:S; [apply same_eq in S; left; auto|right; eapply IH; eauto]. }
      discriminate (O (or_intror H)).
    - apply IH; auto. intros I. apply O. right. exact I. }
  induction ns as [|n ns IH]; intros i mi Hm Hi O; cbn [exact candidates scan early] in *; [reflexivity|].
  destruct (same n w) eqn:S; [reflexivity|]. assert (D : n <> w) by (intros E; apply same_eq in E; congruence).
  cbn [filter] in O. destruct (prefix w n) eqn:P.
  - replace (0 <=? mi) with false by lia. assert (O' : In w ns -> filter (prefix w) (early ns w) = []).
    { intros I. specialize (O (or_intror I)). cbn [length] in O. destruct (filter (prefix w) (early ns w)); [reflexivity|cbn in O; lia]. }
    specialize (B ns (i + 1) i Hi O'). destruct (exact ns w (i + 1)); [exact B|]. destruct (candidates ns w (i + 1)) as [|y [|z l]]; exact B.
  - apply IH; auto; try lia. intros I. apply O. right. exact I.
Qed.
Lemma scan_resolve ns w : (In w ns -> (length (filter (prefix w) (early ns w)) <= 1)%nat) ->
  match resolve ns w with
  | Some k => scan ns w 0 (-1) = Some k
  | None => scan ns w 0 (-1) = None \/ scan ns w 0 (-1) = Some (-1)
  end.
Proof.
  intros O. pose proof (scan_found ns w 0 (-1) ltac:(lia) ltac:(lia) O) as H. unfold resolve. destruct (exact ns w 0); [exact H|].
  destruct (candidates ns w 0) as [|k [|y l]]; auto.
Qed.
Lemma exact_range ns w : forall i k, exact ns w i = Some k -> i <= k < i + zlen ns /\ nth_error ns (Z.to_nat (k - i)) = Some w.
Proof.
  induction ns as [|n ns IH]; intros i k E; [discriminate|]. cbn [exact] in E. rewrite zlen_cons. nneg ns. destruct (same n w) eqn:S.
  - injection E as <-. apply same_eq in S. subst. rewrite Z.sub_diag. split; [lia|reflexivity].
  - apply IH in E. destruct E as [R N]. split; [lia|]. replace (Z.to_nat (k - i)) with (Datatypes.S (Z.to_nat (k - (i + 1)))) by lia. exact N.
Qed.
Lemma cand_range ns w : forall i k, In k (candidates ns w i) -> i <= k < i + zlen ns.
Proof.
  induction ns as [|n ns IH]; intros i k E; [destruct E|]. cbn [candidates] in E. rewrite zlen_cons. nneg ns. destruct (prefix w n).
  - destruct E as [<-|E]; [lia|]. apply IH in E. lia.
  - apply IH in E. lia.
Qed.
Lemma resolve_range ns w k : resolve ns w = Some k -> 0 <= k < zlen ns.
Proof.
  unfold resolve. destruct (exact ns w 0) eqn:E; [intros H; injection H as <-; apply exact_range in E; lia|].
  destruct (candidates ns w 0) as [|j [|y l]] eqn:C; try discriminate. intros H. injection H as <-.
  pose proof (cand_range ns w 0 j). rewrite C in H. specialize (H (or_introl eq_refl)). lia.
Qed.

(* name[=value] *)
Lemma split_spec w : forall n v, split_eq w = (n, v) ->
  ~ In 61 n /\ match v with None => w = n | Some x => w = n ++ 61 :: x end.
Proof.
  induction w as [|c w IH]; intros n v E; cbn [split_eq] in E; [injection E as <- <-; auto|].
  destruct (Z.eqb_spec c 61) as [->|D]; [injection E as <- <-; cbn; auto|].
  destruct (split_eq w) as [n' v'] eqn:E'. injection E as <- <-. destruct (IH _ _ eq_refl) as [H1 H2]. split.
  - intros [K|K]; [lia|auto].
  - destruct v'; cbn; now f_equal.
Qed.
