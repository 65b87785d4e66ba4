(* removeccomments: comments on lines of their own. *)
From Verif Require Import Base BaseLemmas RmcModel RmcSpec RmcProofs1 RmcProofs2.
From Coq Require Import ZifyBool.

(* do_line from line 159 of the source on *)
Definition fin (fuel : nat) (m : mem) (f : flags) (ptr start len j : Z) (q : bool) (cms : Z) (null : bool) : res (Z * flags * option (Z * Z)) :=
  let* c := load m (ptr + len - 1) in
  let prev' := (c =? 92) && (0 <? len) in
  let i := ptr + len in
  let* c := load m i in
  let* i := (if c =? 13 then let* d := load m (i + 1) in Ok (if d =? 10 then i + 1 else i) else Ok i) in
  let* len := trim fuel m ptr len in
  let* (j, q, cms, cc, null2) := rest_of_line fuel m ptr start len j q cms (fcc f) in
  let null := null || null2 in
  let* c := load m (ptr + start) in
  let* d := (if c =? 47 then load m (ptr + start + 1) else Ok 0) in
  let (len, null) :=
    if (c =? 47) && (d =? 42) then (len, null || negb (cms =? 0) || (j =? len))
    else if negb (cms =? 0) then (cms - 1, null) else (len, null) in
  Ok (i, {| fq := prev' && q; fcms := cms; fcc := prev' && cc; prev := prev' |},
      if null then None else Some (ptr, len)).

(* leaving the loop at the end *)
Lemma rest_end' (m : mem) k ptr start t j q cms cc : t <= j -> (0 < k)%nat -> rest_of_line k m ptr start t j q cms cc = Ok (j, q, cms, cc, false).
Proof. intros H K. destruct k; [lia|]. cbn [rest_of_line]. destruct (Z.ltb_spec j t); [lia|reflexivity]. Qed.

Section Line.
Variables (m : mem) (lo n ptr0 L e : Z) (fuel : nat).
Hypothesis R : room m lo n.
Hypothesis A : lo < ptr0.
Hypothesis B : ptr0 + L < lo + n.
Hypothesis B' : at_ m (ptr0 + L) = 13 -> ptr0 + L + 1 < lo + n.
Hypothesis LA : line_at m ptr0 L e.
Hypothesis F : L + 8 < Z.of_nat fuel.
Notation at0 := (at_ m).
Ltac ld := rewrite (load_at m lo n) by (assumption || lia); rewrite ?bind_Ok.

Lemma fin_eq f ptr start len j q cms null : ptr0 <= ptr -> ptr + len = ptr0 + L -> 0 <= start <= len ->
  exists t, 0 <= t <= len /\ (forall x, t <= x < len -> small (at0 (ptr + x)) = true) /\ (0 < t -> small (at0 (ptr + t - 1)) = false) /\
  plain (at0 (ptr + t)) /\
  forall jf q' cms' cc' nl, rest_of_line fuel m ptr start t j q cms (fcc f) = Ok (jf, q', cms', cc', nl) ->
    let pv := (at0 (ptr + len - 1) =? 92) && (0 <? len) in
    fin fuel m f ptr start len j q cms null =
      Ok (e, {| fq := pv && q'; fcms := cms'; fcc := pv && cc'; prev := pv |},
          let (len', null') :=
            if (at0 (ptr + start) =? 47) && (at0 (ptr + start + 1) =? 42) then (t, (null || nl) || negb (cms' =? 0) || (jf =? t))
            else if negb (cms' =? 0) then (cms' - 1, null || nl) else (t, null || nl) in
          if null' then None else Some (ptr, len')).
Proof.
  intros P1 P2 P3. pose proof (line_at_end _ _ _ _ LA) as E. destruct LA as (L0 & N & T).
  destruct (trim_ok m lo n R ptr ltac:(lia) fuel len) as (t & T1 & T2 & T3 & T4); try lia.
  exists t. split; [assumption|]. split; [assumption|]. split; [assumption|]. split.
  { apply small_plain. destruct (Z.eq_dec t len) as [->|]; [rewrite P2; apply eol_small; assumption|apply T3; lia]. }
  intros jf q' cms' cc' nl K. cbv zeta. unfold fin. ld. ld. rewrite P2.
  assert ((if at_ m (ptr0 + L) =? 13 then let* d := load m (ptr0 + L + 1) in Ok (if d =? 10 then ptr0 + L + 1 else ptr0 + L)
                     else Ok (ptr0 + L)) = Ok e) as I1.
  { destruct T as [(W1 & ->)|[(W1 & W2 & ->)|(W1 & W2 & ->)]].
    - rewrite W1. reflexivity.
    - rewrite W1. cbn [Z.eqb Pos.eqb]. ld. rewrite W2. reflexivity.
    - rewrite W1. cbn [Z.eqb Pos.eqb]. ld. destruct (Z.eqb_spec (at_ m (ptr0 + L + 1)) 10); [contradiction|]. reflexivity. }
  cbv zeta. rewrite I1, bind_Ok, T1, bind_Ok, K, bind_Ok. ld.
  destruct (Z.eqb_spec (at_ m (ptr + start)) 47) as [X|X].
  - assert (start <> len). { intros ->. rewrite P2 in X. rewrite X in E. discriminate E. }
    ld. cbn [andb]. destruct (at_ m (ptr + start + 1) =? 42); [reflexivity|]. destruct (negb (cms' =? 0)); reflexivity.
  - rewrite bind_Ok. cbn [andb]. destruct (negb (cms' =? 0)); reflexivity.
Qed.

(* the first part of the line *)
Lemma do_line_fin f : fq f = false -> fcc f = false ->
  exists st, 0 <= st <= L /\ (st < L -> small (at0 (ptr0 + st)) = false) /\ (forall x, 0 <= x < st -> small (at0 (ptr0 + x)) = true) /\
   (fcms f = 0 -> do_line fuel m ptr0 f = fin fuel m f ptr0 st L st false 0 false) /\
   (fcms f <> 0 -> forall j, match_cms fuel m ptr0 st L = Ok (false, j) -> do_line fuel m ptr0 f = fin fuel m f ptr0 st L j false (fcms f) true) /\
   (fcms f <> 0 -> forall j j2, match_cms fuel m ptr0 st L = Ok (true, j) -> seek (fun c => negb (small c)) fuel m (ptr0 + j) 0 (L - j) = Ok j2 ->
      do_line fuel m ptr0 f = fin fuel m f (ptr0 + j) j2 (L - j) j2 false 0 false).
Proof.
  intros Q C. pose proof (line_at_end _ _ _ _ LA) as E. destruct LA as (L0 & N & T).
  destruct (lead_ok m lo n R ptr0 L) with (fuel := fuel) (j := 0) as (st & H1 & H2 & H3 & H4); try lia; auto.
  exists st. split; [lia|]. split.
  { intros X. destruct (H3 X) as [Y|Y]; [assumption|]. rewrite N in Y by lia. discriminate. }
  split; [assumption|].
  assert (LE : line_end fuel m ptr0 st = Ok L) by (apply (line_end_ok m lo n R ptr0 L); auto; lia).
  unfold do_line. rewrite H1, bind_Ok, LE, bind_Ok, Q, C, !Bool.andb_false_r, bind_Ok. cbv zeta.
  split; [|split].
  - intros ->. unfold fin. rewrite ?C. reflexivity.
  - intros X j M. destruct (Z.eqb_spec (fcms f) 0); [contradiction|]. cbn [negb]. rewrite M, bind_Ok. rewrite ?C. unfold fin. rewrite ?C. reflexivity.
  - intros X j j2 M S. destruct (Z.eqb_spec (fcms f) 0); [contradiction|]. cbn [negb]. rewrite M, bind_Ok, S, bind_Ok.
    unfold fin. rewrite ?C. reflexivity.
Qed.

(* no comment and no string *)
Lemma rest_plain ptr start t j q : lo < ptr -> 0 <= j -> ptr + t < lo + n -> 0 <= t <= L -> plain (at0 (ptr + t)) ->
  (forall x, 0 <= x < t -> at0 (ptr + x) <> 34 /\ at0 (ptr + x) <> 47) ->
  exists j', rest_of_line fuel m ptr start t j q 0 false = Ok (j', q, 0, false, false).
Proof.
  intros P1 P2 P3 P4 PL N. destruct fuel as [|k] eqn:FK; [lia|]. cbn [rest_of_line].
  destruct (Z.ltb_spec j t); [|eexists; reflexivity].
  destruct (seek_ok m lo n R (fun c => (c =? 34) || (c =? 47)) ptr t k j) as (j1 & S1 & S2 & S3 & S4); try lia.
  rewrite S1, bind_Ok. ld.
  assert (j1 = t). { destruct (Z_lt_dec j1 t) as [X|X]; [|lia]. specialize (S3 X). specialize (N j1 ltac:(lia)). lia. }
  subst j1. destruct PL as (PL1 & PL2 & PL3).
  destruct (Z.eqb_spec (at_ m (ptr + t)) 34); [contradiction|]. destruct (Z.eqb_spec (at_ m (ptr + t)) 47); [contradiction|].
  exists t. apply rest_end'; lia.
Qed.
(* a slash at the first position *)
Lemma rest_slash ptr start t q : lo < ptr -> 0 <= start < t -> t <= L -> ptr + t < lo + n -> at0 (ptr + start) = 47 ->
  exists k, fuel = S k /\
  rest_of_line fuel m ptr start t start q 0 false =
    if at0 (ptr + (start + 1)) =? 42 then
      let* (ok, j2) := match_cms k m ptr (start + 1 + 1) t in
      if ok then rest_of_line k m ptr start t j2 q 0 false else Ok (j2, q, start + 1, false, false)
    else if at0 (ptr + (start + 1)) =? 47 then Ok (start + 1, q, 0, true, true)
    else rest_of_line k m ptr start t (start + 1) q 0 false.
Proof.
  intros P1 P2 P3 P4 S. destruct fuel as [|k] eqn:FK; [lia|]. exists k. split; [reflexivity|]. cbn [rest_of_line].
  destruct (Z.ltb_spec start t); [|lia].
  destruct (seek_ok m lo n R (fun c => (c =? 34) || (c =? 47)) ptr t k start) as (j1 & S1 & S2 & S3 & S4); try lia.
  rewrite S1, bind_Ok.
  assert (j1 = start). { destruct (Z.eq_dec j1 start) as [X|X]; [assumption|]. specialize (S4 start ltac:(lia)). rewrite S in S4. discriminate. }
  subst j1. ld. rewrite S. cbn [Z.eqb Pos.eqb]. cbv zeta. ld. rewrite Z.eqb_refl. reflexivity.
Qed.
End Line.

(* ---- lists ---- *)
Lemma rstrip_app r s : Forall (fun c => c <= 32) s -> (r = [] \/ exists a c, r = a ++ [c] /\ 32 < c) -> rstrip (r ++ s) = r.
Proof.
  intros S. induction r as [|c r IH]; intros H.
  - cbn [app]. induction S as [|c s Hc S IHs]; [reflexivity|]. cbn [rstrip]. rewrite IHs. destruct (Z.leb_spec c 32); [reflexivity|lia].
  - destruct H as [H|(a & d & H & Hd)]; [discriminate|]. cbn [app rstrip].
    destruct r as [|c' r].
    + assert (IHe : rstrip ([] ++ s) = []) by (apply IH; left; reflexivity). rewrite IHe.
      destruct a as [|z a]; [|destruct a; discriminate]. injection H as ->. destruct (Z.leb_spec d 32); [lia|reflexivity].
    + rewrite IH.
      * reflexivity.
      * right. destruct a as [|z a]; [discriminate|]. injection H as -> H. exists a, d. split; assumption.
Qed.
Lemma no_end_at m p s i : bytes_at m p s -> no_end s -> 0 <= i -> i + 1 < zlen s -> ~ (at_ m (p + i) = 42 /\ at_ m (p + i + 1) = 47).
Proof.
  intros Bs N H1 H2 [X Y]. apply N.
  exists (firstn (Z.to_nat i) s).
  assert (Hn : forall k, 0 <= k < zlen s -> nth_error s (Z.to_nat k) = Some (at_ m (p + k))).
  { intros k K. destruct (nth_error s (Z.to_nat k)) as [c|] eqn:E.
    - pose proof (at_bytes _ _ _ _ _ Bs E) as Q. rewrite Z2Nat.id in Q by lia. rewrite Q. reflexivity.
    - apply nth_error_None in E. unfold zlen in K. lia. }
  pose proof (Hn i ltac:(lia)) as N1. pose proof (Hn (i + 1) ltac:(lia)) as N2.
  rewrite Z.add_assoc, Y in N2. rewrite X in N1.
  apply nth_error_split in N1. destruct N1 as (l1 & l2 & E & Ln). rewrite <- Ln.
  replace (Z.to_nat (i + 1)) with (S (length l1)) in N2 by lia. rewrite E in N2.
  rewrite nth_error_app2 in N2 by lia. replace (S (length l1) - length l1)%nat with 1%nat in N2 by lia. cbn [nth_error] in N2.
  destruct l2 as [|d l2]; [discriminate|]. injection N2 as ->. exists l2.
  rewrite E, firstn_app, Nat.sub_diag, firstn_all. cbn [firstn]. rewrite app_nil_r. reflexivity.
Qed.
Definition ascii (c : Z) : Prop := 1 <= c <= 127.
Lemma small_ascii c : ascii c -> small c = (c <=? 32).
Proof. unfold ascii, small. intros H. rewrite schar_low by lia. reflexivity. Qed.
Lemma blank_small c : c = 32 \/ c = 9 -> small c = true.
Proof. intros [-> | ->]; reflexivity. Qed.

(* the state between two lines *)
Definition quiet (f : flags) : Prop := fq f = false /\ fcc f = false /\ fcms f = 0.
Definition inside (f : flags) : Prop := fq f = false /\ fcc f = false /\ fcms f <> 0.
(* lines from the middle of a comment on *)
Inductive inside_comment : list (list Z) -> list (list Z) -> Prop :=
| ic_mid l ls os : no_end l -> inside_comment ls os -> inside_comment (l :: ls) ([] :: os)
| ic_end y b' ls os : no_end (y ++ [42]) -> blanks b' -> without_comments ls os -> inside_comment ((y ++ 42 :: 47 :: b') :: ls) ([] :: os).
Definition Inv (f : flags) (ls os : list (list Z)) : Prop :=
  (quiet f /\ without_comments ls os) \/ (inside f /\ inside_comment ls os).

Section Steps.
Variables (m : mem) (lo n ptr e : Z) (l : list Z) (fuel : nat).
Hypothesis R : room m lo n.
Hypothesis A : lo < ptr.
Hypothesis B : ptr + zlen l < lo + n.
Hypothesis B' : at_ m (ptr + zlen l) = 13 -> ptr + zlen l + 1 < lo + n.
Hypothesis LA : line_at m ptr (zlen l) e.
Hypothesis F : zlen l + 8 < Z.of_nat fuel.
Hypothesis Bl : bytes_at m ptr l.
Hypothesis PA : Forall ascii l.

Lemma start_at b c r st : l = b ++ c :: r -> blanks b -> small c = false ->
  0 <= st <= zlen l -> (st < zlen l -> small (at_ m (ptr + st)) = false) -> (forall x, 0 <= x < st -> small (at_ m (ptr + x)) = true) -> st = zlen b.
Proof using All.
  intros -> Hb Hc H1 H2 H3. rewrite zlen_app, zlen_cons in *. nneg b. nneg r.
  pose proof (at_app _ _ _ _ _ Bl) as AT. apply bytes_at_app in Bl. destruct Bl as [Bb _].
  destruct (Z_lt_dec st (zlen b)) as [X|X].
  - specialize (H2 ltac:(lia)). pose proof (Forall_at m ptr b _ Bb Hb st ltac:(lia)) as Q. cbn beta in Q. apply blank_small in Q. congruence.
  - destruct (Z_lt_dec (zlen b) st) as [Y|Y]; [|lia]. specialize (H3 (zlen b) ltac:(nneg b; lia)). rewrite AT in H3. congruence.
Qed.

Lemma step_code f : quiet f -> Forall (fun c => c <> 47 /\ c <> 34) l ->
  exists f' o, do_line fuel m ptr f = Ok (e, f', o) /\ placed1 ptr l o (rstrip l) /\ quiet f'.
Proof using All.
  intros (Q1 & Q2 & Q3) NL. nneg l.
  destruct (do_line_fin m lo n ptr (zlen l) e fuel R A B LA F f Q1 Q2) as (st & S1 & S2 & S3 & S4 & _). rewrite (S4 Q3). clear S4.
  destruct (fin_eq m lo n ptr (zlen l) e fuel R A B B' LA F f ptr st (zlen l) st false 0 false) as (t & T1 & T2 & T3 & T4 & T5); try lia.
  assert (NA : forall x, 0 <= x < zlen l -> at_ m (ptr + x) <> 47 /\ at_ m (ptr + x) <> 34)
    by (apply (Forall_at m ptr l (fun c => c <> 47 /\ c <> 34)); assumption).
  destruct (rest_plain m lo n (zlen l) fuel R F ptr st t st false) as (j' & K); auto; try lia.
  rewrite Q2 in T5. specialize (T5 _ _ _ _ _ K). cbv zeta in T5. rewrite T5. clear T5.
  assert (AS : at_ m (ptr + st) <> 47).
  { destruct (Z.eq_dec st (zlen l)) as [->|]; [|apply NA; lia]. pose proof (line_at_end _ _ _ _ LA) as E. intros X. rewrite X in E. discriminate. }
  destruct (Z.eqb_spec (at_ m (ptr + st)) 47); [contradiction|]. cbn [andb negb Z.eqb orb].
  do 2 eexists. split; [reflexivity|]. split; [|repeat split; cbn [fq fcc fcms]; rewrite ?Bool.andb_false_r; reflexivity].
  (* the piece *)
  set (r := firstn (Z.to_nat t) l). set (s := skipn (Z.to_nat t) l).
  assert (El : l = r ++ s) by (symmetry; apply firstn_skipn).
  assert (Zr : zlen r = t) by (unfold r; rewrite zlen_firstn; lia).
  assert (RS : rstrip l = r).
  { rewrite El. pose proof Bl as Bl2. pose proof PA as PA2. rewrite El in Bl2, PA2. apply bytes_at_app in Bl2. destruct Bl2 as [Br Bs].
    apply Forall_app in PA2. destruct PA2 as [PAr PAs]. rewrite Zr in Bs.
    assert (Zs : t + zlen s = zlen l) by (rewrite <- Zr, El, zlen_app; reflexivity).
    apply rstrip_app.
    - apply Forall_forall. intros c Hc. apply In_nth_error in Hc. destruct Hc as [k Hk].
      pose proof (at_bytes _ _ _ _ _ Bs Hk) as Q. assert (k < length s)%nat by (apply nth_error_Some; congruence).
      assert (Z.of_nat k < zlen s) by (unfold zlen; lia).
      specialize (T2 (t + Z.of_nat k) ltac:(lia)). rewrite Z.add_assoc, Q in T2.
      rewrite small_ascii in T2; [lia|]. rewrite Forall_forall in PAs. apply PAs. apply nth_error_In in Hk. assumption.
    - clearbody r s. destruct r as [|c0 r0] eqn:Er0; [left; reflexivity|]. right.
      destruct (@exists_last _ (c0 :: r0)) as (a & c & Hac); [discriminate|]. exists a, c. split; [assumption|].
      rewrite Hac in Br, Zr, PAr. rewrite zlen_app, zlen_cons, zlen_nil in Zr. nneg a.
      pose proof (at_app _ _ _ _ _ Br) as Q. specialize (T3 ltac:(lia)). replace (ptr + t - 1) with (ptr + zlen a) in T3 by lia. rewrite Q in T3.
      apply Forall_app in PAr. destruct PAr as [_ PAr]. inversion PAr; subst. rewrite small_ascii in T3 by assumption. lia. }
  rewrite RS. exists [], s. split; [exact El|]. split; [rewrite zlen_nil; lia|lia].
Qed.

(* positions in a comment line *)
Lemma comment_start b d r st : l = b ++ 47 :: d :: r -> blanks b ->
  0 <= st <= zlen l -> (st < zlen l -> small (at_ m (ptr + st)) = false) -> (forall x, 0 <= x < st -> small (at_ m (ptr + x)) = true) ->
  st = zlen b /\ at_ m (ptr + st) = 47 /\ at_ m (ptr + (st + 1)) = d /\ st + 2 + zlen r = zlen l /\ bytes_at m (ptr + (st + 1 + 1)) r.
Proof using All.
  intros E Hb H1 H2 H3. assert (st = zlen b) as -> by (apply (start_at b 47 (d :: r)); auto).
  split; [reflexivity|]. pose proof Bl as Q. rewrite E in Q. rewrite E, zlen_app, !zlen_cons.
  split; [apply (at_app _ _ _ _ _ Q)|]. apply bytes_at_app in Q. destruct Q as [_ [_ [Q1 Q2]]].
  split; [unfold at_; rewrite Z.add_assoc, Q1; reflexivity|]. split; [lia|]. rewrite !Z.add_assoc. assumption.
Qed.

Lemma step_line f b x : quiet f -> l = b ++ 47 :: 47 :: x -> blanks b -> last x 0 <> 92 ->
  exists f', do_line fuel m ptr f = Ok (e, f', None) /\ quiet f'.
Proof using All.
  intros (Q1 & Q2 & Q3) El Hb Hx. nneg l.
  destruct (do_line_fin m lo n ptr (zlen l) e fuel R A B LA F f Q1 Q2) as (st & S1 & S2 & S3 & S4 & _). rewrite (S4 Q3). clear S4.
  destruct (fin_eq m lo n ptr (zlen l) e fuel R A B B' LA F f ptr st (zlen l) st false 0 false) as (t & T1 & T2 & T3 & T4 & T5); try lia.
  destruct (comment_start b 47 x st El Hb S1 S2 S3) as (C1 & C2 & C3 & C4 & C5). nneg x.
  assert (TS : st + 1 < t).
  { destruct (Z_lt_dec (st + 1) t) as [X|X]; [assumption|]. specialize (T2 (st + 1) ltac:(lia)). rewrite C3 in T2. discriminate. }
  destruct (rest_slash m lo n (zlen l) fuel R F ptr st t false) as (k & K1 & K2); auto; try lia.
  rewrite C3 in K2. cbn [Z.eqb Pos.eqb] in K2. rewrite Q2 in T5. specialize (T5 _ _ _ _ _ K2). cbv zeta in T5. rewrite T5. clear T5.
  rewrite C2. replace (ptr + st + 1) with (ptr + (st + 1)) by lia. rewrite C3. cbn [Z.eqb Pos.eqb andb orb negb].
  eexists. split; [reflexivity|].
  assert (PV : (at_ m (ptr + zlen l - 1) =? 92) && (0 <? zlen l) = false).
  { apply Bool.andb_false_iff. left. apply Z.eqb_neq. intros X.
    destruct x as [|x0 x1] eqn:Ex.
    - rewrite zlen_nil in C4. replace (ptr + zlen l - 1) with (ptr + (st + 1)) in X by lia. rewrite C3 in X. discriminate.
    - destruct (@exists_last _ (x0 :: x1)) as (a & c & Hac); [discriminate|]. rewrite Hac in *. rewrite last_last in Hx.
      pose proof (at_app _ _ _ _ _ C5) as Q. rewrite zlen_app, zlen_cons, zlen_nil in C4.
      replace (ptr + zlen l - 1) with (ptr + (st + 1 + 1) + zlen a) in X by lia. congruence. }
  rewrite PV. repeat split.
Qed.

Lemma step_block1 f b x b' : quiet f -> l = b ++ 47 :: 42 :: x ++ 42 :: 47 :: b' -> blanks b -> no_end (x ++ [42]) -> blanks b' ->
  exists f', do_line fuel m ptr f = Ok (e, f', None) /\ quiet f'.
Proof using All.
  intros (Q1 & Q2 & Q3) El Hb Hx Hb'. nneg l.
  destruct (do_line_fin m lo n ptr (zlen l) e fuel R A B LA F f Q1 Q2) as (st & S1 & S2 & S3 & S4 & _). rewrite (S4 Q3). clear S4.
  destruct (fin_eq m lo n ptr (zlen l) e fuel R A B B' LA F f ptr st (zlen l) st false 0 false) as (t & T1 & T2 & T3 & T4 & T5); try lia.
  destruct (comment_start b 42 (x ++ 42 :: 47 :: b') st El Hb S1 S2 S3) as (C1 & C2 & C3 & C4 & C5).
  rewrite zlen_app, !zlen_cons in C4. nneg x. nneg b'.
  pose proof (at_app _ _ _ _ _ C5) as W1.
  assert (W : bytes_at m (ptr + (st + 1 + 1)) (x ++ [42]) /\ at_ m (ptr + (st + 1 + 1) + zlen x + 1) = 47 /\ bytes_at m (ptr + (st + 1 + 1) + zlen x + 2) b').
  { change (42 :: 47 :: b') with ([42] ++ 47 :: b') in C5. rewrite app_assoc in C5. pose proof (at_app _ _ _ _ _ C5) as W2.
    rewrite zlen_app, zlen_cons, zlen_nil in W2. apply bytes_at_app in C5. destruct C5 as [D1 [_ D2]]. rewrite zlen_app, zlen_cons, zlen_nil in D2.
    split; [assumption|]. split; [rewrite <- W2; f_equal; lia|]. replace (ptr + (st + 1 + 1) + zlen x + 2) with (ptr + (st + 1 + 1) + (zlen x + (0 + 1)) + 1) by lia. assumption. }
  destruct W as (W2 & W3 & W4).
  assert (TE : t = st + 4 + zlen x).
  { assert (st + 3 + zlen x < t).
    { destruct (Z_lt_dec (st + 3 + zlen x) t) as [X|X]; [assumption|]. specialize (T2 (st + 3 + zlen x) ltac:(lia)).
      replace (ptr + (st + 3 + zlen x)) with (ptr + (st + 1 + 1) + zlen x + 1) in T2 by lia. rewrite W3 in T2. discriminate. }
    destruct (Z_lt_dec (st + 4 + zlen x) t) as [X|X]; [|lia]. specialize (T3 ltac:(lia)).
    pose proof (Forall_at m _ b' _ W4 Hb' (t - 1 - (st + 4 + zlen x)) ltac:(lia)) as Y. cbn beta in Y. apply blank_small in Y.
    replace (ptr + (st + 1 + 1) + zlen x + 2 + (t - 1 - (st + 4 + zlen x))) with (ptr + t - 1) in Y by lia. congruence. }
  destruct (rest_slash m lo n (zlen l) fuel R F ptr st t false) as (k & K1 & K2); auto; try lia.
  rewrite C3 in K2. cbn [Z.eqb Pos.eqb] in K2.
  destruct (match_cms_ok m lo n R ptr t k (st + 1 + 1)) as (bb & j & M1 & M2 & M3 & M4 & M5); try lia.
  assert (bb = true /\ j = t) as [-> ->].
  { destruct bb.
    - split; [reflexivity|]. destruct (M3 eq_refl) as (N1 & N2 & N3).
      destruct (Z_lt_dec j t) as [X|X]; [|lia]. exfalso.
      apply (no_end_at m (ptr + (st + 1 + 1)) (x ++ [42]) (j - 2 - (st + 1 + 1)) W2 Hx); [lia|rewrite zlen_app, zlen_cons, zlen_nil; lia|].
      split.
      + rewrite <- N3. f_equal. lia.
      + rewrite <- N2. f_equal. lia.
    - exfalso. specialize (M4 eq_refl). apply (M5 (st + 3 + zlen x)); [lia|].
      split.
      + rewrite <- W3. f_equal. lia.
      + rewrite <- W1. f_equal. lia. }
  rewrite M1, bind_Ok in K2. rewrite (rest_end' m k ptr st t t) in K2 by lia. rewrite Q2 in T5. specialize (T5 _ _ _ _ _ K2). cbv zeta in T5. rewrite T5. clear T5.
  rewrite C2. replace (ptr + st + 1) with (ptr + (st + 1)) by lia. rewrite C3, !Z.eqb_refl. cbn [Z.eqb Pos.eqb andb orb negb].
  eexists. split; [reflexivity|]. repeat split; cbn [fq fcc fcms]; rewrite ?Bool.andb_false_r; reflexivity.
Qed.

Lemma step_open f b x : quiet f -> l = b ++ 47 :: 42 :: x -> blanks b -> no_end x ->
  exists f', do_line fuel m ptr f = Ok (e, f', None) /\ inside f'.
Proof using All.
  intros (Q1 & Q2 & Q3) El Hb Hx. nneg l.
  destruct (do_line_fin m lo n ptr (zlen l) e fuel R A B LA F f Q1 Q2) as (st & S1 & S2 & S3 & S4 & _). rewrite (S4 Q3). clear S4.
  destruct (fin_eq m lo n ptr (zlen l) e fuel R A B B' LA F f ptr st (zlen l) st false 0 false) as (t & T1 & T2 & T3 & T4 & T5); try lia.
  destruct (comment_start b 42 x st El Hb S1 S2 S3) as (C1 & C2 & C3 & C4 & C5). nneg x.
  assert (TS : st + 1 < t).
  { destruct (Z_lt_dec (st + 1) t) as [X|X]; [assumption|]. specialize (T2 (st + 1) ltac:(lia)). rewrite C3 in T2. discriminate. }
  destruct (rest_slash m lo n (zlen l) fuel R F ptr st t false) as (k & K1 & K2); auto; try lia.
  rewrite C3 in K2. cbn [Z.eqb Pos.eqb] in K2.
  destruct (match_cms_ok m lo n R ptr t k (st + 1 + 1)) as (bb & j & M1 & M2 & M3 & M4 & M5); try lia.
  assert (bb = false) as ->.
  { destruct bb; [|reflexivity]. exfalso. destruct (M3 eq_refl) as (N1 & N2 & N3).
    apply (no_end_at m (ptr + (st + 1 + 1)) x (j - 2 - (st + 1 + 1)) C5 Hx); [lia|lia|].
    split.
    - rewrite <- N3. f_equal. lia.
    - rewrite <- N2. f_equal. lia. }
  rewrite M1, bind_Ok in K2. rewrite Q2 in T5. specialize (T5 _ _ _ _ _ K2). cbv zeta in T5. rewrite T5. clear T5.
  rewrite C2. replace (ptr + st + 1) with (ptr + (st + 1)) by lia. rewrite C3, !Z.eqb_refl. cbn [andb orb negb].
  destruct (Z.eqb_spec (st + 1) 0); [lia|]. cbn [negb orb].
  eexists. split; [reflexivity|]. repeat split; cbn [fq fcc fcms]; rewrite ?Bool.andb_false_r; try reflexivity. lia.
Qed.

Lemma step_mid f : inside f -> no_end l -> exists f', do_line fuel m ptr f = Ok (e, f', None) /\ inside f'.
Proof using All.
  intros (Q1 & Q2 & Q3) Hx. nneg l.
  destruct (do_line_fin m lo n ptr (zlen l) e fuel R A B LA F f Q1 Q2) as (st & S1 & S2 & S3 & _ & S5 & _).
  destruct (match_cms_ok m lo n R ptr (zlen l) fuel st) as (bb & j & M1 & M2 & M3 & M4 & M5); try lia.
  assert (bb = false) as ->.
  { destruct bb; [|reflexivity]. exfalso. destruct (M3 eq_refl) as (N1 & N2 & N3).
    apply (no_end_at m ptr l (j - 2) Bl Hx); [lia|lia|].
    split.
    - rewrite <- N3. f_equal. lia.
    - rewrite <- N2. f_equal. lia. }
  rewrite (S5 Q3 j M1). specialize (M4 eq_refl).
  destruct (fin_eq m lo n ptr (zlen l) e fuel R A B B' LA F f ptr st (zlen l) j false (fcms f) true) as (t & T1 & T2 & T3 & T4 & T5); try lia.
  specialize (T5 _ _ _ _ _ (rest_end' m fuel ptr st t j false (fcms f) (fcc f) ltac:(lia) ltac:(lia))). cbv zeta in T5. rewrite T5. clear T5.
  rewrite Q2. destruct ((at_ m (ptr + st) =? 47) && (at_ m (ptr + st + 1) =? 42)).
  - cbn [orb]. eexists. split; [reflexivity|]. repeat split; cbn [fq fcc fcms]; rewrite ?Bool.andb_false_r; try reflexivity. assumption.
  - destruct (negb (fcms f =? 0)); cbn [orb]; (eexists; split; [reflexivity|]; repeat split; cbn [fq fcc fcms]; rewrite ?Bool.andb_false_r; try reflexivity; assumption).
Qed.

Lemma step_close f y b' : inside f -> l = y ++ 42 :: 47 :: b' -> no_end (y ++ [42]) -> blanks b' ->
  exists f' o, do_line fuel m ptr f = Ok (e, f', o) /\ placed1 ptr l o [] /\ quiet f'.
Proof using All.
  intros (Q1 & Q2 & Q3) El Hy Hb'. nneg l.
  destruct (do_line_fin m lo n ptr (zlen l) e fuel R A B LA F f Q1 Q2) as (st & S1 & S2 & S3 & _ & _ & S6).
  assert (ZL : zlen l = zlen y + 2 + zlen b') by (rewrite El, zlen_app, !zlen_cons; lia). nneg y. nneg b'.
  assert (W : bytes_at m ptr (y ++ [42]) /\ at_ m (ptr + zlen y) = 42 /\ at_ m (ptr + zlen y + 1) = 47 /\ bytes_at m (ptr + (zlen y + 2)) b').
  { pose proof Bl as D. rewrite El in D. pose proof (at_app _ _ _ _ _ D) as W1.
    change (42 :: 47 :: b') with ([42] ++ 47 :: b') in D. rewrite app_assoc in D. pose proof (at_app _ _ _ _ _ D) as W2.
    rewrite zlen_app, zlen_cons, zlen_nil in W2. apply bytes_at_app in D. destruct D as [D1 [_ D2]]. rewrite zlen_app, zlen_cons, zlen_nil in D2.
    split; [assumption|]. split; [assumption|]. split; [rewrite <- W2; f_equal; lia|].
    replace (ptr + (zlen y + 2)) with (ptr + (zlen y + (0 + 1)) + 1) by lia. assumption. }
  destruct W as (W1 & W2 & W3 & W4).
  assert (ST : st <= zlen y).
  { destruct (Z_lt_dec (zlen y) st) as [X|X]; [|lia]. specialize (S3 (zlen y) ltac:(lia)). rewrite W2 in S3. discriminate. }
  destruct (match_cms_ok m lo n R ptr (zlen l) fuel st) as (bb & j & M1 & M2 & M3 & M4 & M5); try lia.
  assert (bb = true /\ j = zlen y + 2) as [-> ->].
  { destruct bb.
    - split; [reflexivity|]. destruct (M3 eq_refl) as (N1 & N2 & N3).
      destruct (Z_lt_dec j (zlen y + 2)) as [X|X].
      + exfalso. apply (no_end_at m ptr (y ++ [42]) (j - 2) W1 Hy); [lia|rewrite zlen_app, zlen_cons, zlen_nil; lia|].
        split; [rewrite <- N3|rewrite <- N2]; f_equal; lia.
      + destruct (Z_lt_dec (zlen y + 2) j) as [Y|Y]; [|lia]. exfalso. apply (M5 (zlen y + 1)); [lia|].
        split; [rewrite <- W3|rewrite <- W2]; f_equal; lia.
    - exfalso. specialize (M4 eq_refl). apply (M5 (zlen y + 1)); [lia|].
      split; [rewrite <- W3|rewrite <- W2]; f_equal; lia. }
  assert (SM : forall x, 0 <= x < zlen b' -> small (at_ m (ptr + (zlen y + 2) + x)) = true).
  { intros x X. apply blank_small. apply (Forall_at m _ b' _ W4 Hb' x X). }
  replace (zlen l - (zlen y + 2)) with (zlen b') in * by lia.
  destruct (seek_ok m lo n R (fun c => negb (small c)) (ptr + (zlen y + 2)) (zlen b') fuel 0) as (j2 & V1 & V2 & V3 & V4); try lia.
  assert (j2 = zlen b') as ->.
  { destruct (Z_lt_dec j2 (zlen b')) as [X|X]; [|lia]. specialize (V3 X). rewrite SM in V3 by lia. discriminate. }
  specialize (S6 Q3 (zlen y + 2) (zlen b') M1). replace (zlen l - (zlen y + 2)) with (zlen b') in S6 by lia. rewrite (S6 V1). clear S6.
  destruct (fin_eq m lo n ptr (zlen l) e fuel R A B B' LA F f (ptr + (zlen y + 2)) (zlen b') (zlen b') (zlen b') false 0 false) as (t & T1 & T2 & T3 & T4 & T5); try lia.
  assert (t = 0) as ->.
  { destruct (Z_lt_dec 0 t) as [X|X]; [|lia]. specialize (T3 X). specialize (SM (t - 1) ltac:(lia)).
    replace (ptr + (zlen y + 2) + (t - 1)) with (ptr + (zlen y + 2) + t - 1) in SM by lia. congruence. }
  specialize (T5 _ _ _ _ _ (rest_end' m fuel (ptr + (zlen y + 2)) (zlen b') 0 (zlen b') false 0 (fcc f) ltac:(lia) ltac:(lia))). cbv zeta in T5. rewrite T5. clear T5.
  replace (ptr + (zlen y + 2) + zlen b') with (ptr + zlen l) by lia.
  destruct (Z.eqb_spec (at_ m (ptr + zlen l)) 47) as [X|X].
  { pose proof (line_at_end _ _ _ _ LA) as E. rewrite X in E. discriminate. }
  cbn [andb negb Z.eqb orb]. rewrite Q2. do 2 eexists. split; [reflexivity|]. split; [|repeat split; cbn [fq fcc fcms]; rewrite ?Bool.andb_false_r; reflexivity].
  exists (y ++ [42; 47]), b'. split; [rewrite El, <- app_assoc; reflexivity|]. rewrite zlen_app, !zlen_cons, zlen_nil. split; lia.
Qed.
End Steps.

Lemma inside_of mid y b' ls os : Forall no_end mid -> no_end (y ++ [42]) -> blanks b' -> without_comments ls os ->
  inside_comment (mid ++ (y ++ 42 :: 47 :: b') :: ls) (map (fun _ => []) mid ++ [] :: os).
Proof. intros M H1 H2 H3. induction M; cbn [app map]; [apply ic_end; assumption|apply ic_mid; assumption]. Qed.

Lemma remove_comments m buf t os fuel : bytes_at m buf t -> room m (buf - 1) (zlen t + 2) -> zlen t < BUFSIZE ->
  zlen (lines_of t) <= MAXLINECOUNT -> zlen t + 8 < Z.of_nat fuel -> Forall ascii t -> without_comments (lines_of t) os ->
  removeccomments fuel m buf (zlen t) = Ok (text_of (map shown os)).
Proof.
  intros A B C D E PA W.
  destruct (remove_ok (list (list Z)) ascii Inv (fun rs ls os => rs = os) m buf t os fuel) as (rs & H1 & H2); auto.
  { intros f x [(_ & W1)|(_ & W1)]; inversion W1. reflexivity. }
  { intros m0 lo n f l ls x ptr e R I Pl H1 H2 H3 H4 H5 H6.
    destruct I as [(Q & W1)|(Q & W1)]; inversion W1; subst.
    - destruct (step_code m0 lo n ptr e l fuel R H1 H2 H3 H5 H6 H4 Pl f Q) as (f' & o & G1 & G2 & G3); [assumption|].
      exists f', o, (rstrip l), os0. split; [assumption|]. split; [assumption|]. split; [left; split; assumption|]. intros; subst; reflexivity.
    - destruct (step_line m0 lo n ptr e _ fuel R H1 H2 H3 H5 H6 H4 Pl f b x0 Q eq_refl) as (f' & G1 & G2); auto.
      exists f', None, [], os0. split; [assumption|]. split; [reflexivity|]. split; [left; split; assumption|]. intros; subst; reflexivity.
    - destruct (step_block1 m0 lo n ptr e _ fuel R H1 H2 H3 H5 H6 H4 Pl f b x0 b' Q eq_refl) as (f' & G1 & G2); auto.
      exists f', None, [], os0. split; [assumption|]. split; [reflexivity|]. split; [left; split; assumption|]. intros; subst; reflexivity.
    - destruct (step_open m0 lo n ptr e _ fuel R H1 H2 H3 H5 H6 H4 Pl f b x0 Q eq_refl) as (f' & G1 & G2); auto.
      exists f', None, [], (map (fun _ => []) mid ++ [] :: os0). split; [assumption|]. split; [reflexivity|]. split; [right; split; [assumption|apply inside_of; assumption]|]. intros; subst; reflexivity.
    - destruct (step_mid m0 lo n ptr e l fuel R H1 H2 H3 H5 H6 H4 Pl f Q) as (f' & G1 & G2); auto.
      exists f', None, [], os0. split; [assumption|]. split; [reflexivity|]. split; [right; split; assumption|]. intros; subst; reflexivity.
    - destruct (step_close m0 lo n ptr e _ fuel R H1 H2 H3 H5 H6 H4 Pl f y b' Q eq_refl) as (f' & o & G1 & G2 & G3); auto.
      exists f', o, [], os0. split; [assumption|]. split; [assumption|]. split; [left; split; assumption|]. intros; subst; reflexivity. }
  { left. split; [repeat split|assumption]. }
  subst rs. assumption.
Qed.
