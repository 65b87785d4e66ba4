(* removeccomments: every line of the output is a piece of the line of the input. *)
From Verif Require Import Base BaseLemmas RmcModel RmcSpec.
From Coq Require Import ZifyBool.

(* the content of a readable address *)
Definition at_ (m : mem) (a : Z) : Z := match m a with Some v => v | None => 0 end.
Lemma load_at m lo n a : room m lo n -> lo <= a < lo + n -> load m a = Ok (at_ m a).
Proof. intros H A. specialize (H a A). unfold load, at_. destruct (m a); [reflexivity|contradiction]. Qed.

Section Loops.
Variables (m : mem) (lo n : Z).
Hypothesis R : room m lo n.
Ltac ld := rewrite (load_at m lo n) by (assumption || lia); rewrite ?bind_Ok.

Lemma seek_ok stop ptr len : forall fuel j, lo <= ptr + j -> j <= len -> ptr + len < lo + n -> len - j < Z.of_nat fuel ->
  exists j', seek stop fuel m ptr j len = Ok j' /\ j <= j' <= len /\ (j' < len -> stop (at_ m (ptr + j')) = true) /\
    (forall x, j <= x < j' -> stop (at_ m (ptr + x)) = false).
Proof.
  induction fuel as [|k IH]; intros j A B C D; [lia|]. cbn [seek]. ld.
  destruct (stop (at_ m (ptr + j))) eqn:E; cbn [negb andb].
  - exists j. repeat split; auto; try lia; try (intros x X; lia).
  - destruct (Z.ltb_spec j len).
    + destruct (IH (j + 1)) as (j' & H1 & H2 & H3 & H4); try lia.
      exists j'. repeat split; auto; try lia. all: intros x X; destruct (Z.eq_dec x j); [subst; auto|apply H4; lia].
    + exists j. repeat split; auto; try lia; try (intros x X; lia).
Qed.

Lemma match_quote_ok ptr len : forall fuel j, lo <= ptr + j - 1 -> j <= len -> ptr + len < lo + n -> len - j + 2 < Z.of_nat fuel ->
  exists b j', match_quote fuel m ptr j len = Ok (b, j') /\ j <= j' <= len /\ (b = false -> j' = len).
Proof.
  induction fuel as [|k IH]; intros j A B C D; [lia|]. cbn [match_quote].
  destruct (Z.ltb_spec j len) as [L|L].
  - destruct (seek_ok (fun c => c =? 34) ptr len k j) as (j1 & S1 & S2 & S3 & S4); try lia.
    rewrite S1, bind_Ok. destruct (Z.ltb_spec j1 len).
    + ld. destruct (_ =? 92).
      * destruct (IH (j1 + 1)) as (b & j' & H1 & H2 & H3); try lia. exists b, j'. repeat split; auto; lia.
      * exists true, (j1 + 1). repeat split; try lia; discriminate.
    + destruct (IH j1) as (b & j' & H1 & H2 & H3); try lia. exists b, j'. repeat split; auto; lia.
  - exists false, j. repeat split; lia.
Qed.

Lemma cms_ok ptr len : forall fuel j, lo <= ptr + j - 1 -> j <= len -> ptr + len < lo + n -> len - j + 2 < Z.of_nat fuel ->
  exists b j', cms_loop fuel m ptr j len = Ok (b, j') /\ j <= j' <= len /\
    (b = true -> j < j' /\ at_ m (ptr + j' - 1) = 47 /\ at_ m (ptr + j' - 2) = 42) /\ (b = false -> j' = len) /\
    (forall x, j <= x < (if b then j' - 1 else j') -> ~ (at_ m (ptr + x) = 47 /\ at_ m (ptr + x - 1) = 42)).
Proof.
  induction fuel as [|k IH]; intros j A B C D; [lia|]. cbn [cms_loop].
  destruct (Z.ltb_spec j len) as [L|L].
  - destruct (seek_ok (fun c => c =? 47) ptr len k j) as (j1 & S1 & S2 & S3 & S4); try lia.
    rewrite S1, bind_Ok. destruct (Z.ltb_spec j1 len) as [L1|L1].
    + ld. specialize (S3 L1). destruct (at_ m (ptr + (j1 + 1 - 2)) =? 42) eqn:E.
      * exists true, (j1 + 1). split; [reflexivity|]. split; [lia|]. split.
        { intros _. split; [lia|]. split.
          - replace (ptr + (j1 + 1) - 1) with (ptr + j1) by lia. lia.
          - replace (ptr + (j1 + 1) - 2) with (ptr + (j1 + 1 - 2)) by lia. lia. }
        split; [discriminate|]. intros x X. specialize (S4 x ltac:(lia)). lia.
      * destruct (IH (j1 + 1)) as (b & j' & H1 & H2 & H3 & H4 & H5); try lia.
        exists b, j'. split; [assumption|]. split; [lia|]. split; [intros Hb; destruct (H3 Hb); split; [lia|assumption]|].
        split; [assumption|]. intros x X. destruct (Z_lt_dec x j1) as [X1|X1]; [specialize (S4 x ltac:(lia)); lia|].
        destruct (Z.eq_dec x j1) as [->|X2]; [|apply H5; lia].
        replace (ptr + j1 - 1) with (ptr + (j1 + 1 - 2)) by lia. lia.
    + destruct (IH j1) as (b & j' & H1 & H2 & H3 & H4 & H5); try lia.
      exists b, j'. split; [assumption|]. split; [lia|]. split; [intros Hb; destruct (H3 Hb); split; [lia|assumption]|].
      split; [assumption|]. intros x X. destruct (Z_lt_dec x j1) as [X1|X1]; [specialize (S4 x ltac:(lia)); lia|apply H5; lia].
  - exists false, j. split; [reflexivity|]. split; [lia|]. split; [discriminate|]. split; [intros _; lia|]. intros x X; lia.
Qed.

Lemma match_cms_ok ptr len : forall fuel j, lo <= ptr + j - 1 -> j <= len -> ptr + len < lo + n -> len - j + 2 < Z.of_nat fuel ->
  exists b j', match_cms fuel m ptr j len = Ok (b, j') /\ j <= j' <= len /\
    (b = true -> j + 1 < j' /\ at_ m (ptr + j' - 1) = 47 /\ at_ m (ptr + j' - 2) = 42) /\ (b = false -> j' = len) /\
    (forall x, j < x < (if b then j' - 1 else j') -> ~ (at_ m (ptr + x) = 47 /\ at_ m (ptr + x - 1) = 42)).
Proof.
  intros fuel j A B C D. unfold match_cms.
  destruct (Z.ltb_spec j len).
  - destruct (cms_ok ptr len fuel (j + 1)) as (b & j' & H1 & H2 & H3 & H4 & H5); try lia.
    exists b, j'. split; [assumption|]. split; [lia|]. split; [intros Hb; destruct (H3 Hb); split; [lia|assumption]|].
    split; [assumption|]. intros x X. apply H5. lia.
  - destruct (cms_ok ptr len fuel j) as (b & j' & H1 & H2 & H3 & H4 & H5); try lia.
    exists b, j'. split; [assumption|]. split; [lia|]. split; [intros Hb; destruct (H3 Hb); lia|].
    split; [assumption|]. intros x X. apply H5. lia.
Qed.

Lemma lead_ok ptr L : lo <= ptr -> ptr + L < lo + n -> eol (at_ m (ptr + L)) = true ->
  forall fuel j, 0 <= j <= L -> L - j < Z.of_nat fuel ->
  exists j', lead fuel m ptr j = Ok j' /\ j <= j' <= L /\ (j' < L -> small (at_ m (ptr + j')) = false \/ eol (at_ m (ptr + j')) = true) /\
    (forall x, j <= x < j' -> small (at_ m (ptr + x)) = true).
Proof.
  intros A B E. induction fuel as [|k IH]; intros j C D; [lia|]. cbn [lead]. ld.
  destruct (small (at_ m (ptr + j))) eqn:S1, (eol (at_ m (ptr + j))) eqn:S2; cbn [andb negb].
  2:{ destruct (Z.eq_dec j L) as [->|]; [congruence|].
      destruct (IH (j + 1)) as (j' & H1 & H2 & H3 & H4); try lia. exists j'. repeat split; auto; try lia.
      intros x X. destruct (Z.eq_dec x j); [subst; auto|apply H4; lia]. }
  all: exists j; repeat split; auto; try lia; intros x X; lia.
Qed.

Lemma line_end_ok ptr L : lo <= ptr -> ptr + L < lo + n -> eol (at_ m (ptr + L)) = true ->
  (forall x, 0 <= x < L -> eol (at_ m (ptr + x)) = false) ->
  forall fuel j, 0 <= j <= L -> L - j < Z.of_nat fuel -> line_end fuel m ptr j = Ok L.
Proof.
  intros A B E N. induction fuel as [|k IH]; intros j C D; [lia|]. cbn [line_end]. ld.
  destruct (Z.eq_dec j L) as [->|].
  - rewrite E. reflexivity.
  - rewrite N by lia. cbn [negb]. apply IH; lia.
Qed.

Lemma trim_ok ptr : lo <= ptr ->
  forall fuel len, 0 <= len -> ptr + len <= lo + n -> len < Z.of_nat fuel ->
  exists t, trim fuel m ptr len = Ok t /\ 0 <= t <= len /\ (forall x, t <= x < len -> small (at_ m (ptr + x)) = true) /\
    (0 < t -> small (at_ m (ptr + t - 1)) = false).
Proof.
  intros A. induction fuel as [|k IH]; intros len B C D; [lia|]. cbn [trim].
  destruct (Z.ltb_spec 0 len).
  - ld. destruct (small _) eqn:E.
    + destruct (IH (len - 1)) as (t & H1 & H2 & H3 & H4); try lia. exists t. repeat split; auto; try lia.
      intros x X. destruct (Z.eq_dec x (len - 1)) as [->|]; [|apply H3; lia].
      replace (ptr + (len - 1)) with (ptr + len - 1) by lia. assumption.
    + exists len. repeat split; auto; try lia; try (intros x X; lia).
  - exists len. repeat split; auto; try lia; try (intros x X; lia).
Qed.

(* behind the line there is no quote, slash or star *)
Definition plain (c : Z) : Prop := c <> 34 /\ c <> 47 /\ c <> 42.
Lemma rest_ok ptr start len : lo < ptr -> ptr + len < lo + n -> plain (at_ m (ptr + len)) ->
  forall fuel j q cms cc, 0 <= j -> Z.max 0 (len - j + 4) < Z.of_nat fuel -> 0 <= cms <= len \/ len <= j ->
  exists j' q' cms' cc' nl, rest_of_line fuel m ptr start len j q cms cc = Ok (j', q', cms', cc', nl) /\
    (0 <= cms' <= len \/ cms' = cms).
Proof.
  intros A B P. induction fuel as [|k IH]; intros j q cms cc C D E; [lia|]. cbn [rest_of_line].
  destruct (Z.ltb_spec j len) as [L|L]; [|do 5 eexists; split; [reflexivity|right; reflexivity]].
  destruct E as [E|E]; [|lia].
  destruct (seek_ok (fun c => (c =? 34) || (c =? 47)) ptr len k j) as (j1 & S1 & S2 & S3 & S4); try lia.
  rewrite S1, bind_Ok. ld.
  destruct (Z.eqb_spec (at_ m (ptr + j1)) 34) as [Q|Q].
  { assert (j1 <> len) by (intros ->; destruct P; contradiction).
    destruct (match_quote_ok ptr len k (j1 + 1)) as (b & j2 & M1 & M2 & M3); try lia.
    rewrite M1, bind_Ok. destruct b.
    - apply IH; lia.
    - do 5 eexists; split; [reflexivity|left; lia]. }
  destruct (Z.eqb_spec (at_ m (ptr + j1)) 47) as [S|S].
  { assert (j1 <> len) by (intros ->; destruct P as (P1 & P2 & P3); contradiction).
    cbv zeta. ld.
    destruct (Z.eqb_spec (at_ m (ptr + (j1 + 1))) 42) as [T|T].
    { assert (j1 + 1 <> len) by (intros X; rewrite X in T; destruct P as (P1 & P2 & P3); contradiction).
      destruct (match_cms_ok ptr len k (j1 + 1 + 1)) as (b & j2 & M1 & M2 & M3); try lia.
      rewrite M1, bind_Ok. destruct b.
      - destruct (IH j2 q 0 cc) as (j' & q' & cms' & cc' & nl & H1 & H2); try lia.
        exists j', q', cms', cc', nl. split; [assumption|left; lia].
      - do 5 eexists; split; [reflexivity|left; lia]. }
    destruct (_ =? 47).
    - do 5 eexists; split; [reflexivity|left; lia].
    - apply IH; lia. }
  destruct (Z_lt_dec j1 len) as [X|X]; [specialize (S3 X); lia|]. apply IH; lia.
Qed.
End Loops.

(* a line: L characters at ptr, then the character at its end, which is a newline or a carriage
   return; e is the address of the last character of the end *)
Definition line_at (m : mem) (ptr L e : Z) : Prop :=
  0 <= L /\ (forall x, 0 <= x < L -> eol (at_ m (ptr + x)) = false) /\
  ((at_ m (ptr + L) = 10 /\ e = ptr + L) \/
   (at_ m (ptr + L) = 13 /\ at_ m (ptr + L + 1) = 10 /\ e = ptr + L + 1) \/
   (at_ m (ptr + L) = 13 /\ at_ m (ptr + L + 1) <> 10 /\ e = ptr + L)).
Lemma line_at_end m ptr L e : line_at m ptr L e -> eol (at_ m (ptr + L)) = true.
Proof. unfold eol. intros (_ & _ & [(-> & _)|[(-> & _)|(-> & _)]]); reflexivity. Qed.
Lemma eol_small c : eol c = true -> small c = true.
Proof. unfold eol, small. intros H. assert (c = 10 \/ c = 13) as [-> | ->] by lia; reflexivity. Qed.
Lemma small_plain c : small c = true -> plain c.
Proof. unfold small, plain. intros H. repeat split; intros ->; discriminate H. Qed.

Lemma do_line_ok m lo n ptr L e f fuel : room m lo n -> lo < ptr -> ptr + L < lo + n ->
  (at_ m (ptr + L) = 13 -> ptr + L + 1 < lo + n) -> line_at m ptr L e -> L + 8 < Z.of_nat fuel ->
  exists f' o, do_line fuel m ptr f = Ok (e, f', o) /\
    (o = None \/ exists p k, o = Some (p, k) /\ ptr <= p /\ 0 <= k /\ p + k <= ptr + L).
Proof.
  intros R A B B' LA F. pose proof (line_at_end _ _ _ _ LA) as E. destruct LA as (L0 & N & T).
  unfold do_line.
  destruct (lead_ok m lo n R ptr L) with (fuel := fuel) (j := 0) as (st & H1 & H2 & H3 & H4); try lia; auto.
  rewrite H1, bind_Ok.
  rewrite (line_end_ok m lo n R ptr L) by (auto; lia). rewrite bind_Ok.
  assert (exists q j, (if prev f && fq f then let* (ok, j) := match_quote fuel m ptr st L in Ok (negb ok, j) else Ok (fq f, st)) = Ok (q, j)
          /\ st <= j <= L) as (q & j & Q1 & Q2).
  { destruct (prev f && fq f).
    - destruct (match_quote_ok m lo n R ptr L fuel st) as (b & j & M1 & M2 & M3); try lia.
      rewrite M1, bind_Ok. do 2 eexists; split; [reflexivity|lia].
    - do 2 eexists; split; [reflexivity|lia]. }
  cbv zeta. rewrite Q1, bind_Ok.
  set (j1 := if prev f && fcc f then L else j).
  assert (J1 : st <= j1 <= L) by (unfold j1; destruct (prev f && fcc f); lia).
  set (nul0 := prev f && fcc f) in *. clearbody j1 nul0.
  assert (exists ptr' st' len' j' cms nul1,
    (if negb (fcms f =? 0) then
       let* (ok, j) := match_cms fuel m ptr j1 L in
       if ok then
         let* j0 := seek (fun c => negb (small c)) fuel m (ptr + j) 0 (L - j) in Ok (ptr + j, j0, L - j, j0, 0, nul0)
       else Ok (ptr, st, L, j, fcms f, true)
     else Ok (ptr, st, L, j1, 0, nul0)) = Ok (ptr', st', len', j', cms, nul1) /\
    ptr <= ptr' /\ ptr' + len' = ptr + L /\ 0 <= st' <= len' /\ 0 <= j' <= len' /\ (cms = 0 \/ nul1 = true /\ j' = len')) as HS.
  { destruct (fcms f =? 0); cbn [negb].
    - do 6 eexists. split; [reflexivity|]. lia.
    - destruct (match_cms_ok m lo n R ptr L fuel j1) as (b & j2 & M1 & M2 & M3 & M4 & M5); try lia.
      rewrite M1, bind_Ok. destruct b.
      + destruct (seek_ok m lo n R (fun c => negb (small c)) (ptr + j2) (L - j2) fuel 0) as (j3 & S1 & S2 & S3 & S4); try lia.
        rewrite S1, bind_Ok. do 6 eexists. split; [reflexivity|]. lia.
      + do 6 eexists. split; [reflexivity|]. specialize (M4 eq_refl). lia. }
  destruct HS as (ptr' & st' & len' & j' & cms & nul1 & G1 & G2 & G3 & G4 & G5 & G6).
  rewrite G1, bind_Ok. clear G1 Q1 H1.
  rewrite (load_at m lo n) by (assumption || lia). rewrite bind_Ok.
  rewrite G3. rewrite (load_at m lo n) by (assumption || lia). rewrite bind_Ok.
  assert (exists i, (if at_ m (ptr + L) =? 13 then let* d := load m (ptr + L + 1) in Ok (if d =? 10 then ptr + L + 1 else ptr + L)
                     else Ok (ptr + L)) = Ok i /\ i = e) as (i & I1 & ->).
  { destruct T as [(T1 & ->)|[(T1 & T2 & ->)|(T1 & T2 & ->)]].
    - rewrite T1. eexists; split; reflexivity.
    - rewrite T1. cbn [Z.eqb Pos.eqb]. rewrite (load_at m lo n) by (assumption || lia). rewrite bind_Ok, T2. eexists; split; reflexivity.
    - rewrite T1. cbn [Z.eqb Pos.eqb]. rewrite (load_at m lo n) by (assumption || lia). rewrite bind_Ok.
      destruct (Z.eqb_spec (at_ m (ptr + L + 1)) 10); [contradiction|]. eexists; split; reflexivity. }
  rewrite I1, bind_Ok.
  destruct (trim_ok m lo n R ptr' ltac:(lia) fuel len') as (t & T1 & T2 & T3 & T4); try lia.
  rewrite T1, bind_Ok.
  assert (PL : plain (at_ m (ptr' + t))).
  { apply small_plain. destruct (Z.eq_dec t len') as [->|]; [rewrite G3; apply eol_small; assumption|apply T3; lia]. }
  destruct (rest_ok m lo n R ptr' st' t ltac:(lia) ltac:(lia) PL fuel j' q cms (fcc f)) as (jf & q' & cms' & cc' & nl & K1 & K2); try lia.
  rewrite K1, bind_Ok.
  rewrite (load_at m lo n) by (assumption || lia). rewrite bind_Ok.
  assert (exists d, (if at_ m (ptr' + st') =? 47 then load m (ptr' + st' + 1) else Ok 0) = Ok d) as (d & D1).
  { destruct (Z.eqb_spec (at_ m (ptr' + st')) 47) as [X|X]; [|eexists; reflexivity].
    assert (st' <> len'). { intros ->. rewrite G3 in X. rewrite X in E. discriminate E. }
    rewrite (load_at m lo n) by (assumption || lia). eexists; reflexivity. }
  rewrite D1, bind_Ok.
  set (c := at_ m (ptr' + st')). clearbody c.
  destruct ((c =? 47) && (d =? 42)).
  - do 2 eexists. split; [reflexivity|].
    destruct ((nul1 || nl) || negb (cms' =? 0) || (jf =? t)); [left; reflexivity|].
    right. exists ptr', t. repeat split; lia.
  - destruct (Z.eqb_spec cms' 0) as [Z0|Z0]; cbn [negb].
    + do 2 eexists. split; [reflexivity|]. destruct (nul1 || nl); [left; reflexivity|].
      right. exists ptr', t. repeat split; lia.
    + do 2 eexists. split; [reflexivity|].
      destruct (nul1 || nl) eqn:NN; [left; reflexivity|].
      right. exists ptr', (cms' - 1). apply Bool.orb_false_iff in NN. destruct NN as [-> _].
      repeat split; try lia.
Qed.
