(* removeccomments: from the lines to the output. *)
From Verif Require Import Base BaseLemmas RmcModel RmcSpec RmcProofs1.
From Coq Require Import ZifyBool.

(* the end of the first line *)
Definition first_line (t l r : list Z) : Prop :=
  Forall (fun c => eol c = false) l /\
  (t = l ++ 10 :: r \/ t = l ++ 13 :: 10 :: r \/ (t = l ++ 13 :: r /\ hd 0 r <> 10) \/ (t = l /\ r = [])).
Lemma lines_first t : t <> [] -> exists l r, lines_of t = l :: lines_of r /\ first_line t l r.
Proof.
  induction t as [|c t IH]; [contradiction|]. intros _. cbn [lines_of].
  destruct (Z.eq_dec c 10) as [->|C1].
  { exists [], t. split; [reflexivity|]. split; [constructor|left; reflexivity]. }
  destruct (Z.eq_dec c 13) as [->|C2].
  { destruct t as [|d t].
    - exists [], []. split; [reflexivity|]. split; [constructor|]. right; right; left. split; [reflexivity|discriminate].
    - destruct (Z.eq_dec d 10) as [->|D].
      + exists [], t. split; [reflexivity|]. split; [constructor|]. right; left. reflexivity.
      + exists [], (d :: t). split.
        { destruct d as [|p|p]; try reflexivity. do 4 (destruct p as [p|p|]; try reflexivity). lia. }
        split; [constructor|]. right; right; left. split; [reflexivity|assumption]. }
  assert (E : lines_of (c :: t) = match lines_of t with [] => [[c]] | l :: ls => (c :: l) :: ls end).
  { cbn [lines_of]. destruct c as [|p|p]; try reflexivity. do 4 (destruct p as [p|p|]; try reflexivity); lia. }
  cbn [lines_of] in E. rewrite E. clear E.
  assert (Ec : eol c = false) by (unfold eol; lia).
  destruct t as [|d t].
  { exists [c], []. split; [reflexivity|]. split; [repeat constructor; assumption|]. right; right; right. split; reflexivity. }
  destruct IH as (l & r & H1 & H2 & H3); [discriminate|]. rewrite H1. exists (c :: l), r. split; [reflexivity|].
  split; [constructor; assumption|].
  destruct H3 as [H3|[H3|[(H3 & H4)|(H3 & H4)]]]; rewrite H3; [left|right; left|right; right; left|right; right; right]; auto.
Qed.

(* the piece r of the line l at pl that lines[] shows *)
Definition placed1 (pl : Z) (l : list Z) (o : option (Z * Z)) (r : list Z) : Prop :=
  match o with
  | None => r = []
  | Some (q, k) => exists a b, l = a ++ r ++ b /\ q = pl + zlen a /\ k = zlen r
  end.
Lemma placed1_piece pl l o r : placed1 pl l o r -> piece r l.
Proof.
  destruct o as [[q k]|]; cbn [placed1].
  - intros (a & b & H & _). exists a, b. assumption.
  - intros ->. exists [], l. reflexivity.
Qed.
Lemma placed1_intro pl l p k : pl <= p -> 0 <= k -> p + k <= pl + zlen l -> exists r, placed1 pl l (Some (p, k)) r.
Proof.
  intros A B C.
  exists (firstn (Z.to_nat k) (skipn (Z.to_nat (p - pl)) l)). exists (firstn (Z.to_nat (p - pl)) l), (skipn (Z.to_nat k) (skipn (Z.to_nat (p - pl)) l)).
  split; [rewrite !firstn_skipn; reflexivity|].
  assert (zlen (skipn (Z.to_nat (p - pl)) l) = zlen l - (p - pl)) by (unfold zlen in *; rewrite skipn_length; lia).
  rewrite !zlen_firstn. lia.
Qed.
Fixpoint placed (m : mem) (p : Z) (os : list (option (Z * Z))) (ls rs : list (list Z)) : Prop :=
  match os, ls, rs with
  | [], [], [] => True
  | o :: os, l :: ls, r :: rs =>
      exists pl, p <= pl /\ bytes_at m pl l /\ m (pl + zlen l) <> None /\ placed1 pl l o r /\ placed m (pl + zlen l + 1) os ls rs
  | _, _, _ => False
  end.
Lemma placed_weaken m : forall os ls rs p p', p' <= p -> placed m p os ls rs -> placed m p' os ls rs.
Proof. intros [|o os] [|l ls] [|r rs] p p' H P; cbn [placed] in *; auto. destruct P as (pl & A & B). exists pl. split; [lia|assumption]. Qed.
Lemma placed_upd m a v : forall os ls rs p, a < p -> placed m p os ls rs -> placed (upd m a v) p os ls rs.
Proof.
  induction os as [|o os IH]; intros [|l ls] [|r rs] p H P; cbn [placed] in *; auto.
  destruct P as (pl & A & B & C & D & E). exists pl. split; [assumption|]. split.
  { apply bytes_at_upd; [assumption|lia]. }
  nneg l. split; [rewrite upd_other by lia; assumption|]. split; [assumption|]. apply IH; [lia|assumption].
Qed.
Lemma cstr_ok m : forall s q fuel, bytes_at m q s -> m (q + zlen s) = Some 0 -> zlen s < Z.of_nat fuel -> cstr fuel m q = Ok (shown s).
Proof.
  induction s as [|c s IH]; intros q fuel A B F; (destruct fuel as [|k]; [try pose proof (zlen_nonneg s); rewrite ?zlen_cons, ?zlen_nil in F; lia|]); cbn [cstr shown].
  - rewrite zlen_nil, Z.add_0_r in B. rewrite (load_some _ _ _ B). reflexivity.
  - destruct A as [A1 A2]. rewrite (load_some _ _ _ A1), bind_Ok. destruct (c =? 0); [reflexivity|].
    rewrite zlen_cons in *. rewrite IH; [reflexivity|assumption| |lia].
    replace (q + 1 + zlen s) with (q + (zlen s + 1)) by lia. assumption.
Qed.
Lemma printlines_ok : forall os ls rs m p fuel, placed m p os ls rs -> Forall (fun l => zlen l < Z.of_nat fuel) ls ->
  printlines fuel m os = Ok (text_of (map shown rs)).
Proof.
  unfold text_of.
  induction os as [|o os IH]; intros [|l ls] [|r rs] m p fuel P F; cbn [placed] in P; try contradiction; [reflexivity|].
  destruct P as (pl & A & B & C & D & E). inversion F; subst. cbn [map concat].
  destruct o as [[q k]|]; cbn [printlines].
  - destruct D as (a & b & -> & -> & ->).
    apply bytes_at_app in B. destruct B as [B1 B2]. apply bytes_at_app in B2. destruct B2 as [B2 B3].
    rewrite !zlen_app in *. nneg a. nneg b. nneg r.
    assert (exists x, m (pl + zlen a + zlen r) = Some x) as [x X].
    { destruct b as [|x b].
      - rewrite zlen_nil in C. replace (pl + (zlen a + (zlen r + 0))) with (pl + zlen a + zlen r) in C by lia.
        destruct (m (pl + zlen a + zlen r)) eqn:Q; [eexists; reflexivity|contradiction].
      - destruct B3 as [B3 _]. exists x. assumption. }
    rewrite (store_some _ _ _ _ X), bind_Ok.
    rewrite (cstr_ok _ r).
    + rewrite bind_Ok. rewrite (IH ls rs _ (pl + (zlen a + (zlen r + zlen b)) + 1)).
      * rewrite bind_Ok, <- app_assoc. reflexivity.
      * apply placed_upd; [lia|assumption].
      * assumption.
    + apply bytes_at_upd; [assumption|lia].
    + apply upd_same.
    + lia.
  - cbn [placed1] in D. subst r. rewrite (IH ls rs _ _ _ E) by assumption. reflexivity.
Qed.

(* ---- the loop over the lines ---- *)
Lemma at_bytes m p l x c : bytes_at m p l -> nth_error l x = Some c -> at_ m (p + Z.of_nat x) = c.
Proof. intros A B. unfold at_. rewrite (bytes_at_nth _ _ _ _ _ A B). reflexivity. Qed.
Lemma at_app m p l c r : bytes_at m p (l ++ c :: r) -> at_ m (p + zlen l) = c.
Proof. intros A. apply bytes_at_app in A. destruct A as [_ [A _]]. unfold at_. rewrite A. reflexivity. Qed.
Lemma Forall_at m p l (P : Z -> Prop) : bytes_at m p l -> Forall P l -> forall x, 0 <= x < zlen l -> P (at_ m (p + x)).
Proof.
  intros A F x X. destruct (nth_error l (Z.to_nat x)) as [c|] eqn:E.
  - pose proof (at_bytes _ _ _ _ _ A E) as H. rewrite Z2Nat.id in H by lia. rewrite H.
    rewrite Forall_forall in F. apply F. apply nth_error_In in E. assumption.
  - apply nth_error_None in E. unfold zlen in X. lia.
Qed.

Section Lines.
Variables (X : Type) (P : Z -> Prop) (Inv : flags -> list (list Z) -> X -> Prop) (Out : list (list Z) -> list (list Z) -> X -> Prop).
Variables (m : mem) (lo n : Z) (fuel : nat).
Hypothesis R : room m lo n.
Hypothesis Onil : forall f x, Inv f [] x -> Out [] [] x.
Hypothesis step : forall f l ls x ptr e, Inv f (l :: ls) x -> Forall P l -> lo < ptr -> ptr + zlen l < lo + n ->
  (at_ m (ptr + zlen l) = 13 -> ptr + zlen l + 1 < lo + n) -> bytes_at m ptr l -> line_at m ptr (zlen l) e ->
  zlen l + 8 < Z.of_nat fuel ->
  exists f' o r x', do_line fuel m ptr f = Ok (e, f', o) /\ placed1 ptr l o r /\ Inv f' ls x' /\
    (forall rs, Out rs ls x' -> Out (r :: rs) (l :: ls) x).

Lemma split_done k p e cnt f : e <= p -> (0 < k)%nat -> split_loop k fuel m p e cnt f = Ok [].
Proof. intros A B. destruct k; [lia|]. cbn [split_loop]. destruct (Z.ltb_spec p e); [lia|reflexivity]. Qed.

Lemma split_ok : forall k t p e cnt f x, (length t < k)%nat -> bytes_at m p (t ++ [10]) -> e = p + zlen t -> lo < p ->
  e + 1 <= lo + n -> zlen t + 8 < Z.of_nat fuel -> Forall P t -> cnt + zlen (lines_of t) <= MAXLINECOUNT ->
  Inv f (lines_of t) x ->
  exists os rs, split_loop k fuel m p e cnt f = Ok os /\ placed m p os (lines_of t) rs /\ Out rs (lines_of t) x.
Proof.
  induction k as [|k IH]; intros t p e cnt f x K B E A Lim F PF C I; [lia|].
  destruct t as [|c0 t0].
  { exists [], []. split; [|split; [exact Logic.I|cbn [lines_of] in *; apply Onil with (f := f); assumption]].
    apply split_done; [rewrite zlen_nil in E; lia|lia]. }
  remember (c0 :: t0) as t. assert (T0 : t <> []) by (subst; discriminate). clear Heqt.
  assert (Z0 : 0 < zlen t). { destruct t; [contradiction|]. rewrite zlen_cons. nneg t. lia. }
  destruct (lines_first t T0) as (l & r & L1 & L2 & L3). rewrite L1 in *. rewrite zlen_cons in C.
  pose proof (zlen_nonneg (lines_of r)) as Zr. nneg l. nneg r.
  cbn [split_loop]. destruct (Z.ltb_spec p e); [|lia]. unfold MAXLINECOUNT in *. destruct (Z.leb_spec 500000 cnt); [lia|].
  assert (N : bytes_at m p l -> forall z, 0 <= z < zlen l -> eol (at_ m (p + z)) = false)
    by (intros Bl; apply (Forall_at m p l (fun c => eol c = false)); assumption).
  (* the line, its end and what follows *)
  assert (exists e', bytes_at m p l /\ line_at m p (zlen l) e' /\ p + zlen l < lo + n /\ (at_ m (p + zlen l) = 13 -> p + zlen l + 1 < lo + n) /\
    Forall P l /\ (length r < k)%nat /\ zlen l <= zlen t /\ p + zlen l <= e' /\
    ((r = [] /\ e <= e' + 1) \/ (bytes_at m (e' + 1) (r ++ [10]) /\ e = e' + 1 + zlen r /\ zlen r <= zlen t /\ Forall P r)))
    as (e' & W1 & W2 & W3 & W4 & W5 & W6 & W7 & W8 & W9).
  { destruct L3 as [L3|[L3|[(L3 & L4)|(L3 & L4)]]].
    - subst t. rewrite <- app_assoc in B. cbn [app] in B. pose proof (at_app _ _ _ _ _ B) as AT.
      apply bytes_at_app in B. destruct B as [B1 B2]. destruct B2 as [_ B2].
      rewrite zlen_app, zlen_cons in *. rewrite app_length in K. cbn [length] in K.
      apply Forall_app in PF. destruct PF as [PF1 PF2]. inversion PF2; subst.
      exists (p + zlen l). split; [assumption|]. split; [split; [assumption|split; [apply N; assumption|left; split; [assumption|reflexivity]]]|].
      split; [lia|]. split; [intros Q; rewrite Q in AT; discriminate AT|]. split; [assumption|]. split; [lia|]. split; [lia|]. split; [lia|].
      right. split; [assumption|]. split; [lia|]. split; [lia|assumption].
    - subst t. rewrite <- app_assoc in B. cbn [app] in B. pose proof (at_app _ _ _ _ _ B) as AT.
      apply bytes_at_app in B. destruct B as [B1 B2]. destruct B2 as [_ B2]. destruct B2 as [B3 B2].
      rewrite zlen_app, !zlen_cons in *. rewrite app_length in K. cbn [length] in K.
      apply Forall_app in PF. destruct PF as [PF1 PF2]. inversion PF2 as [|? ? ? PF3]; subst. inversion PF3; subst.
      exists (p + zlen l + 1). split; [assumption|].
      split; [split; [assumption|split; [apply N; assumption|right; left; split; [assumption|split; [unfold at_; rewrite B3; reflexivity|reflexivity]]]]|].
      split; [lia|]. split; [intros Q; lia|]. split; [assumption|]. split; [lia|]. split; [lia|]. split; [lia|].
      right. split; [assumption|]. split; [lia|]. split; [lia|assumption].
    - subst t. rewrite <- app_assoc in B. cbn [app] in B. pose proof (at_app _ _ _ _ _ B) as AT.
      apply bytes_at_app in B. destruct B as [B1 B2]. destruct B2 as [_ B2].
      rewrite zlen_app, zlen_cons in *. rewrite app_length in K. cbn [length] in K.
      apply Forall_app in PF. destruct PF as [PF1 PF2]. inversion PF2; subst.
      destruct r as [|d r].
      + destruct B2 as [B2 _]. exists (p + zlen l + 1). split; [assumption|].
        split; [split; [assumption|split; [apply N; assumption|right; left; split; [assumption|split; [unfold at_; rewrite B2; reflexivity|reflexivity]]]]|].
        rewrite zlen_nil in *. cbn [length] in K.
        split; [lia|]. split; [intros Q; lia|]. split; [assumption|]. split; [cbn [length]; lia|]. split; [lia|]. split; [lia|].
        left. split; [reflexivity|lia].
      + cbn [hd] in L4. pose proof B2 as B4. destruct B2 as [B2 _].
        exists (p + zlen l). split; [assumption|].
        split; [split; [assumption|split; [apply N; assumption|right; right; split; [assumption|split; [unfold at_; rewrite B2; assumption|reflexivity]]]]|].
        split; [lia|]. split; [intros Q; lia|]. split; [assumption|]. split; [lia|]. split; [lia|]. split; [lia|].
        right. split; [assumption|]. split; [lia|]. split; [lia|assumption].
    - subst t r. pose proof (at_app _ _ _ _ _ B) as AT. apply bytes_at_app in B. destruct B as [B1 B2].
      exists (p + zlen l). split; [assumption|]. split; [split; [assumption|split; [apply N; assumption|left; split; [assumption|reflexivity]]]|].
      split; [lia|]. split; [intros Q; rewrite Q in AT; discriminate AT|]. split; [assumption|]. split; [cbn [length]; destruct l; [contradiction|cbn [length] in K; lia]|].
      split; [lia|]. split; [lia|]. left. split; [reflexivity|lia]. }
  destruct (step f l (lines_of r) x p e') as (f' & o & rr & x' & S1 & S2 & S3 & S4); auto; try lia.
  rewrite S1, bind_Ok.
  assert (exists os rs, split_loop k fuel m (e' + 1) e (cnt + 1) f' = Ok os /\ placed m (e' + 1) os (lines_of r) rs /\ Out rs (lines_of r) x')
    as (os & rs & Q1 & Q2 & Q3).
  { destruct W9 as [(-> & V)|(V1 & V2 & V3 & V4)].
    - exists [], []. split; [apply split_done; lia|]. split; [exact Logic.I|]. cbn [lines_of] in *. apply Onil with (f := f'). assumption.
    - apply IH; auto; lia. }
  rewrite Q1, bind_Ok. exists (o :: os), (rr :: rs). split; [reflexivity|]. split; [|apply S4; assumption].
  cbn [placed]. exists p. split; [lia|]. split; [assumption|]. split; [apply R; lia|]. split; [assumption|].
  apply (placed_weaken _ _ _ _ (e' + 1)); [lia|assumption].
Qed.
End Lines.

Lemma lines_length : forall k t, (length t < k)%nat -> Forall (fun l => zlen l <= zlen t) (lines_of t).
Proof.
  induction k as [|k IH]; intros t K; [lia|]. destruct t as [|c t]; [constructor|].
  destruct (lines_first (c :: t)) as (l & r & L1 & L2 & L3); [discriminate|]. rewrite L1.
  assert (G : (length l <= length (c :: t))%nat /\ (length r < length (c :: t))%nat).
  { destruct L3 as [L3|[L3|[(L3 & L4)|(L3 & L4)]]]; [rewrite L3, app_length; cbn [length]; lia..|].
    rewrite <- L3, L4. cbn [length]. lia. }
  constructor; [unfold zlen; lia|]. specialize (IH r ltac:(lia)). eapply Forall_impl; [|exact IH].
  cbn beta. intros a Ha. unfold zlen in *. lia.
Qed.

(* the whole program, for a step as above *)
Lemma remove_ok (X : Type) (P : Z -> Prop) (Inv : flags -> list (list Z) -> X -> Prop) (Out : list (list Z) -> list (list Z) -> X -> Prop)
  m buf t x fuel :
  (forall f x, Inv f [] x -> Out [] [] x) ->
  (forall m lo n f l ls x ptr e, room m lo n -> Inv f (l :: ls) x -> Forall P l -> lo < ptr -> ptr + zlen l < lo + n ->
    (at_ m (ptr + zlen l) = 13 -> ptr + zlen l + 1 < lo + n) -> bytes_at m ptr l -> line_at m ptr (zlen l) e ->
    zlen l + 8 < Z.of_nat fuel ->
    exists f' o r x', do_line fuel m ptr f = Ok (e, f', o) /\ placed1 ptr l o r /\ Inv f' ls x' /\
      (forall rs, Out rs ls x' -> Out (r :: rs) (l :: ls) x)) ->
  bytes_at m buf t -> room m (buf - 1) (zlen t + 2) -> zlen t < BUFSIZE -> zlen (lines_of t) <= MAXLINECOUNT ->
  zlen t + 8 < Z.of_nat fuel -> Forall P t -> Inv {| fq := false; fcms := 0; fcc := false; prev := false |} (lines_of t) x ->
  exists rs, removeccomments fuel m buf (zlen t) = Ok (text_of (map shown rs)) /\ Out rs (lines_of t) x.
Proof.
  intros On St B R L1 L2 F PF I. unfold removeccomments, splittolines.
  destruct (Z.leb_spec (zlen t) 0) as [Z0|Z0].
  { destruct t as [|c t]; [|rewrite zlen_cons in Z0; nneg t; lia]. exists []. split; [reflexivity|].
    cbn [lines_of] in *. apply On with (1 := I). }
  destruct (Z.leb_spec BUFSIZE (zlen t)); [lia|].
  rewrite (store_room m (buf - 1) (zlen t + 2)) by (assumption || lia). rewrite bind_Ok.
  set (m' := upd m (buf + zlen t) 10).
  assert (R' : room m' (buf - 1) (zlen t + 2)) by (apply room_upd; assumption).
  destruct (split_ok X P Inv Out m' (buf - 1) (zlen t + 2) fuel R' On (fun f l ls x ptr e => St m' _ _ f l ls x ptr e R')
     fuel t buf (buf + zlen t) 0 {| fq := false; fcms := 0; fcc := false; prev := false |} x) as (os & rs & S1 & S2 & S3); auto; try lia.
  { unfold zlen in F. lia. }
  { apply bytes_at_app. split; [apply bytes_at_upd; [assumption|lia]|]. split; [apply upd_same|exact Logic.I]. }
  rewrite S1, !bind_Ok. exists rs. split; [|assumption].
  apply (printlines_ok _ _ _ _ _ _ S2).
  eapply Forall_impl; [|apply (lines_length (S (length t))); lia]. cbn beta. intros; lia.
Qed.

Lemma remove_pieces m buf t fuel : bytes_at m buf t -> room m (buf - 1) (zlen t + 2) -> zlen t < BUFSIZE ->
  zlen (lines_of t) <= MAXLINECOUNT -> zlen t + 8 < Z.of_nat fuel ->
  exists rs, removeccomments fuel m buf (zlen t) = Ok (text_of (map shown rs)) /\ Forall2 piece rs (lines_of t).
Proof.
  intros A B C D E.
  destruct (remove_ok unit (fun _ => True) (fun _ _ _ => True) (fun rs ls _ => Forall2 piece rs ls) m buf t tt fuel) as (rs & H1 & H2); auto.
  { intros m0 lo n f l ls x ptr e R _ _ H1 H2 H3 H4 H5 H6.
    destruct (do_line_ok m0 lo n ptr (zlen l) e f fuel) as (f' & o & G1 & G2); auto.
    assert (exists r, placed1 ptr l o r) as [r G3].
    { destruct G2 as [->|(p & k & -> & G2 & G4 & G5)]; [exists []; reflexivity|]. apply placed1_intro; assumption. }
    exists f', o, r, tt. split; [assumption|]. split; [assumption|]. split; [exact Logic.I|].
    intros rs Q. constructor; [apply (placed1_piece _ _ _ _ G3)|assumption]. }
  { apply Forall_forall. auto. }
  exists rs. split; assumption.
Qed.
