From Coq Require Import ZifyBool.
From Verif Require Import Base BaseLemmas SysModel MatchModel MextModel MtwoModel MtwoSpec MtwoProofs1 MtwoProofs2.
From Verif Require MatchProofs MextProofs MextProofs3.

Lemma find_range f : forall l pos z r, find f pos l = Some (z, r) -> pos <= z < pos + zlen l.
Proof.
  induction l as [|x l IHl]; intros pos z r E; [discriminate|]. cbn [find] in E. nneg l. zl. destruct (f pos (x :: l)) as [q|]; [injection E as <- _; lia|]. apply IHl in E. lia.
Qed.
Lemma seek_ok m x : forall p re fuel, str_at m re p -> In x p -> (length p < fuel)%nat -> exists z, seek fuel m x re = Ok z /\ m z = Some x.
Proof.
  induction p as [|c p IH]; intros re fuel H Hi Hf; [destruct Hi|]. destruct fuel as [|k]; [lia|]. destruct H as (H1 & H2 & H3). cbn [seek]. ld H1.
  destruct (Z.eqb_spec c x) as [-> |N]; cbn [orb]; [eauto|]. replace (c =? 0) with false by lia. destruct Hi as [Hi|Hi]; [congruence|]. cbn [length] in Hf. apply IH; auto; lia.
Qed.
Lemma seek_skip m x : forall a re fuel, bytes_at m re (a ++ [x]) -> ~ In x a -> Forall (fun c => c <> 0) a -> (length a < fuel)%nat -> seek fuel m x re = Ok (re + zlen a).
Proof.
  induction a as [|c a IH]; intros re fuel H N R Hf; (destruct fuel as [|k]; [cbn [length] in Hf; lia|]); cbn [seek app] in *; destruct H as [H1 H2]; ld H1.
  - rewrite Z.eqb_refl. cbn [orb]. change (zlen (@nil Z)) with 0. rewrite Z.add_0_r. reflexivity.
  - cbn [In] in N. apply Forall_cons_iff in R as [R1 R2]. replace (c =? x) with false by lia. replace (c =? 0) with false by lia. cbn [orb length] in *. rewrite IH by (auto; lia). zl. f_equal. lia.
Qed.
Lemma pattern_in i q j : In j q -> what j = Close -> i = 41 -> In i (pattern q).
Proof. intros H E ->. unfold pattern. apply in_flat_map. exists j. split; [exact H|]. unfold write. rewrite E. apply in_app_iff. right. now left. Qed.
Lemma pattern_nz m re p : str_at m re (pattern p) -> p <> [] -> hdp p <> 0.
Proof.
  intros H N. pose proof (str_at_range _ _ _ H) as R. unfold hdp. destruct p as [|i p]; [congruence|]. rewrite pattern_cons in *. pose proof (write_len i). destruct (write i); [cbn [length] in *; lia|]. cbn [app hd] in *. apply Forall_cons_iff in R as [R _]. lia.
Qed.
Lemma hdp_end m re i p : well_written (i :: p) -> str_at m re (pattern (i :: p)) -> ending i = false -> hdp (i :: p) <> 35 /\ hdp (i :: p) <> 36.
Proof.
  intros [W _] H E. unfold hdp. rewrite pattern_cons. unfold write. destruct i as [[] w]; cbn [comma what wcomma app hd] in *; [lia|]. destruct w as [neg t|n| | |n|d sep t| | ]; cbn [wkind app hd]; try lia.
  destruct neg; cbn [app hd]; [lia|]. destruct W as [W _]. pose proof (wtest_hd t W) as K. cbv zeta in K. cbn [ending what] in E.
  pose proof (wtest_len t). destruct (wtest t) eqn:Et; [cbn [length] in *; lia|]. cbn [app hd] in *. destruct K as (_ & _ & _ & _ & _ & _ & _ & _ & _ & _ & _ & K1 & K2).
  split; intros Q; [apply K1 in Q|apply K2 in Q]; subst t; discriminate.
Qed.
Lemma text_ok_sub p i s s' : text_ok (i :: p) s -> (forall c, In c s' -> In c s) -> text_ok p s'.
Proof. intros H I j c Hj Hc. apply H; [now right|auto]. Qed.
Lemma cnt_len t : forall d s r, cnt t d s = Some r -> exists a, s = a ++ r /\ length a = d /\ Forall (fun c => sat t c = true) a.
Proof.
  induction d as [|d IH]; intros s r E; cbn [cnt] in E; [injection E as ->; exists []; auto|]. destruct s as [|c s]; [discriminate|]. destruct (sat t c) eqn:Es; [|discriminate].
  destruct (IH _ _ E) as (a & -> & L & F). exists (c :: a). cbn [length app]. auto.
Qed.
Lemma str_at_skip m p a b : str_at m p (a ++ b) -> str_at m (p + zlen a) b.
Proof. intros H. pose proof (str_at_range _ _ _ H) as R. apply str_at_app in H; [apply H|]. apply Forall_app in R. apply R. Qed.
Definition steady (e : ext2) : Prop := xreset (base e) = base e /\ pmc (base e) = None.
Lemma gives_via e e1 r v : base e1 = base e -> gives e1 r v -> gives e r v.
Proof. intros E (o & H). exists o. rewrite <- E. exact H. Qed.

Section Step.
Variables (m : mem) (k : nat) (q : list item).
(* what is known of the rest of the pattern *)
Variables (s0 : list Z) (rq : Z).
Hypothesis Hq : str_at m rq (pattern q).
Hypothesis IH : forall s text nm e, str_at m text s -> (length s <= length s0)%nat -> (forall c, In c s -> In c s0) -> zlen s <= INT_MAX -> 0 < text -> steady e ->
  gives e (yrun q nm text s) (y_loop k m text rq nm e).
Lemma call_ok s text e : str_at m text s -> (length s <= length s0)%nat -> (forall c, In c s -> In c s0) -> zlen s <= INT_MAX -> 0 < text -> steady e ->
  gives e (yrun q 0 text s) (call2 (y_loop k m) text rq e).
Proof. intros H1 H2 H3 H4 H5 H6. unfold call2. rewrite yreset_id by apply H6. now apply IH. Qed.
Lemma star_ok : (hdp q <> 35 /\ hdp q <> 36) -> forall s text fuel e, s <> [] -> str_at m text s -> (length s <= length s0)%nat -> (forall c, In c s -> In c s0) -> zlen s <= INT_MAX -> 0 < text -> steady e -> (length s <= fuel)%nat ->
  exists r e', y_star (fun text e => call2 (y_loop k m) text rq e) fuel m text rq e = Ok (r, e') /\
    match find (yrun q 0) text s with
    | Some (z, l) => exists v, 0 < v /\ r = Some (z, v) /\ base e' = put (base e) l
    | None => r = None /\ base e' = base e
    end.
Proof.
  intros [N1 N2]. induction s as [|c s IHs]; intros text fuel e Hne Hs L In0 Hmax Ht Hst Hf; [congruence|]. cbn [length] in *. destruct fuel as [|fuel]; [lia|]. cbn [y_star find].
  destruct (call_ok (c :: s) text e Hs L In0 Hmax Ht Hst) as [o G]. destruct (yrun q 0 text (c :: s)) as [l|].
  - destruct G as (z & Hz & ->). rewrite bind_Ok. cbv iota. replace (z =? 0) with false by lia. do 2 eexists. split; [reflexivity|]. exists z. auto.
  - rewrite G, bind_Ok. cbv iota. closed_eqb. destruct Hs as (H1 & H2 & H3). destruct s as [|x s'] eqn:Es.
    + cbn [str_at] in H3. ld H3. closed_eqb. cbv iota. ld (hdp_at _ _ _ Hq). replace ((hdp q =? 35) || (hdp q =? 36)) with false by lia. cbn [find]. do 2 eexists. split; [reflexivity|]. auto.
    + rewrite <- Es in *. assert (Hx : m (text + 1) = Some x /\ x <> 0) by (subst s; destruct H3 as (H3 & H4 & _); split; [exact H3|lia]). destruct Hx as [Hx Hx0]. ld Hx. replace (x =? 0) with false by lia.
      rewrite zlen_cons in Hmax. apply (IHs (text + 1) fuel (mk2 (base e) o)); auto; try lia; try (subst s; discriminate). intros y Hy. apply In0. now right.
Qed.
Lemma any_ok : (q = [] \/ (hdp q <> 35 /\ hdp q <> 36)) -> forall s text num mp rr e, s <> [] -> str_at m text s -> (length s <= length s0)%nat -> (forall c, In c s -> In c s0) -> zlen s <= INT_MAX -> 0 < text -> steady e -> (length s < k)%nat ->
  (forall z, mp = Some z -> 0 <= text - z /\ text + zlen s - z <= INT_MAX) -> rr + 1 = rq ->
  gives e (wild (yrun q 0) (isnil q) num mp text s) (y_any (y_loop k m) k m text rr num mp e).
Proof.
  intros Hend s text num mp rr e Hne Hs L In0 Hmax Ht Hst Hk Hmp Hrr. unfold y_any, wild. cbv zeta. rewrite Hrr. ld (hdp_at _ _ _ Hq). nneg s. destruct q as [|j q'] eqn:Eq.
  - change (hdp []) with 0. closed_eqb. cbn [isnil]. cbv iota. destruct mp as [z|]; [|apply gives_nil; auto; apply Hst]. specialize (Hmp z eq_refl).
    assert (Hput : put (base e) [(num, z, text + zlen s - z)] = report (base e) num z (text + zlen s)) by (rewrite <- MextProofs3.report_caps, MextProofs.put_caps_none by (lia || apply Hst); reflexivity).
    assert (G : gives e (Some [(num, z, text + zlen s - z)]) (Ok (text + zlen s, say (yreport e num z (text + zlen s))))).
    { exists (out e + 1), (text + zlen s). split; [lia|]. rewrite Hput. reflexivity. }
    destruct (pm (base e)) eqn:Epm; cbn [orb]; cbv iota; [rewrite (MatchProofs.text_end_ok m s) by (auto; lia); exact G|].
    destruct (stm (base e)) eqn:Est; [rewrite (MatchProofs.text_end_ok m s) by (auto; lia); exact G|].
    exists (out e + 1), text. split; [lia|]. rewrite Hput. unfold say, report. rewrite Epm, Est. destruct e as [[a b c d] o]; cbn in *; subst; reflexivity.
  - rewrite <- Eq in *. assert (hdp q <> 0) by (apply (pattern_nz m rq); [exact Hq|subst; discriminate]). replace (hdp q =? 0) with false by lia. replace (isnil q) with false by (subst; reflexivity). cbv iota.
    assert (Hend' : hdp q <> 35 /\ hdp q <> 36) by (destruct Hend as [E|E]; [subst; discriminate|exact E]).
    destruct (star_ok Hend' s text k e Hne Hs L In0 Hmax Ht Hst ltac:(lia)) as (r & e' & -> & G). rewrite bind_Ok.
    destruct (find (yrun q 0) text s) as [[z l]|] eqn:EF.
    + destruct G as (v & Hv & -> & E'). apply find_range in EF. destruct mp as [p|].
      * specialize (Hmp p eq_refl). exists (out e'), v. split; [exact Hv|]. unfold yreport. rewrite E', MextProofs3.report_caps by lia. reflexivity.
      * exists (out e'), v. split; [exact Hv|]. rewrite <- E'. destruct e'; reflexivity.
    + destruct G as [-> E']. now apply gives_none.
Qed.
End Step.
