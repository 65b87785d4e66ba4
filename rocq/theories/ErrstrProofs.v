From Coq Require Import String.
From Verif Require Import Base BaseLemmas ProcSpec ErrstrModel ErrstrSpec.
Local Open Scope list_scope.

Ltac at_same H := match type of H with bytes_at _ ?a _ => match goal with |- bytes_at _ ?b _ => replace b with a; [exact H|rewrite ?zlen_app, ?zlen_cons; change (zlen (@nil Z)) with 0; lia] end end.
Definition nonul (s : list Z) : Prop := Forall (fun b => b <> 0) s.
Lemma skip_text_ok m s : nonul s -> forall g c, bytes_at m (c + 1) (s ++ [0]) -> (length s < g)%nat ->
  skip_text g m c = Ok (c + 1 + zlen s).
Proof.
  induction 1 as [|b s Hb F IH]; intros g c B G.
  - destruct g; [lia|]. cbn [skip_text]. cbn [app] in B. destruct B as [B _]. unfold load. rewrite B, bind_Ok. cbn. f_equal. change (zlen (@nil Z)) with 0. lia.
  - destruct g; [cbn in G; lia|]. cbn [skip_text]. cbn [app] in B. destruct B as [B B']. unfold load. rewrite B, bind_Ok.
    destruct (Z.eqb_spec b 0); [contradiction|]. rewrite IH; [|auto|cbn [length] in G; lia]. rewrite zlen_cons. f_equal. lia.
Qed.
Definition flat (t : list (list Z)) : list Z := flat_map (fun s => s ++ [0]) t.
Lemma flat_app t t' : flat (t ++ t') = flat t ++ flat t'.
Proof. apply flat_map_app. Qed.
Definition longest (t : list (list Z)) : nat := fold_right (fun s n => Nat.max (length s) n) 0%nat t.
Lemma longest_in t s : In s t -> (length s <= longest t)%nat.
Proof. induction t; cbn [In longest fold_right]; [tauto|]. fold (longest t). intros [->|H]; [lia|]. specialize (IHt H). lia. Qed.
(* from the terminator at c through the texts t *)
Lemma skip_texts_ok m g : forall t c, Forall nonul t -> (longest t < g)%nat -> bytes_at m (c + 1) (flat t) ->
  skip_texts g m c (length t) = Ok (c + zlen (flat t)).
Proof.
  induction t as [|s t IH]; intros c F G B; cbn [skip_texts length].
  - f_equal. change (zlen (flat [])) with 0. lia.
  - apply Forall_cons_iff in F as [Fs F]. cbn [longest fold_right] in G. fold (longest t) in G.
    change (flat (s :: t)) with ((s ++ [0]) ++ flat t) in *. apply bytes_at_app in B as [B1 B2].
    rewrite (skip_text_ok m s) by (auto; lia). rewrite bind_Ok. rewrite IH; auto; try lia.
    + f_equal. rewrite !zlen_app, zlen_cons. change (zlen (@nil Z)) with 0. lia.
    + at_same B2.
Qed.
Lemma skip_first m g x s t c : nonul s -> Forall nonul t -> (longest ((x :: s) :: t) < g)%nat -> bytes_at m c (flat ((x :: s) :: t)) ->
  skip_texts g m c (S (length t)) = Ok (c + zlen (flat ((x :: s) :: t)) - 1).
Proof.
  intros Fs F G B. cbn [skip_texts]. cbn [longest fold_right length] in G. fold (longest t) in G.
  change (flat ((x :: s) :: t)) with (x :: (s ++ [0]) ++ flat t) in *. destruct B as [_ B]. apply bytes_at_app in B as [B1 B2].
  rewrite (skip_text_ok m s) by (auto; lia). rewrite bind_Ok. rewrite skip_texts_ok; auto; try lia.
  + f_equal. rewrite zlen_cons, !zlen_app, zlen_cons. change (zlen (@nil Z)) with 0. lia.
  + at_same B2.
Qed.
(* any table of texts, the first of them not empty *)
Lemma walk_ok m g t k s lit : Forall nonul t -> hd [] t <> [] -> (longest t < g)%nat -> bytes_at m lit (flat t) ->
  nth_error t (S k) = Some s ->
  exists c, skip_texts g m lit (S k) = Ok c /\ bytes_at m (c + 1) (s ++ [0]).
Proof.
  intros F H G B N. apply nth_error_split in N as [t1 [t2 [E L]]]. subst t.
  destruct t1 as [|[|x s1] t1]; [discriminate|cbn in H; congruence|]. cbn [length] in L. injection L as L.
  apply Forall_app in F as [F1 F2]. apply Forall_cons_iff in F1 as [Fs F1]. apply Forall_cons_iff in Fs as [_ Fs].
  rewrite flat_app in B. apply bytes_at_app in B as [B1 B2].
  assert (G1 : (longest ((x :: s1) :: t1) < g)%nat).
  { eapply Nat.le_lt_trans; [|exact G]. clear. generalize ((x :: s1) :: t1). intro u. unfold longest. rewrite fold_right_app. fold (longest (s :: t2)). induction u; cbn [fold_right]; lia. }
  eexists. rewrite <- L. split; [apply skip_first; eauto|].
  change (flat (s :: t2)) with ((s ++ [0]) ++ flat t2) in B2. apply bytes_at_app in B2 as [B2 _]. at_same B2.
Qed.
Definition nonulb (s : list Z) : bool := forallb (fun b => (0 <? b) && (b <? 256)) s.
Lemma nonulb_ok s : nonulb s = true -> nonul s.
Proof. intro H. unfold nonulb in H. rewrite forallb_forall in H. apply Forall_forall. intros b I. specialize (H b I). lia. Qed.
Lemma table2_nonul : Forall nonul errstr2_table.
Proof.
  assert (H : forallb nonulb errstr2_table = true) by (vm_compute; reflexivity).
  rewrite forallb_forall in H. apply Forall_forall. intros s I. apply nonulb_ok. auto.
Qed.
Lemma tables_same : errstr2_table = errstr_table.
Proof. vm_compute. reflexivity. Qed.
Lemma table2_len : length errstr2_table = 134%nat. Proof. reflexivity. Qed.
Lemma entry_ok t n : length t = 134%nat -> 0 <= n <= 133 -> exists s, entry t n = Ok s /\ nth_error t (Z.to_nat n) = Some s.
Proof.
  intros L H. unfold entry. destruct (nth_error t (Z.to_nat n)) as [s|] eqn:E; [eauto|]. exfalso. apply nth_error_None in E. lia.
Qed.
Fixpoint eqbl (a b : list Z) : bool := match a, b with [], [] => true | x :: a, y :: b => (x =? y) && eqbl a b | _, _ => false end.
Lemma eqbl_ok a : forall b, eqbl a b = true -> a = b.
Proof. induction a; intros [|y b] H; try discriminate; auto. cbn in H. apply andb_true_iff in H as [E H]. apply Z.eqb_eq in E. subst. f_equal. auto. Qed.
Lemma eqbl_refl a : eqbl a a = true. Proof. induction a; cbn; auto. rewrite Z.eqb_refl. auto. Qed.
Lemma short_ok : forallb (fun p => match short_errstr (snd p) with Ok s => eqbl s (fst p) | _ => false end) errno_names = true.
Proof. vm_compute. reflexivity. Qed.
Definition distinct (t : list (list Z)) : bool :=
  forallb (fun i => forallb (fun j => (i =? j)%nat || negb (eqbl (nth i t []) (nth j t []))) (seq 0 134)) (seq 0 134).
Lemma short_distinct : distinct short_table = true.
Proof. vm_compute. reflexivity. Qed.
Fixpoint bytesb (m : mem) (p : Z) (l : list Z) : bool :=
  match l with [] => true | b :: l => match m p with Some x => x =? b | None => false end && bytesb m (p + 1) l end.
Lemma bytesb_ok m : forall l p, bytesb m p l = true -> bytes_at m p l.
Proof.
  induction l as [|b l IH]; intros p H; cbn; auto. cbn [bytesb] in H. apply andb_true_iff in H as [E H]. split; auto.
  destruct (m p); [|discriminate]. apply Z.eqb_eq in E. now subst.
Qed.
Lemma longest2 : (longest errstr2_table < 64)%nat.
Proof. apply Nat.ltb_lt. vm_cast_no_check (eq_refl true). Qed.
Lemma distinct_ok t i j : distinct t = true -> (i < 134)%nat -> (j < 134)%nat -> nth i t [] = nth j t [] -> i = j.
Proof.
  intros D Hi Hj E. unfold distinct in D. rewrite forallb_forall in D.
  specialize (D i ltac:(apply in_seq; lia)). rewrite forallb_forall in D. specialize (D j ltac:(apply in_seq; lia)).
  rewrite E, eqbl_refl, orb_false_r in D. now apply Nat.eqb_eq in D.
Qed.
