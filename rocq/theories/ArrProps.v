(* C146 - C148: arrays, linked lists, the auxiliary vector. *)
From Coq Require Import ZifyBool.
From Verif Require Import Base BaseLemmas ArrModel.

(* ---- C146: arrays ---- *)
(* the states a program reaches: an array of n bytes (newarray(0) gives 4096), pushes, and other writes of the program outside
   of the array; bs are the elements pushed *)
Inductive history (n : Z) : mem -> arr -> list Z -> Prop :=
| h_new m p n0 m' a : p > 0 -> n = (if n0 =? 0 then 4096 else n0) -> room m p (Z.max 64 n) -> newarray m p n0 = Ok (m', Some a) -> history n m' a []
| h_push m a bs e m' a' r b : history n m a bs -> m e = Some b -> push m a e = Ok (m', a', r) -> r <> 0 -> history n m' a' (bs ++ [b])
| h_full m a bs e m' a' : history n m a bs -> push m a e = Ok (m', a', 0) -> history n m' a' bs
| h_other m a bs m' : history n m a bs -> (forall x, a_first a <= x < a_first a + Z.max 64 n -> m' x = m x) -> history n m' a bs.
(* for (p = current(&i); p; p = next(&i)) collects *p *)
Fixpoint rest (fuel : nat) (m : mem) (i : iter) (p : Z) : res (list Z) :=
  match fuel with
  | O => NoFuel
  | S k => if p =? 0 then Ok []
           else let* c := load m p in let (i, p) := next i in let* l := rest k m i p in Ok (c :: l)
  end.
Definition iterate (fuel : nat) (m : mem) (i : iter) : res (list Z) := rest fuel m i (current i).

Lemma clear_ok n : forall m p, room m p (Z.of_nat n) -> exists m', clear n m p = Ok m' /\ same_outside m m' p (Z.of_nat n) /\ forall q k, room m q k -> room m' q k.
Proof.
  induction n as [|n IH]; intros m p R.
  - exists m. split; [reflexivity|]. split; [apply same_outside_refl|auto].
  - cbn [clear]. rewrite (store_room m p (Z.of_nat (S n))) by (auto; lia). rewrite bind_Ok. destruct (IH (upd m p 0) (p + 1)) as (m' & E & O & K).
    { apply room_upd. eapply room_sub; [exact R|lia|lia]. }
    exists m'. split; [exact E|]. split.
    + eapply same_outside_trans; [apply (same_outside_upd m p (Z.of_nat (S n)) p 0); lia|]. eapply same_outside_weaken; [exact O|lia|lia].
    + intros q k Rq. apply K. apply room_upd. exact Rq.
Qed.
Definition good (n : Z) (m : mem) (a : arr) (bs : list Z) : Prop :=
  a_first a > 0 /\ a_last a = a_first a + 64 + zlen bs /\ a_end a = a_first a + n /\ (bs = [] \/ 64 + zlen bs <= n) /\
  room m (a_first a) (Z.max 64 n) /\ bytes_at m (a_first a + 64) bs.
Lemma push_cases n m a bs e b : good n m a bs -> m e = Some b ->
  (64 + zlen bs < n /\ exists m' a', push m a e = Ok (m', a', a_last a') /\ a_last a' <> 0 /\ good n m' a' (bs ++ [b]) /\ a_first a' = a_first a /\ same_outside m m' (a_last a) 1) \/
  (n <= 64 + zlen bs /\ push m a e = Ok (m, a, 0)).
Proof.
  intros (G1 & G2 & G3 & G4 & G5 & G6) He. unfold push. nneg bs. destruct (Z.ltb_spec (a_last a) (a_end a)) as [L|L].
  - left. split; [lia|]. rewrite (load_some _ _ _ He), bind_Ok. rewrite (store_room m (a_first a) (Z.max 64 n)) by (auto; lia). rewrite bind_Ok. cbn [a_last].
    exists (upd m (a_last a) b), {| a_first := a_first a; a_last := a_last a + 1; a_end := a_end a |}. split; [reflexivity|]. cbn [a_first a_last a_end]. split; [lia|]. split; [|split; [reflexivity|apply same_outside_upd; lia]].
    unfold good. cbn [a_first a_last a_end]. rewrite zlen_app. change (zlen [b]) with 1. split; [lia|]. split; [lia|]. split; [lia|]. split; [right; lia|]. split; [apply room_upd; exact G5|].
    apply bytes_at_app. split.
    + apply (bytes_at_ext m); [exact G6|]. intros x Hx. apply upd_other. lia.
    + replace (a_first a + 64 + zlen bs) with (a_last a) by lia. split; [apply upd_same|exact I].
  - right. split; [|reflexivity]. lia.
Qed.
Lemma new_good m p n n0 m' a : p > 0 -> n = (if n0 =? 0 then 4096 else n0) -> room m p (Z.max 64 n) -> newarray m p n0 = Ok (m', Some a) -> good n m' a [] /\ a_first a = p.
Proof.
  intros Hp Hn R E. unfold newarray in E. rewrite <- Hn in E. destruct (Z.leb_spec p 0); [lia|].
  destruct (clear_ok (Z.to_nat sizeof_array) m p) as (m1 & E1 & O & K); [apply (room_sub m p (Z.max 64 n)); [exact R|lia|change (Z.of_nat (Z.to_nat sizeof_array)) with 64; lia]|].
  rewrite E1, bind_Ok in E. injection E as <- <-. split; [|reflexivity]. unfold good. cbn [a_first a_last a_end]. change (zlen (@nil Z)) with 0. unfold sizeof_array in *.
  split; [lia|]. split; [lia|]. split; [reflexivity|]. split; [left; reflexivity|]. split; [apply K; exact R|exact I].
Qed.
Lemma history_good n m a bs : history n m a bs -> good n m a bs.
Proof.
  intros H. induction H as [m p n0 m' a Hp Hn R E|m a bs e m' a' r b H IH He E Hr|m a bs e m' a' H IH E|m a bs m' H IH S].
  - exact (proj1 (new_good m p n n0 m' a Hp Hn R E)).
  - destruct (push_cases n m a bs e b IH He) as [(_ & m1 & a1 & E1 & _ & G & _)|(_ & E1)]; rewrite E in E1; [|congruence]. injection E1 as -> -> ->. exact G.
  - destruct (m e) as [b|] eqn:He.
    + destruct (push_cases n m a bs e b IH He) as [(_ & m1 & a1 & E1 & N & _ & _)|(_ & E1)]; rewrite E in E1; [congruence|]. injection E1 as -> ->. exact IH.
    + unfold push in E. destruct (_ <? _); [unfold load in E; rewrite He in E; discriminate|]. injection E as <- <-. exact IH.
  - destruct IH as (G1 & G2 & G3 & G4 & G5 & G6). nneg bs. unfold good. split; [exact G1|]. split; [exact G2|]. split; [exact G3|]. split; [exact G4|]. split.
    + intros x Hx. rewrite S by lia. apply G5. exact Hx.
    + destruct G4 as [->|G4]; [exact I|]. apply (bytes_at_ext m); [exact G6|]. intros x Hx. apply S. lia.
Qed.
(* an array of n bytes takes n - 64 elements: a push succeeds until then, and fails without effect
   from then on *)
Theorem C146_push : forall n m a bs e b, history n m a bs -> m e = Some b ->
  (64 + zlen bs < n -> exists m' a' r, push m a e = Ok (m', a', r) /\ r <> 0 /\ history n m' a' (bs ++ [b]) /\ forall x, x <> a_first a + 64 + zlen bs -> m' x = m x) /\
  (n <= 64 + zlen bs -> push m a e = Ok (m, a, 0)).
Proof.
  intros n m a bs e b H He. pose proof (history_good n m a bs H) as G. destruct (push_cases n m a bs e b G He) as [(L & m' & a' & E & N & G' & _ & O)|(L & E)].
  - split; [|lia]. intros _. exists m', a', (a_last a'). split; [exact E|]. split; [exact N|]. split; [exact (h_push n m a bs e m' a' _ b H He E N)|].
    intros x Hx. apply O. destruct G as (_ & G2 & _). lia.
  - split; [lia|]. intros _. exact E.
Qed.
Print Assumptions C146_push.
Lemma rest_ok m a : forall bs fuel i p, i_last i = p + zlen bs -> i_index i = p -> p > 0 -> bytes_at m p bs -> (length bs < fuel)%nat -> i_current i = a ->
  rest fuel m i (if i_index i <? i_last i then i_index i else 0) = Ok bs.
Proof.
  induction bs as [|b bs IH]; intros fuel i p L X Hp B F C.
  - change (zlen (@nil Z)) with 0 in L. replace (i_index i <? i_last i) with false by lia. destruct fuel; [lia|]. reflexivity.
  - rewrite zlen_cons in L. nneg bs. replace (i_index i <? i_last i) with true by lia. destruct fuel; [cbn in F; lia|]. cbn [rest]. replace (i_index i =? 0) with false by lia.
    destruct B as [B1 B2]. rewrite X, (load_some _ _ _ B1), bind_Ok. unfold next. cbn [i_index i_last]. rewrite X.
    pose proof (IH fuel {| i_current := i_current i; i_index := p + 1; i_last := i_last i |} (p + 1)) as Q. cbn [i_index i_last i_current] in Q. rewrite Q; auto; try lia.
    cbn in F. lia.
Qed.
(* iterating gives exactly the elements, in the order they were pushed; also after first() *)
Theorem C146_iterate : forall n m a bs, history n m a bs ->
  forall fuel, (length bs < fuel)%nat -> iterate fuel m (getiter a) = Ok bs /\
  (forall i, i_current i = a -> i_last i = a_last a -> iterate fuel m (fst (first i)) = Ok bs) /\
  (forall k, (k <= length bs)%nat -> current (Nat.iter k (fun i => fst (next i)) (getiter a)) = (if (k =? length bs)%nat then 0 else a_first a + 64 + Z.of_nat k) ).
Proof.
  intros n m a bs H fuel F. destruct (history_good n m a bs H) as (G1 & G2 & G3 & G4 & G5 & G6). nneg bs.
  assert (K : forall i, i_current i = a -> i_last i = a_last a -> i_index i = a_first a + 64 -> iterate fuel m i = Ok bs).
  { intros i C L X. unfold iterate, current. rewrite <- (rest_ok m a bs fuel i (a_first a + 64)); auto; try lia. f_equal. destruct (Z.leb_spec (i_last i) (i_index i)), (Z.ltb_spec (i_index i) (i_last i)); lia || reflexivity. }
  split; [apply K; reflexivity|]. split; [intros i C L; apply K; [exact C|exact L|cbn; rewrite C; reflexivity]|].
  intros k Hk. assert (Q : Nat.iter k (fun i => fst (next i)) (getiter a) = {| i_current := a; i_index := a_first a + 64 + Z.of_nat k; i_last := a_last a |}).
  { clear Hk. induction k as [|k IH]; [unfold getiter, sizeof_array; change (Z.of_nat 0) with 0; rewrite Z.add_0_r; reflexivity|]. change (Nat.iter (S k) (fun i => fst (next i)) (getiter a)) with (fst (next (Nat.iter k (fun i => fst (next i)) (getiter a)))).
    rewrite IH. unfold next. cbn [i_current i_index i_last fst]. f_equal. lia. }
  rewrite Q. unfold current. cbn [i_index i_last]. unfold zlen in *. destruct (Nat.eqb_spec k (length bs)); destruct (Z.leb_spec (a_last a) (a_first a + 64 + Z.of_nat k)); lia.
Qed.
Print Assumptions C146_iterate.
(* 67 bytes: three elements *)
Definition m146 : mem := fun x => if (1000 <=? x) && (x <? 1067) then Some 0 else if x =? 10 then Some 42 else None.
Example C146_case : exists m a, history 67 m a [42; 42] /\ exists m' a' r, push m a 10 = Ok (m', a', r) /\ r <> 0 /\ push m' a' 10 = Ok (m', a', 0).
Proof.
  assert (H : room m146 1000 (Z.max 64 67)) by (intros x Hx; unfold m146; replace ((1000 <=? x) && (x <? 1067)) with true by lia; discriminate).
  assert (H0 : exists m a, newarray m146 1000 67 = Ok (m, Some a)) by (do 2 eexists; vm_compute; reflexivity). destruct H0 as (m0 & a0 & E0).
  pose proof (h_new 67 m146 1000 67 m0 a0 ltac:(lia) eq_refl H E0) as S0. destruct (new_good m146 1000 67 67 m0 a0 ltac:(lia) eq_refl H E0) as [_ F0].
  assert (X0 : m0 10 = Some 42).
  { unfold newarray in E0. cbn [Z.eqb Z.leb Z.compare] in E0. destruct (clear_ok (Z.to_nat sizeof_array) m146 1000) as (m1 & C1 & O1 & _); [apply (room_sub _ _ _ _ _ H); [lia|vm_compute; discriminate]|].
    rewrite C1, bind_Ok in E0. injection E0 as <- _. rewrite O1; [reflexivity|]. change (Z.of_nat (Z.to_nat sizeof_array)) with 64. lia. }
  destruct (C146_push 67 m0 a0 [] 10 42 S0 X0) as [P _]. destruct (P ltac:(vm_compute; reflexivity)) as (m1 & a1 & r1 & E1 & R1 & S1 & O1).
  assert (X1 : m1 10 = Some 42) by (rewrite O1; [exact X0|rewrite F0; vm_compute; discriminate]).
  assert (F1 : a_first a1 = 1000). { unfold push in E1. destruct (_ <? _); [|congruence]. rewrite (load_some _ _ _ X0), bind_Ok in E1. destruct (store _ _ _) as [ms| |]; [|discriminate E1|discriminate E1]. rewrite bind_Ok in E1. injection E1 as _ <- _. exact F0. }
  destruct (C146_push 67 m1 a1 [42] 10 42 S1 X1) as [P1 _]. destruct (P1 ltac:(vm_compute; reflexivity)) as (m2 & a2 & r2 & E2 & R2 & S2 & O2).
  assert (X2 : m2 10 = Some 42) by (rewrite O2; [exact X1|rewrite F1; vm_compute; discriminate]).
  assert (F2 : a_first a2 = 1000). { unfold push in E2. destruct (_ <? _); [|congruence]. rewrite (load_some _ _ _ X1), bind_Ok in E2. destruct (store _ _ _) as [ms| |]; [|discriminate E2|discriminate E2]. rewrite bind_Ok in E2. injection E2 as _ <- _. exact F1. }
  exists m2, a2. split; [exact S2|]. destruct (C146_push 67 m2 a2 [42; 42] 10 42 S2 X2) as [P2 _]. destruct (P2 ltac:(vm_compute; reflexivity)) as (m3 & a3 & r3 & E3 & R3 & S3 & O3).
  exists m3, a3, r3. split; [exact E3|]. split; [exact R3|]. assert (X3 : m3 10 = Some 42) by (rewrite O3; [exact X2|rewrite F2; vm_compute; discriminate]).
  apply (C146_push 67 m3 a3 [42; 42; 42] 10 42 S3 X3). vm_compute. discriminate.
Qed.
(* an mmap that fails is not noticed: newarray writes to the address 2^64 - error *)
Theorem C146_nomem_refuted : forall m n error, 1 <= error <= 4095 -> m (18446744073709551616 - error) = None -> newarray m (18446744073709551616 - error) n = Fault.
Proof.
  intros m n error He N. unfold newarray. replace (18446744073709551616 - error <=? 0) with false by lia. change (Z.to_nat sizeof_array) with 64%nat. cbn [clear]. unfold store. rewrite N. reflexivity.
Qed.
Print Assumptions C146_nomem_refuted.
(* first() of an empty array is not a null pointer *)
Theorem C146_first_refuted : forall n m a, history n m a [] -> snd (first (getiter a)) <> 0 /\ current (getiter a) = 0.
Proof.
  intros n m a H. destruct (history_good n m a [] H) as (G1 & G2 & _). change (zlen (@nil Z)) with 0 in G2. unfold first, current, getiter, sizeof_array. cbn [snd i_current i_last i_index]. split; [lia|].
  replace (a_last a <=? a_first a + 64) with true by lia. reflexivity.
Qed.
Print Assumptions C146_first_refuted.

(* ---- C147: linked lists ---- *)
Lemma store8_ok n : forall m p v, room m p (Z.of_nat n) -> exists m', store8 n m p v = Ok m' /\ same_outside m m' p (Z.of_nat n) /\ forall q k, room m q k -> room m' q k.
Proof.
  induction n as [|n IH]; intros m p v R.
  - exists m. split; [reflexivity|]. split; [apply same_outside_refl|auto].
  - cbn [store8]. rewrite (store_room m p (Z.of_nat (S n))) by (auto; lia). rewrite bind_Ok. destruct (IH (upd m p (v mod 256)) (p + 1) (v / 256)) as (m' & E & O & K).
    { apply room_upd. eapply room_sub; [exact R|lia|lia]. }
    exists m'. split; [exact E|]. split.
    + eapply same_outside_trans; [apply (same_outside_upd m p (Z.of_nat (S n)) p (v mod 256)); lia|]. eapply same_outside_weaken; [exact O|lia|lia].
    + intros q k Rq. apply K. apply room_upd. exact Rq.
Qed.
(* a new list of at least 520 bytes is empty: first and last are the same node *)
Theorem C147_newlist_partial : forall m l n, l > 0 -> 520 <= n -> room m l n ->
  exists m' r, newlist m l n = Ok (m', Some r) /\ l_first r = l_last r /\ l_count r = 0 /\ l <= l_first r /\ l_first r + 8 <= l + n /\ same_outside m m' l n.
Proof.
  intros m l n Hl Hn R. unfold newlist. replace (n =? -1) with false by lia. replace (l <=? 0) with false by lia. destruct (clear_ok 64 m l) as (m1 & E1 & O1 & K1); [eapply room_sub; [exact R|lia|lia]|].
  rewrite E1, bind_Ok. destruct (store8_ok 8 m1 (l + 512) 0) as (m2 & E2 & O2 & _); [apply K1; eapply room_sub; [exact R|lia|lia]|]. cbn zeta. rewrite E2, bind_Ok. do 2 eexists. split; [reflexivity|].
  cbn [l_first l_last l_count]. split; [reflexivity|]. split; [reflexivity|]. split; [lia|]. split; [lia|].
  eapply same_outside_trans; [eapply same_outside_weaken; [exact O1|lia|lia]|]. eapply same_outside_weaken; [exact O2|lia|lia].
Qed.
Print Assumptions C147_newlist_partial.
(* every append, to any list, of any element: the list is linked to the address len + 16 and the
   program crashes there, if that is not mapped (the first pages are not) *)
Theorem C147_append_refuted : forall m l e len, 0 <= len -> room m (l_last l) (64 + len) -> room m e len ->
  (e + len <= l_last l \/ l_last l + 64 + len <= e) -> m (len + 16) = None -> append m l e len = Fault.
Proof.
  intros m l e len Hl R Re A N. unfold append. destruct (store8_ok 8 m (l_last l) (len + 16)) as (m1 & E1 & O1 & K1); [eapply room_sub; [exact R|lia|lia]|].
  cbn zeta. rewrite E1, bind_Ok. assert (N1 : m1 (len + 16) = None).
  { rewrite O1; [exact N|]. intro K. change (Z.of_nat 8) with 8 in K. apply (R (len + 16)); [lia|exact N]. }
  assert (C : forall n m d s, room m d (Z.of_nat n) -> room m s (Z.of_nat n) -> m (len + 16) = None -> exists m', copy n m d s = Ok m' /\ m' (len + 16) = None).
  { clear. induction n as [|n IH]; intros m d s Rd Rs N; [exists m; auto|]. cbn [copy]. destruct (m s) as [c|] eqn:Ec; [|exfalso; apply (Rs s); [lia|exact Ec]].
    rewrite (load_some _ _ _ Ec), bind_Ok, (store_room m d (Z.of_nat (S n))), bind_Ok by (auto; lia). apply IH.
    - apply room_upd. eapply room_sub; [exact Rd|lia|lia].
    - apply room_upd. eapply room_sub; [exact Rs|lia|lia].
    - rewrite upd_other; [exact N|]. intros K. apply (Rd d); [lia|congruence]. }
  destruct (C (Z.to_nat len) m1 (l_last l + 64) e) as (m2 & E2 & N2); auto.
  - apply K1. eapply room_sub; [exact R|lia|lia].
  - apply K1. eapply room_sub; [exact Re|lia|lia].
  - rewrite E2, bind_Ok. cbn [l_last]. change 8%nat with (S 7). cbn [clear]. unfold store. rewrite N2. reflexivity.
Qed.
Print Assumptions C147_append_refuted.
Definition m147 : mem := fun x => if (4096 <=? x) && (x <? 8192) then Some 0 else None.
Example C147_case : room m147 4096 4096 /\ m147 (5 + 16) = None.
Proof. split; [|reflexivity]. intros x Hx. unfold m147. replace ((4096 <=? x) && (x <? 8192)) with true by lia. discriminate. Qed.

(* ---- C148: the auxiliary vector ---- *)
(* the words of memory at p *)
Fixpoint words_at (m : words) (p : Z) (l : list Z) : Prop :=
  match l with [] => True | v :: r => m p = Some v /\ words_at m (p + 4) r end.
Definition aux_words (l : list (Z * Z)) : list Z := concat (map (fun x => [fst x; snd x]) l).
Lemma words_app m a : forall p b, words_at m p (a ++ b) <-> words_at m p a /\ words_at m (p + 4 * zlen a) b.
Proof.
  induction a as [|v a IH]; intros p b.
  - change (zlen (@nil Z)) with 0. cbn [app words_at]. rewrite Z.add_0_r. tauto.
  - cbn [app words_at]. rewrite zlen_cons, IH. replace (p + 4 + 4 * zlen a) with (p + 4 * (zlen a + 1)) by lia. tauto.
Qed.
Lemma skip32 m : forall env fuel p, Forall (fun v => v <> 0) env -> words_at m p (env ++ [0]) -> (length env < fuel)%nat -> skip_env fuel 4 m p = Ok (p + 4 * (zlen env + 1)).
Proof.
  induction env as [|v env IH]; intros fuel p Nz H F; (destruct fuel; [lia|]); destruct H as [H1 H2]; cbn [skip_env]; unfold word_at at 1; rewrite H1, bind_Ok; cbn [Z.eqb Pos.eqb bind].
  - change (zlen (@nil Z)) with 0. cbn [Z.eqb andb]. f_equal.
  - apply Forall_cons_iff in Nz as [Nv Nz]. replace (v =? 0) with false by lia. cbn [andb]. rewrite IH; auto; [|cbn in F; lia]. rewrite zlen_cons. f_equal. lia.
Qed.
Lemma scan_found m v : forall l fuel p, words_at m p (aux_words l ++ [32; v]) -> (length l < fuel)%nat -> (forall t x, In (t, x) l -> t <> 32) -> scan_aux fuel m p = Ok v.
Proof.
  induction l as [|[t x] l IH]; intros fuel p H F N; (destruct fuel; [lia|]); cbn [scan_aux].
  - destruct H as (H1 & H2 & _). unfold word_at at 1. rewrite H1, bind_Ok. cbn [Z.eqb Pos.eqb]. unfold word_at. rewrite H2. reflexivity.
  - destruct H as (H1 & H2 & H3). cbn [fst] in H1. unfold word_at at 1. rewrite H1, bind_Ok. assert (t <> 32) by (apply (N t x); left; reflexivity). replace (t =? 32) with false by lia.
    apply IH; [|cbn in F; lia|intros t' x' I; apply (N t' x'); right; exact I]. replace (p + 8) with (p + 4 + 4) by lia. exact H3.
Qed.
(* 32 bit: with an entry AT_SYSINFO (32), behind the environment and any other entries, its value
   is found *)
Theorem C148_sysinfo_partial : forall m envp env l v r fuel, Forall (fun x => x <> 0) env -> (forall t x, In (t, x) l -> t <> 32) ->
  words_at m envp (env ++ [0] ++ aux_words (l ++ [(32, v)] ++ r)) -> (length env + length l < fuel)%nat ->
  start_c fuel 4 m envp = Ok v.
Proof.
  intros m envp env l v r fuel Nz N H F. unfold start_c. rewrite app_assoc in H. apply words_app in H as [H1 H2]. rewrite (skip32 m env) by (auto; lia). rewrite bind_Ok.
  rewrite zlen_app in H2. change (zlen [0]) with 1 in H2. apply (scan_found m v l); [|lia|exact N].
  unfold aux_words in *. rewrite map_app, concat_app in H2. cbn [map concat app fst snd] in H2. change (32 :: v :: concat (map (fun x => [fst x; snd x]) r)) with ([32; v] ++ concat (map (fun x => [fst x; snd x]) r)) in H2.
  rewrite app_assoc in H2. apply words_app in H2. apply H2.
Qed.
Print Assumptions C148_sysinfo_partial.
Example C148_case : words_at (fun a => if a =? 100 then Some 7 else if a =? 104 then Some 0 else if a =? 108 then Some 6 else if a =? 112 then Some 4096 else if a =? 116 then Some 32 else if a =? 120 then Some 99 else None)
  100 ([7] ++ [0] ++ aux_words ([(6, 4096)] ++ [(32, 99)] ++ [])).
Proof. cbn. repeat split. Qed.
(* no such entry, as on x86-64: the scan goes beyond the entry AT_NULL which ends the vector; here
   until the end of the stack, for every memory without a 32 at the places it looks at *)
Theorem C148_missing_refuted : forall m p n fuel, (forall k, (k < n)%nat -> exists v, m (p + 8 * Z.of_nat k) = Some v /\ v <> 32) -> m (p + 8 * Z.of_nat n) = None -> (n < fuel)%nat ->
  scan_aux fuel m p = Fault.
Proof.
  intros m p n. revert p. induction n as [|n IH]; intros p fuel H N F; (destruct fuel; [lia|]); cbn [scan_aux].
  - change (8 * Z.of_nat 0) with 0 in N. rewrite Z.add_0_r in N. unfold word_at. rewrite N. reflexivity.
  - destruct (H 0%nat) as (v & E & Nv); [lia|]. change (8 * Z.of_nat 0) with 0 in E. rewrite Z.add_0_r in E. unfold word_at at 1. rewrite E, bind_Ok. replace (v =? 32) with false by lia. apply IH; [|replace (p + 8 + 8 * Z.of_nat n) with (p + 8 * Z.of_nat (S n)) by lia; exact N|lia].
    intros k Hk. destruct (H (S k)) as (w & Ew & Nw); [lia|]. exists w. replace (p + 8 + 8 * Z.of_nat k) with (p + 8 * Z.of_nat (S k)) by lia. auto.
Qed.
Print Assumptions C148_missing_refuted.
(* 64 bit: an entry has 16 bytes, so the value 32 of another entry (here user id 32, AT_UID = 11) is
   taken for the type *)
Theorem C148_wide_refuted : exists m, words_at m 100 ([0; 0] ++ [11; 0; 32; 0] ++ [0; 0; 0; 0]) /\ start_c 10 8 m 100 = Ok 0 /\
  exists m', words_at m' 100 ([0; 0] ++ [11; 0; 33; 0] ++ [0; 0; 0; 0]) /\ start_c 10 8 m' 100 = Fault.
Proof.
  exists (fun a => if (100 <=? a) && (a <=? 136) then Some (if a =? 108 then 11 else if a =? 116 then 32 else 0) else None). split; [cbn; repeat split|]. split; [reflexivity|].
  exists (fun a => if (100 <=? a) && (a <=? 136) then Some (if a =? 108 then 11 else if a =? 116 then 33 else 0) else None). split; [cbn; repeat split|]. reflexivity.
Qed.
Print Assumptions C148_wide_refuted.
