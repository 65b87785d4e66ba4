From Coq Require Import ZifyBool.
From Verif Require Import Base BaseLemmas SysModel MatchModel MatchProofs5 MextModel MtwoModel MtwoSpec.
From Verif Require MatchProofs MextProofs6.

(* ---- any pattern without '{' ---- *)
Lemma silent_app a b : silent (a ++ b) -> silent b.
Proof.
  intros (A & B & C & D & E). repeat (split; [rewrite in_app_iff in *; tauto|]). intros x d. destruct (E (a ++ x) d) as (E1 & E2 & E3 & E4). rewrite <- !app_assoc in *. repeat split; intros ->; auto.
Qed.
Lemma silent_tl c b : silent (c :: b) -> silent b.
Proof. apply (silent_app [c]). Qed.
Lemma not_in_app (x : Z) a b : ~ In x (a ++ b) -> ~ In x b.
Proof. rewrite in_app_iff. tauto. Qed.
Section Suffix.
Variable m : mem.
Lemma class_for_suf t : forall p re fuel, str_at m re p -> (length p < fuel)%nat ->
  class_for fuel m re t = Ok None \/ exists re' a p', class_for fuel m re t = Ok (Some re') /\ str_at m re' p' /\ p = a ++ p'.
Proof.
  induction p as [|x r IH]; intros re fuel H L; (destruct fuel as [|k]; [cbn [length] in L; lia|]); cbn [class_for]; ld (hd_at _ _ _ H); cbn [hd].
  - right. exists re, [], []. auto.
  - destruct ((x =? 0) || (x =? t)); [right; exists re, [], (x :: r); auto|]. destruct (x =? 93); [auto|]. destruct H as (_ & _ & H). cbn [length] in L.
    destruct (IH (re + 1) k H ltac:(lia)) as [R|(re2 & a & q2 & R & R1 & ->)]; [auto|]. right. exists re2, (x :: a), q2. auto.
Qed.
Lemma class_end_suf : forall p re fuel, str_at m re p -> (length p < fuel)%nat -> exists re' a p', class_end fuel m re = Ok re' /\ str_at m re' p' /\ p = a ++ p'.
Proof.
  induction p as [|x r IH]; intros re fuel H L; (destruct fuel as [|k]; [cbn [length] in L; lia|]); cbn [class_end]; ld (hd_at _ _ _ H); cbn [hd].
  - exists re, [], []. auto.
  - destruct ((x =? 0) || (x =? 93)); [exists re, [], (x :: r); auto|]. destruct H as (_ & _ & H). cbn [length] in L.
    destruct (IH (re + 1) k H ltac:(lia)) as (re2 & a & q2 & R & R1 & ->). exists re2, (x :: a), q2. auto.
Qed.
Lemma seek_suf y : forall p re fuel, str_at m re p -> (length p < fuel)%nat -> exists re' p', seek fuel m y re = Ok re' /\ str_at m re' p'.
Proof.
  induction p as [|x r IH]; intros re fuel H L; (destruct fuel as [|k]; [cbn [length] in L; lia|]); cbn [seek]; ld (hd_at _ _ _ H); cbn [hd].
  - destruct ((0 =? y) || (0 =? 0)) eqn:E; [exists re, []; auto|]. rewrite orb_true_r in E. discriminate.
  - destruct ((x =? y) || (x =? 0)); [exists re, (x :: r); auto|]. destruct H as (_ & _ & H). cbn [length] in L. apply IH; auto. lia.
Qed.
End Suffix.

Section Safe.
Variables (m : mem) (text0 : Z) (s0 : list Z) (f0 : option (Z -> Z -> Z)).
Hypothesis T0 : str_at m text0 s0.
Hypothesis P0 : 0 < text0.
Hypothesis CB : forall f n a b, f0 = Some f -> s0 = a ++ b -> b <> [] -> f n (text0 + zlen a) = 0 \/ f n (text0 + zlen a) = -1 \/ 1 <= f n (text0 + zlen a) < zlen b.
Notation sub := (MextProofs6.sub text0 s0).
Lemma sub_at t s : sub t s -> str_at m t s.
Proof. apply (MextProofs6.sub_at m text0 s0 T0). Qed.
Lemma sub_drop t a b : sub t (a ++ b) -> sub (t + zlen a) b.
Proof. apply (MextProofs6.sub_drop text0 s0 f0 CB). Qed.
Lemma sub_tl t c s : sub t (c :: s) -> sub (t + 1) s.
Proof. apply (MextProofs6.sub_tl text0 s0 f0 CB). Qed.
Lemma sub_pos t s : sub t s -> 0 < t.
Proof. intros (a & _ & ->). nneg a. lia. Qed.
Definition vy (q : Prop) (e : ext2) (r : res (Z * ext2)) : Prop := exists v e', r = Ok (v, e') /\ 0 <= v /\ pmc (base e') = f0 /\ (q -> out e' = out e).
Lemma ystar_safe (q : Prop) rec re p : str_at m re p -> forall s text fuel e, s <> [] -> sub text s -> (length s <= fuel)%nat -> pmc (base e) = f0 ->
  (forall t r e, sub t r -> (length r <= length s)%nat -> pmc (base e) = f0 -> vy q e (rec t e)) ->
  exists r e', y_star rec fuel m text re e = Ok (r, e') /\ pmc (base e') = f0 /\ (q -> out e' = out e) /\ forall z v, r = Some (z, v) -> 0 <= v.
Proof.
  intros Hre. induction s as [|c s IH]; intros text fuel e Hne Hs Hf Hp Hrec; [congruence|]. cbn [length] in *. destruct fuel as [|k]; [lia|]. cbn [y_star].
  destruct (Hrec text (c :: s) e Hs ltac:(cbn [length]; lia) Hp) as (v & e1 & E & Hv & Hp1 & Ho1). rewrite E, bind_Ok.
  destruct (v =? 0); [|do 2 eexists; split; [reflexivity|]; split; [exact Hp1|]; split; [exact Ho1|]; intros z v' [= <- <-]; exact Hv].
  apply sub_tl in Hs. pose proof (sub_at _ _ Hs) as Hs1. ld (hd_at _ _ _ Hs1). destruct (hd 0 s =? 0) eqn:E0.
  - ld (hd_at _ _ _ Hre). do 2 eexists; split; [reflexivity|]; split; [exact Hp1|]; split; [exact Ho1|]. intros z v'. destruct ((hd 0 p =? 35) || (hd 0 p =? 36)); [|discriminate]. intros [= <- <-]. lia.
  - destruct (IH (text + 1) k e1) as (r & e2 & E2 & Hp2 & Ho2 & Hv2); auto; [intros ->; discriminate|lia| |].
    + intros t r e2 H1 H2 H3. apply (Hrec t r e2 H1); [lia|exact H3].
    + exists r, e2. split; [exact E2|]. split; [exact Hp2|]. split; [|exact Hv2]. intros Q. rewrite Ho2, Ho1; auto.
Qed.
Lemma y_safe : forall fuel text re nm e s p, sub text s -> str_at m re p -> ~ In 123 p -> pmc (base e) = f0 -> (length s + length p + 2 <= fuel)%nat -> vy (silent p) e (y_loop fuel m text re nm e).
Proof.
  induction fuel as [|k IH]; intros text re nm e s p Hs Hp N Hpc Hf; [lia|]. cbn [y_loop]. pose proof (sub_at _ _ Hs) as Hs1. pose proof (sub_pos _ _ Hs) as Hpos.
  assert (VX : forall v, 0 <= v -> vy (silent p) e (Ok (v, e))) by (intros v Hv; exists v, e; auto).
  assert (V0 : vy (silent p) e (Ok (0, e))) by (apply VX; lia). assert (VT : vy (silent p) e (Ok (text, e))) by (apply VX; lia).
  ld (hd_at _ _ _ Hs1). destruct (hd 0 s =? 0) eqn:E0.
  - unfold y_end. ld (hd_at _ _ _ Hp). cbv zeta.
    assert (Q : exists re' a q, (if hd 0 p =? 44 then re + 1 else re) = re' /\ str_at m re' q /\ p = a ++ q).
    { destruct (hd 0 p =? 44) eqn:E; [|exists re, [], p; auto]. destruct (tl_at _ _ _ Hp) as (c & t & -> & H); [lia|]. exists (re + 1), [c], t. auto. }
    destruct Q as (re' & a & q & -> & Hq & Eq). ld (hd_at _ _ _ Hq). destruct ((hd 0 q =? 35) || (hd 0 q =? 36)) eqn:E1.
    + exists text, (say e). split; [reflexivity|]. split; [lia|]. split; [exact Hpc|]. intros S. exfalso. rewrite Eq in S. apply silent_app in S as (_ & _ & S3 & S4 & _). destruct (tl_at _ _ _ Hq ltac:(lia)) as (c & t & -> & _). cbn [hd In] in *. lia.
    + destruct (hd 0 q =? 0); [exact VT|]. destruct (hd 0 q =? 42) eqn:E42; [|exact V0]. destruct (tl_at _ _ _ Hq) as (c & t & _ & H); [lia|]. ld (hd_at _ _ _ H). destruct (hd 0 t =? 0); [exact VT|exact V0].
  - destruct (tl_at _ _ _ Hs1) as (t & s' & -> & Hs'); [lia|]. cbn [hd] in *. cbn [length] in Hf. unfold y_head. ld (hd_at _ _ _ Hp). cbv zeta. set (neg := hd 0 p =? 33).
    assert (Q : exists re' a q, (if neg || (hd 0 p =? 44) then re + 1 else re) = re' /\ str_at m re' q /\ p = a ++ q).
    { unfold neg. destruct ((hd 0 p =? 33) || (hd 0 p =? 44)) eqn:E; [|exists re, [], p; auto]. destruct (tl_at _ _ _ Hp) as (c & r & -> & H); [lia|]. exists (re + 1), [c], r. auto. }
    destruct Q as (re' & a & q & -> & Hq & Eq). ld (hd_at _ _ _ Hq). assert (Nq : ~ In 123 q) by (rewrite Eq in N; now apply not_in_app in N).
    assert (SQ : silent p -> silent q) by (rewrite Eq; apply silent_app). assert (Hql : (length q <= length p)%nat) by (rewrite Eq, app_length; lia). clear Eq.
    (* calls for a rest of the pattern *)
    assert (REC : forall e1 text1 re1 q1 nm1 s1 a1, sub text1 s1 -> (length s1 <= S (length s'))%nat -> str_at m re1 q1 -> q = a1 ++ q1 -> a1 <> [] -> pmc (base e1) = f0 -> vy (silent p) e1 (y_loop k m text1 re1 nm1 e1)).
    { intros e1 text1 re1 q1 nm1 s1 a1 A1 A2 A3 A4 A5 A6. destruct (IH text1 re1 nm1 e1 s1 q1) as (v & e2 & B1 & B2 & B3 & B4); auto.
      - rewrite A4 in Nq. now apply not_in_app in Nq.
      - rewrite A4, app_length in Hql. destruct a1; [congruence|]. cbn [length] in Hql. lia.
      - exists v, e2. split; [exact B1|]. split; [exact B2|]. split; [exact B3|]. intros S. apply B4. apply SQ in S. rewrite A4 in S. now apply silent_app in S. }
    assert (CALL : forall e1 text1 re1 q1 s1 a1, sub text1 s1 -> (length s1 <= S (length s'))%nat -> str_at m re1 q1 -> q = a1 ++ q1 -> a1 <> [] -> pmc (base e1) = f0 -> vy (silent p) e1 (call2 (y_loop k m) text1 re1 e1)).
    { intros e1 text1 re1 q1 s1 a1 A1 A2 A3 A4 A5 A6. unfold call2. destruct (REC (yreset e1) text1 re1 q1 0 s1 a1) as (v & e2 & B1 & B2 & B3 & B4); auto. exists v, e2. auto. }
    pose proof (sub_tl _ _ _ Hs) as Hst.
    destruct (hd 0 q =? 41) eqn:C41.
    { destruct (tl_at _ _ _ Hq ltac:(lia)) as (c & r & E & Hr). destruct (CALL e text (re' + 1) r (t :: s') [c]) as (v & e2 & B1 & B2 & B3 & B4); auto; try (discriminate || lia). rewrite B1, bind_Ok. exists (if v =? 0 then 0 else text), e2. split; [reflexivity|]. split; [destruct (v =? 0); lia|auto]. }
    destruct (hd 0 q =? 125) eqn:C125.
    { exists text, (say e). split; [reflexivity|]. split; [lia|]. split; [exact Hpc|]. intros S. exfalso. apply SQ in S as (_ & S & _). destruct (tl_at _ _ _ Hq ltac:(lia)) as (c & r & -> & _). cbn [hd In] in *. lia. }
    assert (hd 0 q =? 123 = false) as -> by (destruct q as [|z q']; [reflexivity|]; cbn [hd In] in *; lia).
    unfold y_item. cbv zeta.
    assert (NEXT : forall d re1 q1 nm1 a1, 0 <= d -> d = 0 \/ d < zlen (t :: s') -> str_at m re1 q1 -> q = a1 ++ q1 -> hd 0 q1 <> 0 -> vy (silent p) e (y_loop k m (text + d + 1) (re1 + 1) nm1 e)).
    { intros d re1 q1 nm1 a1 A1 A2 A3 A4 A5. destruct (tl_at _ _ _ A3 A5) as (c & r & -> & Hr). rewrite zlen_cons in A2. nneg s'.
      apply (REC e (text + d + 1) (re1 + 1) r nm1 (skipn (Z.to_nat d) s') (a1 ++ [c])); auto; [|rewrite skipn_length; lia|now rewrite <- app_assoc|destruct a1; discriminate].
      rewrite <- (firstn_skipn (Z.to_nat d) s') in Hst. apply sub_drop in Hst. replace (text + d + 1) with (text + 1 + zlen (firstn (Z.to_nat d) s')); [exact Hst|]. unfold zlen in *. rewrite firstn_length. lia. }
    assert (NX : forall re1 q1 nm1 a1, str_at m re1 q1 -> q = a1 ++ q1 -> hd 0 q1 <> 0 -> vy (silent p) e (y_loop k m (text + 1) (re1 + 1) nm1 e)).
    { intros re1 q1 nm1 a1 A1 A2 A3. replace (text + 1) with (text + 0 + 1) by lia. apply (NEXT 0 re1 q1 nm1 a1); auto; lia. }
    assert (NQ : forall nm1, hd 0 q <> 0 -> vy (silent p) e (y_loop k m (text + 1) (re' + 1) nm1 e)) by (intros nm1 A; apply (NX re' q nm1 []); auto).
    assert (LIT : forall re1 q1 a1, str_at m re1 q1 -> q = a1 ++ q1 -> vy (silent p) e (if hd 0 q1 =? 0 then Ok (0, e) else if xorb neg (hd 0 q1 =? t) then y_loop k m (text + 1) (re1 + 1) nm e else Ok (0, e))).
    { intros re1 q1 a1 A1 A2. destruct (hd 0 q1 =? 0) eqn:E; [exact V0|]. destruct (xorb _ _); [|exact V0]. apply (NX re1 q1 nm a1); auto. lia. }
    (* what stands in front of the end *)
    assert (ANY : forall text1 s1 num mp re1 q1 a1, sub text1 s1 -> s1 <> [] -> (length s1 <= S (length s'))%nat -> str_at m re1 q1 -> q = a1 ++ q1 -> hd 0 q1 <> 0 -> (silent q -> q1 <> [hd 0 q1]) ->
      vy (silent p) e (y_any (y_loop k m) k m text1 re1 num mp e)).
    { intros text1 s1 num mp re1 q1 a1 A1 A2 A3 A4 A5 A6 A7. unfold y_any. cbv zeta. destruct (tl_at _ _ _ A4 A6) as (c & r & -> & Hr). cbn [hd] in A7. ld (hd_at _ _ _ Hr). pose proof (sub_pos _ _ A1) as Hp1. nneg s1. destruct (hd 0 r =? 0) eqn:Er.
      - assert (r = []) as -> by (destruct r as [|x r]; [reflexivity|]; cbn [hd] in Er; apply str_at_range in Hr; apply Forall_cons_iff in Hr as [Hr _]; lia).
        assert (S' : forall e1, pmc (base e1) = f0 -> silent p -> out (say e1) = out e) by (intros e1 _ S; exfalso; apply SQ in S; now apply A7 in S).
        assert (YS : vy (silent p) e (Ok (text1, say e))) by (exists text1, (say e); split; [reflexivity|]; split; [lia|]; split; [exact Hpc|]; now apply S').
        destruct mp as [pos|]; [|exact YS]. destruct (pm (base e) || _); [|exact YS].
        rewrite (MatchProofs.text_end_ok m s1 text1 k (sub_at _ _ A1)) by lia. rewrite bind_Ok. eexists _, _. split; [reflexivity|]. split; [lia|]. split; [exact Hpc|]. apply S'. exact Hpc.
      - destruct (ystar_safe (silent p) (fun text e => call2 (y_loop k m) text (re1 + 1) e) (re1 + 1) r Hr s1 text1 k e A2 A1 ltac:(lia) Hpc) as (o & e1 & E & Hp2 & Ho2 & Hv2).
        + intros tt r1 e2 Ht1 Ht2 Ht3. apply (CALL e2 tt (re1 + 1) r r1 (a1 ++ [c])); auto; [lia|now rewrite <- app_assoc|destruct a1; discriminate].
        + rewrite E, bind_Ok. destruct o as [[z v]|]; [|exists 0, e1; split; [reflexivity|]; split; [lia|auto]]. eexists _, _. split; [reflexivity|]. split; [now apply (Hv2 z)|]. destruct mp; auto. }
    assert (PLUS : forall num mp re1 q1 a1, str_at m re1 q1 -> q = a1 ++ q1 -> hd 0 q1 <> 0 -> (silent q -> q1 <> [hd 0 q1]) -> vy (silent p) e (let* c := load m (text + 1) in if c =? 0 then Ok (if neg then text + 1 else 0, e) else y_any (y_loop k m) k m (text + 1) re1 num mp e)).
    { intros num mp re1 q1 a1 A1 A2 A3 A4. ld (hd_at _ _ _ Hs'). destruct (hd 0 s' =? 0) eqn:E; [apply VX; destruct neg; lia|]. apply (ANY (text + 1) s' num mp re1 q1 a1); auto. intros ->. discriminate. }
    destruct (hd 0 q =? 63) eqn:C1; [destruct neg; [exact V0|apply NQ; lia]|].
    destruct (hd 0 q =? 64) eqn:C64; [destruct (xorb _ _); [apply NQ; lia|exact V0]|].
    destruct (hd 0 q =? 91) eqn:C2.
    { destruct (tl_at _ _ _ Hq ltac:(lia)) as (c & r & Ec & Hr). assert (Lr : (length r < k)%nat) by (rewrite Ec in Hql; cbn [length] in *; lia).
      destruct (class_for_suf m t r (re' + 1) k Hr Lr) as [E|(re2 & b & q2 & E & H1 & E2)]; rewrite E, bind_Ok; [apply VX; destruct neg; lia|].
      assert (L2 : (length q2 < k)%nat) by (rewrite E2, app_length in Lr; lia). destruct (class_end_suf m q2 re2 k H1 L2) as (re3 & b2 & q3 & E3 & H3 & E4). rewrite E3, bind_Ok. ld (hd_at _ _ _ H3).
      destruct (hd 0 q3 =? 0) eqn:E5; [exact V0|]. destruct neg; [exact V0|]. apply (NX re3 q3 nm (c :: b ++ b2)); auto; [|lia]. cbn [app]. now rewrite <- app_assoc, <- E4, <- E2. }
    destruct (hd 0 q =? 40) eqn:C40.
    { destruct (tl_at _ _ _ Hq ltac:(lia)) as (c & r & Ec & Hr). assert (Lr : (length r < k)%nat) by (rewrite Ec in Hql; cbn [length] in *; lia).
      destruct (seek_suf m 41 r (re' + 1) k Hr Lr) as (z & q2 & E & H1). rewrite E, bind_Ok. ld (hd_at _ _ _ H1). destruct (hd 0 q2 =? 0); [exact V0|].
      destruct (CALL e text (re' + 1) r (t :: s') [c]) as (v & e2 & B1 & B2 & B3 & B4); auto; try (discriminate || lia). rewrite B1, bind_Ok.
      destruct (v =? 0); eexists _, _; (split; [reflexivity|]); (split; [lia|]); (split; [exact B3|]); [exact B4|]. intros S. exfalso. apply SQ in S as (S & _). rewrite Ec in *. cbn [hd In] in *. lia. }
    destruct (hd 0 q =? 35) eqn:C3; [destruct (xorb _ _); [apply NQ; lia|exact V0]|].
    destruct (hd 0 q =? 36) eqn:C36; [destruct (xorb _ _); [apply NQ; lia|exact V0]|].
    destruct ((hd 0 q =? 38) || (hd 0 q =? 37)) eqn:C4.
    { destruct (tl_at _ _ _ Hq ltac:(lia)) as (c & r & Ec & Hr). ld (hd_at _ _ _ Hr).
      assert (Q : exists rr b qq, (if (48 <=? hd 0 r) && (hd 0 r <=? 57) then re' + 1 else re') = rr /\ str_at m rr qq /\ q = b ++ qq /\ hd 0 qq <> 0 /\ (hd 0 q = 37 -> silent q -> qq <> [hd 0 qq])).
      { destruct ((48 <=? hd 0 r) && (hd 0 r <=? 57)) eqn:E.
        - exists (re' + 1), [c], r. repeat split; auto; [lia|]. intros A (_ & _ & _ & _ & S) A2. rewrite Ec in A, S. cbn [hd] in A. subst c. apply (S [] (hd 0 r)). cbn [app]. f_equal. exact A2.
        - exists re', [], q. repeat split; auto; [lia|]. intros A (_ & _ & _ & _ & S) A2. rewrite A in A2. destruct (S [] 0) as (_ & _ & S1 & _); now apply S1. }
      destruct Q as (rr & b & qq & -> & Q1 & Q2 & Q3 & Q4). set (nm' := if (48 <=? hd 0 r) && (hd 0 r <=? 57) then hd 0 r - 48 else nm). destruct (hd 0 q =? 38) eqn:C5.
      - destruct (pmc (base e)) as [f|] eqn:Ef0; [|destruct neg; [exact V0|apply (NX rr qq nm' b); auto]].
        destruct (f nm' text =? 0) eqn:R0; [destruct neg; [apply (NX rr qq nm' b); auto|exact V0]|]. destruct (f nm' text =? -1) eqn:R1; [destruct neg; [exact V0|exact VT]|]. destruct neg; [exact V0|].
        assert (B : 1 <= f nm' text < zlen (t :: s')).
        { destruct Hs as (x & Ea & Et). rewrite Et in R0, R1 |- *. destruct (CB f nm' x (t :: s') (eq_sym Hpc) Ea ltac:(discriminate)) as [H|[H|H]]; lia. }
        apply (NEXT (f nm' text) rr qq nm' b); auto; lia.
      - apply (PLUS nm' (Some text) rr qq b); auto. apply Q4. lia. }
    destruct (hd 0 q =? 43) eqn:C6; [apply (PLUS nm None re' q []); auto; [lia|]; intros (_ & _ & _ & _ & S) A; replace (hd 0 q) with 43 in A by lia; destruct (S [] 0) as (_ & S1 & _); now apply S1|].
    destruct (hd 0 q =? 42) eqn:C7; [apply (ANY text (t :: s') nm None re' q []); auto; [discriminate|lia|]; intros (_ & _ & _ & _ & S) A; replace (hd 0 q) with 42 in A by lia; destruct (S [] 0) as (S1 & _); now apply S1|].
    destruct (hd 0 q =? 92) eqn:C8; [|apply (LIT re' q []); auto].
    destruct (tl_at _ _ _ Hq ltac:(lia)) as (c & r & Ec & Hr). ld (hd_at _ _ _ Hr).
    destruct (escape2 (hd 0 r) t neg) as [[]|] eqn:Ee; [|exact V0|apply (LIT (re' + 1) r [c]); auto].
    apply (NX (re' + 1) r nm [c]); auto. intros H0. rewrite H0 in Ee. discriminate.
Qed.
End Safe.
