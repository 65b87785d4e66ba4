From Verif Require Import Base BaseLemmas SysModel MatchModel MatchSpec.

(* ---- any pattern: all accesses are inside the two strings ---- *)
Definition verd (r : res (Z * tmatch)) : Prop := exists v st, r = Ok (v, st) /\ (v = 0 \/ v = 1).
Lemma hd_at m p s : str_at m p s -> m p = Some (hd 0 s).
Proof. destruct s; cbn [str_at hd]; tauto. Qed.
Lemma tl_at m p s : str_at m p s -> hd 0 s <> 0 -> exists c t, s = c :: t /\ str_at m (p + 1) t.
Proof. destruct s as [|c t]; cbn [str_at hd]; [congruence|]. intros (_ & _ & H) _. eauto. Qed.
Lemma class_for_safe m t : forall p re fuel, str_at m re p -> (length p < fuel)%nat ->
  class_for fuel m re t = Ok None \/ exists re' p', class_for fuel m re t = Ok (Some re') /\ str_at m re' p' /\ (length p' <= length p)%nat.
Proof.
  induction p as [|c p IH]; intros re fuel H Hf; (destruct fuel as [|k]; [cbn [length] in Hf; lia|]); cbn [class_for]; pose proof (hd_at _ _ _ H) as E; rewrite (load_some _ _ _ E), bind_Ok; cbn [hd].
  - right. exists re, []. auto.
  - destruct ((c =? 0) || (c =? t)); [right; exists re, (c :: p); auto|]. destruct (c =? 93); [auto|]. destruct H as (_ & _ & H). cbn [length] in *.
    destruct (IH (re + 1) k H ltac:(lia)) as [R|(re' & p' & R & R1 & R2)]; [auto|]. right. exists re', p'. auto.
Qed.
Lemma class_end_safe m : forall p re fuel, str_at m re p -> (length p < fuel)%nat ->
  exists re' p', class_end fuel m re = Ok re' /\ str_at m re' p' /\ (length p' <= length p)%nat.
Proof.
  induction p as [|c p IH]; intros re fuel H Hf; (destruct fuel as [|k]; [cbn [length] in Hf; lia|]); cbn [class_end]; pose proof (hd_at _ _ _ H) as E; rewrite (load_some _ _ _ E), bind_Ok; cbn [hd].
  - exists re, []. auto.
  - destruct ((c =? 0) || (c =? 93)); [exists re, (c :: p); auto|]. destruct H as (_ & _ & H). cbn [length] in *.
    destruct (IH (re + 1) k H ltac:(lia)) as (re' & p' & R & R1 & R2). exists re', p'. auto.
Qed.
Lemma text_end_safe m : forall s p fuel, str_at m p s -> (length s < fuel)%nat -> exists e, text_end fuel m p = Ok e.
Proof.
  induction s as [|c s IH]; intros p fuel H Hf; (destruct fuel as [|k]; [cbn [length] in Hf; lia|]); cbn [text_end]; pose proof (hd_at _ _ _ H) as E; rewrite (load_some _ _ _ E), bind_Ok; cbn [hd].
  - exists p. reflexivity.
  - destruct (c =? 0); [eauto|]. destruct H as (_ & _ & H). cbn [length] in *. apply IH; [exact H|lia].
Qed.
Lemma star_safe rec m re p : str_at m re p -> hd 0 p <> 0 -> forall s text fuel st, s <> [] -> str_at m text s -> (length s <= fuel)%nat ->
  (forall t r st, str_at m t r -> (length r <= length s)%nat -> verd (rec t st)) -> exists b e st', star_loop rec fuel m text re st = Ok (b, e, st').
Proof.
  intros Hre Hh. induction s as [|c s IH]; intros text fuel st Hne Hs Hf Hrec; [congruence|]. cbn [length] in *. destruct fuel as [|k]; [lia|]. cbn [star_loop].
  destruct (Hrec text (c :: s) st Hs ltac:(cbn [length]; lia)) as (v & st1 & E & Hv). rewrite E, bind_Ok. destruct (v =? 0); [|eauto]. destruct Hs as (_ & _ & Hs).
  rewrite (load_some _ _ _ (hd_at _ _ _ Hs)), bind_Ok. destruct (hd 0 s =? 0) eqn:E0.
  - rewrite (load_some _ _ _ (hd_at _ _ _ Hre)), bind_Ok. destruct (tl_at _ _ _ Hre Hh) as (x & t & -> & Ht). destruct ((hd 0 (x :: t) =? 35) || (hd 0 (x :: t) =? 36)); [|eauto].
    rewrite (load_some _ _ _ (hd_at _ _ _ Ht)), bind_Ok. eauto.
  - apply IH; [intros ->; discriminate|exact Hs|lia|]. intros t r st2 H1 H2. apply (Hrec t r st2 H1). lia.
Qed.
Lemma verdict_bit n r : r = 0 \/ r = 1 -> verdict n r = 0 \/ verdict n r = 1.
Proof. intros [-> | ->]; destruct n; cbn; auto. Qed.

Lemma m_loop_safe : forall fuel m text re st s p, str_at m text s -> str_at m re p -> (length s + length p < fuel)%nat -> verd (m_loop fuel m text re st).
Proof.
  induction fuel as [|k IH]; intros m text re st s p Hs Hp Hf; [lia|]. cbn [m_loop].
  assert (V0 : forall st, verd (Ok (0, st))) by (intros st0; exists 0, st0; auto). assert (V1 : forall st, verd (Ok (1, st))) by (intros st0; exists 1, st0; auto).
  assert (VV : forall n r st, r = 0 \/ r = 1 -> verd (Ok (verdict n r, st))) by (intros n r st0 Hr; exists (verdict n r), st0; split; [reflexivity|]; now apply verdict_bit).
  rewrite (load_some _ _ _ (hd_at _ _ _ Hs)), bind_Ok. destruct (hd 0 s =? 0) eqn:E0.
  - rewrite (load_some _ _ _ (hd_at _ _ _ Hp)), bind_Ok.
    assert (Q : exists re' q, (if (hd 0 p =? 35) || (hd 0 p =? 36) then re + 1 else re) = re' /\ str_at m re' q).
    { destruct ((hd 0 p =? 35) || (hd 0 p =? 36)) eqn:E; [|eauto]. destruct (tl_at _ _ _ Hp) as (c & t & _ & H); [lia|eauto]. }
    destruct Q as (re' & q & -> & Hq). rewrite (load_some _ _ _ (hd_at _ _ _ Hq)), bind_Ok. destruct (hd 0 q =? 0) eqn:Eq; [apply V1|]. destruct (hd 0 q =? 42) eqn:E42; [|apply V0].
    destruct (tl_at _ _ _ Hq) as (c & t & _ & H); [lia|]. rewrite (load_some _ _ _ (hd_at _ _ _ H)), bind_Ok. destruct (hd 0 t =? 0); [apply V1|apply V0].
  - destruct (tl_at _ _ _ Hs) as (t & s' & -> & Hs'); [lia|]. cbn [hd] in *. cbn [length] in Hf.
    rewrite (load_some _ _ _ (hd_at _ _ _ Hp)), bind_Ok.
    assert (Q : exists re' q, (if hd 0 p =? 33 then re + 1 else re) = re' /\ str_at m re' q /\ (length q <= length p)%nat).
    { destruct (hd 0 p =? 33) eqn:E; [|eauto]. destruct (tl_at _ _ _ Hp) as (c & r & -> & H); [lia|]. exists (re + 1), r. cbn [length]. auto. }
    destruct Q as (re' & q & -> & Hq & Hql). rewrite (load_some _ _ _ (hd_at _ _ _ Hq)), bind_Ok. set (neg := hd 0 p =? 33).
    assert (NEXT : forall re1 q1, str_at m re1 q1 -> (length q1 <= length q)%nat -> hd 0 q1 <> 0 -> verd (m_loop k m (text + 1) (re1 + 1) st)).
    { intros re1 q1 H1 H2 H3. destruct (tl_at _ _ _ H1 H3) as (c & r & -> & H). cbn [length] in H2. apply (IH m (text + 1) (re1 + 1) st s' r Hs' H). lia. }
    assert (LIT : forall re1 q1, str_at m re1 q1 -> (length q1 <= length q)%nat ->
      verd (if hd 0 q1 =? 0 then Ok (0, st) else if xorb neg (negb (hd 0 q1 =? t)) then Ok (0, st) else m_loop k m (text + 1) (re1 + 1) st)).
    { intros re1 q1 H1 H2. destruct (hd 0 q1 =? 0) eqn:E; [apply V0|]. destruct (xorb _ _); [apply V0|]. apply (NEXT re1 q1); auto. lia. }
    assert (STAR : forall text1 s1 mp, str_at m text1 s1 -> s1 <> [] -> (length s1 <= S (length s'))%nat -> hd 0 q <> 0 ->
      verd (let* c := load m (re' + 1) in
          if c =? 0 then
            match mp, st with
            | Some pos, Some _ => let* e := text_end k m text1 in Ok (verdict neg 1, capture st pos e)
            | _, _ => Ok (verdict neg 1, st)
            end
          else
            let* r := star_loop (fun text st => m_loop k m text (re' + 1) (reset st)) k m text1 (re' + 1) st in
            let '(hit, text, st) := r in
            if hit then Ok (verdict neg 1, match mp with Some pos => capture st pos text | None => st end)
            else Ok (verdict neg 0, st))).
    { intros text1 s1 mp H1 H2 H3 H4. destruct (tl_at _ _ _ Hq H4) as (c & r & -> & Hr). cbn [length] in *. rewrite (load_some _ _ _ (hd_at _ _ _ Hr)), bind_Ok.
      destruct (hd 0 r =? 0) eqn:Er.
      - destruct mp as [pos|]; [|now apply VV; auto]. destruct st as [x|]; [|now apply VV; auto]. destruct (text_end_safe m s1 text1 k H1 ltac:(lia)) as [e He]. rewrite He, bind_Ok. apply VV; auto.
      - destruct (star_safe (fun text st => m_loop k m text (re' + 1) (reset st)) m (re' + 1) r Hr ltac:(lia) s1 text1 k st H2 H1 ltac:(lia)) as (b & e & st1 & E).
        + intros tt rr st2 Ht1 Ht2. apply (IH m tt (re' + 1) (reset st2) rr r Ht1 Hr). lia.
        + rewrite E, bind_Ok. destruct b; apply VV; auto. }
    assert (PLUS : forall mp, hd 0 q <> 0 -> verd (let* c := load m (text + 1) in if c =? 0 then Ok (verdict neg 0, st) else
          (let* c := load m (re' + 1) in
          if c =? 0 then
            match mp, st with
            | Some pos, Some _ => let* e := text_end k m (text + 1) in Ok (verdict neg 1, capture st pos e)
            | _, _ => Ok (verdict neg 1, st)
            end
          else
            let* r := star_loop (fun text st => m_loop k m text (re' + 1) (reset st)) k m (text + 1) (re' + 1) st in
            let '(hit, text, st) := r in
            if hit then Ok (verdict neg 1, match mp with Some pos => capture st pos text | None => st end)
            else Ok (verdict neg 0, st)))).
    { intros mp H4. rewrite (load_some _ _ _ (hd_at _ _ _ Hs')), bind_Ok. destruct (hd 0 s' =? 0) eqn:E; [apply VV; auto|]. apply (STAR (text + 1) s' mp); try lia; [exact Hs'|intros ->; discriminate]. }
    assert (TEST : forall b, hd 0 q <> 0 -> verd (if xorb neg b then m_loop k m (text + 1) (re' + 1) st else Ok (0, st))).
    { intros b H. destruct (xorb neg b); [|apply V0]. apply (NEXT re' q); auto. }
    destruct (hd 0 q =? 63) eqn:C1; [destruct neg; [apply V0|apply (NEXT re' q); auto; lia]|].
    destruct (hd 0 q =? 91) eqn:C2.
    { destruct (tl_at _ _ _ Hq ltac:(lia)) as (c & r & -> & Hr). cbn [length] in *.
      destruct (class_for_safe m t r (re' + 1) k Hr ltac:(lia)) as [E|(re2 & q2 & E & H1 & H2)]; rewrite E, bind_Ok; [apply VV; auto|].
      destruct (class_end_safe m q2 re2 k H1 ltac:(lia)) as (re3 & q3 & E3 & H3 & H4). rewrite E3, bind_Ok. rewrite (load_some _ _ _ (hd_at _ _ _ H3)), bind_Ok.
      destruct (hd 0 q3 =? 0) eqn:E4; [apply V0|]. destruct neg; [apply V0|]. apply (NEXT re3 q3); auto; lia. }
    destruct (hd 0 q =? 35) eqn:C3; [apply TEST; lia|].
    destruct (hd 0 q =? 64) eqn:C4; [apply TEST; lia|].
    destruct (hd 0 q =? 37) eqn:C5; [apply (PLUS (Some text)); lia|].
    destruct (hd 0 q =? 43) eqn:C6; [apply (PLUS None); lia|].
    destruct (hd 0 q =? 42) eqn:C7; [apply (STAR text (t :: s') None); [exact Hs|discriminate|cbn [length]; lia|lia]|].
    destruct (hd 0 q =? 92) eqn:C8; [|apply LIT; auto].
    destruct (tl_at _ _ _ Hq ltac:(lia)) as (c & r & -> & Hr). cbn [length] in *. rewrite (load_some _ _ _ (hd_at _ _ _ Hr)), bind_Ok.
    destruct (escape (hd 0 r) t neg) as [[]|] eqn:Ee; [|apply V0|apply LIT; [exact Hr|cbn [length]; lia]].
    apply (NEXT (re' + 1) r); [exact Hr|cbn [length]; lia|]. intros H0. rewrite H0 in Ee. discriminate.
Qed.
Lemma match_safe fuel m text re st s p : str_at m text s -> str_at m re p -> (length s + length p < fuel)%nat -> verd (match_ fuel m text re st).
Proof.
  intros Hs Hp Hf. unfold match_, match0. rewrite (load_some _ _ _ (hd_at _ _ _ Hp)), bind_Ok.
  pose proof (m_loop_safe fuel m text re) as P.
  assert (TWO : forall r q, str_at m (re + r) q -> (length q <= length p)%nat -> verd (let* a := m_loop fuel m text (re + r) (reset st) in let '(v, st1) := a in if v =? 1 then Ok (1, st1) else m_loop fuel m text re (reset st1))).
  { intros r q Hq Hl. destruct (m_loop_safe fuel m text (re + r) (reset st) s q Hs Hq ltac:(lia)) as (v & st1 & E & _). rewrite E, bind_Ok. destruct (v =? 1); [exists 1, st1; auto|]. now apply (P _ s p). }
  destruct (hd 0 p =? 42) eqn:E.
  - destruct (tl_at _ _ _ Hp ltac:(lia)) as (c & r & -> & Hr). rewrite (load_some _ _ _ (hd_at _ _ _ Hr)), bind_Ok, bind_Ok. destruct (hd 0 r =? 64) eqn:E2.
    + change (2 =? 0) with false. cbv iota. destruct (tl_at _ _ _ Hr ltac:(lia)) as (c2 & r2 & -> & Hr2). apply (TWO 2 r2); [replace (re + 2) with (re + 1 + 1) by lia; exact Hr2|cbn [length]; lia].
    + change (0 =? 0) with true. cbv iota. now apply (P _ s (c :: r)).
  - rewrite bind_Ok. destruct (hd 0 p =? 64) eqn:E2.
    + change (1 =? 0) with false. cbv iota. destruct (tl_at _ _ _ Hp ltac:(lia)) as (c2 & r2 & -> & Hr2). apply (TWO 1 r2); [exact Hr2|]; cbn [length]; lia.
    + change (0 =? 0) with true. cbv iota. now apply (P _ s p).
Qed.
