(* Proofs about StrModel: substring search, spans, tokenising, duplication. *)
From Verif Require Import Base BaseLemmas StrModel StrSpec StrProofs StrProofs2.
Ltac Zify.zify_post_hook ::= Z.div_mod_to_equations.

Definition prefix (w l : list Z) : Prop := exists r, l = w ++ r.

Lemma prefix_nil l : prefix [] l.
Proof. now exists l. Qed.
Lemma prefix_cons x w y l : prefix (x :: w) (y :: l) <-> x = y /\ prefix w l.
Proof.
  split.
  - intros (r & E). inversion E. subst. split; auto. now exists r.
  - intros (-> & r & ->). now exists r.
Qed.
Lemma prefix_dec w : forall l, {prefix w l} + {~ prefix w l}.
Proof.
  induction w as [|x w IH]; intros l.
  - left. apply prefix_nil.
  - destruct l as [|y l].
    + right. intros (r & E). discriminate.
    + destruct (Z.eq_dec x y), (IH l); [left|right|right|right]; rewrite prefix_cons; tauto.
Qed.

(* s points to a byte equal to the current byte of little *)
Lemma strstr_in_ok w : forall l fuel m s p,
  str_at m (s + 1) l -> str_at m (p + 1) w -> (length w < fuel)%nat ->
  strstr_in fuel m s p = Ok (if prefix_dec w l then true else false).
Proof.
  induction w as [|x w IH]; intros l [|fuel] m s p Hl Hw Hf; cbn [length] in Hf; try lia;
    cbn [strstr_in str_at] in *.
  - ld Hw. cbn. destruct (prefix_dec [] l) as [|N]; auto. destruct N. apply prefix_nil.
  - destruct Hw as (W1 & W2 & W3). ld W1. destruct (Z.eqb_spec x 0); [lia|].
    destruct l as [|y l]; cbn [str_at] in Hl.
    + ld Hl. destruct (Z.eqb_spec 0 x); [lia|].
      destruct (prefix_dec (x :: w) []) as [(r & E)|]; [discriminate|auto].
    + destruct Hl as (L1 & L2 & L3). ld L1. destruct (Z.eqb_spec y x).
      * subst. rewrite IH with (l := l) by (auto; lia).
        destruct (prefix_dec w l), (prefix_dec (x :: w) (x :: l)); auto.
        -- destruct n0. apply prefix_cons. auto.
        -- destruct n0. apply prefix_cons in p0. tauto.
      * destruct (prefix_dec (x :: w) (y :: l)) as [P|]; auto.
        apply prefix_cons in P. destruct P. congruence.
Qed.

Lemma strstr_out_ok l : forall fuel m little s x w,
  l <> [] -> str_at m s l -> str_at m little (x :: w) ->
  (length l < fuel)%nat -> (length w < fuel - length l)%nat ->
  (exists i, strstr_out fuel m little s = Ok (s + Z.of_nat i) /\
             occurs_at (x :: w) l i /\ forall j, (j < i)%nat -> ~ occurs_at (x :: w) l j) \/
  (strstr_out fuel m little s = Ok 0 /\ forall j, ~ occurs_at (x :: w) l j).
Proof.
  induction l as [|y l IH]; intros [|fuel] m little s x w Hne Hl Hw Hf Hf2; cbn [length] in *; try lia;
    try congruence.
  pose proof Hw as Hw0. cbn [strstr_out str_at] in *.
  destruct Hl as (L1 & L2 & L3). destruct Hw as (W1 & W2 & W3). ld L1. ld W1.
  assert (E : (if y =? x then strstr_in (S fuel) m s little else Ok false) =
              Ok (if prefix_dec (x :: w) (y :: l) then true else false)).
  { destruct (Z.eqb_spec y x).
    - subst. rewrite strstr_in_ok with (w := w) (l := l) by (auto; lia).
      destruct (prefix_dec w l), (prefix_dec (x :: w) (x :: l)); auto.
      + destruct n. apply prefix_cons. auto.
      + destruct n. apply prefix_cons in p. tauto.
    - destruct (prefix_dec (x :: w) (y :: l)) as [P|]; auto.
      apply prefix_cons in P. destruct P. congruence. }
  rewrite E, bind_Ok. destruct (prefix_dec (x :: w) (y :: l)) as [P|P].
  - left. exists 0%nat. rewrite Z.add_0_r. split; auto. split; [|lia].
    destruct P as (r & Er). exists [], r. auto.
  - assert (Hno : ~ occurs_at (x :: w) (y :: l) 0).
    { intros (a & b & E1 & E2). destruct a; [|discriminate]. apply P. now exists b. }
    assert (Hs : forall j, occurs_at (x :: w) (y :: l) (S j) <-> occurs_at (x :: w) l j).
    { intro j. split.
      - intros (a & b & E1 & E2). destruct a as [|a0 a]; [discriminate|].
        cbn in E1. inversion E1. exists a, b. cbn in E2. split; auto. 
      - intros (a & b & E1 & E2). exists (y :: a), b. subst. auto. }
    destruct l as [|z l].
    + cbn [str_at] in L3. ld L3. cbn. right. split; auto. intros [|j]; auto.
      rewrite Hs. intros (a & b & E1 & _). destruct a; discriminate.
    + pose proof L3 as L3'. cbn [str_at] in L3'. destruct L3' as (M1 & M2 & M3). ld M1.
      destruct (Z.eqb_spec z 0); [lia|].
      destruct (IH fuel m little (s + 1) x w) as [(i & Ei & Oi & Oj)|(Ei & Oi)]; auto;
        cbn [length] in *; try lia; try congruence.
      * left. exists (S i). rewrite Ei. split; [f_equal; lia|]. split; [now apply Hs|].
        intros [|j] Hj; auto. rewrite Hs. apply Oj. lia.
      * right. split; auto. intros [|j]; auto. rewrite Hs. apply Oi.
Qed.
Lemma strstr_ok l w fuel m big little : l <> [] ->
  str_at m big l -> str_at m little w -> (length l + length w < fuel)%nat ->
  (exists i, strstr fuel m big little = Ok (big + Z.of_nat i) /\
             occurs_at w l i /\ forall j, (j < i)%nat -> ~ occurs_at w l j) \/
  (strstr fuel m big little = Ok 0 /\ forall j, ~ occurs_at w l j).
Proof.
  intros Hne Hl Hw Hf. unfold strstr. destruct w as [|x w].
  - cbn [str_at] in Hw. ld Hw. cbn. left. exists 0%nat. rewrite Z.add_0_r. split; auto.
    split; [|lia]. exists [], l. auto.
  - pose proof Hw as (W1 & W2 & W3). ld W1. destruct (Z.eqb_spec x 0); [lia|].
    cbn [length] in Hf. apply strstr_out_ok; auto; lia.
Qed.

(* ---- strcspn ---- *)
Lemma mem_str_ok D : forall fuel m p b, str_at m p D -> (length D < fuel)%nat ->
  mem_str fuel m p b = Ok (if in_dec Z.eq_dec b D then true else false).
Proof.
  induction D as [|x D IH]; intros [|fuel] m p b HD Hf; cbn [length] in *; try lia;
    cbn [mem_str str_at] in *.
  - ld HD. reflexivity.
  - destruct HD as (H1 & H2 & H3). ld H1. destruct (Z.eqb_spec x 0); [lia|].
    destruct (Z.eqb_spec x b).
    + subst. destruct (in_dec Z.eq_dec b (b :: D)) as [|N]; auto. destruct N. now left.
    + rewrite IH by (auto; lia).
      destruct (in_dec Z.eq_dec b D), (in_dec Z.eq_dec b (x :: D)) as [I|I]; auto.
      * destruct I. now right.
      * destruct I; congruence.
Qed.

Lemma span_len_nil P : span_len P [] 0.
Proof. exists [], []. auto. Qed.
Lemma span_len_stop (P : Z -> Prop) x l : ~ P x -> span_len P (x :: l) 0.
Proof. intro H. exists [], (x :: l). repeat split; auto. right. eauto. Qed.
Lemma span_len_cons (P : Z -> Prop) x l n : P x -> span_len P l n -> span_len P (x :: l) (S n).
Proof.
  intros H (a & b & -> & <- & H1 & H2). exists (x :: a), b. repeat split; auto.
Qed.

Lemma strcspn_loop_ok D s : forall fuel m d p, str_at m p s -> str_at m d D ->
  (length D + length s < fuel)%nat ->
  exists n, strcspn_loop fuel m d p = Ok (p + Z.of_nat n) /\ span_len (fun b => ~ In b D) s n.
Proof.
  induction s as [|x s IH]; intros [|fuel] m d p Hs HD Hf; cbn [length] in *; try lia;
    cbn [strcspn_loop str_at] in *.
  - ld Hs. exists 0%nat. cbn. rewrite Z.add_0_r. split; auto. apply span_len_nil.
  - destruct Hs as (H1 & H2 & H3). ld H1. destruct (Z.eqb_spec x 0); [lia|].
    rewrite mem_str_ok with (D := D) by (auto; lia). rewrite bind_Ok.
    destruct (in_dec Z.eq_dec x D).
    + exists 0%nat. rewrite Z.add_0_r. split; auto. apply span_len_stop. auto.
    + destruct (IH fuel m d (p + 1)) as (n' & E & Sp); auto; try lia.
      exists (S n'). rewrite E. split; [f_equal; lia|]. now apply span_len_cons.
Qed.
Lemma span_len_le P l n : span_len P l n -> (n <= length l)%nat.
Proof. intros (a & b & -> & <- & _). rewrite app_length. lia. Qed.

Lemma strcspn_ok D s fuel m p d : str_at m p s -> str_at m d D -> zlen s <= INT_MAX ->
  (length D + length s < fuel)%nat ->
  exists n, strcspn fuel m p d = Ok (Z.of_nat n) /\ span_len (fun b => ~ In b D) s n.
Proof.
  intros Hs HD Hm Hf. destruct (strcspn_loop_ok D s fuel m d p) as (n & E & Sp); auto.
  exists n. split; auto. unfold strcspn. rewrite E, bind_Ok.
  apply span_len_le in Sp. unfold zlen in Hm. rewrite s32_small by (unfold INT_MIN, INT_MAX in *; lia).
  f_equal. lia.
Qed.

Lemma bm_loop_ok D : forall fuel m p bm, str_at m p D -> (length D < fuel)%nat ->
  bm_loop fuel m p bm = Ok (fold_left Z.lor D bm).
Proof.
  induction D as [|x D IH]; intros [|fuel] m p b HD Hf; cbn [length] in *; try lia;
    cbn [bm_loop str_at fold_left] in *.
  - ld HD. reflexivity.
  - destruct HD as (H1 & H2 & H3). ld H1. destruct (Z.eqb_spec x 0); [lia|]. apply IH; auto. lia.
Qed.
Lemma fold_lor_testbit D : forall bm i, Z.testbit (fold_left Z.lor D bm) i = true <->
  Z.testbit bm i = true \/ exists x, In x D /\ Z.testbit x i = true.
Proof.
  induction D as [|y D IH]; intros bm i; cbn.
  - split; [auto|]. intros [|(x & [] & _)]. auto.
  - rewrite IH, Z.lor_spec, orb_true_iff. split.
    + intros [[|]|(x & I & T)]; eauto.
    + intros [|(x & [->|I] & T)]; eauto.
Qed.
Lemma land_bm D b : 0 < b -> In b D -> Z.land b (fold_left Z.lor D 0) <> 0.
Proof.
  intros Hb HI E.
  assert (Z.testbit (Z.land b (fold_left Z.lor D 0)) (Z.log2 b) = true).
  { rewrite Z.land_spec, Z.bit_log2 by auto. cbn. apply fold_lor_testbit. right.
    exists b. split; auto. now apply Z.bit_log2. }
  rewrite E, Z.bits_0 in H. discriminate.
Qed.
Lemma strcspn_opt_loop_eq D s : forall fuel m d p, str_at m p s -> str_at m d D ->
  (length D + length s < fuel)%nat ->
  strcspn_opt_loop fuel m d (fold_left Z.lor D 0) p = strcspn_loop fuel m d p.
Proof.
  induction s as [|x s IH]; intros [|fuel] m d p Hs HD Hf; cbn [length] in *; try lia;
    cbn [strcspn_loop strcspn_opt_loop str_at] in *.
  - ld Hs. reflexivity.
  - destruct Hs as (H1 & H2 & H3). ld H1. rewrite ?bind_Ok. destruct (Z.eqb_spec x 0); [lia|].
    rewrite !(mem_str_ok D) by (auto; lia).
    rewrite IH by (auto; lia).
    destruct (Z.eqb_spec (Z.land x (fold_left Z.lor D 0)) 0); auto.
    destruct (in_dec Z.eq_dec x D) as [I|I]; auto. exfalso. eapply land_bm; eauto. lia.
Qed.
Lemma strcspn_opt_eq D s fuel m p d : str_at m p s -> str_at m d D ->
  (length D + length s < fuel)%nat -> strcspn_opt fuel m p d = strcspn fuel m p d.
Proof.
  intros Hs HD Hf. unfold strcspn_opt. rewrite bm_loop_ok with (D := D) by (auto; lia).
  rewrite bind_Ok, strcspn_opt_loop_eq with (D := D) (s := s) by auto. reflexivity.
Qed.

(* ---- strspn ---- *)
Lemma strspn_loop_ok A s2 m (HA : str_at m s2 A) t : forall B fuel p acc x,
  str_at m p (x :: t) -> str_at m acc B -> (B <> [] -> A <> []) ->
  (length t * S (length A) + length B < fuel)%nat ->
  (~ In x B /\ strspn_loop fuel m s2 p acc = Ok p) \/
  (In x B /\ exists n, strspn_loop fuel m s2 p acc = Ok (p + Z.of_nat (S n)) /\
                       span_len (fun b => In b (tl A)) t n).
Proof.
  induction t as [|y t IHt]; (induction B as [|b B IHB];
    intros [|fuel] p acc x Hs HB HAB Hf; cbn [length] in Hf; try lia; cbn [strspn_loop];
    pose proof Hs as Hs0; cbn [str_at] in Hs; destruct Hs as (S1 & S2 & S3); cbn [str_at] in HB).
  - left. split; auto. ld HB. ld S1. destruct (Z.eqb_spec 0 x); [lia|]. ld S1.
    destruct (Z.eqb_spec x 0); [lia|]. ld HB. reflexivity.
  - destruct HB as (B1 & B2 & B3). ld B1. ld S1. destruct (Z.eqb_spec b x).
    + subst. right. split; [now left|]. exists 0%nat. ld S3. cbn [Z.eqb]. split; [f_equal; lia|apply span_len_nil].
    + ld S1. destruct (Z.eqb_spec x 0); [lia|]. ld B1. destruct (Z.eqb_spec b 0); [lia|].
      destruct (IHB fuel p (acc + 1) x) as [(N & E)|(N & n' & E & Sp)]; auto.
      { intros _. apply HAB. discriminate. } { cbn [length]; lia. }
      * left. split; auto. cbn. intuition.
      * right. split; [now right|]. eauto.
  - left. split; auto. ld HB. ld S1. destruct (Z.eqb_spec 0 x); [lia|]. ld S1.
    destruct (Z.eqb_spec x 0); [lia|]. ld HB. reflexivity.
  - destruct HB as (B1 & B2 & B3). ld B1. ld S1. destruct (Z.eqb_spec b x).
    + subst. right. split; [now left|]. destruct S3 as (T1 & T2 & T3). ld T1.
      destruct (Z.eqb_spec y 0); [lia|].
      assert (A <> []) as HA0 by (apply HAB; discriminate).
      destruct A as [|a0 A]; [congruence|]. pose proof HA as (A1 & A2 & A3). ld A1.
      destruct (Z.eqb_spec a0 0); [lia|]. cbn [tl length] in *.
      destruct (IHt A fuel (p + 1) (s2 + 1) y) as [(N & E)|(N & n' & E & Sp)]; auto.
      { cbn [str_at]. auto. } { lia. }
      * exists 0%nat. rewrite E. split; [f_equal; lia|]. now apply span_len_stop.
      * exists (S n'). rewrite E. split; [f_equal; lia|]. now apply span_len_cons.
    + ld S1. destruct (Z.eqb_spec x 0); [lia|]. ld B1. destruct (Z.eqb_spec b 0); [lia|].
      destruct (IHB fuel p (acc + 1) x) as [(N & E)|(N & n' & E & Sp)]; auto.
      { intros _. apply HAB. discriminate. } { cbn [length]; lia. }
      * left. split; auto. cbn. intuition.
      * right. split; [now right|]. eauto.
Qed.

Lemma strspn_exact A s fuel m p d x : str_at m p (x :: s) -> str_at m d A ->
  zlen (x :: s) <= INT_MAX -> (length (x :: s) * S (length A) < fuel)%nat ->
  (~ In x A /\ strspn fuel m p d = Ok 0) \/
  (In x A /\ exists n, strspn fuel m p d = Ok (Z.of_nat (S n)) /\
                       span_len (fun b => In b (tl A)) s n).
Proof.
  intros Hs HA Hm Hf. cbn [length] in Hf. unfold strspn. nneg s. zl.
  destruct (strspn_loop_ok A d m HA s A fuel p d x) as [(N & E)|(N & n & E & Sp)]; auto; try lia.
  - left. split; auto. rewrite E, bind_Ok. rewrite Z.sub_diag. reflexivity.
  - right. split; auto. exists n. split; auto. rewrite E, bind_Ok.
    apply span_len_le in Sp. unfold zlen in Hm. rewrite s32_small by (unfold INT_MIN, INT_MAX in *; lia).
    f_equal. lia.
Qed.

Lemma strspn_le A s fuel m p d : str_at m p s -> str_at m d A -> s <> [] ->
  zlen s <= INT_MAX -> (length s * S (length A) < fuel)%nat ->
  exists n, strspn fuel m p d = Ok (Z.of_nat n) /\ (n <= length s)%nat /\
            Forall (fun b => In b A) (firstn n s) /\
            (~ In (hd 0 A) (tl s) -> span_len (fun b => In b A) s n).
Proof.
  intros Hs HA Hne Hm Hf. destruct s as [|x s]; [congruence|].
  destruct (strspn_exact A s fuel m p d x) as [(N & E)|(N & n & E & Sp)]; auto.
  - exists 0%nat. split; auto. split; [lia|]. split; [constructor|]. intros _. now apply span_len_stop.
  - exists (S n). split; auto. pose proof (span_len_le _ _ _ Sp). split; [cbn; lia|]. 
    destruct Sp as (a & b & -> & <- & F1 & F2).
    assert (Fa : Forall (fun b => In b A) a).
    { eapply Forall_impl; [|exact F1]. intros z Hz. destruct A; cbn in *; auto. }
    split.
    + cbn [firstn]. constructor; auto. rewrite firstn_app, firstn_all, Nat.sub_diag. cbn [firstn].
      now rewrite app_nil_r.
    + intro Hhd. cbn [tl] in Hhd. exists (x :: a), b. repeat split; auto.
      destruct F2 as [|(z & r & -> & Hz)]; auto. right. exists z, r. split; auto.
      intro K. destruct A as [|a0 A]; [auto|]. cbn in *. destruct K as [->|]; auto.
      apply Hhd. apply in_app_iff. right. now left.
Qed.

(* ---- strpbrk ---- *)
Lemma strchrnul_nonzero s : forall fuel m p c, str_at m p s -> 0 < p -> (length s < fuel)%nat ->
  exists q, strchrnul fuel m p c = Ok q /\ 0 < q.
Proof.
  induction s as [|x s IH]; intros [|fuel] m p c Hs Hp Hf; cbn [length] in *; try lia;
    cbn [strchrnul str_at] in *.
  - ld Hs. cbn. eauto.
  - destruct Hs as (H1 & H2 & H3). ld H1. destruct (Z.eqb_spec x 0); [lia|].
    destruct (schar x =? c); eauto. apply IH; auto; lia.
Qed.
Lemma strpbrk_exact D s fuel m p d : str_at m p s -> str_at m d D -> 0 < d ->
  (length D < fuel)%nat ->
  strpbrk fuel m p d = Ok (if s then 0 else p).
Proof.
  intros Hs HD Hd Hf. destruct fuel as [|fuel]; [lia|]. cbn [strpbrk]. destruct s as [|x s]; cbn [str_at] in Hs.
  - ld Hs. reflexivity.
  - destruct Hs as (H1 & H2 & H3). ld H1. destruct (Z.eqb_spec x 0); [lia|].
    destruct (strchrnul_nonzero D (S fuel) m d (s32 p)) as (q & E & Hq); auto.
    rewrite E, bind_Ok. destruct (Z.eqb_spec q 0); [lia|]. auto.
Qed.

(* ---- strtok_r ---- *)
Lemma strtok_skip_ok D a : forall rest fuel m p d,
  str_at m p (a ++ rest) -> str_at m d D -> Forall (fun x => In x D) a ->
  (rest = [] \/ exists x r, rest = x :: r /\ ~ In x D) ->
  (length a + length D < fuel)%nat ->
  strtok_skip fuel m p d = Ok (hd 0 rest, p + zlen a + 1).
Proof.
  induction a as [|x a IH]; intros rest [|fuel] m p d Hs HD Ha Hr Hf; cbn [length app] in *; try lia;
    cbn [strtok_skip].
  - zl. rewrite Z.add_0_r. destruct Hr as [->|(x & r & -> & Hx)]; cbn [str_at] in Hs.
    + ld Hs. rewrite mem_str_ok with (D := D) by (auto; lia). rewrite bind_Ok.
      destruct (in_dec Z.eq_dec 0 D) as [I|]; auto.
      apply str_at_range in HD. rewrite Forall_forall in HD. specialize (HD _ I). lia.
    + destruct Hs as (H1 & H2 & H3). ld H1. rewrite mem_str_ok with (D := D) by (auto; lia).
      rewrite bind_Ok. destruct (in_dec Z.eq_dec x D); [tauto|]. reflexivity.
  - cbn [str_at] in Hs. destruct Hs as (H1 & H2 & H3). apply Forall_cons_iff in Ha as [Hx Ha].
    ld H1. rewrite mem_str_ok with (D := D) by (auto; lia). rewrite bind_Ok.
    destruct (in_dec Z.eq_dec x D); [|tauto]. rewrite IH with (rest := rest) by (auto; lia).
    zl. do 2 f_equal. lia.
Qed.

Lemma strtok_hit_ok D : forall fuel m d c, str_at m d D -> (length D < fuel)%nat ->
  strtok_hit fuel m d c = Ok (if in_dec Z.eq_dec c (0 :: D) then true else false).
Proof.
  induction D as [|x D IH]; intros [|fuel] m d c HD Hf; cbn [length] in *; try lia;
    cbn [strtok_hit str_at] in *.
  - ld HD. destruct (Z.eqb_spec 0 c).
    + destruct (in_dec Z.eq_dec c [0]) as [|N]; auto. destruct N. now left.
    + cbn [Z.eqb]. destruct (in_dec Z.eq_dec c [0]) as [[|[]]|]; auto. congruence.
  - destruct HD as (H1 & H2 & H3). ld H1. destruct (Z.eqb_spec x c).
    + destruct (in_dec Z.eq_dec c (0 :: x :: D)) as [|N]; auto. destruct N. right. now left.
    + destruct (Z.eqb_spec x 0); [lia|]. rewrite IH by (auto; lia).
      destruct (in_dec Z.eq_dec c (0 :: D)) as [I|I], (in_dec Z.eq_dec c (0 :: x :: D)) as [J|J]; auto.
      * destruct J. destruct I; [now left|right; now right].
      * destruct I. destruct J as [|[|]]; [now left|congruence|now right].
Qed.

Lemma strtok_scan_ok D t : forall b fuel m p d,
  str_at m p (t ++ b) -> str_at m d D -> Forall (fun x => ~ In x D) t ->
  (b = [] \/ exists x r, b = x :: r /\ In x D) ->
  (length t + length D < fuel)%nat ->
  strtok_scan fuel m p d =
    match b with [] => Ok (m, 0) | _ => Ok (upd m (p + zlen t) 0, p + zlen t + 1) end.
Proof.
  induction t as [|x t IH]; intros b [|fuel] m p d Hs HD Ht Hb Hf; cbn [length app] in *; try lia;
    cbn [strtok_scan].
  - zl. rewrite Z.add_0_r. destruct Hb as [->|(x & r & -> & Hx)]; cbn [str_at] in Hs.
    + ld Hs. rewrite strtok_hit_ok with (D := D) by (auto; lia). rewrite bind_Ok.
      destruct (in_dec Z.eq_dec 0 (0 :: D)) as [|N]; auto. destruct N. now left.
    + destruct Hs as (H1 & H2 & H3). ld H1. rewrite strtok_hit_ok with (D := D) by (auto; lia).
      rewrite bind_Ok. destruct (in_dec Z.eq_dec x (0 :: D)) as [|N]; [|destruct N; now right].
      destruct (Z.eqb_spec x 0); [lia|]. rewrite (store_some _ _ _ _ H1). reflexivity.
  - cbn [str_at] in Hs. destruct Hs as (H1 & H2 & H3). apply Forall_cons_iff in Ht as [Hx Ht].
    ld H1. rewrite strtok_hit_ok with (D := D) by (auto; lia). rewrite bind_Ok.
    destruct (in_dec Z.eq_dec x (0 :: D)) as [[|]|]; [lia|tauto|].
    rewrite IH with (b := b) by (auto; lia). zl.
    replace (p + 1 + zlen t) with (p + (zlen t + 1)) by lia. reflexivity.
Qed.

Lemma fields_tail (D : Z -> Prop) p x r ts : D x -> fields D p (x :: r) ts -> fields D (p + 1) r ts.
Proof.
  intros Hx H. remember (x :: r) as l eqn:H0.
  destruct H as [p s F|p a t b ts' Fa Ht Ft Hb Hf]; [subst s|].
  - apply Forall_cons_iff in F as [_ F]. now constructor.
  - destruct a as [|y a].
    + destruct t as [|y t]; [congruence|]. cbn in H0. inversion H0. subst.
      apply Forall_cons_iff in Ft as [Ft _]. tauto.
    + cbn in H0. inversion H0. subst. apply Forall_cons_iff in Fa as [_ Fa]. zl.
      replace (p + (zlen a + 1)) with (p + 1 + zlen a) in * by lia.
      constructor; auto.
Qed.

Lemma str_at_split m p a b : str_at m p (a ++ b) -> bytes_at m p a /\ str_at m (p + zlen a) b.
Proof.
  intro H. pose proof (str_at_range _ _ _ H) as R. apply Forall_app in R as [R _].
  apply str_at_app in H; auto.
Qed.

(* after the first call the pointer is 0 and *last holds the position; at the
   first call it is the other way round: [cur] is what strtok_r starts from *)
Lemma strtok_all_ok D d : forall ts calls fuel m s0 last p s,
  (if s0 =? 0 then last else s0) = p ->
  str_at m p s -> str_at m d D -> apart p (zlen s) d (zlen D + 1) -> 0 < p ->
  fields (fun x => In x D) p s ts ->
  (length ts < calls)%nat -> (length s + length D + 1 < fuel)%nat ->
  exists m', strtok_all calls fuel m s0 d last = Ok (m', map fst ts, 0) /\
             Forall (fun t => str_at m' (fst t) (snd t)) ts /\ nulled D m m' p (zlen s).
Proof.
  induction ts as [|[q tk] ts IH]; intros [|calls] fuel m s0 last p s Hcur Hs HD Hap Hp Hfd Hc Hf;
    cbn [length] in Hc; try lia; cbn [strtok_all]; unfold strtok_r; rewrite Hcur;
    (destruct (Z.eqb_spec p 0); [lia|]).
  - inversion Hfd as [? ? F|]; subst.
    rewrite strtok_skip_ok with (D := D) (a := s) (rest := []); auto; try lia.
    + exists m. cbn. repeat split; auto. intro a. now left.
    + now rewrite app_nil_r.
  - inversion Hfd as [|? a t b ts' Fa Ht Ft Hb Hfs]; subst s ts' q tk p0. clear Hfd.
    destruct t as [|x t]; [congruence|]. apply Forall_cons_iff in Ft as [Fx Ft].
    rewrite !app_length in Hf. cbn [length app] in *.
    rewrite strtok_skip_ok with (D := D) (a := a) (rest := (x :: t) ++ b); auto; try lia.
    2: { right. exists x, (t ++ b). auto. }
    rewrite bind_Ok. cbn [hd app].
    pose proof (str_at_split _ _ _ _ Hs) as (Hb1 & Hs2). cbn [str_at] in Hs2.
    destruct Hs2 as (X1 & X2 & X3).
    destruct (Z.eqb_spec x 0); [lia|].
    rewrite strtok_scan_ok with (D := D) (t := t) (b := b); auto; try lia.
    nneg a. nneg t. nneg b. nneg D.
    pose proof (str_at_split _ _ _ _ X3) as (Hb3 & Hs3).
    assert (R : Forall (fun x => 1 <= x <= 255) (x :: t)).
    { apply str_at_range in Hs. apply Forall_app in Hs as [_ Hs].
      change (x :: t ++ b) with ((x :: t) ++ b) in Hs. apply Forall_app in Hs. tauto. }
    destruct Hb as [->|(y & r & -> & Hy)].
    + rewrite !bind_Ok. replace (p + zlen a + 1 - 1) with (p + zlen a) by lia.
      destruct (Z.eqb_spec (p + zlen a) 0); [lia|].
      assert (ts = []) as -> by (inversion Hfs; auto; destruct a0; [destruct t0; [congruence|]|]; discriminate).
      destruct calls as [|calls]; [cbn [length] in Hc; lia|]. cbn [strtok_all strtok_r Z.eqb].
      unfold strtok_r. cbn [Z.eqb]. rewrite !bind_Ok. cbn [Z.eqb]. rewrite bind_Ok.
      exists m. split; auto. split.
      * constructor; [|constructor]. cbn [fst snd]. rewrite app_nil_r in *. cbn [str_at]. auto.
      * intro. now left.
    + rewrite !bind_Ok. replace (p + zlen a + 1 - 1) with (p + zlen a) by lia.
      destruct (Z.eqb_spec (p + zlen a) 0); [lia|].
      set (e := p + zlen a + 1 + zlen t) in *. zl. unfold apart in Hap.
      cbn [str_at] in Hs3. destruct Hs3 as (Y1 & Y2 & Y3). nneg r. zl.
      destruct (IH calls fuel (upd m e 0) 0 (e + 1) (e + 1) r) as (m' & E & F & N); auto; try lia.
      * apply str_at_upd; auto. lia.
      * apply str_at_upd; auto. lia.
      * unfold apart. lia.
      * replace e with (p + zlen a + (zlen t + 1)) by (unfold e; lia).
        apply fields_tail with (x := y); auto.
      * cbn [length] in Hf. lia.
      * rewrite E, bind_Ok. exists m'. split; auto. split.
        -- constructor; auto. cbn [fst snd].
           apply str_at_intro; auto.
           ++ apply bytes_at_ext with (m := m).
              ** cbn [bytes_at]. auto.
              ** intros a0 Ha0. zl. destruct (N a0) as [->|(K & _)]; [|lia].
                 rewrite upd_other; auto. lia.
           ++ replace (p + zlen a + zlen (x :: t)) with e by (zl; unfold e; lia).
              destruct (N e) as [->|(K & _)]; [|lia]. apply upd_same.
        -- intro a0. destruct (N a0) as [E1|(K & z & Z1 & Z2 & Z3)].
           ++ rewrite E1. destruct (Z.eq_dec a0 e).
              ** subst a0. right. split; [lia|]. exists y. rewrite upd_same. auto.
              ** left. now apply upd_other.
           ++ right. split; [lia|]. exists z. rewrite upd_other in Z2 by lia. auto.
Qed.

Lemma fields_total D s : forall p, exists ts, fields (fun x => In x D) p s ts /\
  (length ts <= length s)%nat.
Proof.
  remember (length s) as n. revert s Heqn. 
  induction n as [n IH] using lt_wf_ind. intros s -> p.
  assert (S1 : exists a r, s = a ++ r /\ Forall (fun x => In x D) a /\
                           (r = [] \/ exists x q, r = x :: q /\ ~ In x D)).
  { clear IH. induction s as [|x s IHs].
    - exists [], []. auto.
    - destruct (in_dec Z.eq_dec x D).
      + destruct IHs as (a & r & -> & Fa & Hr). exists (x :: a), r. auto.
      + exists [], (x :: s). repeat split; auto. right. eauto. }
  destruct S1 as (a & r & -> & Fa & [->|(x & q & -> & Hx)]).
  - exists []. rewrite app_nil_r. split; [now constructor|cbn; lia].
  - assert (S2 : exists t b, q = t ++ b /\ Forall (fun x => ~ In x D) t /\
                             (b = [] \/ exists y r, b = y :: r /\ In y D)).
    { clear. induction q as [|y q IHq].
      - exists [], []. auto.
      - destruct (in_dec Z.eq_dec y D).
        + exists [], (y :: q). repeat split; auto. right. eauto.
        + destruct IHq as (t & b & -> & Ft & Hb). exists (y :: t), b. auto. }
    destruct S2 as (t & b & -> & Ft & Hb).
    assert (Hl : (length b < length (a ++ x :: t ++ b))%nat)
      by (rewrite app_length; cbn [length]; rewrite app_length; lia).
    destruct (IH (length b) Hl b eq_refl (p + zlen a + zlen (x :: t))) as (ts & Hts & Lts).
    exists ((p + zlen a, x :: t) :: ts). split.
    + change (a ++ x :: t ++ b) with (a ++ (x :: t) ++ b). constructor; auto. discriminate.
    + cbn [length]. lia.
Qed.

Lemma strtok_ok D s fuel calls m p d last :
  str_at m p s -> str_at m d D -> apart p (zlen s) d (zlen D + 1) -> 0 < p ->
  (length s < calls)%nat -> (length s + length D + 1 < fuel)%nat ->
  exists m' ts, fields (fun x => In x D) p s ts /\
     strtok_all calls fuel m p d last = Ok (m', map fst ts, 0) /\
     Forall (fun t => str_at m' (fst t) (snd t)) ts /\ nulled D m m' p (zlen s) /\
     strtok_r fuel m' 0 d 0 = Ok (m', 0, 0).
Proof.
  intros Hs HD Hap Hp Hc Hf. destruct (fields_total D s p) as (ts & Hts & Lts).
  destruct (strtok_all_ok D d ts calls fuel m p last p s) as (m' & E & F & N); auto; try lia.
  - destruct (Z.eqb_spec p 0); lia.
  - exists m', ts. auto.
Qed.

(* ---- strdup / strndup ---- *)
Lemma strdup_ok s fuel (malloc : mem -> Z -> mem * Z) m p :
  str_at m p s -> p <> 0 -> zlen s <= INT_MAX -> (length s < fuel)%nat ->
  (let (m1, d) := malloc m (zlen s) in d = 0 \/ good_block m m1 d (zlen s + 1) p (zlen s + 1)) ->
  exists m' d, strdup fuel malloc m p = Ok (m', d) /\ snd (malloc m (zlen s)) = d /\
    (d <> 0 -> str_at m' d s /\ same_outside (fst (malloc m (zlen s))) m' d (zlen s + 1)).
Proof.
  intros Hs Hp Hm Hf Hg. unfold strdup. rewrite strlen_ok with (s := s) by auto. rewrite bind_Ok.
  destruct (malloc m (zlen s)) as [m1 d]. cbn [fst snd]. destruct (Z.eqb_spec d 0).
  - exists m1, d. subst. intuition.
  - destruct Hg as [|(_ & Hr & Ha & He)]; [congruence|].
    destruct (strcpy_ok s fuel m1 d p) as (m' & E & H1 & H2); auto.
    + apply str_at_ext with (m := m); auto. intros; apply He; lia.
    + rewrite E. exists m', d. auto.
Qed.

Lemma strndup_whole s fuel (malloc : mem -> Z -> mem * Z) m p maxlen :
  str_at m p s -> p <> 0 -> zlen s < INT_MAX -> zlen s <= maxlen -> (length s < fuel)%nat ->
  (let (m1, d) := malloc m (zlen s + 1) in d = 0 \/ good_block m m1 d (zlen s + 1) p (zlen s + 1)) ->
  exists m' d, strndup fuel malloc m p maxlen = Ok (m', d) /\ snd (malloc m (zlen s + 1)) = d /\
    (d <> 0 -> str_at m' d s /\ same_outside (fst (malloc m (zlen s + 1))) m' d (zlen s + 1)).
Proof.
  intros Hs Hp Hm Hx Hf Hg. unfold strndup. rewrite strlen_ok with (s := s) by (auto; lia).
  rewrite bind_Ok. destruct (Z.gtb_spec (zlen s) maxlen); [lia|].
  destruct (malloc m (zlen s + 1)) as [m1 d]. cbn [fst snd]. destruct (Z.eqb_spec d 0).
  - exists m1, d. subst. intuition.
  - destruct Hg as [|(_ & Hr & Ha & He)]; [congruence|]. nneg s.
    assert (Hs1 : str_at m1 p s) by (apply str_at_ext with (m := m); auto; intros; apply He; lia).
    destruct (stplcpy_gen s fuel m1 d p (zlen s + 1)) as (m' & E & H1 & H2); auto; try lia.
    + now apply str_at_src_ok.
    + now replace (Z.min (zlen s + 1) (zlen s)) with (zlen s) by lia.
    + now replace (Z.max _ _) with (zlen s + 1) by lia; replace (Z.min _ _) with (zlen s + 1) by lia.
    + rewrite E, bind_Ok. exists m', d. split; auto. split; auto. intros _.
      rewrite firstn_all2 in H1 by (unfold zlen; lia).
      now replace (Z.min (zlen s + 1) (zlen s)) with (zlen s) in H2 by lia.
Qed.

Lemma strnlen_src s fuel m p max : src_ok m p s max -> p <> 0 -> 1 <= max <= INT_MAX ->
  (length s < fuel)%nat -> strnlen fuel m p max = Ok (Z.min (zlen s) max).
Proof.
  intros (H1 & H2 & H3) Hp Hx Hf. destruct (Z.ltb_spec (zlen s) max) as [L|L].
  - apply strnlen_ok; auto; try lia. apply str_at_intro; auto.
    rewrite firstn_all2 in H1; auto. unfold zlen in L. lia.
  - replace (Z.min (zlen s) max) with max by lia.
    assert (El : zlen (firstn (Z.to_nat max) s) = max) by (rewrite zlen_firstn; lia).
    rewrite <- El at 1 2. apply strnlen_unterminated; auto; try lia.
    + now apply Forall_firstn.
    + intro E. rewrite E in El. zl. lia.
    + rewrite firstn_length. lia.
Qed.
