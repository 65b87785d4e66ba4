(* Proofs about StrModel: comparison and searching. *)
From Verif Require Import Base BaseLemmas StrModel StrSpec StrProofs.
Ltac Zify.zify_post_hook ::= Z.div_mod_to_equations.

(* ---- strcmp ---- *)
Lemma strcmp_loop_ok a : forall b fuel m p q n,
  str_at m p a -> str_at m q b -> n < 0 -> INT_MIN <= n - zlen a ->
  (length a < fuel)%nat ->
  exists r, strcmp_loop fuel m p q n = Ok r /\ Z.sgn r = lexcmp a b.
Proof.
  induction a as [|x a IH]; intros b [|fuel] m p q n Ha Hb Hn Hm Hf; cbn [length] in Hf; try lia;
    cbn [strcmp_loop].
  - cbn [str_at] in Ha. ld Ha. destruct b as [|y b]; cbn [str_at lexcmp] in *.
    + ld Hb. cbn. eauto.
    + destruct Hb as (H1 & H2 & H3). ld H1. destruct (Z.eqb_spec 0 y); [lia|]. cbn [negb].
      eexists; split; eauto. lia.
  - cbn [str_at] in Ha. destruct Ha as (A1 & A2 & A3). ld A1. nneg a. zl.
    destruct b as [|y b]; cbn [str_at lexcmp] in *.
    + ld Hb. destruct (Z.eqb_spec x 0); [lia|]. cbn [negb]. eexists; split; eauto. lia.
    + destruct Hb as (B1 & B2 & B3). ld B1. destruct (Z.eqb_spec x y).
      * subst y. cbn [negb]. destruct (Z.eqb_spec x 0); [lia|].
        rewrite iop_ok by (unfold INT_MIN, INT_MAX in *; lia). rewrite bind_Ok.
        destruct (Z.eqb_spec (n - 1) 0); [lia|].
        rewrite Z.ltb_irrefl. apply IH; auto; lia.
      * cbn [negb]. eexists; split; eauto.
        destruct (Z.ltb_spec x y); [lia|]. destruct (Z.ltb_spec y x); lia.
Qed.
Lemma strcmp_ok a b fuel m p q :
  str_at m p a -> str_at m q b -> zlen a <= INT_MAX -> (length a < fuel)%nat ->
  exists r, strcmp fuel m p q = Ok r /\ Z.sgn r = lexcmp a b.
Proof. intros. apply strcmp_loop_ok; auto; unfold INT_MIN, INT_MAX in *; lia. Qed.

(* strncmp: only the first n bytes of each have to be readable *)
Lemma strncmp_loop_ok a : forall b fuel m p q n,
  src_ok m p a n -> src_ok m q b n -> 1 <= n <= INT_MAX ->
  (length a < fuel)%nat ->
  exists r, strcmp_loop fuel m p q n = Ok r /\
            Z.sgn r = lexcmp (firstn (Z.to_nat n) a) (firstn (Z.to_nat n) b).
Proof.
  induction a as [|x a IH]; intros b [|fuel] m p q n Ha Hb Hn Hf; cbn [length] in Hf; try lia;
    cbn [strcmp_loop].
  - destruct Ha as (_ & _ & Ha). zl. rewrite Z.add_0_r in Ha. specialize (Ha ltac:(lia)).
    ld Ha. rewrite firstn_nil. destruct b as [|y b].
    + destruct Hb as (_ & _ & Hb). zl. rewrite Z.add_0_r in Hb. specialize (Hb ltac:(lia)).
      ld Hb. rewrite firstn_nil. cbn. eauto.
    + apply src_ok_cons in Hb as (H1 & H2 & H3); [|lia]. ld H1.
      destruct (Z.eqb_spec 0 y); [lia|]. cbn [negb].
      replace (Z.to_nat n) with (S (Z.to_nat (n - 1))) by lia. cbn [firstn lexcmp].
      eexists; split; eauto. lia.
  - apply src_ok_cons in Ha as (A1 & A2 & A3); [|lia]. ld A1. nneg a. zl.
    replace (Z.to_nat n) with (S (Z.to_nat (n - 1))) by lia.
    destruct b as [|y b].
    + destruct Hb as (_ & _ & Hb). zl. rewrite Z.add_0_r in Hb. specialize (Hb ltac:(lia)).
      ld Hb. destruct (Z.eqb_spec x 0); [lia|]. cbn [negb firstn lexcmp]. eexists; split; eauto. lia.
    + apply src_ok_cons in Hb as (B1 & B2 & B3); [|lia]. ld B1.
      cbn [firstn lexcmp]. destruct (Z.eqb_spec x y).
      * subst y. cbn [negb]. destruct (Z.eqb_spec x 0); [lia|].
        rewrite iop_ok by (unfold INT_MIN, INT_MAX in *; lia). rewrite bind_Ok.
        rewrite Z.ltb_irrefl.
        destruct (Z.eqb_spec (n - 1) 0) as [E|E].
        -- rewrite E. change (Z.to_nat 0) with 0%nat. cbn [firstn lexcmp]. eauto.
        -- apply IH; auto; lia.
      * cbn [negb]. eexists; split; eauto.
        destruct (Z.ltb_spec x y); [lia|]. destruct (Z.ltb_spec y x); lia.
Qed.
Lemma strncmp_ok a b fuel m p q n :
  src_ok m p a n -> src_ok m q b n -> 0 <= n <= INT_MAX -> (length a < fuel)%nat ->
  exists r, strncmp fuel m p q n = Ok r /\
            Z.sgn r = lexcmp (firstn (Z.to_nat n) a) (firstn (Z.to_nat n) b).
Proof.
  intros Ha Hb Hn Hf. unfold strncmp. destruct (Z.eqb_spec n 0).
  - subst. change (Z.to_nat 0) with 0%nat. cbn. eauto.
  - destruct (Z.ltb_spec n 0); [lia|]. apply strncmp_loop_ok; auto; lia.
Qed.

(* order laws of lexcmp *)
Lemma lexcmp_range a : forall b, lexcmp a b = -1 \/ lexcmp a b = 0 \/ lexcmp a b = 1.
Proof.
  induction a as [|x a IH]; intros [|y b]; cbn; auto.
  destruct (x <? y); auto. destruct (y <? x); auto.
Qed.
Lemma lexcmp_antisym a : forall b, lexcmp b a = - lexcmp a b.
Proof.
  induction a as [|x a IH]; intros [|y b]; cbn; auto.
  destruct (Z.ltb_spec x y), (Z.ltb_spec y x); try lia; auto.
Qed.
Lemma lexcmp_eq a : forall b, lexcmp a b = 0 <-> a = b.
Proof.
  induction a as [|x a IH]; intros [|y b]; cbn; split; intro H; try lia; try congruence.
  - destruct (Z.ltb_spec x y), (Z.ltb_spec y x); try lia. f_equal; [lia|]. now apply IH.
  - inversion H; subst. rewrite Z.ltb_irrefl. now apply IH.
Qed.
Lemma lexcmp_trans a : forall b c, lexcmp a b <= 0 -> lexcmp b c <= 0 -> lexcmp a c <= 0.
Proof.
  induction a as [|x a IH]; intros [|y b] [|z c]; cbn; intros H1 H2; try lia.
  destruct (Z.ltb_spec x y), (Z.ltb_spec y x), (Z.ltb_spec y z), (Z.ltb_spec z y),
    (Z.ltb_spec x z), (Z.ltb_spec z x); try lia. eapply IH; eauto.
Qed.

(* ---- strcasecmp ---- *)
Definition foldableb (b : Z) : bool :=
  ((65 <=? b) && (b <=? 90)) || ((97 <=? b) && (b <=? 122)) || ((32 <=? b) && (b <=? 63)).
Lemma foldable_lower b : foldable b -> c_tolower (schar b) = ascii_lower b.
Proof.
  intro H. assert (forallb (fun b => negb (foldableb b) || (c_tolower (schar b) =? ascii_lower b))
    (map Z.of_nat (seq 0 128)) = true) as F by (vm_compute; reflexivity).
  rewrite forallb_forall in F. specialize (F b).
  assert (In b (map Z.of_nat (seq 0 128))) as Hin.
  { apply in_map_iff. exists (Z.to_nat b). unfold foldable in H. split; [lia|]. apply in_seq. lia. }
  specialize (F Hin). unfold foldableb, foldable in *.
  apply Z.eqb_eq. lia.
Qed.

Lemma strcasecmp_loop_ok a : forall b fuel m p q n i,
  str_at m (p + i) a -> str_at m (q + i) b -> Forall foldable a -> Forall foldable b ->
  (n < i \/ i + zlen a <= n) ->
  0 <= i -> i + zlen a <= INT_MAX -> (length a < fuel)%nat ->
  exists r, strcasecmp_loop fuel m p q n i = Ok r /\ -1 <= r <= 1 /\ casecmp_res a b r.
Proof.
  induction a as [|x a IH]; intros b [|fuel] m p q n i Ha Hb Fa Fb Hn Hi Hm Hf; cbn [length] in Hf; try lia;
    cbn [strcasecmp_loop].
  - cbn [str_at] in Ha. ld Ha. rewrite Z.eqb_refl. cbn [negb andb bind].
    destruct b as [|y b]; cbn [str_at] in Hb.
    + ld Hb. exists 0. cbn. unfold casecmp_res. cbn. intuition lia.
    + destruct Hb as (H1 & H2 & H3). ld H1. destruct (Z.eqb_spec y 0); [lia|].
      exists 1. unfold casecmp_res. cbn. intuition (try lia; try discriminate).
  - cbn [str_at] in Ha. destruct Ha as (A1 & A2 & A3). ld A1. nneg a. zl.
    apply Forall_cons_iff in Fa as [Fx Fa].
    destruct (Z.eqb_spec x 0); [lia|].
    destruct b as [|y b]; cbn [str_at] in Hb.
    + ld Hb. cbn [negb andb Z.eqb]. exists 1. unfold casecmp_res. cbn.
      intuition (try lia; try discriminate).
    + destruct Hb as (B1 & B2 & B3). ld B1. apply Forall_cons_iff in Fb as [Fy Fb].
      destruct (Z.eqb_spec y 0); [lia|]. destruct (Z.eqb_spec i n); [lia|]. cbn [negb andb].
      rewrite !foldable_lower by auto.
      assert (Hgo : ascii_lower x = ascii_lower y ->
        exists r, (let* a' := iop (i + 1) in strcasecmp_loop fuel m p q n a') = Ok r /\
          -1 <= r <= 1 /\ casecmp_res (x :: a) (y :: b) r).
      { intro E. rewrite iop_ok by (unfold INT_MIN, INT_MAX in *; lia). rewrite bind_Ok.
        destruct (IH b fuel m p q n (i + 1)) as (r & E1 & E2 & E3 & E4); auto; try lia.
        - now replace (p + (i + 1)) with (p + i + 1) by lia.
        - now replace (q + (i + 1)) with (q + i + 1) by lia.
        - exists r. split; auto. split; auto. unfold casecmp_res. cbn. rewrite E, Z.ltb_irrefl. split.
          + rewrite E3. split; intro K; [now rewrite K|congruence].
          + intro L. apply E4. congruence. }
      destruct (Z.eqb_spec x y) as [E|E].
      * subst. cbn [negb andb]. apply Hgo. auto.
      * cbn [negb andb]. rewrite Z.gtb_ltb.
        destruct (Z.ltb_spec (ascii_lower y) (ascii_lower x)) as [L|L].
        { exists 1. split; auto. split; [lia|]. unfold casecmp_res. cbn.
          destruct (Z.ltb_spec (ascii_lower x) (ascii_lower y)); [lia|].
          destruct (Z.ltb_spec (ascii_lower y) (ascii_lower x)); [|lia].
          split; auto. split; intro K; [lia|]. inversion K. lia. }
        destruct (Z.ltb_spec (ascii_lower x) (ascii_lower y)) as [L2|L2].
        { exists (-1). split; auto. split; [lia|]. unfold casecmp_res. cbn.
          destruct (Z.ltb_spec (ascii_lower x) (ascii_lower y)); [|lia].
          split; auto. split; intro K; [lia|]. inversion K. lia. }
        apply Hgo. lia.
Qed.
Lemma strcasecmp_ok a b fuel m p q :
  str_at m p a -> str_at m q b -> Forall foldable a -> Forall foldable b ->
  zlen a <= INT_MAX -> (length a < fuel)%nat ->
  exists r, strcasecmp fuel m p q = Ok r /\ casecmp_res a b r.
Proof.
  intros. destruct (strcasecmp_loop_ok a b fuel m p q (-1) 0) as (r & E1 & E2 & E3);
    rewrite ?Z.add_0_r; auto; try lia. eauto.
Qed.

Lemma strncasecmp_ok a b fuel m p q n :
  str_at m p a -> str_at m q b -> Forall foldable a -> Forall foldable b ->
  1 <= n -> zlen a <= n <= INT_MAX -> (length a < fuel)%nat ->
  exists r, strncasecmp fuel m p q n = Ok r /\ casecmp_res a b r.
Proof.
  intros. unfold strncasecmp. destruct (Z.leb_spec n 0); [lia|].
  destruct (strcasecmp_loop_ok a b fuel m p q n 0) as (r & E1 & E2 & E3);
    rewrite ?Z.add_0_r; auto; try lia. eauto.
Qed.

(* ---- strchrnul, strchr, strrchr (c in 0..127) ---- *)
Lemma strchrnul_ok s : forall fuel m p c, str_at m p s -> 0 <= c < 128 -> (length s < fuel)%nat ->
  (exists i, first_index (eq c) s i /\ strchrnul fuel m p c = Ok (p + Z.of_nat i)) \/
  (~ In c s /\ strchrnul fuel m p c = Ok (p + zlen s)).
Proof.
  induction s as [|x s IH]; intros [|fuel] m p c Hs Hc Hf; cbn [length] in Hf; try lia;
    cbn [strchrnul str_at] in *.
  - ld Hs. cbn. right. split; auto. now rewrite Z.add_0_r.
  - destruct Hs as (H1 & H2 & H3). ld H1. destruct (Z.eqb_spec x 0); [lia|].
    destruct (Z.eqb_spec (schar x) c) as [E|E].
    + left. exists 0%nat. rewrite Z.add_0_r. split; auto. split.
      * exists x. cbn. split; auto. unfold schar in E. destruct (x <? 128); lia.
      * intros j b Hj. lia.
    + assert (c <> x). { intro; subst. rewrite schar_low in E by lia. congruence. }
      destruct (IH fuel m (p + 1) c) as [(i & Hi & Ei)|(Hn & Ei)]; auto; try lia.
      * left. exists (S i). rewrite Ei. split; [|f_equal; lia].
        destruct Hi as [Hi1 Hi2]. split; auto. intros [|j] b Hj Hb.
        -- cbn in Hb. congruence.
        -- cbn in Hb. apply (Hi2 j); auto. lia.
      * right. rewrite Ei. zl. split; [|f_equal; lia]. cbn. intuition congruence.
Qed.

Lemma first_index_nth P l i : first_index P l i -> exists b, nth_error l i = Some b /\ P b.
Proof. intros [H _]. auto. Qed.

Lemma str_at_nth m p s i b : str_at m p s -> nth_error s i = Some b ->
  m (p + Z.of_nat i) = Some b /\ 1 <= b <= 255.
Proof.
  intros H Hn. split.
  - apply bytes_at_nth with (l := s); auto. now apply str_at_bytes.
  - apply str_at_range in H. rewrite Forall_forall in H. apply H. eapply nth_error_In; eauto.
Qed.

Lemma strchr_ok s fuel m p c : str_at m p s -> 0 <= c < 128 -> (length s < fuel)%nat ->
  (c = 0 -> strchr fuel m p c = Ok (p + zlen s)) /\
  (forall i, first_index (eq c) s i -> strchr fuel m p c = Ok (p + Z.of_nat i)) /\
  (c <> 0 -> ~ In c s -> strchr fuel m p c = Ok 0).
Proof.
  intros Hs Hc Hf. unfold strchr.
  assert (~ In 0 s) as H0. { intro K. apply str_at_range in Hs. rewrite Forall_forall in Hs.
    specialize (Hs _ K). lia. }
  destruct (strchrnul_ok s fuel m p c) as [(i & Hi & Ei)|(Hn & Ei)]; auto; rewrite Ei, bind_Ok.
  - destruct (first_index_nth _ _ _ Hi) as (b & Hb & <-).
    destruct (str_at_nth _ _ _ _ _ Hs Hb) as [L R].
    split; [lia|]. split.
    + intros j Hj. assert (i = j) as ->.
      { destruct Hi as [(b1 & E1 & <-) Hi2], Hj as [(b2 & E2 & <-) Hj2].
        destruct (Nat.lt_trichotomy i j) as [L1|[L1|L1]]; auto.
        - exfalso. eapply Hj2; eauto.
        - exfalso. eapply Hi2; eauto. }
      destruct (Z.eqb_spec c 0); auto. ld L. destruct (Z.eqb_spec c 0); auto; lia.
    + intros _ K. exfalso. apply K. eapply nth_error_In; eauto.
  - split; [intros ->; reflexivity|]. split.
    + intros i [(b & Hb & <-) _]. exfalso. apply Hn. eapply nth_error_In; eauto.
    + intros Hc0 _. destruct (Z.eqb_spec c 0); [lia|].
      rewrite (load_some _ _ 0) by now apply str_at_end. reflexivity.
Qed.

Lemma strchrnul_spec s fuel m p c : str_at m p s -> 0 <= c < 128 -> (length s < fuel)%nat ->
  (forall i, first_index (eq c) s i -> strchrnul fuel m p c = Ok (p + Z.of_nat i)) /\
  (~ In c s -> strchrnul fuel m p c = Ok (p + zlen s)).
Proof.
  intros Hs Hc Hf.
  destruct (strchrnul_ok s fuel m p c) as [(i & Hi & Ei)|(Hn & Ei)]; auto; rewrite Ei.
  - split.
    + intros j Hj. assert (i = j) as ->; auto.
      destruct Hi as [(b1 & E1 & <-) Hi2], Hj as [(b2 & E2 & <-) Hj2].
      destruct (Nat.lt_trichotomy i j) as [L1|[L1|L1]]; auto.
      * exfalso. eapply Hj2; eauto.
      * exfalso. eapply Hi2; eauto.
    + intros K. exfalso. apply K. destruct Hi as [(b1 & E1 & <-) _]. eapply nth_error_In; eauto.
  - split; auto. intros i [(b & Hb & <-) _]. exfalso. apply Hn. eapply nth_error_In; eauto.
Qed.

Lemma strrchr_loop_ok s : forall n fuel m ret p c, (length s <= n)%nat ->
  str_at m p s -> 0 < p -> 1 <= c < 128 -> (length s < fuel)%nat ->
  (forall i, last_index (eq c) s i -> strrchr_loop fuel m ret p c = Ok (p + Z.of_nat i)) /\
  (~ In c s -> strrchr_loop fuel m ret p c = Ok ret).
Proof.
  intro n. revert s. induction n as [|n IH]; intros s fuel m ret p c Hn Hs Hp Hc Hf;
    (destruct fuel as [|fuel]; [lia|]); cbn [strrchr_loop].
  - destruct s; [|cbn in Hn; lia].
    destruct (strchrnul_spec [] (S fuel) m p c) as [_ E]; auto; try lia.
    rewrite E by (cbn; tauto). rewrite bind_Ok. zl. rewrite Z.add_0_r.
    destruct (Z.eqb_spec p 0); [lia|]. cbn in Hs. ld Hs. cbn. split; auto.
    intros i [(b & Hb & _) _]. destruct i; discriminate.
  - destruct (strchrnul_ok s (S fuel) m p c) as [(i & Hi & Ei)|(Hni & Ei)]; auto; try lia.
    + rewrite Ei, bind_Ok. destruct (Z.eqb_spec (p + Z.of_nat i) 0); [lia|].
      destruct Hi as [(b & Hb & <-) Hi2].
      destruct (str_at_nth _ _ _ _ _ Hs Hb) as [L R]. ld L. destruct (Z.eqb_spec c 0); [lia|].
      (* split s at i *)
      destruct (nth_error_split s i Hb) as (s1 & s2 & Es & Els). subst s.
      assert (Hs2 : str_at m (p + Z.of_nat i + 1) s2).
      { pose proof (str_at_range _ _ _ Hs) as Hr. apply Forall_app in Hr as [Hr1 _].
        apply str_at_app in Hs; auto. destruct Hs as [_ Hs]. cbn [str_at] in Hs.
        destruct Hs as (_ & _ & Hs). unfold zlen in Hs. now rewrite Els in Hs. }
      rewrite app_length in *. cbn [length] in *.
      destruct (IH s2 fuel m (p + Z.of_nat i) (p + Z.of_nat i + 1) c) as [IH1 IH2]; auto; try lia.
      split.
      * intros j Hj. destruct (in_dec Z.eq_dec c s2) as [Hin|Hin].
        -- destruct Hj as [(bj & Hj1 & <-) Hj2].
           destruct (Nat.lt_trichotomy j i) as [L1|[L1|L1]].
           ++ exfalso. eapply Hi2; eauto.
           ++ subst j. exfalso. apply In_nth_error in Hin as (k & Hk).
              apply (Hj2 (i + 1 + k)%nat c); auto; [lia|].
              rewrite nth_error_app2 by lia. replace (i + 1 + k - length s1)%nat with (S k) by lia. auto.
           ++ rewrite (IH1 (j - i - 1)%nat); [f_equal; lia|]. split.
              ** exists c. split; auto. rewrite nth_error_app2 in Hj1 by lia.
                 replace (j - length s1)%nat with (S (j - i - 1)) in Hj1 by lia. auto.
              ** intros k bk Hk Hbk. apply (Hj2 (i + 1 + k)%nat); [lia|].
                 rewrite nth_error_app2 by lia. replace (i + 1 + k - length s1)%nat with (S k) by lia. auto.
        -- rewrite IH2 by auto. f_equal. f_equal. f_equal.
           destruct Hj as [(bj & Hj1 & <-) Hj2].
           destruct (Nat.lt_trichotomy j i) as [L1|[L1|L1]]; auto.
           ++ exfalso. eapply Hi2; eauto.
           ++ exfalso. apply Hin. rewrite nth_error_app2 in Hj1 by lia.
              replace (j - length s1)%nat with (S (j - i - 1)) in Hj1 by lia. cbn in Hj1.
              eapply nth_error_In; eauto.
      * intro K. exfalso. apply K. apply in_app_iff. right. now left.
    + rewrite Ei, bind_Ok. nneg s. destruct (Z.eqb_spec (p + zlen s) 0); [lia|].
      rewrite (load_some _ _ 0) by now apply str_at_end. cbn. split; auto.
      intros i [(b & Hb & <-) _]. exfalso. apply Hni. eapply nth_error_In; eauto.
Qed.
Lemma strrchr_ok s fuel m p c : 
  str_at m p s -> 0 < p -> 1 <= c < 128 -> (length s < fuel)%nat ->
  (forall i, last_index (eq c) s i -> strrchr fuel m p c = Ok (p + Z.of_nat i)) /\
  (~ In c s -> strrchr fuel m p c = Ok 0).
Proof. intros. apply strrchr_loop_ok with (n := length s); auto. Qed.
