(* Proofs about StrModel: length, copying, concatenation. *)
From Verif Require Import Base BaseLemmas StrModel StrSpec.
Ltac Zify.zify_post_hook ::= Z.div_mod_to_equations.



Lemma strlen_loop_ok s : forall fuel m p a, str_at m (p + a) s -> 0 <= a ->
  a + zlen s <= INT_MAX -> (length s < fuel)%nat ->
  strlen_loop fuel m p a = Ok (a + zlen s).
Proof.
  induction s as [|c s IH]; intros [|fuel] m p a Hs Ha Hm Hf; cbn [length] in Hf; try lia;
    cbn [strlen_loop str_at] in *.
  - ld Hs. rewrite Z.eqb_refl, zlen_nil. f_equal. lia.
  - destruct Hs as (H1 & H2 & H3). ld H1. nneg s. zl.
    destruct (Z.eqb_spec c 0); [lia|].
    rewrite iop_ok by (unfold INT_MIN, INT_MAX in *; lia). rewrite bind_Ok.
    rewrite IH; try lia.
    + f_equal. lia.
    + now replace (p + (a + 1)) with (p + a + 1) by lia.
Qed.

Lemma strlen_ok s fuel m p : str_at m p s -> p <> 0 -> zlen s <= INT_MAX ->
  (length s < fuel)%nat -> strlen fuel m p = Ok (zlen s).
Proof.
  intros Hs Hp Hm Hf. unfold strlen. destruct (Z.eqb_spec p 0); [lia|].
  rewrite strlen_loop_ok with (s := s); auto; try lia. now rewrite Z.add_0_r.
Qed.

Lemma strnlen_loop_str s : forall fuel m p max a, str_at m (p + a) s -> 0 <= a ->
  a < max -> a + zlen s <= INT_MAX -> (length s < fuel)%nat ->
  strnlen_loop fuel m p max a = Ok (Z.min (a + zlen s) max).
Proof.
  induction s as [|c s IH]; intros [|fuel] m p max a Hs Ha Hmx Hm Hf; cbn [length] in Hf; try lia;
    cbn [strnlen_loop str_at] in *.
  - ld Hs. rewrite Z.eqb_refl, zlen_nil. f_equal. lia.
  - destruct Hs as (H1 & H2 & H3). ld H1. nneg s. zl.
    destruct (Z.eqb_spec c 0); [lia|].
    rewrite iop_ok by (unfold INT_MIN, INT_MAX in *; lia). rewrite bind_Ok.
    destruct (Z.geb_spec (a + 1) max).
    + f_equal. lia.
    + rewrite IH; try lia.
      * f_equal. lia.
      * now replace (p + (a + 1)) with (p + a + 1) by lia.
Qed.

(* no terminator within max bytes *)
Lemma strnlen_loop_full s : forall fuel m p max a, bytes_at m (p + a) s ->
  Forall (fun b => 1 <= b <= 255) s -> 0 <= a -> s <> [] ->
  a + zlen s = max -> max <= INT_MAX -> (length s <= fuel)%nat ->
  strnlen_loop fuel m p max a = Ok max.
Proof.
  induction s as [|c s IH]; intros [|fuel] m p max a Hs Hr Ha Hne Hmx Hm Hf; cbn [length] in Hf;
    try lia; try congruence; cbn [strnlen_loop bytes_at] in *.
  destruct Hs as (H1 & H3). apply Forall_cons_iff in Hr as [Hc Hr]. ld H1. nneg s. zl.
  destruct (Z.eqb_spec c 0); [lia|].
  rewrite iop_ok by (unfold INT_MIN, INT_MAX in *; lia). rewrite bind_Ok.
  destruct (Z.geb_spec (a + 1) max); auto.
  apply IH; auto; try lia.
  - now replace (p + (a + 1)) with (p + a + 1) by lia.
  - destruct s; [|congruence]. zl. lia.
Qed.

Lemma strnlen_ok s fuel m p max : str_at m p s -> p <> 0 -> 1 <= max <= INT_MAX ->
  zlen s <= INT_MAX -> (length s < fuel)%nat ->
  strnlen fuel m p max = Ok (Z.min (zlen s) max).
Proof.
  intros Hs Hp Hx Hm Hf. unfold strnlen. destruct (Z.eqb_spec p 0); [lia|].
  rewrite strnlen_loop_str with (s := s); auto; try lia. now rewrite Z.add_0_r.
Qed.
Lemma strnlen_unterminated s fuel m p : bytes_at m p s -> Forall (fun b => 1 <= b <= 255) s ->
  p <> 0 -> s <> [] -> zlen s <= INT_MAX -> (length s <= fuel)%nat ->
  strnlen fuel m p (zlen s) = Ok (zlen s).
Proof.
  intros Hs Hr Hp Hx Hm Hf. unfold strnlen. destruct (Z.eqb_spec p 0); [lia|].
  apply strnlen_loop_full with (s := s); auto; try lia. now rewrite Z.add_0_r.
Qed.

(* ---- strcpy / stpcpy ---- *)
Lemma strcpy_loop_ok s : forall fuel m d src,
  str_at m src s -> room m d (zlen s + 1) -> apart d (zlen s + 1) src (zlen s + 1) ->
  (length s < fuel)%nat ->
  exists m', strcpy_loop fuel m d src = Ok (m', d + zlen s) /\
             str_at m' d s /\ same_outside m m' d (zlen s + 1).
Proof.
  induction s as [|c s IH]; intros [|fuel] m d src Hs Hr Ha Hf; cbn [length] in Hf; try lia;
    cbn [strcpy_loop str_at] in *; nneg s || idtac.
  - ld Hs. rewrite Z.eqb_refl. zl.
    rewrite (store_room _ _ _ _ _ Hr) by lia. rewrite bind_Ok. eexists; split; [|split].
    + now rewrite Z.add_0_r.
    + apply upd_same.
    + apply same_outside_upd. lia.
  - destruct Hs as (H1 & H2 & H3). ld H1. zl.
    destruct (Z.eqb_spec c 0); [lia|].
    rewrite (store_room _ _ _ _ _ Hr) by lia. rewrite bind_Ok.
    unfold apart in Ha.
    destruct (IH fuel (upd m d c) (d + 1) (src + 1)) as (m' & E & Es & Eo).
    + apply str_at_upd; auto. lia.
    + apply room_upd. eapply room_sub; eauto; lia.
    + unfold apart. lia.
    + lia.
    + exists m'. rewrite E. split; [f_equal; f_equal; lia|]. split.
      * cbn [str_at]. split; [|split]; auto. rewrite Eo by lia. apply upd_same.
      * intros x Hx. rewrite Eo by lia. apply upd_other. lia.
Qed.

Lemma strcpy_ok s fuel m d src :
  str_at m src s -> room m d (zlen s + 1) -> apart d (zlen s + 1) src (zlen s + 1) ->
  (length s < fuel)%nat ->
  exists m', strcpy fuel m d src = Ok (m', d) /\
             str_at m' d s /\ same_outside m m' d (zlen s + 1).
Proof.
  intros Hs Hr Ha Hf. destruct (strcpy_loop_ok s fuel m d src) as (m' & E & H); auto.
  exists m'. unfold strcpy. rewrite E. auto.
Qed.

(* ---- strcat ---- *)
Lemma strcat_loop_ok s : forall fuel m dest src dl i,
  str_at m (src + i) s -> room m (dest + dl + i) (zlen s + 1) ->
  apart (dest + dl + i) (zlen s + 1) (src + i) (zlen s + 1) ->
  (length s < fuel)%nat ->
  exists m', strcat_loop fuel m dest src dl i = Ok m' /\
             str_at m' (dest + dl + i) s /\ same_outside m m' (dest + dl + i) (zlen s + 1).
Proof.
  induction s as [|c s IH]; intros [|fuel] m dest src dl i Hs Hr Ha Hf; cbn [length] in Hf; try lia;
    cbn [strcat_loop str_at] in *.
  - ld Hs. rewrite Z.eqb_refl. zl.
    rewrite (store_room _ _ _ _ _ Hr) by lia. eexists; split; [reflexivity|split].
    + rewrite Z.add_assoc. apply upd_same.
    + apply same_outside_upd. lia.
  - destruct Hs as (H1 & H2 & H3). ld H1. nneg s. zl.
    destruct (Z.eqb_spec c 0); [lia|].
    rewrite (store_room _ _ _ _ _ Hr) by lia. rewrite bind_Ok.
    unfold apart in Ha.
    destruct (IH fuel (upd m (dest + (dl + i)) c) dest src dl (i + 1)) as (m' & E & Es & Eo).
    + replace (src + (i + 1)) with (src + i + 1) by lia. apply str_at_upd; auto. lia.
    + apply room_upd. eapply room_sub; eauto; lia.
    + unfold apart. lia.
    + lia.
    + exists m'. rewrite E. split; [reflexivity|]. split.
      * split; [|split]; auto.
        -- rewrite Eo by lia. rewrite Z.add_assoc. apply upd_same.
        -- now replace (dest + dl + i + 1) with (dest + dl + (i + 1)) by lia.
      * intros x Hx. rewrite Eo by lia. apply upd_other. lia.
Qed.

Lemma strcat_ok a b fuel m dest src :
  str_at m dest a -> str_at m src b -> dest <> 0 -> zlen a <= INT_MAX ->
  room m dest (zlen a + zlen b + 1) ->
  apart dest (zlen a + zlen b + 1) src (zlen b + 1) ->
  (length a < fuel)%nat -> (length b < fuel)%nat ->
  exists m', strcat fuel m dest src = Ok (m', dest) /\
             str_at m' dest (a ++ b) /\ same_outside m m' dest (zlen a + zlen b + 1).
Proof.
  intros Ha Hb Hd Hm Hr Hap Hfa Hfb. unfold strcat. nneg a. nneg b.
  rewrite (strlen_ok a) by auto. rewrite bind_Ok. unfold apart in Hap.
  destruct (strcat_loop_ok b fuel m dest src (zlen a) 0) as (m' & E & Es & Eo); auto.
  - now rewrite Z.add_0_r.
  - eapply room_sub; eauto; lia.
  - unfold apart. lia.
  - exists m'. rewrite E. split; [reflexivity|]. rewrite Z.add_0_r in *. split.
    + apply str_at_app; [eapply str_at_range; eauto|]. split; auto.
      apply bytes_at_ext with m; [now apply str_at_bytes|]. intros. apply Eo. lia.
    + intros x Hx. apply Eo. lia.
Qed.

(* ---- strncat ---- *)
Lemma find_end_ok s : forall fuel m d, str_at m d s -> (length s < fuel)%nat ->
  find_end fuel m d = Ok (d + zlen s).
Proof.
  induction s as [|c s IH]; intros [|fuel] m d Hs Hf; cbn [length] in Hf; try lia;
    cbn [find_end str_at] in *.
  - ld Hs. rewrite Z.eqb_refl, zlen_nil. f_equal. lia.
  - destruct Hs as (H1 & H2 & H3). ld H1. zl. destruct (Z.eqb_spec c 0); [lia|].
    rewrite IH; auto; try lia. f_equal. lia.
Qed.


Lemma src_ok_cons m p c s n : 0 < n -> src_ok m p (c :: s) n ->
  m p = Some c /\ 1 <= c <= 255 /\ src_ok m (p + 1) s (n - 1).
Proof.
  intros Hn (H1 & H2 & H3). replace (Z.to_nat n) with (S (Z.to_nat (n - 1))) in H1 by lia.
  cbn [firstn bytes_at] in H1. apply Forall_cons_iff in H2 as [H2 H2']. destruct H1 as [H1 H1'].
  split; [auto|split; [lia|]]. split; [auto|split; [auto|]]. zl. intro.
  replace (p + 1 + zlen s) with (p + (zlen s + 1)) by lia. apply H3. lia.
Qed.
Lemma src_ok_upd m p s n a v : src_ok m p s n -> 
  ~ (p <= a < p + Z.min n (zlen s + 1)) -> src_ok (upd m a v) p s n.
Proof.
  intros (H1 & H2 & H3) Ha. split; [|split]; auto.
  - apply bytes_at_upd; auto. rewrite zlen_firstn. lia.
  - intro. rewrite upd_other; auto. nneg s. lia.
Qed.
Lemma str_at_src_ok m p s n : str_at m p s -> src_ok m p s n.
Proof.
  intro H. split; [|split].
  - apply str_at_bytes in H. rewrite <- (firstn_skipn (Z.to_nat n) s) in H.
    apply bytes_at_app in H. tauto.
  - eapply str_at_range; eauto.
  - intros _. now apply str_at_end.
Qed.

Lemma strncat_loop_ok s : forall fuel m d src n,
  src_ok m src s n -> 0 <= n ->
  let k := Z.min n (zlen s) in
  room m d (k + 1) -> apart d (k + 1) src (Z.min n (zlen s + 1)) ->
  (length s < fuel)%nat ->
  exists m', strncat_loop fuel m d src n = Ok m' /\
             str_at m' d (firstn (Z.to_nat n) s) /\ same_outside m m' d (k + 1).
Proof.
  induction s as [|c s IH]; intros [|fuel] m d src n Hs Hn k Hr Ha Hf; cbn [length] in Hf; try lia;
    subst k; cbn [strncat_loop].
  - rewrite firstn_nil. zl.
    destruct (Z.eqb_spec n 0).
    + rewrite (store_room _ _ _ _ _ Hr) by lia. eexists. split; [reflexivity|]. split.
      * apply upd_same.
      * apply same_outside_upd; lia.
    + destruct Hs as (_ & _ & Hs). zl. rewrite Z.add_0_r in Hs. specialize (Hs ltac:(lia)).
      ld Hs. rewrite (store_room _ _ _ _ _ Hr) by lia. rewrite bind_Ok, Z.eqb_refl.
      rewrite (store_some _ _ 0) by apply upd_same. eexists. split; [reflexivity|]. split.
      * apply upd_same.
      * eapply same_outside_trans; apply same_outside_upd; lia.
  - nneg s. zl. destruct (Z.eqb_spec n 0).
    + subst n. change (Z.to_nat 0) with 0%nat. cbn [firstn].
      rewrite (store_room _ _ _ _ _ Hr) by lia. eexists. split; [reflexivity|]. split.
      * apply upd_same.
      * apply same_outside_upd; lia.
    + apply src_ok_cons in Hs as (H1 & H2 & H3); [|lia]. ld H1.
      rewrite (store_room _ _ _ _ _ Hr) by lia. rewrite bind_Ok.
      destruct (Z.eqb_spec c 0); [lia|]. unfold apart in Ha.
      destruct (IH fuel (upd m d c) (d + 1) (src + 1) (n - 1)) as (m' & E & Es & Eo).
      * apply src_ok_upd; auto. lia.
      * lia.
      * apply room_upd. eapply room_sub; eauto; lia.
      * unfold apart. lia.
      * lia.
      * exists m'. split; [auto|]. split.
        -- replace (Z.to_nat n) with (S (Z.to_nat (n - 1))) by lia. cbn [firstn str_at].
           split; [|split]; auto. rewrite Eo by lia. apply upd_same.
        -- intros x Hx. rewrite Eo by lia. apply upd_other. lia.
Qed.

Lemma strncat_ok a b fuel m dest src n :
  str_at m dest a -> src_ok m src b n -> 0 <= n ->
  room m dest (zlen a + Z.min n (zlen b) + 1) ->
  apart dest (zlen a + Z.min n (zlen b) + 1) src (Z.min n (zlen b + 1)) ->
  (length a < fuel)%nat -> (length b < fuel)%nat ->
  exists m', strncat fuel m dest src n = Ok (m', dest) /\
             str_at m' dest (a ++ firstn (Z.to_nat n) b) /\
             same_outside m m' dest (zlen a + Z.min n (zlen b) + 1).
Proof.
  intros Ha Hb Hn Hr Hap Hfa Hfb. unfold strncat. nneg a. nneg b.
  destruct (Z.eqb_spec n 0).
  - subst. change (Z.to_nat 0) with 0%nat. cbn [firstn]. rewrite app_nil_r.
    exists m. split; auto. split; auto. apply same_outside_refl.
  - rewrite (find_end_ok a) by auto. rewrite bind_Ok. unfold apart in Hap.
    destruct (strncat_loop_ok b fuel m (dest + zlen a) src n) as (m' & E & Es & Eo); auto.
    + eapply room_sub; eauto; lia.
    + unfold apart. lia.
    + exists m'. rewrite E. split; [reflexivity|]. split.
      * apply str_at_app; [eapply str_at_range; eauto|]. split; auto.
        apply bytes_at_ext with m; [now apply str_at_bytes|]. intros. apply Eo. lia.
      * intros x Hx. apply Eo. lia.
Qed.

(* ---- zero fill ---- *)
Lemma zero_fill_ok k : forall fuel m dest a n,
  n - a = Z.of_nat k -> room m (dest + a) (n - a) -> (k < fuel)%nat ->
  exists m', zero_fill fuel m dest a n = Ok m' /\
             bytes_at m' (dest + a) (repeat 0 k) /\ same_outside m m' (dest + a) (n - a).
Proof.
  induction k as [|k IH]; intros [|fuel] m dest a n Hk Hr Hf; try lia; cbn [zero_fill].
  - destruct (Z.ltb_spec a n); [lia|]. exists m. repeat split; auto.
  - destruct (Z.ltb_spec a n); [|lia].
    rewrite (store_room _ _ _ _ _ Hr) by lia. rewrite bind_Ok.
    destruct (IH fuel (upd m (dest + a) 0) dest (a + 1) n) as (m' & E & Es & Eo); try lia.
    + apply room_upd. eapply room_sub; eauto; lia.
    + exists m'. split; auto. split.
      * cbn [repeat bytes_at]. split.
        -- rewrite Eo by lia. apply upd_same.
        -- now replace (dest + a + 1) with (dest + (a + 1)) by lia.
      * intros x Hx. rewrite Eo by lia. apply upd_other. lia.
Qed.


Lemma zlen_padded s n : 0 <= n -> zlen (padded s n) = n.
Proof. intro. unfold padded. zl. rewrite zlen_firstn, zlen_repeat. nneg s. lia. Qed.

(* ---- strncpy: reads src[n] when src is longer than n ---- *)
Lemma strncpy_loop_ok s : forall fuel m dest src n a,
  str_at m (src + a) s -> 0 <= a <= n -> 
  room m (dest + a) (n - a) -> apart (dest + a) (n - a) (src + a) (zlen s + 1) ->
  (length s < fuel)%nat -> (Z.to_nat (n - a) < fuel)%nat ->
  exists m', strncpy_loop fuel m dest src n a = Ok m' /\
             bytes_at m' (dest + a) (padded s (n - a)) /\ same_outside m m' (dest + a) (n - a).
Proof.
  induction s as [|c s IH]; intros [|fuel] m dest src n a Hs Hn Hr Ha Hf Hf2; cbn [length] in Hf; try lia;
    cbn [strncpy_loop str_at] in *.
  - ld Hs. rewrite Z.eqb_refl. zl.
    destruct (zero_fill_ok (Z.to_nat (n - a)) (S fuel) m dest a n) as (m' & E & Es & Eo); try lia; auto.
    exists m'. split; auto. split; auto. unfold padded. rewrite firstn_nil. zl. cbn [app].
    now rewrite Z.sub_0_r.
  - destruct Hs as (H1 & H2 & H3). ld H1. nneg s. zl.
    destruct (Z.eqb_spec c 0); [lia|].
    destruct (Z.geb_spec a n).
    + exists m. split; auto. split; [|apply same_outside_refl].
      assert (n - a = 0) as -> by lia. unfold padded. zl.
      replace (Z.to_nat (0 - (zlen s + 1))) with 0%nat by lia. change (Z.to_nat 0) with 0%nat. cbn. auto.
    + rewrite (store_room _ _ _ _ _ Hr) by lia. rewrite bind_Ok. unfold apart in Ha.
      destruct (IH fuel (upd m (dest + a) c) dest src n (a + 1)) as (m' & E & Es & Eo); try lia.
      * replace (src + (a + 1)) with (src + a + 1) by lia. apply str_at_upd; auto.
        intro. destruct Ha; lia.
      * apply room_upd. eapply room_sub; eauto; lia.
      * unfold apart. lia.
      * exists m'. split; auto. split.
        -- unfold padded in *. replace (Z.to_nat (n - a)) with (S (Z.to_nat (n - (a + 1)))) by lia.
           cbn [firstn app bytes_at]. split.
           ++ rewrite Eo by lia. apply upd_same.
           ++ zl. replace (n - a - (zlen s + 1)) with (n - (a + 1) - zlen s) by lia.
              now replace (dest + a + 1) with (dest + (a + 1)) by lia.
        -- intros x Hx. rewrite Eo by lia. apply upd_other. lia.
Qed.

Lemma strncpy_ok s fuel m dest src n :
  str_at m src s -> 0 <= n -> room m dest n -> apart dest n src (zlen s + 1) ->
  (length s < fuel)%nat -> (Z.to_nat n < fuel)%nat ->
  exists m', strncpy fuel m dest src n = Ok (m', dest) /\
             bytes_at m' dest (padded s n) /\ same_outside m m' dest n.
Proof.
  intros Hs Hn Hr Ha Hf Hf2. unfold strncpy.
  destruct (strncpy_loop_ok s fuel m dest src n 0) as (m' & E & Es & Eo); 
    rewrite ?Z.add_0_r, ?Z.sub_0_r in *; auto; try lia.
  exists m'. rewrite E. auto.
Qed.

(* ---- stpncpy ---- *)
Lemma stpn_loop_ok s : forall fuel m d e src,
  src_ok m src s (e - d + 1) -> d <= e ->
  room m d (e - d) -> apart d (e - d) src (Z.min (e - d + 1) (zlen s + 1)) ->
  (length s < fuel)%nat ->
  exists m', stpn_loop fuel m d e src = Ok (m', d + Z.min (e - d) (zlen s)) /\
     bytes_at m' d (firstn (Z.to_nat (e - d)) s) /\
     same_outside m m' d (Z.min (e - d) (zlen s)).
Proof.
  induction s as [|c s IH]; intros [|fuel] m d e src Hs Hn Hr Ha Hf; cbn [length] in Hf; try lia;
    cbn [stpn_loop].
  - destruct Hs as (_ & _ & Hs). zl. rewrite Z.add_0_r in Hs. specialize (Hs ltac:(lia)).
    ld Hs. rewrite Z.eqb_refl. cbn [negb andb]. exists m. rewrite Z.min_r, Z.add_0_r by lia.
    split; auto. rewrite firstn_nil. split; cbn; auto. apply same_outside_refl.
  - pose proof Hs as Hs0.
    apply src_ok_cons in Hs as (H1 & H2 & H3); [|lia]. ld H1. nneg s. zl.
    destruct (Z.eqb_spec c 0); [lia|]. cbn [negb andb].
    destruct (Z.ltb_spec d e).
    + rewrite (store_room _ _ _ _ _ Hr) by lia. rewrite bind_Ok. unfold apart in Ha.
      destruct (IH fuel (upd m d c) (d + 1) e (src + 1)) as (m' & E & Es & Eo); try lia.
      * replace (e - (d + 1) + 1) with (e - d + 1 - 1) by lia. apply src_ok_upd; auto. lia.
      * apply room_upd. eapply room_sub; eauto; lia.
      * unfold apart. lia.
      * exists m'. rewrite E. split; [f_equal; f_equal; lia|]. split.
        -- replace (Z.to_nat (e - d)) with (S (Z.to_nat (e - (d + 1)))) by lia.
           cbn [firstn bytes_at]. split; auto. rewrite Eo by lia. apply upd_same.
        -- intros x Hxx. rewrite Eo by lia. apply upd_other. lia.
    + exists m. assert (e - d = 0) as -> by lia. rewrite Z.min_l, Z.add_0_r by lia.
      split; auto. change (Z.to_nat 0) with 0%nat. cbn. split; auto. apply same_outside_refl.
Qed.

Lemma stpncpy_ok s fuel m dest src n :
  src_ok m src s (n + 1) -> 0 <= n -> room m dest n -> apart dest n src (Z.min (n + 1) (zlen s + 1)) ->
  (length s < fuel)%nat -> (Z.to_nat n < fuel)%nat ->
  exists m', stpncpy fuel m dest src n = Ok (m', dest + Z.min n (zlen s)) /\
             bytes_at m' dest (padded s n) /\ same_outside m m' dest n.
Proof.
  intros Hs Hn Hr Ha Hf Hf2. unfold stpncpy. nneg s.
  destruct (stpn_loop_ok s fuel m dest (dest + n) src) as (m1 & E & Es & Eo);
    replace (dest + n - dest) with n in * by lia; auto; try lia.
  rewrite E, bind_Ok.
  destruct (zero_fill_ok (Z.to_nat (n - zlen s)) fuel m1 0 (dest + Z.min n (zlen s)) (dest + n))
    as (m2 & E2 & Es2 & Eo2); try lia.
  { rewrite Z.add_0_l. intros x Hxx. rewrite Eo by lia. apply Hr. lia. }
  rewrite Z.add_0_l in *. exists m2. rewrite E2. split; [reflexivity|]. split.
  - unfold padded. apply bytes_at_app. split.
    + apply bytes_at_ext with m1; auto. intros x Hxx. rewrite zlen_firstn in Hxx. apply Eo2. lia.
    + rewrite zlen_firstn. now replace (Z.min (Z.of_nat (Z.to_nat n)) (zlen s)) with (Z.min n (zlen s)) by lia.
  - intros x Hxx. rewrite Eo2 by lia. apply Eo. lia.
Qed.

(* ---- stplcpy: correct while the string is shorter than size ---- *)
Lemma stplcpy_gen s fuel m dest src n :
  src_ok m src s (n + 1) -> 0 <= n -> let k := Z.min n (zlen s) in
  room m dest (k + 1) -> room m dest n -> apart dest (Z.max n (k + 1)) src (Z.min (n + 1) (zlen s + 1)) ->
  (length s < fuel)%nat ->
  exists m', stplcpy fuel m dest src n = Ok (m', dest + k) /\
             str_at m' dest (firstn (Z.to_nat n) s) /\ same_outside m m' dest (k + 1).
Proof.
  intros Hs Hn k Hr Hr2 Ha Hf. unfold stplcpy. subst k. nneg s. unfold apart in Ha.
  destruct (stpn_loop_ok s fuel m dest (dest + n) src) as (m1 & E & Es & Eo);
    replace (dest + n - dest) with n in * by lia; auto; try lia.
  { unfold apart; lia. }
  rewrite E, bind_Ok.
  unfold store. destruct (m1 (dest + Z.min n (zlen s))) eqn:Em.
  2:{ rewrite Eo in Em by lia. exfalso. apply (Hr (dest + Z.min n (zlen s))); auto; lia. }
  rewrite bind_Ok. eexists. split; [reflexivity|]. split.
  - apply str_at_intro.
    + apply bytes_at_upd; auto. rewrite zlen_firstn. lia.
    + apply Forall_firstn, Hs.
    + rewrite zlen_firstn. replace (Z.min (Z.of_nat (Z.to_nat n)) (zlen s)) with (Z.min n (zlen s)) by lia.
      apply upd_same.
  - intros x Hxx. rewrite upd_other by lia. apply Eo. lia.
Qed.

(* ---- strlcpy ---- *)
Lemma strlcpy_loop_ok s : forall fuel m dest src n a,
  src_ok m (src + a + 1) s (n - 1 - (a + 1)) -> -1 <= a -> a + 1 <= n - 1 -> n <= INT_MAX ->
  room m (dest + (a + 1)) (n - (a + 1)) ->
  apart (dest + (a + 1)) (n - (a + 1)) (src + a + 1) (Z.min (n - 1 - (a + 1)) (zlen s + 1)) ->
  (length s + 1 < fuel)%nat ->
  exists m', strlcpy_loop fuel m dest src n a = Ok m' /\
     str_at m' (dest + (a + 1)) (firstn (Z.to_nat (n - 1 - (a + 1))) s) /\
     same_outside m m' (dest + (a + 1)) (Z.min (n - (a + 1)) (zlen s + 1)).
Proof.
  induction s as [|c s IH]; intros [|fuel] m dest src n a Hs Ha1 Ha2 Hmx Hr Ha Hf; cbn [length] in Hf; try lia;
    cbn [strlcpy_loop]; rewrite iop_ok by (unfold INT_MIN, INT_MAX in *; lia); rewrite bind_Ok.
  - destruct (Z.geb_spec (a + 1) (n - 1)).
    + rewrite (store_room _ _ _ _ _ Hr) by lia. eexists. split; [reflexivity|].
      rewrite firstn_nil. zl. split.
      * replace (n - 1) with (a + 1) by lia. apply upd_same.
      * apply same_outside_upd. lia.
    + destruct Hs as (_ & _ & Hs). zl. rewrite Z.add_0_r in Hs. specialize (Hs ltac:(lia)).
      rewrite Z.add_assoc. ld Hs. rewrite (store_room _ _ _ _ _ Hr) by lia. rewrite bind_Ok.
      unfold apart in Ha.
      rewrite (load_some _ _ 0). 2:{ rewrite upd_other; auto. lia. }
      rewrite bind_Ok, Z.eqb_refl. eexists. split; [reflexivity|]. rewrite firstn_nil. split.
      * apply upd_same.
      * apply same_outside_upd. lia.
  - nneg s. zl. destruct (Z.geb_spec (a + 1) (n - 1)).
    + assert (n - 1 - (a + 1) = 0) as -> by lia. change (Z.to_nat 0) with 0%nat. cbn [firstn].
      rewrite (store_room _ _ _ _ _ Hr) by lia. eexists. split; [reflexivity|]. split.
      * replace (n - 1) with (a + 1) by lia. apply upd_same.
      * apply same_outside_upd. lia.
    + apply src_ok_cons in Hs as (H1 & H2 & H3); [|lia].
      rewrite Z.add_assoc. ld H1. rewrite (store_room _ _ _ _ _ Hr) by lia. rewrite bind_Ok.
      unfold apart in Ha.
      rewrite (load_some _ _ c). 2:{ rewrite upd_other; auto. lia. }
      rewrite bind_Ok. destruct (Z.eqb_spec c 0); [lia|].
      destruct (IH fuel (upd m (dest + (a + 1)) c) dest src n (a + 1)) as (m' & E & Es & Eo); try lia.
      * replace (src + (a + 1) + 1) with (src + a + 1 + 1) by lia.
        replace (n - 1 - (a + 1 + 1)) with (n - 1 - (a + 1) - 1) by lia.
        apply src_ok_upd; auto. lia.
      * apply room_upd. eapply room_sub; eauto; lia.
      * unfold apart. lia.
      * exists m'. split; auto. split.
        -- replace (Z.to_nat (n - 1 - (a + 1))) with (S (Z.to_nat (n - 1 - (a + 1 + 1)))) by lia.
           cbn [firstn str_at]. split; [|split; [lia|]].
           ++ rewrite Eo by lia. apply upd_same.
           ++ now replace (dest + (a + 1) + 1) with (dest + (a + 1 + 1)) by lia.
        -- intros x Hx. rewrite Eo by lia. apply upd_other. lia.
Qed.

Lemma strlcpy_ok s fuel m dest src n :
  src_ok m src s (n - 1) -> 1 <= n <= INT_MAX ->
  room m dest n -> apart dest n src (Z.min (n - 1) (zlen s + 1)) ->
  (length s + 1 < fuel)%nat ->
  exists m', strlcpy fuel m dest src n = Ok (m', dest) /\
     str_at m' dest (firstn (Z.to_nat (n - 1)) s) /\
     same_outside m m' dest (Z.min n (zlen s + 1)).
Proof.
  intros Hs Hn Hr Ha Hf. unfold strlcpy.
  destruct (strlcpy_loop_ok s fuel m dest src n (-1)) as (m' & E & Es & Eo);
    change (-1 + 1) with 0 in *; rewrite ?Z.add_0_r, ?Z.sub_0_r in *; auto; try lia.
  - now replace (src + -1 + 1) with src by lia.
  - now replace (src + -1 + 1) with src by lia.
  - exists m'. rewrite E. auto.
Qed.
