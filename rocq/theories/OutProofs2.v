From Coq Require Import ZifyBool.
From Verif Require Import Base BaseLemmas StrModel StrSpec StrProofs StrProofs2 StreamModel OutModel OutSpec OutProofs.

Lemma firstn_app_le {A} n (a b : list A) : (n <= length a)%nat -> firstn n (a ++ b) = firstn n a.
Proof. intros H. rewrite firstn_app. replace (n - length a)%nat with O by lia. cbn. now rewrite app_nil_r. Qed.
Lemma firstn_app_ge {A} n (a b : list A) : (length a <= n)%nat -> firstn n (a ++ b) = a ++ firstn (n - length a) b.
Proof. intros H. rewrite firstn_app. now rewrite firstn_all2 by lia. Qed.

Lemma room_over m m' buf n p l : room m buf n -> same_outside m m' p (zlen l) -> bytes_at m' p l -> room m' buf n.
Proof.
  intros R O B x Hx. destruct (Z_lt_dec x p) as [|]; [rewrite O by lia; auto|]. destruct (Z_lt_dec x (p + zlen l)) as [L|]; [|rewrite O by lia; auto].
  assert (N : (Z.to_nat (x - p) < length l)%nat) by (unfold zlen in L; lia). destruct (nth_error l (Z.to_nat (x - p))) as [b|] eqn:E; [|apply nth_error_None in E; lia].
  pose proof (bytes_at_nth _ _ _ _ _ B E) as K. replace (p + Z.of_nat (Z.to_nat (x - p))) with x in K by lia. rewrite K. discriminate.
Qed.
Lemma zlen_padded s n : 0 <= n -> zlen (padded s n) = n.
Proof. intros H. unfold padded. rewrite zlen_app, zlen_firstn, zlen_repeat. nneg s. lia. Qed.

Section S.
Variables (fmt buf size : Z).
Definition okstr (m : mem) (p : Z) (s : list Z) : Prop := string_at m p s /\ apart buf (size + 1) p (zlen s + 1).
Lemma args_ext m m' : same_outside m m' buf (size + 1) -> forall is args, args_of (okstr m) is args -> args_of (okstr m') is args.
Proof.
  intros E. induction is as [|[c|s|c|c] is IH]; intros args A; cbn [args_of] in *; auto.
  - destruct A as (p & args' & -> & [[P0 P] Ap] & A). exists p, args'. split; [reflexivity|]. split; [|auto]. split; [|exact Ap]. split; [exact P0|].
    apply (str_at_ext m); [exact P|]. intros a Ha. apply E. unfold apart in Ap. lia.
  - destruct A as (args' & -> & A). exists args'. auto.
Qed.
Let e := buf + size.
Lemma snprintfs_ok : forall is fuel m p a args,
  str_at m (fmt + a) (fmt_of is) -> Forall good_item is -> args_of (okstr m) is args ->
  apart buf (size + 1) (fmt + a) (zlen (fmt_of is) + 1) -> buf <= p <= e -> room m buf (size + 1) ->
  0 <= a -> a + zlen (fmt_of is) < INT_MAX -> (length (fmt_of is) + length (kept_of is) + Z.to_nat size < fuel)%nat ->
  exists m', snprintfs_loop fuel m e fmt p a args = Ok (m', p + Z.min (e - p) (zlen (kept_of is))) /\
    bytes_at m' p (firstn (Z.to_nat (e - p)) (kept_of is)) /\ m' (p + Z.min (e - p) (zlen (kept_of is))) = Some 0 /\
    same_outside m m' p (e - p + 1) /\ (zlen (kept_of is) < e - p -> same_outside m m' p (e - p)).
Proof.
  induction is as [|i is IH]; intros [|fuel] m p a args S G A Ap P R A0 La Fu; try (exfalso; lia).
  - change (fmt_of []) with (@nil Z) in *. change (kept_of []) with (@nil Z) in *. cbn [snprintfs_loop str_at] in *. rewrite (load_some _ _ _ S), bind_Ok. cbn [Z.eqb negb andb]. change (zlen (@nil Z)) with 0 in *.
    rewrite (store_room _ _ _ _ _ R), bind_Ok by (unfold e in *; lia). exists (upd m p 0). rewrite firstn_nil. replace (Z.min (e - p) 0) with 0 by lia. rewrite Z.add_0_r.
    split; [reflexivity|]. split; [exact I|]. split; [apply upd_same|]. split; [apply same_outside_upd; lia|]. intros L. apply same_outside_upd. lia.
  - cbn [fmt_of kept_of flat_map] in *. fold (fmt_of is) in *. fold (kept_of is) in *. rewrite !zlen_app in *. rewrite !app_length in *. nneg (fmt_of is). nneg (kept_of is).
    apply Forall_cons_iff in G. destruct G as [Gi G]. cbn [snprintfs_loop].
    assert (NZ : exists c l, item_fmt i ++ fmt_of is = c :: l /\ 1 <= c). { destruct i; cbn in *; try contradiction; eexists; eexists; (split; [reflexivity|lia]). }
    destruct NZ as (c0 & l0 & E0 & C0). pose proof S as SS. rewrite E0 in SS. cbn [str_at] in SS. destruct SS as (SS & _). rewrite (load_some _ _ _ SS), bind_Ok.
    replace (c0 =? 0) with false by lia. cbn [negb andb]. destruct (Z.ltb_spec p e) as [LT|GE].
    2:{ assert (p = e) by lia. subst p. nneg (item_kept i). rewrite (store_room _ _ _ _ _ R), bind_Ok by (unfold e in *; lia). exists (upd m e 0).
        replace (Z.min (e - e) (zlen (item_kept i) + zlen (kept_of is))) with 0 by lia. rewrite Z.add_0_r. replace (e - e) with 0 by lia. cbn [Z.to_nat firstn].
        split; [reflexivity|]. split; [exact I|]. split; [apply upd_same|]. split; [apply same_outside_upd; lia|lia]. }
    destruct i as [c|s|c|c]; cbn [item_fmt item_kept item_out app str_at good_item length args_of] in *; try contradiction; rewrite ?zlen_cons, ?zlen_nil in *.
    + injection E0 as <- <-. replace (c =? 37) with false by lia. destruct S as (S1 & S2 & S3). rewrite (store_room _ _ _ _ _ R), bind_Ok by (unfold e in *; lia).
      rewrite iop_ok, bind_Ok by (unfold INT_MIN; lia).
      assert (SO : same_outside m (upd m p c) buf (size + 1)) by (apply same_outside_upd; unfold e in *; lia).
      destruct (IH fuel (upd m p c) (p + 1) (a + 1) args) as (m' & E & B & Z0 & O1 & O2); auto.
      * replace (fmt + (a + 1)) with (fmt + a + 1) by lia. apply (str_at_ext m); [exact S3|]. intros x Hx. apply SO. unfold apart in Ap. lia.
      * apply (args_ext m); auto.
      * unfold apart in *. lia.
      * lia.
      * apply room_upd, R.
      * lia.
      * lia.
      * lia.
      * exists m'. rewrite E. replace (p + 1 + Z.min (e - (p + 1)) (zlen (kept_of is))) with (p + Z.min (e - p) (0 + 1 + zlen (kept_of is))) in * by lia.
        split; [reflexivity|]. replace (Z.to_nat (e - p)) with (S (Z.to_nat (e - (p + 1)))) by lia. cbn [firstn bytes_at]. split; [|split; [exact Z0|]].
        -- split; [|exact B]. rewrite (O1 p) by lia. apply upd_same.
        -- split.
           ++ apply same_outside_trans with (m2 := upd m p c); [apply same_outside_upd; lia|]. apply (same_outside_weaken _ _ _ _ _ _ O1); lia.
           ++ intros L. apply same_outside_trans with (m2 := upd m p c); [apply same_outside_upd; lia|]. apply (same_outside_weaken _ _ _ _ _ _ (O2 ltac:(lia))); lia.
    + injection E0 as <- <-. cbn [Z.eqb Pos.eqb]. destruct S as (S1 & S2 & T1 & T2 & S3). destruct A as (q & args' & -> & [[Q0 Q] Aq] & A).
      rewrite iop_ok, bind_Ok by (unfold INT_MIN; lia). replace (fmt + (a + 1)) with (fmt + a + 1) by lia. rewrite (load_some _ _ _ T1), bind_Ok.
      rewrite iop_ok, bind_Ok by (unfold INT_MIN; lia). cbn [Z.eqb Pos.eqb]. nneg s.
      destruct (stpncpy_ok s (S fuel) m p q (e - p)) as (m1 & E1 & B1 & O1).
      { apply str_at_src_ok; exact Q. }
      { lia. }
      { apply (room_sub _ _ _ _ _ R); unfold e in *; lia. }
      { unfold apart, e in *. lia. }
      { lia. }
      { unfold e in *. lia. }
      rewrite E1, bind_Ok. cbn [fst snd].
      assert (SO : same_outside m m1 buf (size + 1)) by (apply (same_outside_weaken _ _ _ _ _ _ O1); unfold e in *; lia).
      destruct (IH fuel m1 (p + Z.min (e - p) (zlen s)) (a + 1 + 1) args') as (m' & E & B & Z0 & O3 & O4); auto.
      * replace (fmt + (a + 1 + 1)) with (fmt + a + 1 + 1) by lia. apply (str_at_ext m); [exact S3|]. intros x Hx. apply SO. unfold apart in Ap. lia.
      * apply (args_ext m); auto.
      * unfold apart in *. lia.
      * lia.
      * apply (room_over m m1 buf (size + 1) p (padded s (e - p))); auto. rewrite zlen_padded by lia. exact O1.
      * lia.
      * lia.
      * lia.
      * exists m'. rewrite E. set (n := Z.min (e - p) (zlen s)) in *.
        assert (EN : p + n + Z.min (e - (p + n)) (zlen (kept_of is)) = p + Z.min (e - p) (zlen s + zlen (kept_of is))) by (unfold n; lia). rewrite EN in *.
        split; [reflexivity|]. split; [|split; [exact Z0|]].
        -- assert (Bs : bytes_at m' p (firstn (Z.to_nat n) s)).
           { apply (bytes_at_ext m1); [|intros x Hx; apply O3; rewrite zlen_firstn in Hx; lia]. unfold padded in B1. apply bytes_at_app in B1. destruct B1 as [B1 _].
             unfold n. destruct (Z.leb_spec (e - p) (zlen s)); [now replace (Z.min (e - p) (zlen s)) with (e - p) by lia|]. rewrite firstn_all2 in B1 by (unfold zlen in *; lia).
             rewrite firstn_all2 by (unfold zlen in *; lia). exact B1. }
           destruct (Z.leb_spec (e - p) (zlen s)) as [LE|GT].
           ++ rewrite firstn_app_le by (unfold zlen in *; lia). replace (e - p) with n by (unfold n; lia). exact Bs.
           ++ assert (n = zlen s) by (unfold n; lia). rewrite firstn_app_ge by (unfold zlen in *; lia). apply bytes_at_app. split.
              ** rewrite firstn_all2 in Bs by (unfold zlen in *; lia). exact Bs.
              ** replace (zlen s) with n. replace (Z.to_nat (e - p) - length s)%nat with (Z.to_nat (e - (p + n))) by (unfold zlen in *; lia). exact B.
        -- split.
           ++ apply same_outside_trans with (m2 := m1); [apply (same_outside_weaken _ _ _ _ _ _ O1); lia|]. apply (same_outside_weaken _ _ _ _ _ _ O3); unfold n; lia.
           ++ intros L. apply same_outside_trans with (m2 := m1); [apply (same_outside_weaken _ _ _ _ _ _ O1); lia|]. apply (same_outside_weaken _ _ _ _ _ _ (O4 ltac:(unfold n; lia))); unfold n; lia.
    + injection E0 as <- <-. cbn [Z.eqb Pos.eqb]. destruct S as (S1 & S2 & T1 & T2 & S3). destruct A as (args' & -> & A).
      rewrite iop_ok, bind_Ok by (unfold INT_MIN; lia). replace (fmt + (a + 1)) with (fmt + a + 1) by lia. rewrite (load_some _ _ _ T1), bind_Ok.
      rewrite iop_ok, bind_Ok by (unfold INT_MIN; lia). cbn [Z.eqb Pos.eqb]. rewrite (store_room _ _ _ _ _ R), bind_Ok by (unfold e in *; lia).
      assert (SO : same_outside m (upd m p (ubyte c)) buf (size + 1)) by (apply same_outside_upd; unfold e in *; lia).
      destruct (IH fuel (upd m p (ubyte c)) (p + 1) (a + 1 + 1) args') as (m' & E & B & Z0 & O1 & O2); auto.
      * replace (fmt + (a + 1 + 1)) with (fmt + a + 1 + 1) by lia. apply (str_at_ext m); [exact S3|]. intros x Hx. apply SO. unfold apart in Ap. lia.
      * apply (args_ext m); auto.
      * unfold apart in *. lia.
      * lia.
      * apply room_upd, R.
      * lia.
      * lia.
      * lia.
      * exists m'. rewrite E. replace (p + 1 + Z.min (e - (p + 1)) (zlen (kept_of is))) with (p + Z.min (e - p) (0 + 1 + zlen (kept_of is))) in * by lia.
        split; [reflexivity|]. replace (Z.to_nat (e - p)) with (S (Z.to_nat (e - (p + 1)))) by lia. cbn [firstn bytes_at]. split; [|split; [exact Z0|]].
        -- split; [|exact B]. rewrite (O1 p) by lia. apply upd_same.
        -- split.
           ++ apply same_outside_trans with (m2 := upd m p (ubyte c)); [apply same_outside_upd; lia|]. apply (same_outside_weaken _ _ _ _ _ _ O1); lia.
           ++ intros L. apply same_outside_trans with (m2 := upd m p (ubyte c)); [apply same_outside_upd; lia|]. apply (same_outside_weaken _ _ _ _ _ _ (O2 ltac:(lia))); lia.
    + injection E0 as <- <-. cbn [Z.eqb Pos.eqb]. destruct S as (S1 & S2 & T1 & T2 & S3).
      rewrite iop_ok, bind_Ok by (unfold INT_MIN; lia). replace (fmt + (a + 1)) with (fmt + a + 1) by lia. rewrite (load_some _ _ _ T1), bind_Ok.
      rewrite iop_ok, bind_Ok by (unfold INT_MIN; lia). replace (c =? 115) with false by lia. replace (c =? 99) with false by lia.
      destruct (IH fuel m p (a + 1 + 1) args) as (m' & E & B & Z0 & O1 & O2); auto.
      * replace (fmt + (a + 1 + 1)) with (fmt + a + 1 + 1) by lia. exact S3.
      * unfold apart in *. lia.
      * lia.
      * lia.
      * lia.
      * exists m'. rewrite E. rewrite Z.add_0_l. split; [reflexivity|]. split; [exact B|]. split; [exact Z0|]. split; assumption.
Qed.
End S.
