(* C145: dtodec. *)
From Coq Require Import Floats.SpecFloat QArith Qabs Lqa.
From Verif Require Import Base BaseLemmas ConvModel ConvSpec ConvProofs ConvProofs2 ConvProofs3 DtoModel DtoSpec DtoProofs2.
Local Open Scope Z_scope.
Ltac Zify.zify_post_hook ::= Z.div_mod_to_equations.

Lemma uitodec9 i : 0 <= i < 4294967296 -> exists n, 9 <= n <= 10 /\ forall m buf, room m buf (n + 1) ->
  exists m', uitodec m i buf 9 0 0 = Ok (m', n) /\ same_outside m m' buf (n + 1).
Proof.
  intro Hi. assert (L : 9 <= zlen (uit_text i 9 32) <= 10).
  { unfold uit_text. destruct (Z.leb_spec 1000000000 i).
    - zl. rewrite zlen_map. unfold zlen. rewrite digs_length. lia.
    - cbn [Z.eqb]. rewrite andb_false_r, emit_eq. pose proof (lz_le (digs 10 9 i)). rewrite zlen_app, zlen_repeat, zlen_map, skipn_zlen by assumption. unfold zlen. rewrite digs_length in *.
      change (9 - Z.to_nat 9)%nat with 0%nat. lia. }
  exists (zlen (uit_text i 9 32)). split; [exact L|]. intros m buf R. destruct (uitodec_text m i buf 9 0 Hi ltac:(lia)) as (m' & E & W); [exact R|].
  change (ubyte (if 0 =? 0 then 32 else 0)) with 32 in *. exists m'. split; [exact E|].
  assert (O : forall m0, same_outside m0 (wr m0 buf (uit_text i 9 32 ++ [0])) buf (zlen (uit_text i 9 32) + 1)).
  { intro m0. pose proof (wr_outside (uit_text i 9 32 ++ [0]) m0 buf) as Q. rewrite zlen_app in Q. exact Q. }
  destruct W as [-> | ->]; [apply O|]. eapply same_outside_trans; [|apply O]. apply same_outside_upd. lia.
Qed.
Lemma to_int_range d i : to_int d = Ok i -> INT_MIN <= i <= INT_MAX.
Proof. unfold to_int. destruct (trunc d) as [v|]; [|discriminate]. destruct ((INT_MIN <=? v) && (v <=? INT_MAX)) eqn:E; [|discriminate]. intro H. injection H as <-. lia. Qed.
Lemma to_uint_range d i : to_uint d = Ok i -> 0 <= i < 4294967296.
Proof. unfold to_uint. destruct (trunc d) as [v|]; [|discriminate]. destruct ((0 <=? v) && (v <? 4294967296)) eqn:E; [|discriminate]. intro H. injection H as <-. lia. Qed.
Lemma fraction_range d i i2 : fraction d i = Ok i2 -> 0 <= i2 < 4294967296.
Proof. unfold fraction. destruct (fle _ _); apply to_uint_range. Qed.

Lemma small_text : forall strict m d buf precision i2,
  to_int d = Ok 0 -> fle d (of_int (-1)) = false -> flt d (S754_zero false) = true ->
  fraction d 0 = Ok i2 -> 100000000 <= i2 < 1000000000 -> room m buf 13 -> INT_MIN <= precision <= INT_MAX - 3 ->
  exists m' l, dtodec strict m d buf precision = Ok (m', 3 + precision) /\ numeral 10 i2 l /\ zlen l = 9 /\ wrote m m' buf ([45; 48; 46] ++ l).
Proof.
  intros strict m d buf precision i2 Hi H1 H0 Hf Hr R Hp. unfold dtodec. rewrite Hi, bind_Ok, Hf, bind_Ok. unfold dto_int. rewrite H1.
  assert (Hp0 : flt (S754_zero false) d = false).
  { unfold flt in *. destruct d as [s|s| |s f e]; cbn in *; try destruct s; try discriminate; reflexivity. }
  rewrite Hp0. cbn [orb].
  rewrite (put_ok m buf 0 45 13) by (auto; lia). rewrite bind_Ok. set (m1 := wr m (buf + 0) [45]). assert (R1 : room m1 buf 13) by (apply wr_room; exact R).
  rewrite (put_ok m1 buf 1 48 13) by (auto; lia). rewrite bind_Ok. set (m2 := wr m1 (buf + 1) [48]). assert (R2 : room m2 buf 13) by (apply wr_room; exact R1).
  rewrite bind_Ok. rewrite (put_ok m2 buf (1 + 1) 46 13) by (auto; lia). rewrite bind_Ok. set (m3 := wr m2 (buf + (1 + 1)) [46]). assert (R3 : room m3 buf 13) by (apply wr_room; exact R2).
  destruct (uitodec_padded i2 9 0 ltac:(lia) ltac:(lia) ltac:(lia)) as (n & l & N & L1 & L2 & U).
  assert (Ln : n = 0%nat /\ zlen l = 9).
  { assert (Lt : zlen l = 9).
    { destruct N as (D & V & Hne & Hh). assert (B : forall l v, digits 10 l -> 0 <= fold_left (fun v b => 10 * v + digval b) l v - v * 10 ^ zlen l < 10 ^ zlen l).
      { clear. induction l as [|b l IH]; intros v D; [cbn [fold_left]; change (zlen (@nil Z)) with 0; change (10 ^ 0) with 1; lia|]. apply Forall_cons_iff in D as [Db D]. cbn [fold_left]. specialize (IH (10 * v + digval b) D). rewrite zlen_cons.
        nneg l. replace (10 ^ (zlen l + 1)) with (10 * 10 ^ zlen l) by (rewrite Z.pow_add_r by lia; change (10 ^ 1) with 10; ring).
        pose proof (Z.pow_pos_nonneg 10 (zlen l) ltac:(lia) ltac:(lia)). nia. }
      assert (Ge : 9 <= zlen l).
      { specialize (B l 0 D). unfold value in V. rewrite V in B. nneg l. destruct (Z_lt_dec (zlen l) 9) as [K|]; [|lia].
        pose proof (Z.pow_le_mono_r 10 (zlen l) 8 ltac:(lia) ltac:(lia)). change (10 ^ 8) with 100000000 in *. lia. }
      destruct (Z_le_dec (zlen l) 9); [lia|]. exfalso. destruct l as [|b l]; [congruence|]. apply Forall_cons_iff in D as [Db D].
      specialize (B l (10 * 0 + digval b) D). unfold value in V. cbn [fold_left] in V. rewrite V in B. rewrite zlen_cons in *.
      pose proof (Z.pow_le_mono_r 10 9 (zlen l) ltac:(lia) ltac:(lia)). change (10 ^ 9) with 1000000000 in *.
      destruct (Z.eq_dec (digval b) 0) as [Z0|Nz]; [|nia]. cbn [hd] in Hh.
      assert (Hb48 : b = 48). { unfold digval in *. destruct ((48 <=? b) && (b <=? 57)) eqn:?; [lia|]. destruct ((65 <=? b) && (b <=? 90)) eqn:?; [lia|]. destruct ((97 <=? b) && (b <=? 122)) eqn:?; lia. }
      specialize (Hh Hb48). injection Hh as _ Hl. subst l. change (zlen (@nil Z)) with 0 in *. lia. }
    split; [|exact Lt]. destruct n; [reflexivity|]. specialize (L2 ltac:(discriminate)). lia. }
  destruct Ln as [-> Ll]. destruct (U m3 (buf + (1 + 2))) as (m4 & E & Wr).
  { apply (room_sub m3 buf 13); [exact R3|lia|]. rewrite Ll. lia. }
  rewrite E, bind_Ok. rewrite Ll. change (Z.of_nat 0 + 9) with 9. rewrite iop_ok by (unfold INT_MIN, INT_MAX in *; lia). rewrite bind_Ok.
  exists m4, l. split; [do 2 f_equal; lia|]. split; [exact N|]. split; [exact Ll|]. cbn [repeat app] in Wr. cbn [app].
  eapply wrote_cons; [lia|reflexivity|]. eapply wrote_cons; [lia|reflexivity|]. eapply wrote_cons; [lia|reflexivity|].
  replace (buf + 1 + 1 + 1) with (buf + (1 + 2)) by lia. replace (upd (upd (upd m buf 45) (buf + 1) 48) (buf + 1 + 1) 46) with m3; [exact Wr|].
  unfold m3, m2, m1. cbn [wr]. rewrite Z.add_0_r. replace (buf + (1 + 1)) with (buf + 1 + 1) by lia. reflexivity.
Qed.
(* The billionths of the fraction are computed for every double whose integer part is an int, and
   they are those of the number: 0.1 is added and the rest cut off. *)
Theorem C145_fraction : forall d i, to_int d = Ok i -> (inject_Z (Z.abs i) <= Qabs (rat d) < inject_Z (Z.abs i) + 1)%Q /\
  exists i2, fraction d i = Ok i2 /\
    (inject_Z i2 - (11 # 100) < 1000000000 * (Qabs (rat d) - inject_Z (Z.abs i)) < inject_Z i2 + (91 # 100))%Q.
Proof. exact fraction_ok. Qed.
Print Assumptions C145_fraction.
(* -0.999999999 <= d <= -0.1: "-0." and the nine digits of the billionths.  Missing: the other numbers,
   see the refutations. *)
Theorem C145_dtodec_partial : forall strict m d buf precision, valid_binary 53 1024 d = true ->
  (- (999999999 # 1000000000) <= rat d <= - (1 # 10))%Q -> room m buf 13 -> INT_MIN <= precision <= INT_MAX - 3 ->
  exists m' l i2, dtodec strict m d buf precision = Ok (m', 3 + precision) /\ numeral 10 i2 l /\ zlen l = 9 /\
    wrote m m' buf ([45; 48; 46] ++ l) /\ (inject_Z i2 - (11 # 100) < 1000000000 * - rat d < inject_Z i2 + (91 # 100))%Q.
Proof.
  intros strict m d buf precision V H R Hp.
  assert (F : fin d) by (destruct d; try exact I; cbn [rat] in H; exfalso; lra).
  destruct (trunc_ok d F) as (v & E & B & _ & Vn). assert (V0 : v <= 0) by (apply Vn; lra). rewrite Qabs_neg in B by lra.
  assert (v = 0). { assert (Q : (inject_Z (Z.abs v) < inject_Z 1)%Q) by (change (inject_Z 1) with 1%Q; lra). rewrite <- Zlt_Qlt in Q. lia. } subst v.
  assert (T : to_int d = Ok 0) by (unfold to_int; rewrite E; reflexivity).
  destruct (fraction_ok d 0 T) as (_ & i2 & Ef & X). change (inject_Z (Z.abs 0)) with 0%Q in X. rewrite Qabs_neg in X by lra.
  assert (M1 : fle d (of_int (-1)) = false). { apply Bool.not_true_is_false. intros L. apply (fle_minus_one d F V) in L. lra. }
  assert (Ng : flt d (S754_zero false) = true).
  { destruct d as [s| | |[|] f e]; try contradiction; [exfalso; cbn [rat] in H; lra|reflexivity|]. exfalso. rewrite rat_finite in H. cbn [sgn] in H.
    assert (0 < inject_Z (Z.pos f) * (2 # 1) ^ e)%Q by (apply Qmult_lt_0_compat; [reflexivity|apply p2_pos]). lra. }
  assert (I1 : 99999999 < i2) by (rewrite Zlt_Qlt; change (inject_Z 99999999) with 99999999%Q; lra).
  assert (I2 : i2 < 1000000000) by (rewrite Zlt_Qlt; change (inject_Z 1000000000) with 1000000000%Q; lra).
  destruct (small_text strict m d buf precision i2 T M1 Ng Ef) as (m' & l & D & N & L & W); [lia|exact R|exact Hp|].
  exists m', l, i2. repeat split; try assumption; try apply N; try apply W; lra.
Qed.
Print Assumptions C145_dtodec_partial.
(* -0.5 *)
Definition minus_half := S754_finite true 4503599627370496 (-53).
Example C145_case : valid_binary 53 1024 minus_half = true /\ (rat minus_half == - (1 # 2))%Q /\ to_int minus_half = Ok 0 /\ fraction minus_half 0 = Ok 500000000.
Proof. repeat split. Qed.
(* the double in front of -1 comes out as -0.1000000000 *)
Theorem C145_carry_refuted : exists m buf d, valid_binary 53 1024 d = true /\ (rat d < - (999999999 # 1000000000))%Q /\ (-1 < rat d)%Q /\ room m buf 24 /\
  exists m', dtodec true m d buf 9 = Ok (m', 13) /\ str_at m' buf ([45; 48; 46; 49] ++ repeat 48 9).
Proof.
  exists (mem_of [(100, repeat 7 24)]), 100, (S754_finite true 9007199254740991 (-53)). split; [reflexivity|]. split; [reflexivity|]. split; [reflexivity|].
  split; [apply room_check; reflexivity|]. eexists; split; [vm_compute; reflexivity|]; vm_compute; repeat split; congruence.
Qed.
Print Assumptions C145_carry_refuted.
(* for every number the function is defined for, it stays in 24 bytes *)
Theorem C145_bounds : forall strict m d buf precision i, to_int d = Ok i -> (strict = true -> i <> INT_MIN) ->
  room m buf 24 -> INT_MIN + 9 <= precision <= INT_MAX - 14 ->
  exists m' r, dtodec strict m d buf precision = Ok (m', r) /\ same_outside m m' buf 24 /\ precision + 3 <= r <= precision + 14.
Proof.
  intros strict m d buf precision i Hi Hs R Hp. destruct (fraction_ok d i Hi) as (_ & i2 & Hf & _). unfold dtodec. rewrite Hi, bind_Ok, Hf, bind_Ok.
  assert (P : exists m1 p, dto_int strict m d i buf = Ok (m1, p) /\ 1 <= p <= 11 /\ same_outside m m1 buf 12).
  { unfold dto_int. destruct (_ || _).
    - destruct (itodec_numeral strict i (to_int_range d i Hi) Hs) as (l & N & L & U). destruct (U m buf 0) as (m' & E & Wr); [apply (room_sub m buf 24); [exact R|lia|lia]|].
      exists m', (zlen l). split; [exact E|]. destruct Wr as [_ O]. split; [|eapply same_outside_weaken; [exact O| |]; lia]. split; [|lia].
      unfold signed_numeral in N. destruct (i <? 0).
      + destruct N as (r & -> & _). rewrite zlen_cons. nneg r. lia.
      + destruct N as (_ & _ & Hne & _). destruct l; [congruence|]. rewrite zlen_cons. nneg l. lia.
    - rewrite (put_ok m buf 0 45 24) by (auto; lia). rewrite bind_Ok. rewrite (put_ok _ buf 1 48 24) by (try apply wr_room; auto; lia). rewrite bind_Ok. do 2 eexists. split; [reflexivity|]. split; [lia|].
      cbn [wr]. intros x Hx. rewrite !upd_other by lia. reflexivity. }
  destruct P as (m1 & p & E1 & Hp1 & O1). rewrite E1, bind_Ok. assert (R1 : room m1 buf 24).
  { intros x Hx. destruct (Z_lt_dec x (buf + 12)) as [Lt|Ge].
    - clear - E1 Hx R Lt Hi Hs. unfold dto_int in E1. destruct (_ || _) in E1.
      + destruct (itodec_numeral strict i (to_int_range d i Hi) Hs) as (l & N & L & U). destruct (U m buf 0) as (m' & E & Wr); [apply (room_sub m buf 24); [exact R|lia|lia]|].
        rewrite E in E1. injection E1 as <- _. destruct Wr as [Sl O]. destruct (Z_lt_dec x (buf + zlen l + 1)) as [K|K]; [|rewrite O by lia; apply R; lia].
        assert (G : forall l m p x, str_at m p l -> p <= x < p + zlen l + 1 -> m x <> None).
        { clear. induction l as [|c l IH]; intros m p x S Hx.
          - change (zlen (@nil Z)) with 0 in Hx. cbn in S. replace x with p by lia. congruence.
          - rewrite zlen_cons in Hx. destruct S as (S1 & _ & S3). destruct (Z.eq_dec x p) as [->|]; [congruence|]. apply (IH m (p + 1) x S3). lia. }
        apply (G l m' buf x Sl). lia.
      + rewrite (put_ok m buf 0 45 24) in E1 by (auto; lia). rewrite bind_Ok in E1. rewrite (put_ok _ buf 1 48 24) in E1 by (try apply wr_room; auto; lia). rewrite bind_Ok in E1.
        injection E1 as <- _. apply (wr_room [48] _ (buf + 1) buf 24); [apply (wr_room [45]); exact R|lia].
    - rewrite O1 by lia. apply R. lia. }
  rewrite (put_ok m1 buf (p + 1) 46 24) by (auto; lia). rewrite bind_Ok. set (m2 := wr m1 (buf + (p + 1)) [46]). assert (R2 : room m2 buf 24) by (apply wr_room; exact R1).
  destruct (uitodec9 i2 (fraction_range d i i2 Hf)) as (n & Hn & U). destruct (U m2 (buf + (p + 2))) as (m3 & E3 & O3); [apply (room_sub m2 buf 24); [exact R2|lia|lia]|].
  rewrite E3, bind_Ok, iop_ok, bind_Ok by (unfold INT_MIN, INT_MAX in *; lia). do 2 eexists. split; [reflexivity|]. split; [|lia].
  intros x Hx. rewrite O3 by lia. unfold m2. cbn [wr]. rewrite upd_other by lia. apply O1. lia.
Qed.
Print Assumptions C145_bounds.
(* For every d > 0 or d <= -1: behind the call buf holds only the integer part, the point and the
   fraction are behind the terminating 0 *)
Theorem C145_cut_refuted : forall strict m d buf precision i, valid_binary 53 1024 d = true -> to_int d = Ok i -> (strict = true -> i <> INT_MIN) ->
  (rat d <= -1)%Q \/ (0 < rat d)%Q -> room m buf 24 -> INT_MIN + 9 <= precision <= INT_MAX - 14 ->
  exists m' r l, dtodec strict m d buf precision = Ok (m', r) /\ signed_numeral 10 i l /\ str_at m' buf l /\ r > zlen l + precision.
Proof.
  intros strict m d buf precision i V Hi Hs Hd' R Hp. destruct (fraction_ok d i Hi) as (_ & i2 & Hf & _). destruct (to_int_fin d i Hi) as (F & _).
  assert (Hd : fle d (of_int (-1)) = true \/ flt (S754_zero false) d = true) by (destruct Hd' as [H|H]; [left; now apply fle_minus_one|right; now apply flt_pos]). unfold dtodec. rewrite Hi, bind_Ok, Hf, bind_Ok. unfold dto_int.
  replace (fle d (of_int (-1)) || flt (S754_zero false) d) with true by (destruct Hd as [-> | ->]; [reflexivity|now rewrite orb_true_r]).
  destruct (itodec_numeral strict i (to_int_range d i Hi) Hs) as (l & N & L & U). destruct (U m buf 0) as (m1 & E1 & Wr); [apply (room_sub m buf 24); [exact R|lia|lia]|].
  rewrite E1, bind_Ok. destruct Wr as [Sl O]. nneg l.
  assert (R1 : room m1 (buf + (zlen l + 1)) (24 - (zlen l + 1))) by (intros x Hx; rewrite O by lia; apply R; lia).
  unfold put. rewrite (store_room m1 _ _ _ _ R1) by lia. rewrite bind_Ok. change (ubyte 46) with 46.
  destruct (uitodec9 i2 (fraction_range d i i2 Hf)) as (n & Hn & W). destruct (W (upd m1 (buf + (zlen l + 1)) 46) (buf + (zlen l + 2))) as (m3 & E3 & O3).
  { apply room_upd. apply (room_sub _ _ _ _ _ R1); lia. }
  rewrite E3, bind_Ok, iop_ok, bind_Ok by (unfold INT_MIN, INT_MAX in *; lia). exists m3, (zlen l + n + 2 - 9 + precision), l. split; [reflexivity|]. split; [exact N|]. split; [|lia].
  apply (str_at_ext m1 m3 buf l Sl). intros x Hx. rewrite O3 by lia. apply upd_other. lia.
Qed.
Print Assumptions C145_cut_refuted.
(* 1.5 *)
Example C145_cut_case : let d := S754_finite false 6755399441055744 (-52) in valid_binary 53 1024 d = true /\ to_int d = Ok 1 /\ fraction d 1 = Ok 500000000 /\ (rat d == 3 # 2)%Q.
Proof. repeat split. Qed.
(* 0.0 gives "-0.         ", and -0.0625 "-0. 62500000": zeros in front of the fraction are blanks *)
Theorem C145_zeros_refuted : exists m buf, room m buf 24 /\
  (exists m', dtodec true m (S754_zero false) buf 9 = Ok (m', 12) /\ str_at m' buf ([45; 48; 46] ++ repeat 32 9)) /\
  (exists m', dtodec true m (S754_finite true 4503599627370496 (-56)) buf 9 = Ok (m', 12) /\ str_at m' buf [45; 48; 46; 32; 54; 50; 53; 48; 48; 48; 48; 48]).
Proof.
  exists (mem_of [(100, repeat 7 24)]), 100. split; [apply room_check; reflexivity|].
  split; (eexists; split; [vm_compute; reflexivity|]; vm_compute; repeat split; congruence).
Qed.
Print Assumptions C145_zeros_refuted.

(* the constant of the rounding is the double 1/10 *)
Example C145_tenth : tenth = SFdiv 53 1024 (of_int 1) (of_int 10).
Proof. vm_compute. reflexivity. Qed.
