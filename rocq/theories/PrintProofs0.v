(* How much itooct, _itobin and dtodec write. *)
From Verif Require Import Base BaseLemmas ConvModel ConvSpec DtoModel DtoProps PrintModel PrintSpec PrintProofs.
Ltac Zify.zify_post_hook ::= Z.div_mod_to_equations.

Lemma oct_digits_bound : forall k f i tmp p, (k < f)%nat -> 0 <= i < 8 ^ Z.of_nat k -> 0 <= p -> p + Z.of_nat k <= 16 ->
  exists tmp' p', oct_digits f i tmp p = Ok (tmp', p') /\ p <= p' <= p + Z.of_nat k.
Proof.
  induction k as [|k IH]; intros f i tmp p Hf Hi Hp Hk; (destruct f as [|f]; [lia|]); cbn [oct_digits].
  - change (8 ^ Z.of_nat 0) with 1 in Hi. assert (i =? 0 = true) as -> by lia. do 2 eexists. split; [reflexivity|lia].
  - destruct (i =? 0) eqn:E; [do 2 eexists; split; [reflexivity|lia]|].
    assert (p <? 16 = true) as -> by lia. rewrite Nat2Z.inj_succ, Z.pow_succ_r in Hi by lia.
    match goal with |- context [oct_digits f ?j ?t (p + 1)] => destruct (IH f j t (p + 1)) as (t' & p' & E1 & E2) end; try lia.
    { rewrite Z.shiftr_div_pow2 by lia. change (2 ^ 3) with 8. split; [apply Z.div_pos; lia|apply Z.div_lt_upper_bound; lia]. }
    rewrite E1. do 2 eexists. split; [reflexivity|lia].
Qed.
Lemma oct_copy_bound tmp : forall k m buf, (k <= 16)%nat -> room m buf (Z.of_nat k) ->
  exists m', oct_copy k m buf tmp = Ok (m', buf + Z.of_nat k) /\ same_outside m m' buf (Z.of_nat k) /\ mapped m m'.
Proof.
  induction k as [|k IH]; intros m buf Hk R; cbn [oct_copy].
  - eexists. split; [do 2 f_equal; lia|]. split; [apply same_outside_refl|apply mapped_refl].
  - assert (Z.of_nat k <? 16 = true) as -> by lia. rewrite (put_ok m buf 0 _ (Z.of_nat (S k)) R) by lia. rewrite bind_Ok.
    match goal with |- context [oct_copy k ?mm _ _] => destruct (IH mm (buf + 1)) as (m' & E & S & M) end.
    { lia. } { apply room_upd. eapply room_sub; [exact R| |]; lia. }
    rewrite E. eexists. split; [do 2 f_equal; lia|]. split.
    + eapply same_outside_trans; [|eapply same_outside_weaken; [exact S| |]; lia]. apply same_outside_upd; lia.
    + eapply mapped_trans; [apply mapped_upd|exact M].
Qed.
Lemma itooct_bound strict fuel tmp0 m i buf : INT_MIN < i <= INT_MAX -> (16 <= fuel)%nat -> room m buf 17 ->
  exists m' n, itooct strict fuel tmp0 m i buf = Ok (m', n) /\ 0 <= n <= 16 /\ same_outside m m' buf 17 /\ mapped m m'.
Proof.
  intros Hi Hf R. unfold itooct.
  assert (A : exists m1 d, (if i =? 0 then let* m1 := put m buf 0 48 in Ok (m1, buf + 1, 1) else Ok (m, buf, 0)) = Ok (m1, buf + d, d) /\
    same_outside m m1 buf 17 /\ mapped m m1 /\ (d = 0 \/ d = 1 /\ i = 0)).
  { destruct (i =? 0) eqn:E.
    - rewrite (put_ok m buf 0 48 17 R) by lia. rewrite bind_Ok. eexists _, 1. split; [reflexivity|]. split; [apply same_outside_upd; lia|]. split; [apply mapped_upd|lia].
    - eexists m, 0. split; [rewrite Z.add_0_r; reflexivity|]. split; [apply same_outside_refl|]. split; [apply mapped_refl|lia]. }
  destruct A as (m1 & d & -> & S1 & M1 & Hd). rewrite bind_Ok. cbn beta iota.
  pose proof (mapped_room _ _ _ _ M1 R) as R1.
  assert (B : exists m2 e, (if i <? 0 then let* j := iar strict (- i) in let* m2 := put m1 (buf + d) 0 45 in Ok (m2, buf + d + 1, d + 1, j)
      else Ok (m1, buf + d, d, i)) = Ok (m2, buf + e, e, Z.abs i) /\ same_outside m m2 buf 17 /\ mapped m m2 /\ 0 <= e <= 1).
  { destruct (i <? 0) eqn:E.
    - assert (iar strict (- i) = Ok (- i)) as ->.
      { unfold iar. destruct strict; [apply iop_ok; unfold INT_MIN, INT_MAX in *; lia|]. f_equal. apply s32_small. unfold INT_MIN, INT_MAX in *. lia. }
      rewrite bind_Ok. assert (d = 0) as -> by lia. rewrite Z.add_0_r. rewrite (put_ok m1 buf 0 45 17 R1) by lia. rewrite bind_Ok.
      eexists _, 1. split; [do 2 f_equal; lia|]. split; [apply so_upd; [exact S1|lia]|]. split; [eapply mapped_trans; [exact M1|apply mapped_upd]|lia].
    - exists m1, d. split; [do 2 f_equal; lia|]. split; [exact S1|]. split; [exact M1|lia]. }
  destruct B as (m2 & e & -> & S2 & M2 & He). rewrite bind_Ok. cbn beta iota.
  destruct (oct_digits_bound 11 fuel (Z.abs i) tmp0 0) as (tmp & p & E1 & Hp); [lia| |lia|lia|].
  { change (8 ^ Z.of_nat 11) with 8589934592. unfold INT_MIN, INT_MAX in *. lia. }
  rewrite E1, bind_Ok. cbn beta iota. pose proof (mapped_room _ _ _ _ M2 R) as R2.
  destruct (oct_copy_bound tmp (S (Z.to_nat p)) m2 (buf + e)) as (m3 & E2 & S3 & M3); [lia|eapply room_sub; [exact R2| |]; lia|].
  rewrite E2, bind_Ok. cbn beta iota. pose proof (mapped_room _ _ _ _ M3 R2) as R3.
  replace (put m3 (buf + e + Z.of_nat (S (Z.to_nat p))) 0 0) with (put m3 buf (e + Z.of_nat (S (Z.to_nat p))) 0) by (unfold put; f_equal; lia).
  rewrite (put_ok m3 buf _ 0 17 R3) by lia. rewrite bind_Ok. do 2 eexists. split; [reflexivity|]. split; [lia|]. split.
  - apply so_upd; [|lia]. eapply same_outside_trans; [exact S2|eapply same_outside_weaken; [exact S3| |]; lia].
  - eapply mapped_trans; [exact M2|]. eapply mapped_trans; [exact M3|apply mapped_upd].
Qed.

(* at most K digits, each with a blank, and a blank in front *)
Lemma bin_loop_bound groups buf n : forall k K m i p prec g, 0 <= K <= Z.of_nat k -> prec + (Z.of_nat k - K) <= 0 ->
  (K < Z.of_nat k -> u32 i < 2 ^ (32 - (Z.of_nat k - K))) -> (k <= 32)%nat -> 0 <= p ->
  p + 2 * K + (if K <? Z.of_nat k then 1 else 0) <= n -> room m buf n ->
  exists m' p', bin_loop k m i buf p prec g groups = Ok (m', p') /\ p <= p' <= n /\ same_outside m m' buf n /\ mapped m m'.
Proof.
  induction k as [|k IH]; intros K m i p prec g HK Hprec Hi Hk Hp Hn R; cbn [bin_loop].
  - destruct (K <? Z.of_nat 0); (do 2 eexists; split; [reflexivity|]; split; [lia|]; split; [apply same_outside_refl|apply mapped_refl]).
  - assert (Step : exists m1 p1 prec1 K1,
      (if negb (Z.land (u32 i) 2147483648 =? 0) then let* m1 := put m buf p 49 in Ok (m1, p + 1, 0)
       else if prec =? 0 then let* m1 := put m buf p 48 in Ok (m1, p + 1, prec) else Ok (m, p, prec + 1)) = Ok (m1, p1, prec1) /\
      same_outside m m1 buf n /\ mapped m m1 /\ p <= p1 /\ 0 <= K1 <= Z.of_nat k /\ prec1 + (Z.of_nat k - K1) <= 0 /\
      (K1 < Z.of_nat k -> u32 (s32 (i * 2)) < 2 ^ (32 - (Z.of_nat k - K1))) /\
      (prec1 = 0 -> K1 = Z.of_nat k) /\
      p1 + (if prec1 =? 0 then 1 else 0) + 2 * K1 + (if K1 <? Z.of_nat k then 1 else 0) <= n).
    { destruct (Z.ltb_spec K (Z.of_nat (S k))) as [Lt|Ge].
      - (* still in front of the digits *)
        assert (Hlo : u32 i < 2147483648).
        { specialize (Hi Lt). eapply Z.lt_le_trans; [exact Hi|]. apply (Z.pow_le_mono_r 2 _ 31); lia. }
        assert (Z.land (u32 i) 2147483648 =? 0 = true) as ->.
        { apply Z.eqb_eq. change 2147483648 with (2 ^ 31). apply Z.bits_inj'. intros j Hj. rewrite Z.land_spec, Z.bits_0, Z.pow2_bits_eqb by lia.
          destruct (Z.eqb_spec 31 j) as [<-|]; [|apply andb_false_r]. rewrite andb_true_r. rewrite Z.testbit_eqb by lia. rewrite Z.div_small; [reflexivity|]. change (2 ^ 31) with 2147483648. unfold u32 in *. lia. }
        cbn [negb]. assert (prec =? 0 = false) as -> by lia. do 3 eexists. exists K. split; [reflexivity|]. split; [apply same_outside_refl|]. split; [apply mapped_refl|]. split; [lia|]. split; [lia|]. split; [lia|]. split; [|split].
        + intros Lt2. specialize (Hi Lt). replace (32 - (Z.of_nat k - K)) with (Z.succ (32 - (Z.of_nat (S k) - K))) by lia. rewrite Z.pow_succ_r by lia.
          assert (u32 (s32 (i * 2)) = 2 * u32 i) by (unfold u32, s32 in *; lia). lia.
        + intros E0. lia.
        + destruct (Z.eqb_spec (prec + 1) 0), (Z.ltb_spec K (Z.of_nat k)); lia.
      - assert (K = Z.of_nat (S k)) as -> by lia. clear Ge HK.
        destruct (negb _).
        + rewrite (put_ok m buf p 49 n R) by lia. rewrite bind_Ok. do 3 eexists. exists (Z.of_nat k). split; [reflexivity|].
          split; [apply same_outside_upd; lia|]. split; [apply mapped_upd|]. cbn [Z.eqb]. rewrite Z.ltb_irrefl in *. repeat split; lia.
        + destruct (Z.eqb_spec prec 0) as [->|].
          * rewrite (put_ok m buf p 48 n R) by lia. rewrite bind_Ok. do 3 eexists. exists (Z.of_nat k). split; [reflexivity|].
            split; [apply same_outside_upd; lia|]. split; [apply mapped_upd|]. cbn [Z.eqb]. rewrite Z.ltb_irrefl in *. repeat split; lia.
          * do 3 eexists. exists (Z.of_nat k). split; [reflexivity|]. split; [apply same_outside_refl|]. split; [apply mapped_refl|].
            rewrite Z.ltb_irrefl in *. destruct (prec + 1 =? 0); repeat split; lia. }
    destruct Step as (m1 & p1 & prec1 & K1 & -> & S1 & M1 & Hp1 & HK1 & Hpr1 & Hi1 & Hz1 & Hn1). rewrite bind_Ok. cbn beta iota.
    pose proof (mapped_room _ _ _ _ M1 R) as R1.
    destruct ((prec1 =? 0) && (groups <=? g + 1)) eqn:E.
    + apply andb_prop in E as [E0 _]. rewrite E0 in Hn1. specialize (Hz1 ltac:(lia)). subst K1. rewrite Z.ltb_irrefl in Hn1.
      rewrite (put_ok m1 buf p1 32 n R1) by lia. rewrite bind_Ok.
      match goal with |- context [bin_loop k ?mm ?ii buf (p1 + 1) _ _ _] => destruct (IH (Z.of_nat k) mm ii (p1 + 1) prec1 0) as (m' & p' & E1 & Hp' & S & M) end; try lia.
      { rewrite Z.ltb_irrefl. lia. } { apply room_upd. exact R1. }
      rewrite E1. do 2 eexists. split; [reflexivity|]. split; [lia|]. split.
      * eapply same_outside_trans; [|exact S]. apply so_upd; [exact S1|lia].
      * eapply mapped_trans; [exact M1|]. eapply mapped_trans; [apply mapped_upd|exact M].
    + match goal with |- context [bin_loop k ?mm ?ii buf p1 _ _ _] => destruct (IH K1 mm ii p1 prec1 (g + 1)) as (m' & p' & E1 & Hp' & S & M) end; auto; try lia.
      { destruct (prec1 =? 0); lia. }
      rewrite E1. do 2 eexists. split; [reflexivity|]. split; [lia|]. split.
      * eapply same_outside_trans; [exact S1|exact S].
      * eapply mapped_trans; [exact M1|exact M].
Qed.
Lemma itobin_bound m i buf prec groups : 0 <= i < 32768 -> 1 <= prec <= 15 -> room m buf 33 ->
  exists m' n, _itobin m i buf prec groups = Ok (m', n) /\ 0 <= n <= 32 /\ same_outside m m' buf 33 /\ mapped m m'.
Proof.
  intros Hi Hp R. unfold _itobin. rewrite iop_ok by (unfold INT_MIN, INT_MAX; lia). rewrite bind_Ok.
  destruct (bin_loop_bound groups buf 32 32 15 m i 0 (prec - 32) 0) as (m1 & p1 & E1 & Hp1 & S1 & M1); try lia.
  { intros _. change (2 ^ (32 - (Z.of_nat 32 - 15))) with 32768. unfold u32. lia. }
  { change (15 <? Z.of_nat 32) with true. cbv iota. lia. }
  { eapply room_sub; [exact R| |]; lia. }
  rewrite E1, bind_Ok. cbn beta iota. pose proof (mapped_room _ _ _ _ M1 R) as R1.
  assert (S1' : same_outside m m1 buf 33) by (eapply same_outside_weaken; [exact S1| |]; lia).
  assert (Q : exists m2 p2, (if p1 =? 0 then let* m2 := put m1 buf 0 48 in Ok (m2, 1) else Ok (m1, p1)) = Ok (m2, p2) /\ 0 <= p2 <= 32 /\ same_outside m m2 buf 33 /\ mapped m m2).
  { destruct (p1 =? 0).
    - rewrite (put_ok m1 buf 0 48 33 R1) by lia. rewrite bind_Ok. do 2 eexists. split; [reflexivity|]. split; [lia|]. split; [apply so_upd; [exact S1'|lia]|eapply mapped_trans; [exact M1|apply mapped_upd]].
    - do 2 eexists. split; [reflexivity|]. split; [lia|]. split; assumption. }
  destruct Q as (m2 & p2 & -> & Hp2 & S2 & M2). rewrite bind_Ok. cbn beta iota. pose proof (mapped_room _ _ _ _ M2 R) as R2.
  rewrite (put_ok m2 buf p2 0 33 R2) by lia. rewrite bind_Ok. do 2 eexists. split; [reflexivity|]. split; [lia|]. split; [apply so_upd; [exact S2|lia]|eapply mapped_trans; [exact M2|apply mapped_upd]].
Qed.

Lemma dtodec_bound strict m d buf precision i i2 : to_int d = Ok i -> i <> INT_MIN -> fraction d i = Ok i2 -> room m buf 24 -> 0 <= precision <= 9 ->
  exists m' n, dtodec strict m d buf precision = Ok (m', n) /\ 0 <= n <= 23 /\ same_outside m m' buf 24 /\ mapped m m'.
Proof.
  intros Hi Hm Hf R Hp. unfold dtodec. rewrite Hi, bind_Ok, Hf, bind_Ok.
  assert (Ri : INT_MIN <= i <= INT_MAX).
  { revert Hi. unfold to_int. destruct (trunc d) as [v|]; [|discriminate]. destruct ((INT_MIN <=? v) && (v <=? INT_MAX)) eqn:E; [|discriminate]. intro H. injection H as <-. lia. }
  assert (P : exists m1 p, dto_int strict m d i buf = Ok (m1, p) /\ 0 <= p <= 11 /\ same_outside m m1 buf 24 /\ mapped m m1).
  { unfold dto_int. destruct (_ || _).
    - destruct (itodec_bound strict m i buf 0 0) as (m' & n & E1 & E2 & E3 & E4 & E5); auto; [unfold INT_MIN, INT_MAX; lia|eapply room_sub; [exact R| |]; lia|].
      exists m', n. split; [exact E1|]. split; [exact E2|]. split; [eapply same_outside_weaken; [exact E3| |]; lia|exact E4].
    - rewrite (put_ok m buf 0 45 24 R) by lia. rewrite bind_Ok. rewrite (put_ok _ buf 1 48 24) by (try apply room_upd; auto; lia). rewrite bind_Ok.
      do 2 eexists. split; [reflexivity|]. split; [lia|]. split; [apply so_upd; [apply same_outside_upd; lia|lia]|eapply mapped_trans; apply mapped_upd]. }
  destruct P as (m1 & p & -> & Hp1 & S1 & M1). rewrite bind_Ok. cbn beta iota. pose proof (mapped_room _ _ _ _ M1 R) as R1.
  rewrite (put_ok m1 buf (p + 1) 46 24 R1) by lia. rewrite bind_Ok.
  match goal with |- context [uitodec ?mm i2 ?bb 9 0 0] => destruct (uitodec_bound mm i2 bb 9 0 0) as (m2 & n & E1 & E2 & E3 & E4 & _) end.
  { unfold INT_MIN, INT_MAX; lia. } { cbn [Z.eqb]. apply room_upd. eapply room_sub; [exact R1| |]; lia. }
  match type of E1 with uitodec ?mm i2 ?bb 9 0 0 = _ => destruct (uitodec9 i2 (fraction_range d i i2 Hf)) as (n9 & Hn9 & U9); destruct (U9 mm bb) as (m9 & E9 & _) end.
  { apply room_upd. eapply room_sub; [exact R1| |]; lia. }
  rewrite E1 in E9. injection E9 as <- <-.
  cbn [Z.eqb] in *. rewrite E1, bind_Ok. cbn beta iota. rewrite iop_ok by (unfold INT_MIN, INT_MAX; lia). rewrite bind_Ok.
  do 2 eexists. split; [reflexivity|]. split; [lia|]. split.
  - eapply (same_outside_trans _ (upd m1 (buf + (p + 1)) (ubyte 46))); [apply so_upd; [exact S1|lia]|eapply same_outside_weaken; [exact E3| |]; lia].
  - eapply mapped_trans; [exact M1|]. eapply mapped_trans; [apply mapped_upd|exact E4].
Qed.
