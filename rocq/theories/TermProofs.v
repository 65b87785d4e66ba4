From Coq Require Import String.
From Verif Require Import Base BaseLemmas ConvModel ConvSpec ConvProofs ConvProofs3 PrintModel PrintSpec PrintProofs2 PrintProofs3 PrintProofs5 ProcSpec ProcProofs TermModel TermSpec.
Local Open Scope list_scope.
Ltac Zify.zify_post_hook ::= Z.div_mod_to_equations.

Lemma set1_same s o v : set1 s o v o = v. Proof. unfold set1. now rewrite Z.eqb_refl. Qed.
Lemma set1_other s o v x : x <> o -> set1 s o v x = s x.
Proof. intro. unfold set1. destruct (Z.eqb_spec x o); congruence. Qed.
Lemma put16_lo s o v : put16 s o v o = v mod 256.
Proof. unfold put16. rewrite set1_other by lia. apply set1_same. Qed.
Lemma put16_hi s o v : put16 s o v (o + 1) = v / 256 mod 256.
Proof. unfold put16. apply set1_same. Qed.
Lemma put16_other s o v x : x <> o -> x <> o + 1 -> put16 s o v x = s x.
Proof. intros. unfold put16. rewrite !set1_other by lia. reflexivity. Qed.
Lemma get_put16 s o v : get16 (put16 s o v) o = v mod 65536.
Proof. unfold get16. rewrite put16_lo, put16_hi. lia. Qed.
Lemma put32_other s o v x : ~ (o <= x < o + 4) -> put32 s o v x = s x.
Proof. intros. unfold put32. rewrite !put16_other by lia. reflexivity. Qed.
Lemma get_put32 s o v : is_flags v -> get32 (put32 s o v) o = v.
Proof.
  unfold is_flags. intro H. unfold get32, put32, get16. rewrite put16_hi, put16_lo.
  rewrite !(put16_other _ (o + 2)) by lia. rewrite put16_hi, put16_lo. lia.
Qed.
Lemma get32_ext s s' o : (forall x, o <= x < o + 4 -> s' x = s x) -> get32 s' o = get32 s o.
Proof. intro H. unfold get32, get16. rewrite !H by lia. reflexivity. Qed.
Lemma get32_range s o : struct_ok s -> is_flags (get32 s o).
Proof. unfold struct_ok, is_byte, is_flags, get32, get16. intro H. pose proof (H o). pose proof (H (o + 1)). pose proof (H (o + 2)). pose proof (H (o + 2 + 1)). lia. Qed.
Lemma struct_set1 s o v : struct_ok s -> is_byte v -> struct_ok (set1 s o v).
Proof. intros S V x. unfold set1. destruct (x =? o); auto. Qed.
Lemma struct_put16 s o v : struct_ok s -> struct_ok (put16 s o v).
Proof. intro S. unfold put16. apply struct_set1; [apply struct_set1; auto|]; unfold is_byte; lia. Qed.
Lemma struct_put32 s o v : struct_ok s -> struct_ok (put32 s o v).
Proof. intro S. unfold put32. now repeat apply struct_put16. Qed.
Lemma set_cc_spec cc n : forall s o x, set_cc s o cc n x = if (o <=? x) && (x <? o + Z.of_nat n) then cc (x - o) else s x.
Proof.
  induction n; intros s o x; cbn [set_cc].
  - destruct (Z.leb_spec o x), (Z.ltb_spec x (o + Z.of_nat 0)); try reflexivity; lia.
  - unfold set1. rewrite IHn. destruct (Z.eqb_spec x (o + Z.of_nat n)).
    + subst. replace (o + Z.of_nat n - o) with (Z.of_nat n) by lia.
      destruct (Z.leb_spec o (o + Z.of_nat n)), (Z.ltb_spec (o + Z.of_nat n) (o + Z.of_nat (S n))); try reflexivity; lia.
    + destruct (Z.leb_spec o x), (Z.ltb_spec x (o + Z.of_nat n)), (Z.ltb_spec x (o + Z.of_nat (S n))); try reflexivity; lia.
Qed.
(* what TCGETA leaves in the struct *)
Lemma geta_low t s x : x < 9 -> kernel_geta t s x =
  set1 (put16 (put16 (put16 (put16 s 0 (k_iflag t)) 2 (k_oflag t)) 4 (k_cflag t)) 6 (k_lflag t)) 8 (k_line t) x.
Proof. intro. unfold kernel_geta. rewrite set_cc_spec. destruct (Z.leb_spec 9 x); [lia|]. reflexivity. Qed.
Lemma geta_iflag t s : get16 (kernel_geta t s) 0 = k_iflag t mod 65536.
Proof. unfold get16. rewrite !geta_low, !set1_other by lia. rewrite !(put16_other _ 6), !(put16_other _ 4), !(put16_other _ 2) by lia. rewrite put16_lo, put16_hi. lia. Qed.
Lemma geta_oflag t s : get16 (kernel_geta t s) 2 = k_oflag t mod 65536.
Proof. unfold get16. rewrite !geta_low, !set1_other by lia. rewrite !(put16_other _ 6), !(put16_other _ 4) by lia. rewrite put16_lo, put16_hi. lia. Qed.
Lemma geta_cflag t s : get16 (kernel_geta t s) 4 = k_cflag t mod 65536.
Proof. unfold get16. rewrite !geta_low, !set1_other by lia. rewrite !(put16_other _ 6) by lia. rewrite put16_lo, put16_hi. lia. Qed.
Lemma geta_lflag t s : get16 (kernel_geta t s) 6 = k_lflag t mod 65536.
Proof. unfold get16. rewrite !geta_low, !set1_other by lia. rewrite put16_lo, put16_hi. lia. Qed.
Lemma geta_line t s : kernel_geta t s 8 = k_line t.
Proof. rewrite geta_low by lia. apply set1_same. Qed.
Lemma geta_cc t s i : 0 <= i < 8 -> kernel_geta t s (9 + i) = k_cc t i.
Proof. intro. unfold kernel_geta. rewrite set_cc_spec. destruct (Z.leb_spec 9 (9 + i)), (Z.ltb_spec (9 + i) (9 + Z.of_nat 8)); try lia. cbn [andb]. f_equal. lia. Qed.
Lemma geta_rest t s x : 17 <= x -> kernel_geta t s x = s x.
Proof.
  intro. unfold kernel_geta. rewrite set_cc_spec. destruct (Z.leb_spec 9 x), (Z.ltb_spec x (9 + Z.of_nat 8)); try lia. cbn [andb].
  rewrite set1_other, !put16_other by lia. reflexivity.
Qed.
Lemma geta_struct t s : tty_ok t -> struct_ok s -> struct_ok (kernel_geta t s).
Proof.
  intros (Hi & Ho & Hc & Hl & Hn & Hcc) S x. unfold kernel_geta. rewrite set_cc_spec. destruct ((9 <=? x) && (x <? 9 + Z.of_nat 8)); [apply Hcc|].
  apply struct_set1; auto. now repeat apply struct_put16.
Qed.
Lemma low16_mod f : low16 f (f mod 65536) = f. Proof. unfold low16. lia. Qed.
Lemma restore t s : same_tty t (kernel_seta t (kernel_geta t s)).
Proof.
  unfold same_tty, kernel_seta. cbn [k_iflag k_oflag k_cflag k_lflag k_line k_cc k_pgrp].
  rewrite geta_iflag, geta_oflag, geta_cflag, geta_lflag, !low16_mod, geta_line. repeat (split; [reflexivity|]). split; [|reflexivity].
  intro i. destruct (Z.leb_spec 0 i), (Z.ltb_spec i 8); cbn [andb]; try reflexivity. apply geta_cc. lia.
Qed.

(* bits *)
Lemma clear_bit x m k : 0 <= k -> Z.testbit (clear x m) k = Z.testbit x k && negb (Z.testbit m k).
Proof. intro. unfold clear. now rewrite Z.land_spec, Z.lnot_spec. Qed.
Lemma flags_bits x : 0 <= x -> (forall k, 32 <= k -> Z.testbit x k = false) -> is_flags x.
Proof.
  intros H B. split; auto. change 4294967296 with (2 ^ 32). destruct (Z.eq_dec x 0); [subst; reflexivity|].
  apply Z.log2_lt_pow2; [lia|]. destruct (Z.lt_ge_cases (Z.log2 x) 32); auto. exfalso. pose proof (B _ H0) as E. rewrite Z.bit_log2 in E by lia. discriminate.
Qed.
Lemma flags_high x k : is_flags x -> 32 <= k -> Z.testbit x k = false.
Proof.
  intros [A B] K. destruct (Z.eq_dec x 0); [subst; apply Z.bits_0|]. apply Z.bits_above_log2; auto.
  assert (Z.log2 x < 32) by (apply Z.log2_lt_pow2; [lia|]; exact B). lia.
Qed.
Lemma clear_flags x m : is_flags x -> 0 <= m -> is_flags (clear x m).
Proof.
  intros F M. apply flags_bits.
  - unfold clear. apply Z.land_nonneg. left. apply F.
  - intros k K. rewrite clear_bit by lia. now rewrite (flags_high x k F K).
Qed.
Lemma lor_flags x y : is_flags x -> is_flags y -> is_flags (Z.lor x y).
Proof.
  intros F G. apply flags_bits; [apply Z.lor_nonneg; split; [apply F|apply G]|]. intros k K. rewrite Z.lor_spec.
  now rewrite (flags_high x k F K), (flags_high y k G K).
Qed.
(* the bits of a mask, up to 32 *)
Definition bits_of (m : Z) : list Z := filter (Z.testbit m) (map Z.of_nat (seq 0 32)).
Lemma bits_of_spec m k : is_flags m -> 0 <= k -> (Z.testbit m k = true <-> In k (bits_of m)).
Proof.
  intros F K. unfold bits_of. rewrite filter_In. split.
  - intro B. split; auto. apply in_map_iff. exists (Z.to_nat k). split; [lia|]. apply in_seq. split; [lia|].
    destruct (Z.lt_ge_cases k 32); [lia|]. rewrite flags_high in B by auto. discriminate.
  - intros [_ B]. exact B.
Qed.
Lemma bits_of_nonneg m k : In k (bits_of m) -> 0 <= k.
Proof. unfold bits_of. intro I. apply filter_In in I as [I _]. apply in_map_iff in I as [n [<- _]]. apply Nat2Z.is_nonneg. Qed.
Lemma clear_changes x m off : is_flags m -> bits_of m = off -> changes x (clear x m) off [].
Proof.
  intros F <-. split; [|split].
  - intros k I. pose proof (bits_of_nonneg m k I) as K.
    apply (bits_of_spec m k F K) in I. rewrite clear_bit, I by auto. apply andb_false_r.
  - intros k [].
  - intros k K N _. rewrite clear_bit by auto. destruct (Z.testbit m k) eqn:E; [exfalso; apply N; apply (bits_of_spec m k F K); exact E|]. apply andb_true_r.
Qed.
Lemma mask_bits m (p : Z -> bool) : is_flags m -> forallb (fun k => Bool.eqb (Z.testbit m k) (p k)) (map Z.of_nat (seq 0 32)) = true ->
  (forall k, 32 <= k -> p k = false) -> forall k, 0 <= k -> Z.testbit m k = p k.
Proof.
  intros F A H k K. destruct (Z.lt_ge_cases k 32).
  - apply eqb_prop. refine (proj1 (forallb_forall _ _) A k _). clear A. apply in_map_iff. exists (Z.to_nat k). split; [now apply Z2Nat.id|]. apply in_seq. lia.
  - rewrite H by auto. now apply flags_high.
Qed.
Lemma eqb_ne (k c : Z) : k <> c -> (k =? c) = false. Proof. now rewrite <- Z.eqb_neq. Qed.
Lemma cflag_changes x : changes x (Z.lor (clear x (ors [CSIZE; PARENB])) CS8) raw_cflag_off raw_cflag_on.
Proof.
  assert (B : forall k, 0 <= k -> Z.testbit (ors [CSIZE; PARENB]) k = (k =? 4) || (k =? 5) || (k =? 8)).
  { apply mask_bits; [vm_compute; split; [discriminate|reflexivity]|reflexivity|]. intros k K. now rewrite !eqb_ne by lia. }
  assert (C : forall k, 0 <= k -> Z.testbit CS8 k = (k =? 4) || (k =? 5)).
  { apply mask_bits; [vm_compute; split; [discriminate|reflexivity]|reflexivity|]. intros k K. now rewrite !eqb_ne by lia. }
  unfold raw_cflag_off, raw_cflag_on. split; [|split].
  - intros k [<-|[]]. rewrite Z.lor_spec, clear_bit, B, C by lia. cbn. now rewrite andb_false_r.
  - intros k [<-|[<-|[]]]; rewrite Z.lor_spec, C by lia; apply orb_true_r.
  - intros k K N1 N2. cbn [In] in N1, N2. rewrite Z.lor_spec, clear_bit, B, C by lia.
    rewrite !eqb_ne by lia. cbn. now rewrite andb_true_r, orb_false_r.
Qed.
(* cfmakeraw field by field *)
Lemma makeraw_fields s : struct_ok s ->
  get32 (cfmakeraw s) 0 = clear (get32 s 0) (ors [IGNBRK; BRKINT; PARMRK; ISTRIP; INLCR; IGNCR; ICRNL; IXON]) /\
  get32 (cfmakeraw s) 4 = clear (get32 s 4) OPOST /\
  get32 (cfmakeraw s) 8 = Z.lor (clear (get32 s 8) (ors [CSIZE; PARENB])) CS8 /\
  get32 (cfmakeraw s) 12 = clear (get32 s 12) (ors [ECHO; ECHONL; ICANON; ISIG; IEXTEN]) /\
  cfmakeraw s 23 = 1 /\ cfmakeraw s 22 = 0 /\ (forall x, 16 <= x -> x <> 22 -> x <> 23 -> cfmakeraw s x = s x).
Proof.
  intro S. unfold cfmakeraw. cbv zeta.
  set (s1 := put32 s 0 _). assert (S1 : struct_ok s1) by (apply struct_put32; auto).
  assert (E1 : get32 s1 0 = clear (get32 s 0) (ors [IGNBRK; BRKINT; PARMRK; ISTRIP; INLCR; IGNCR; ICRNL; IXON])) by
    (apply get_put32, clear_flags; [now apply get32_range|discriminate]).
  assert (K1 : forall x, 4 <= x -> s1 x = s x) by (intros; apply put32_other; lia). clearbody s1.
  set (s2 := put32 s1 4 _). assert (S2 : struct_ok s2) by (apply struct_put32; auto).
  assert (E2 : get32 s2 4 = clear (get32 s 4) OPOST).
  { unfold s2. rewrite get_put32 by (apply clear_flags; [now apply get32_range|discriminate]). f_equal. apply get32_ext. intros; apply K1; lia. }
  assert (K2 : forall x, ~ (4 <= x < 8) -> s2 x = s1 x) by (intros; apply put32_other; lia). clearbody s2.
  set (s3 := put32 s2 12 _). assert (S3 : struct_ok s3) by (apply struct_put32; auto).
  assert (E3 : get32 s3 12 = clear (get32 s 12) (ors [ECHO; ECHONL; ICANON; ISIG; IEXTEN])).
  { unfold s3. rewrite get_put32 by (apply clear_flags; [now apply get32_range|discriminate]). f_equal. apply get32_ext. intros. rewrite K2 by lia. apply K1; lia. }
  assert (K3 : forall x, ~ (12 <= x < 16) -> s3 x = s2 x) by (intros; apply put32_other; lia). clearbody s3.
  set (s4 := put32 s3 8 _). assert (S4 : struct_ok s4) by (apply struct_put32; auto).
  assert (E4 : get32 s4 8 = clear (get32 s 8) (ors [CSIZE; PARENB])).
  { unfold s4. rewrite get_put32 by (apply clear_flags; [now apply get32_range|discriminate]). f_equal. apply get32_ext. intros. rewrite K3, K2 by lia. apply K1; lia. }
  assert (K4 : forall x, ~ (8 <= x < 12) -> s4 x = s3 x) by (intros; apply put32_other; lia). clearbody s4.
  set (s5 := put32 s4 8 _).
  assert (E5 : get32 s5 8 = Z.lor (clear (get32 s 8) (ors [CSIZE; PARENB])) CS8).
  { unfold s5. rewrite get_put32 by (apply lor_flags; [now apply get32_range|vm_compute; split; [discriminate|reflexivity]]). now rewrite E4. }
  assert (K5 : forall x, ~ (8 <= x < 12) -> s5 x = s4 x) by (intros; apply put32_other; lia). clearbody s5.
  change (17 + VMIN) with 23. change (17 + VTIME) with 22.
  assert (K6 : forall x, x <> 22 -> x <> 23 -> set1 (set1 s5 23 1) 22 0 x = s5 x) by (intros; rewrite !set1_other by lia; reflexivity).
  split; [rewrite <- E1; apply get32_ext; intros; rewrite K6, K5, K4, K3, K2 by lia; reflexivity|].
  split; [rewrite <- E2; apply get32_ext; intros; rewrite K6, K5, K4, K3 by lia; reflexivity|].
  split; [rewrite <- E5; apply get32_ext; intros; rewrite K6 by lia; reflexivity|].
  split; [rewrite <- E3; apply get32_ext; intros; rewrite K6, K5, K4 by lia; reflexivity|].
  split; [rewrite set1_other by lia; apply set1_same|]. split; [apply set1_same|].
  intros x X1 X2 X3. rewrite K6, K5, K4, K3, K2, K1 by lia. reflexivity.
Qed.

(* ---- ptsname ---- *)
Definition pts_items : list item := map Lit (txt "/dev/pts/") ++ [Conv [] [] 100].
Lemma pts_format : format_text pts_items = txt "/dev/pts/%d". Proof. reflexivity. Qed.
Lemma numeral_len n l : 0 <= n <= INT_MAX -> numeral 10 n l -> zlen l <= 10.
Proof.
  intros H N. destruct (uitodec_numeral n) as (l' & N' & L & _); [unfold INT_MAX in H; lia|].
  replace l with l'; auto. eapply numeral10_unique; eauto.
Qed.
Lemma pts_print tmp0 m buf size fmt n l fuel : 0 <= n <= INT_MAX -> numeral 10 n l ->
  str_at m fmt (txt "/dev/pts/%d") -> apart fmt 12 buf (10 + zlen l) -> room m buf (10 + zlen l) -> 33 <= size -> (40 <= fuel)%nat ->
  exists m', vsnprintf true fuel tmp0 m buf size fmt [n] = Ok (Done m' (9 + zlen l)) /\
    bytes_at m' buf (txt "/dev/pts/" ++ l ++ [0]) /\ same_outside m m' buf (10 + zlen l).
Proof.
  intros H N F A R Sz Fu. pose proof (numeral_len n l H N) as L. set (out := txt "/dev/pts/" ++ l).
  assert (LO : zlen out = 9 + zlen l) by (unfold out; rewrite zlen_app; reflexivity).
  destruct (print_plain_r true tmp0 buf size (10 + zlen l) fmt pts_items [n] out m 0 0 fuel) as (m' & E1 & E2 & E3).
  - rewrite Z.add_0_r, pts_format. exact F.
  - rewrite Z.add_0_r, pts_format. change (zlen (txt "/dev/pts/%d") + 1) with 12. exact A.
  - unfold out, pts_items. cbn [txt map app]. do 9 (apply f_lit; [vm_compute; split; reflexivity|discriminate|]). rewrite <- (app_nil_r l).
    apply f_int; [unfold INT_MIN, INT_MAX in *; lia|unfold ok_int, INT_MIN; intros; lia| |apply f_nil].
    unfold signed_numeral. destruct (Z.ltb_spec n 0); [lia|exact N].
  - exact R.
  - lia.
  - lia.
  - lia.
  - rewrite pts_format. assert (length out <= 19)%nat by (unfold zlen in LO, L; lia). change (length (txt "/dev/pts/%d")) with 11%nat. lia.
  - exists m'. rewrite Z.add_0_r in E2, E3. split; [unfold vsnprintf; rewrite E1, LO; reflexivity|]. split.
    + rewrite app_assoc. exact E2.
    + replace (10 + zlen l) with (zlen out + 1) by lia. exact E3.
Qed.

Lemma low16_bits f n k : 0 <= k -> 0 <= n < 65536 -> Z.testbit (low16 f n) k = if k <? 16 then Z.testbit n k else Z.testbit f k.
Proof.
  intros K N. unfold low16. destruct (Z.ltb_spec k 16).
  - rewrite <- (Z.mod_pow2_bits_low _ 16) by lia. f_equal. change (2 ^ 16) with 65536. lia.
  - replace k with (k - 16 + 16) by lia. rewrite <- !Z.div_pow2_bits by lia. f_equal. change (2 ^ 16) with 65536. lia.
Qed.
