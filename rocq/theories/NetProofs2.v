From Verif Require Import Base BaseLemmas ConvModel ConvSpec ConvProofs ConvProofs3 ConvProofs4 ConvProofs5 ConvProofs6 NetModel NetSpec NetProofs.
Ltac Zify.zify_post_hook ::= Z.div_mod_to_equations.

Lemma ntoa_loop_ok m a n fuel cs : (10 <= fuel)%nat -> Forall (fun c => 0 <= c < 256) cs ->
  forall m' p l, part m m' a n l -> p = a + zlen l - 1 ->
  zlen l + zlen (concat (map (fun c => btext c ++ [46]) cs)) <= n ->
  exists m2, ntoa_loop fuel m' p cs = Ok (m2, p + zlen (concat (map (fun c => btext c ++ [46]) cs)))
    /\ part m m2 a n (l ++ concat (map (fun c => btext c ++ [46]) cs)).
Proof.
  intro Hf. induction 1 as [|c cs Hc Hcs IH]; intros m' p l P Hp Hn; cbn [ntoa_loop map concat] in *.
  - exists m'. rewrite app_nil_r. zl. rewrite Z.add_0_r. auto.
  - revert Hn. zl. intro Hn. nneg l. nneg (concat (map (fun c => btext c ++ [46]) cs)).
    destruct (ntoa_byte_ok m a n m' p l c fuel P Hp Hc Hf) as (m2 & E & P2); [lia|].
    rewrite E, bind_Ok. destruct (IH m2 (p + 1 + zlen (btext c)) _ P2) as (m3 & E3 & P3); zl; try lia.
    rewrite E3. exists m3. split; [apply ok2; auto; lia|]. now rewrite <- app_assoc in P3.
Qed.

Definition dtext (w : Z) : list Z :=
  btext (wbyte w 0) ++ [46] ++ btext (wbyte w 1) ++ [46] ++ btext (wbyte w 2) ++ [46] ++ btext (wbyte w 3).
Lemma btext_len c : 0 <= c < 256 -> 1 <= zlen (btext c) <= 3.
Proof.
  intro H. destruct (btext_ok c H) as [(_ & _ & N & _) L]. split; auto. destruct (btext c) as [|x r]; [congruence|]. zl. nneg r. lia.
Qed.
Lemma dtext_len w : zlen (dtext w) <= 15.
Proof.
  unfold dtext. zl. 
  pose proof (btext_len _ (wbyte_range w 0)). pose proof (btext_len _ (wbyte_range w 1)).
  pose proof (btext_len _ (wbyte_range w 2)). pose proof (btext_len _ (wbyte_range w 3)). lia.
Qed.
Lemma btext_bytes c : 0 <= c < 256 -> Forall (fun b => 1 <= b <= 255) (btext c).
Proof. intro H. destruct (btext_ok c H) as [(D & _) _]. eapply digits_bytes; eauto. Qed.
Lemma dtext_bytes w : Forall (fun b => 1 <= b <= 255) (dtext w).
Proof.
  assert (D : Forall (fun b => 1 <= b <= 255) [46]) by (constructor; [lia|constructor]).
  unfold dtext. rewrite !Forall_app. repeat split; auto; apply btext_bytes, wbyte_range.
Qed.
Lemma dtext_dotted w : dotted_quad (le_bytes 4 w) (dtext w).
Proof.
  rewrite le_bytes4. exists (btext (wbyte w 0)), (btext (wbyte w 1)), (btext (wbyte w 2)), (btext (wbyte w 3)).
  split; [reflexivity|]. repeat constructor; apply btext_ok, wbyte_range.
Qed.
Lemma inet_ntoa_ok m a w fuel : room m a 16 -> (10 <= fuel)%nat ->
  exists m', inet_ntoa fuel m a w = Ok (m', a) /\ str_at m' a (dtext w) /\ same_outside m m' a 16.
Proof.
  intros R Hf. set (cs := [wbyte w 0; wbyte w 1; wbyte w 2; wbyte w 3]).
  assert (T : concat (map (fun c => btext c ++ [46]) cs) = dtext w ++ [46]).
  { unfold cs, dtext. cbn [map concat]. rewrite app_nil_r. rewrite <- !app_assoc. reflexivity. }
  pose proof (dtext_len w) as L. nneg (dtext w).
  destruct (ntoa_loop_ok m a 16 fuel cs Hf) with (m' := m) (p := a - 1) (l := @nil Z) as (m2 & E & P).
  - unfold cs. repeat constructor; apply wbyte_range.
  - split; [cbn; auto|]. split; [apply same_outside_refl|auto].
  - change (zlen []) with 0. lia.
  - rewrite T. zl. lia.
  - unfold inet_ntoa. fold cs. rewrite E, bind_Ok. rewrite T in *. cbn [app] in P.
    destruct (part_last m m2 a 16 (dtext w) 46 (a - 1 + zlen (dtext w ++ [46])) 0 P) as (m3 & E3 & P3); zl; try lia.
    revert E3. zl. intro E3. rewrite E3, bind_Ok. exists m3. split; [auto|].
    destruct P3 as (B & S & _). split; auto. apply bytes_at_app in B as [B1 B2]. cbn in B2.
    apply str_at_intro; auto; [apply dtext_bytes|tauto].
Qed.

(* ---- inet_aton ---- *)
Definition isdig (b : Z) : bool := (48 <=? b) && (b <=? 57).
Lemma isdig_schar b : 0 <= b < 256 -> (48 <=? schar b) && (schar b <=? 57) = isdig b.
Proof. unfold isdig, schar. intro. destruct (Z.ltb_spec b 128); lia. Qed.
Lemma isdig_digval b : isdig b = true <-> 0 <= digval b < 10.
Proof.
  unfold isdig, digval. destruct ((48 <=? b) && (b <=? 57)) eqn:A; [split; [lia|auto]|]. split; [discriminate|].
  destruct ((65 <=? b) && (b <=? 90)) eqn:B; [lia|]. destruct ((97 <=? b) && (b <=? 122)) eqn:C; lia.
Qed.
Lemma digval_dig b : isdig b = true -> digval b = b - 48.
Proof. unfold isdig, digval. intros ->. reflexivity. Qed.

Lemma aton_digits_ok m ds : digits 10 ds -> forall pc v c fuel, bytes_at m pc ds -> 0 <= v < 256 ->
  m (pc + zlen ds) = Some c -> 0 <= c < 256 -> isdig c = false -> (length ds < fuel)%nat ->
  aton_digits fuel m pc v = Ok (pc + zlen ds, (v * 10 ^ zlen ds + value 10 ds) mod 256).
Proof.
  induction 1 as [|b ds Hb Hd IH]; intros pc v c [|k] B Hv Hc Hr Hn Hf; try (cbn in Hf; lia); cbn [aton_digits].
  - revert Hc. zl. rewrite Z.add_0_r. intro Hc. unfold ldc. rewrite (load_some _ _ _ Hc), !bind_Ok, isdig_schar, Hn by auto.
    apply ok2; auto. rewrite Z.pow_0_r. change (value 10 []) with 0. lia.
  - destruct B as [B1 B2]. revert Hc. zl. intro Hc. cbn in Hf. apply isdig_digval in Hb as Hb'.
    unfold ldc. rewrite (load_some _ _ _ B1), !bind_Ok. assert (0 <= b < 128) by (unfold isdig in Hb'; lia).
    rewrite isdig_schar, Hb', schar_low by lia.
    rewrite (IH _ _ c); auto.
    + apply ok2; [lia|]. rewrite (value_cons 10 b ds). nneg ds. rewrite Z.pow_add_r, Z.pow_1_r by lia. unfold ubyte.
      rewrite (digval_dig b Hb'). rewrite <- Z.add_mod_idemp_l, Z.mul_mod_idemp_l, Z.add_mod_idemp_l by lia. f_equal. lia.
    + apply Z.mod_pos_bound. lia.
    + replace (pc + 1 + zlen ds) with (pc + (zlen ds + 1)) by lia. auto.
    + lia.
Qed.
Lemma digits_bytes_at m p ds r : digits 10 ds -> str_at m p (ds ++ r) -> bytes_at m p ds /\ str_at m (p + zlen ds) r.
Proof. intros D H. apply str_at_app in H; auto. eapply digits_bytes; eauto. Qed.

(* one component, up to the end or to a separator *)
Lemma aton_end m n fuel pc ds u p : digits 10 ds -> str_at m pc ds -> nth p u 0 = 0 -> value 10 ds < 256 ->
  (length ds < fuel)%nat -> aton_loop (S n) fuel m pc u p = Ok (setn p (value 10 ds) u, p).
Proof.
  intros D H Hu Hv Hf. cbn [aton_loop]. apply str_at_end in H as He. apply str_at_bytes in H.
  rewrite (aton_digits_ok m ds D pc _ 0) by (auto; rewrite ?Hu; lia || reflexivity).
  rewrite bind_Ok, Hu. unfold ldc. rewrite (load_some _ _ _ He), !bind_Ok. change (schar 0 =? 0) with true. cbv iota.
  do 3 f_equal. pose proof (value_range 10 ds ltac:(lia) D). rewrite Z.mod_small; lia.
Qed.
Lemma aton_sep m n fuel pc ds r u p : digits 10 ds -> str_at m pc (ds ++ 46 :: r) -> nth p u 0 = 0 -> value 10 ds < 256 ->
  (length ds < fuel)%nat ->
  aton_loop (S n) fuel m pc u p = aton_loop n fuel m (pc + zlen ds + 1) (setn p (value 10 ds) u) (S p)
  /\ str_at m (pc + zlen ds + 1) r.
Proof.
  intros D H Hu Hv Hf. apply digits_bytes_at in H as [H He]; auto. cbn [str_at] in He. destruct He as (He & _ & Hr).
  split; auto. cbn [aton_loop].
  rewrite (aton_digits_ok m ds D pc _ 46) by (auto; rewrite ?Hu; lia || reflexivity).
  rewrite bind_Ok, Hu. unfold ldc. rewrite (load_some _ _ _ He), !bind_Ok. change (schar 46 =? 0) with false. cbv iota.
  do 2 f_equal. pose proof (value_range 10 ds ltac:(lia) D). rewrite Z.mod_small; lia.
Qed.

Lemma aton_quad m s a b c d fuel : digits 10 a -> digits 10 b -> digits 10 c -> digits 10 d ->
  value 10 a < 256 -> value 10 b < 256 -> value 10 c < 256 -> value 10 d < 256 ->
  str_at m s (a ++ [46] ++ b ++ [46] ++ c ++ [46] ++ d) ->
  (length (a ++ [46%Z] ++ b ++ [46%Z] ++ c ++ [46%Z] ++ d) < fuel)%nat ->
  inet_aton fuel m s = Ok (1, le_word [value 10 a; value 10 b; value 10 c; value 10 d]).
Proof.
  intros Da Db Dc Dd Va Vb Vc Vd H Hf. rewrite !app_length in Hf. cbn [length] in Hf. cbn [app] in H. unfold inet_aton.
  destruct (aton_sep m 3 fuel _ _ _ [0; 0; 0; 0] 0 Da H eq_refl Va) as [E1 H1]; [lia|]. rewrite E1. clear E1.
  destruct (aton_sep m 2 fuel _ _ _ [value 10 a; 0; 0; 0] 1 Db H1 eq_refl Vb) as [E1 H2]; [lia|]. cbn [setn]. rewrite E1. clear E1.
  destruct (aton_sep m 1 fuel _ _ _ [value 10 a; value 10 b; 0; 0] 2 Dc H2 eq_refl Vc) as [E1 H3]; [lia|]. cbn [setn]. rewrite E1. clear E1.
  cbn [setn]. rewrite (aton_end m 0 fuel _ _ _ 3 Dd H3) by (auto; lia). rewrite bind_Ok. cbn [setn Nat.ltb Nat.leb nth].
  rewrite <- le_word4. reflexivity.
Qed.
Lemma aton_three m s a b d fuel : digits 10 a -> digits 10 b -> digits 10 d ->
  value 10 a < 256 -> value 10 b < 256 -> value 10 d < 256 ->
  str_at m s (a ++ [46] ++ b ++ [46] ++ d) -> (length (a ++ [46%Z] ++ b ++ [46%Z] ++ d) < fuel)%nat ->
  inet_aton fuel m s = Ok (1, le_word [value 10 a; value 10 b; 0; value 10 d]).
Proof.
  intros Da Db Dd Va Vb Vd H Hf. rewrite !app_length in Hf. cbn [length] in Hf. cbn [app] in H. unfold inet_aton.
  destruct (aton_sep m 3 fuel _ _ _ [0; 0; 0; 0] 0 Da H eq_refl Va) as [E1 H1]; [lia|]. rewrite E1. clear E1.
  destruct (aton_sep m 2 fuel _ _ _ [value 10 a; 0; 0; 0] 1 Db H1 eq_refl Vb) as [E1 H2]; [lia|]. cbn [setn]. rewrite E1. clear E1.
  cbn [setn]. rewrite (aton_end m 1 fuel _ _ _ 2 Dd H2) by (auto; lia). rewrite bind_Ok. cbn [setn Nat.ltb Nat.leb nth].
  rewrite <- le_word4. reflexivity.
Qed.
Lemma aton_two m s a d fuel : digits 10 a -> digits 10 d -> value 10 a < 256 -> value 10 d < 256 ->
  str_at m s (a ++ [46] ++ d) -> (length (a ++ [46%Z] ++ d) < fuel)%nat ->
  inet_aton fuel m s = Ok (1, le_word [value 10 a; 0; 0; value 10 d]).
Proof.
  intros Da Dd Va Vd H Hf. rewrite !app_length in Hf. cbn [length] in Hf. cbn [app] in H. unfold inet_aton.
  destruct (aton_sep m 3 fuel _ _ _ [0; 0; 0; 0] 0 Da H eq_refl Va) as [E1 H1]; [lia|]. rewrite E1. clear E1.
  cbn [setn]. rewrite (aton_end m 2 fuel _ _ _ 1 Dd H1) by (auto; lia). rewrite bind_Ok. cbn [setn Nat.ltb Nat.leb nth].
  rewrite <- le_word4. reflexivity.
Qed.
Lemma aton_one m s d fuel : digits 10 d -> value 10 d < 256 ->
  str_at m s d -> (length d < fuel)%nat -> inet_aton fuel m s = Ok (1, le_word [0; 0; 0; value 10 d]).
Proof.
  intros Dd Vd H Hf. unfold inet_aton.
  rewrite (aton_end m 3 fuel _ _ _ 0 Dd H) by (auto; lia). rewrite bind_Ok. cbn [setn Nat.ltb Nat.leb nth].
  rewrite <- le_word4. reflexivity.
Qed.

(* any string: no access outside, and 1 is returned *)
Lemma aton_digits_any m l : forall pc v fuel, str_at m pc l -> (length l < fuel)%nat ->
  exists ds r v', l = ds ++ r /\ aton_digits fuel m pc v = Ok (pc + zlen ds, v').
Proof.
  induction l as [|b l IH]; intros pc v [|k] H Hf; try (cbn in Hf; lia); cbn [aton_digits]; cbn [str_at] in H.
  - unfold ldc. rewrite (load_some _ _ _ H), !bind_Ok. exists [], [], v. zl. rewrite Z.add_0_r. auto.
  - destruct H as (H & Hb & Hr). unfold ldc. rewrite (load_some _ _ _ H), !bind_Ok. cbn in Hf.
    destruct ((48 <=? schar b) && (schar b <=? 57)).
    + destruct (IH (pc + 1) (ubyte (v * 10 + (schar b - 48))) k Hr ltac:(lia)) as (ds & r & v' & -> & E).
      exists (b :: ds), r, v'. split; auto. rewrite E. apply ok2; auto. zl. lia.
    + exists [], (b :: l), v. zl. rewrite Z.add_0_r. auto.
Qed.
Lemma aton_loop_any m fuel n : forall pc u p l, str_at m pc l -> (length l < fuel)%nat ->
  exists u' p', aton_loop n fuel m pc u p = Ok (u', p').
Proof.
  induction n as [|n IH]; intros pc u p l H Hf; cbn [aton_loop]; eauto.
  destruct (aton_digits_any m l pc (nth p u 0) fuel H Hf) as (ds & r & v' & -> & E). rewrite E, bind_Ok.
  apply str_at_app in H.
  2:{ apply str_at_range in H. apply Forall_app in H. tauto. }
  destruct H as [_ H]. unfold ldc. destruct r as [|b r]; cbn [str_at] in H.
  - rewrite (load_some _ _ _ H), !bind_Ok. change (schar 0 =? 0) with true. cbv iota. eauto.
  - destruct H as (H & Hb & Hr). rewrite (load_some _ _ _ H), !bind_Ok. destruct (schar b =? 0); [eauto|].
    rewrite app_length in Hf. cbn [length] in Hf. apply (IH _ _ _ r); auto. lia.
Qed.
Lemma aton_any m s l fuel : str_at m s l -> (length l < fuel)%nat -> exists w, inet_aton fuel m s = Ok (1, w).
Proof.
  intros H Hf. unfold inet_aton. destruct (aton_loop_any m fuel 4 s [0; 0; 0; 0] 0 l H Hf) as (u & p & E).
  rewrite E, bind_Ok. eauto.
Qed.

(* ---- ether_ntoa ---- *)
Definition swaphex (b : Z) : list Z := [hexdig (b mod 16); hexdig (b / 16)].
Fixpoint etext (bs : list Z) : list Z := match bs with [] => [] | b :: r => swaphex b ++ [58] ++ etext r end.
Lemma ether_t_hexdig d : 0 <= d < 16 -> nth (Z.to_nat d) ether_t 0 = hexdig d.
Proof.
  intro H. assert (G : forallb (fun i => nth i ether_t 0 =? hexdig (Z.of_nat i)) (seq 0 16) = true) by (vm_compute; reflexivity).
  rewrite forallb_forall in G. specialize (G (Z.to_nat d)). rewrite Z2Nat.id in G by lia. apply Z.eqb_eq, G, in_seq. lia.
Qed.
Lemma hexdig_range d : 0 <= d < 16 -> 48 <= hexdig d <= 102.
Proof. unfold hexdig. destruct (Z.ltb_spec d 10); lia. Qed.
Lemma lo_nibble b : Z.land b 15 = b mod 16.
Proof. change 15 with (Z.ones 4). now rewrite Z.land_ones by lia. Qed.
Lemma hi_nibble b : 0 <= b < 256 -> Z.land (Z.shiftr b 4) 15 = b / 16.
Proof.
  intro. change 15 with (Z.ones 4). rewrite Z.land_ones, Z.shiftr_div_pow2 by lia. change (2 ^ 4) with 16. rewrite Z.mod_small; lia.
Qed.
Lemma part_puti m m' a n l i c : part m m' a n l -> i = zlen l -> zlen l < n -> 0 <= c < 256 ->
  exists m2, put m' a i c = Ok m2 /\ part m m2 a n (l ++ [c]).
Proof.
  intros P -> Hl Hc. destruct (part_put m m' a n l (a + zlen l) c P eq_refl Hl Hc) as (m2 & E & P2).
  exists m2. split; auto. unfold put in *. now rewrite Z.add_0_r in E.
Qed.
Lemma ether_loop_ok m a n e bs : Forall (fun b => 0 <= b < 256) bs -> forall m' l i, part m m' a n l ->
  zlen l = 3 * i -> zlen l + zlen (etext bs) <= n -> bytes_at m (e + i) bs -> apart a n e (i + zlen bs) -> 0 <= i ->
  exists m2, ether_loop (length bs) m' a e i = Ok m2 /\ part m m2 a n (l ++ etext bs).
Proof.
  induction 1 as [|b bs Hb Hbs IH]; intros m' l i P Hl Hn B A Hi; cbn [ether_loop length etext] in *.
  - exists m'. now rewrite app_nil_r.
  - destruct B as [B1 B2]. revert Hn A. zl. unfold apart. intros Hn A. nneg bs. nneg (etext bs).
    assert (L : forall m2 l2, part m m2 a n l2 -> m2 (e + i) = Some b).
    { intros m2 l2 (_ & S & _). rewrite S by lia. auto. }
    rewrite (load_some _ _ _ (L _ _ P)), bind_Ok, lo_nibble, ether_t_hexdig by lia.
    pose proof (hexdig_range (b mod 16) ltac:(lia)). pose proof (hexdig_range (b / 16) ltac:(lia)).
    destruct (part_puti m m' a n l (i * 3) (hexdig (b mod 16)) P) as (m2 & E2 & P2); try (revert Hn; unfold swaphex; zl; lia).
    rewrite E2, bind_Ok, (load_some _ _ _ (L _ _ P2)), bind_Ok, hi_nibble, ether_t_hexdig by lia.
    destruct (part_puti m m2 a n _ (i * 3 + 1) (hexdig (b / 16)) P2) as (m3 & E3 & P3); try (revert Hn; unfold swaphex; zl; lia).
    rewrite E3, bind_Ok.
    destruct (part_puti m m3 a n _ (i * 3 + 2) 58 P3) as (m4 & E4 & P4); try (revert Hn; unfold swaphex; zl; lia).
    rewrite E4, bind_Ok. destruct (IH m4 _ (i + 1) P4) as (m5 & E5 & P5); auto.
    + zl. lia.
    + revert Hn. unfold swaphex. zl. lia.
    + replace (e + (i + 1)) with (e + i + 1) by lia. auto.
    + unfold apart. lia.
    + lia.
    + exists m5. split; auto. revert P5. unfold swaphex. rewrite <- !app_assoc. cbn [app]. auto.
Qed.
Lemma etext_len bs : zlen (etext bs) = 3 * zlen bs.
Proof. induction bs as [|b bs IH]; [reflexivity|]. cbn [etext]. unfold swaphex. zl. lia. Qed.
Lemma etext_colon bs : Forall (fun b => 0 <= b < 256) bs -> bs <> [] -> etext bs = colon_hex (map nibble_swap bs) ++ [58].
Proof.
  induction 1 as [|b bs Hb Hbs IH]; [congruence|]. intros _.
  assert (S : swaphex b = hex2 (nibble_swap b)).
  { unfold swaphex, hex2, nibble_swap. f_equal; [f_equal; lia|]. do 2 f_equal; lia. }
  cbn [etext map]. rewrite S. destruct bs as [|b2 bs]; [reflexivity|].
  rewrite IH by discriminate. cbn [map]. cbn [colon_hex]. now rewrite <- !app_assoc.
Qed.
Lemma hex2_bytes b : 0 <= b < 256 -> Forall (fun b => 1 <= b <= 255) (hex2 b).
Proof.
  intro. pose proof (hexdig_range (b mod 16) ltac:(lia)). pose proof (hexdig_range (b / 16) ltac:(lia)).
  repeat constructor; lia.
Qed.
Lemma colon_hex_bytes bs : Forall (fun b => 0 <= b < 256) bs -> Forall (fun b => 1 <= b <= 255) (colon_hex bs).
Proof.
  induction 1 as [|b bs Hb Hbs IH]; [constructor|]. cbn [colon_hex]. destruct bs; [now apply hex2_bytes|].
  apply Forall_app; split; [now apply hex2_bytes|]. apply Forall_app; split; auto. repeat constructor; lia.
Qed.
Lemma ether_ok m a e bs : length bs = 6%nat -> Forall (fun b => 0 <= b < 256) bs -> bytes_at m e bs ->
  room m a 18 -> apart a 18 e 6 ->
  exists m', ether_ntoa m a e = Ok (m', a) /\ str_at m' a (colon_hex (map nibble_swap bs)) /\ same_outside m m' a 18.
Proof.
  intros L6 HF B R A. assert (Z6 : zlen bs = 6) by (unfold zlen; lia).
  destruct (ether_loop_ok m a 18 e bs HF m [] 0) as (m2 & E & P); rewrite ?etext_len, ?Z6, ?Z.add_0_r; try (zl; lia); auto.
  { split; [cbn; auto|split; [apply same_outside_refl|auto]]. }
  rewrite L6 in E. unfold ether_ntoa. rewrite E, bind_Ok. cbn [app] in P.
  assert (HS : Forall (fun b => 0 <= b < 256) (map nibble_swap bs)).
  { clear -HF. induction HF; cbn; constructor; auto. unfold nibble_swap. lia. }
  assert (N : bs <> []) by (destruct bs; [discriminate|congruence]).
  pose proof (etext_len bs) as HL. rewrite etext_colon in P, HL by auto. revert HL. zl. intro HL.
  apply part_app in P.
  destruct (part_puti m m2 a 18 _ 17 0 P) as (m3 & E3 & P3); try lia.
  rewrite E3, bind_Ok. exists m3. split; auto. destruct P3 as (B3 & S & _). split; auto.
  apply bytes_at_app in B3 as [B1 B2]. cbn in B2. apply str_at_intro; auto; [now apply colon_hex_bytes|tauto].
Qed.

(* ---- gethostname ---- *)
Lemma ghn_loop_ok m a n u s k : forall m' l i r, part m m' a n l -> i = zlen l -> s = l ++ r ->
  str_at m u s -> apart a n u (zlen s + 1) -> i + Z.of_nat k <= n ->
  exists m2, (ghn_loop k m' a u i = Ok (m2, zlen s) /\ part m m2 a n (s ++ [0]) /\ zlen s < i + Z.of_nat k)
         \/ (ghn_loop k m' a u i = Ok (m2, i + Z.of_nat k) /\ part m m2 a n (l ++ firstn k r) /\ i + Z.of_nat k <= zlen s).
Proof.
  induction k as [|k IH]; intros m' l i r P Hi -> Hs A Hn; cbn [ghn_loop].
  - exists m'. right. change (Z.of_nat 0) with 0. rewrite firstn_O, app_nil_r, Z.add_0_r. repeat split; auto; try apply P. subst. zl. nneg r. lia.
  - pose proof (str_at_range _ _ _ Hs) as HR. nneg l. nneg r.
    assert (L : forall x, u <= x <= u + zlen (l ++ r) -> m' x = m x).
    { intros x Hx. destruct P as (_ & S & _). apply S. unfold apart in A. lia. }
    apply str_at_app in Hs as Hs2; [|apply Forall_app in HR; tauto]. destruct Hs2 as [_ Hr]. rewrite <- Hi in Hr.
    destruct r as [|b r]; cbn [str_at] in Hr.
    + rewrite (load_some m' (u + i) 0) by (rewrite L; auto; zl; lia). rewrite bind_Ok.
      destruct (part_puti m m' a n l i 0 P Hi) as (m2 & E & P2); try lia.
      rewrite E, bind_Ok. exists m2. left. change (0 =? 0) with true. cbv iota. rewrite app_nil_r in *.
      split; [subst; auto|]. split; auto. lia.
    + destruct Hr as (Hb & Hbr & Hr).
      rewrite (load_some m' (u + i) b) by (rewrite L; auto; zl; nneg r; lia). rewrite bind_Ok.
      destruct (part_puti m m' a n l i b P Hi) as (m2 & E & P2); try lia.
      rewrite E, bind_Ok. destruct (Z.eqb_spec b 0); [lia|].
      destruct (IH m2 (l ++ [b]) (i + 1) r P2) as (m3 & G); auto; try (zl; lia).
      { now rewrite <- app_assoc. }
      exists m3. destruct G as [(G1 & G2 & G3)|(G1 & G2 & G3)]; [left|right].
      * split; auto. split; auto. lia.
      * rewrite G1. split; [apply ok2; auto; lia|]. cbn [firstn]. rewrite <- app_assoc in G2. split; auto. lia.
Qed.
Lemma gethostname_ok m name u s len : str_at m u s -> zlen s <= 64 -> 0 < len <= INT_MAX -> room m name len ->
  apart name len u 65 ->
  exists m', gethostname 0 m name u len = Ok (m', 0)
    /\ str_at m' name (firstn (Z.to_nat (len - 1)) s) /\ same_outside m m' name len.
Proof.
  intros Hs H64 Hl R A. nneg s. unfold gethostname. change (0 =? 0) with true. cbv iota.
  rewrite u64_small by (unfold INT_MAX in Hl; lia).
  set (ln := if 65 <? len then 65 else len). assert (Hln : 0 < ln <= len /\ ln <= 65 /\ (ln < len -> zlen s < ln)).
  { unfold ln. destruct (Z.ltb_spec 65 len); lia. }
  clearbody ln. 
  destruct (ghn_loop_ok m name len u s (Z.to_nat ln) m [] 0 s) as (m2 & G); auto.
  { split; [cbn; auto|split; [apply same_outside_refl|auto]]. }
  { unfold apart in *. lia. }
  { lia. }
  rewrite Z2Nat.id, Z.add_0_l in G by lia. destruct G as [(E & P & C)|(E & P & C)].
  - rewrite E, bind_Ok. replace (negb (zlen s =? 0) && (zlen s =? ln)) with false by lia.
    exists m2. split; auto. rewrite firstn_all2 by (unfold zlen in *; lia).
    destruct P as (B & S & _). split; auto. apply bytes_at_app in B as [B1 B2]. cbn in B2.
    apply str_at_intro; [auto|eapply str_at_range; eauto|tauto].
  - assert (ln = len) by lia. subst ln. rewrite E, bind_Ok.
    replace (negb (len =? 0) && (len =? len)) with true by lia. cbn [app] in P.
    assert (Sp : firstn (Z.to_nat len) s = firstn (Z.to_nat (len - 1)) s ++ [nth (Z.to_nat (len - 1)) s 0]).
    { replace (Z.to_nat len) with (S (Z.to_nat (len - 1))) by lia. 
      assert (Hlt : (Z.to_nat (len - 1) < length s)%nat) by (unfold zlen in *; lia). revert Hlt.
      generalize (Z.to_nat (len - 1)) as j. clear. induction s as [|x s IH]; intros j Hj; [cbn in Hj; lia|].
      destruct j; [reflexivity|]. cbn in Hj. cbn [firstn nth app]. f_equal. apply IH. lia. }
    rewrite Sp in P. apply part_app in P.
    destruct (part_puti m m2 name len _ (len - 1) 0 P) as (m3 & E3 & P3); try (rewrite zlen_firstn; lia); try lia.
    rewrite E3, bind_Ok. exists m3. split; auto. destruct P3 as (B & S & _). split; auto.
    apply bytes_at_app in B as [B1 B2]. cbn in B2. apply str_at_intro; auto; [|tauto].
    apply Forall_firstn. eapply str_at_range; eauto.
Qed.
