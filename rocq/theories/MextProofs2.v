From Coq Require Import ZifyBool.
From Verif Require Import Base BaseLemmas SysModel MatchModel MatchSpec MatchProofs MatchProofs2 MextModel MextSpec MextProofs.

Definition ibody (i : item) : list Z := match i with One _ s => write1 s | _ => write i end.
Definition ineg (i : item) : bool := match i with One n _ => n | _ => false end.
Definition xbody (x : xitem) : list Z :=
  match x with XI _ i | XCount _ _ i => ibody i | XTake _ n => 37 :: number n | XAmp _ n => 38 :: number n end.
Definition xneg (x : xitem) : bool := match x with XI _ i => ineg i | _ => false end.
Definition is_count (x : xitem) : bool := match x with XCount _ _ _ => true | _ => false end.
Definition fixedx (i : item) : bool := match i with Star | Plus | Take | At => false | _ => true end.

Lemma outer_plain k m text re nm e t h : m text = Some t -> t <> 0 -> m re = Some h -> h <> 33 -> h <> 125 -> h <> 123 -> h <> 44 ->
  x_loop (S k) m Outer text re nm e = x_loop k m (Inner 1 false re) text re nm e.
Proof.
  intros Ht T Hh A1 A2 A3 A4. cbn [x_loop]. rewrite (load_some _ _ _ Ht), bind_Ok. replace (t =? 0) with false by lia. rewrite (load_some _ _ _ Hh), bind_Ok.
  replace (h =? 33) with false by lia. cbv iota zeta. rewrite (load_some _ _ _ Hh), bind_Ok. replace (h =? 125) with false by lia. cbv iota. rewrite (load_some _ _ _ Hh), bind_Ok. replace (h =? 123) with false by lia. cbv iota. rewrite bind_Ok. cbv iota.
  rewrite (load_some _ _ _ Hh), bind_Ok. replace (h =? 44) with false by lia. reflexivity.
Qed.
Lemma outer_neg k m text re nm e t h : m text = Some t -> t <> 0 -> m re = Some 33 -> m (re + 1) = Some h -> h <> 125 -> h <> 123 -> h <> 44 ->
  x_loop (S k) m Outer text re nm e = x_loop k m (Inner 1 true (re + 1)) text (re + 1) nm e.
Proof.
  intros Ht T H0 Hh A2 A3 A4. cbn [x_loop]. rewrite (load_some _ _ _ Ht), bind_Ok. replace (t =? 0) with false by lia. rewrite (load_some _ _ _ H0), bind_Ok.
  change (33 =? 33) with true. cbv iota zeta. rewrite (load_some _ _ _ Hh), bind_Ok. replace (h =? 125) with false by lia. cbv iota. rewrite (load_some _ _ _ Hh), bind_Ok. replace (h =? 123) with false by lia. cbv iota. rewrite bind_Ok. cbv iota.
  rewrite (load_some _ _ _ Hh), bind_Ok. replace (h =? 44) with false by lia. reflexivity.
Qed.
Lemma outer_comma k m text re nm e t : m text = Some t -> t <> 0 -> m re = Some 44 ->
  x_loop (S k) m Outer text re nm e = x_loop k m (Inner 1 false (re + 1)) text (re + 1) nm e.
Proof.
  intros Ht T H0. cbn [x_loop]. rewrite (load_some _ _ _ Ht), bind_Ok. replace (t =? 0) with false by lia. rewrite (load_some _ _ _ H0), bind_Ok. closed_eqb. cbv iota zeta.
  rewrite (load_some _ _ _ H0), bind_Ok. closed_eqb. cbv iota. rewrite (load_some _ _ _ H0), bind_Ok. closed_eqb. cbv iota. rewrite bind_Ok. cbv iota. rewrite (load_some _ _ _ H0), bind_Ok. closed_eqb. reflexivity.
Qed.
Lemma isdigit_spec c : 0 <= c <= 255 -> isdigit (schar c) = is_digit c.
Proof.
  intros H. assert (A : forallb (fun n => Bool.eqb (isdigit (schar (Z.of_nat n))) (is_digit (Z.of_nat n))) (seq 0 256) = true) by (vm_compute; reflexivity).
  rewrite forallb_forall in A. specialize (A (Z.to_nat c)). rewrite Z2Nat.id in A by lia. apply Bool.eqb_prop, A, in_seq. lia.
Qed.
Lemma outer_count k m text re nm e t d h : m text = Some t -> t <> 0 -> m re = Some 123 -> 0 <= d <= 9 -> m (re + 1) = Some (48 + d) -> m (re + 2) = Some h -> 0 <= h <= 255 -> is_digit h = false -> (2 <= k)%nat ->
  x_loop (S k) m Outer text re nm e = let re := if h =? 44 then re + 3 else re + 2 in x_loop k m (Inner d false re) text re nm e.
Proof.
  intros Ht T H0 D H1 H2 Hh Hd Hk. cbn [x_loop]. rewrite (load_some _ _ _ Ht), bind_Ok. replace (t =? 0) with false by lia. rewrite (load_some _ _ _ H0), bind_Ok. closed_eqb. cbv iota zeta.
  rewrite (load_some _ _ _ H0), bind_Ok. closed_eqb. cbv iota. rewrite (load_some _ _ _ H0), bind_Ok. closed_eqb. cbv iota.
  assert (E : digits k m (re + 1) 0 = Ok (re + 2, d)).
  { destruct k as [|[|k]]; try lia. cbn [digits]. rewrite (load_some _ _ _ H1), bind_Ok, isdigit_spec by lia. replace (is_digit (48 + d)) with true by (unfold is_digit; lia).
    rewrite iop_ok by (unfold INT_MIN, INT_MAX; lia). rewrite bind_Ok. replace (re + 1 + 1) with (re + 2) by lia. rewrite (load_some _ _ _ H2), bind_Ok, isdigit_spec by lia. rewrite Hd. do 2 f_equal. lia. }
  rewrite E, bind_Ok. cbv iota. rewrite (load_some _ _ _ H2), bind_Ok. destruct (h =? 44); [|reflexivity]. replace (re + 2 + 1) with (re + 3) by lia. reflexivity.
Qed.
Lemma outer_brace k m text re nm e t h : m text = Some t -> t <> 0 -> m re = Some 125 -> m (re + 1) = Some h -> h <> 33 -> h <> 125 ->
  x_loop (S k) m Outer text re nm e = x_loop (S k) m Outer text (re + 1) nm e.
Proof.
  intros Ht T H0 Hh A1 A2. cbn [x_loop]. rewrite (load_some _ _ _ Ht), !bind_Ok. replace (t =? 0) with false by lia. rewrite (load_some _ _ _ H0), (load_some _ _ _ Hh), !bind_Ok. closed_eqb.
  replace (h =? 33) with false by lia. cbv iota zeta. rewrite (load_some _ _ _ H0), (load_some _ _ _ Hh), !bind_Ok. closed_eqb. replace (h =? 125) with false by lia. cbv iota. reflexivity.
Qed.
Lemma inner_zero k m text re nm e neg pos : x_loop (S k) m (Inner 0 neg pos) text re nm e = x_loop k m Outer text (re + 1) nm e.
Proof. reflexivity. Qed.

Lemma ibody_hd i : xitem_ok i -> let h := hd 0 (ibody i) in 1 <= h <= 255 /\ h <> 33 /\ h <> 125 /\ h <> 123 /\ h <> 44.
Proof.
  intros W. destruct i as [neg s| |cs| | | | | | ]; cbn [xitem_ok ibody write hd] in *; try lia; try contradiction. destruct s; cbn [write1 hd]; try lia. pose proof (xplain_ne _ W). destruct W as [W _]. lia.
Qed.
Lemma xwrite_split x : is_count x = false -> xwrite x = (match x with XI sep i => comma sep ++ (if ineg i then [33] else []) | XTake sep _ | XAmp sep _ => comma sep | _ => [] end) ++ xbody x.
Proof.
  destruct x as [sep i|sep n|sep n|d sep i]; try discriminate; intros _; cbn [xwrite xbody]; try reflexivity. rewrite <- app_assoc. f_equal. destruct i as [[] s| | | | | | | | ]; reflexivity.
Qed.
Lemma body_ne x : xbody x <> [].
Proof. destruct x as [sep i|sep n|sep n|d sep i]; cbn [xbody]; try discriminate; destruct i as [[] []| | | | | | | | ]; discriminate. Qed.
Lemma outer_item k m text re nm e t x p : is_count x = false -> well_written (x :: p) -> str_at m re (xpattern (x :: p)) -> m text = Some t -> t <> 0 ->
  let pos := re + zlen (xwrite x) - zlen (xbody x) in bytes_at m pos (xbody x) /\
  x_loop (S k) m Outer text re nm e = x_loop k m (Inner 1 (xneg x) pos) text pos nm e.
Proof.
  intros C W Hre Ht T. cbv zeta. apply str_at_bytes in Hre. unfold xpattern in Hre. cbn [flat_map] in Hre. apply bytes_at_app in Hre as [Hre _]. rewrite (xwrite_split x C) in *.
  rewrite zlen_app. apply bytes_at_app in Hre as [H1 H2]. set (pre := match x with XI sep i => comma sep ++ _ | _ => _ end) in *.
  replace (re + (zlen pre + zlen (xbody x)) - zlen (xbody x)) with (re + zlen pre) by lia. split; [exact H2|].
  assert (Hb : m (re + zlen pre) = Some (hd 0 (xbody x))) by (pose proof (body_ne x); destruct (xbody x); [congruence|apply H2]).
  destruct W as [W _]. subst pre. destruct x as [sep i|sep n|sep n|d sep i]; try discriminate.
  - destruct W as [W1 W2]. cbn [xbody xneg] in *. pose proof (ibody_hd i W1) as K. cbv zeta in K. destruct sep; cbn [comma app] in *.
    + destruct (W2 eq_refl) as [_ W3]. replace (ineg i) with false in * by (destruct i as [[]| | | | | | | | ]; try reflexivity; exfalso; eapply W3; reflexivity). cbn [app] in *. destruct H1 as [H1 _]. change (zlen [44]) with 1. now apply outer_comma with t.
    + destruct (ineg i).
      * destruct H1 as [H1 _]. change (zlen [33]) with 1 in *. apply outer_neg with t (hd 0 (ibody i)); auto; lia.
      * change (zlen (@nil Z)) with 0 in *. rewrite Z.add_0_r in *. apply outer_plain with t (hd 0 (ibody i)); auto; lia.
  - cbn [xbody xneg hd] in *. destruct sep; cbn [comma] in *; [destruct H1 as [H1 _]; change (zlen [44]) with 1; now apply outer_comma with t|]. change (zlen (@nil Z)) with 0 in *. rewrite Z.add_0_r in *. apply outer_plain with t 37; auto; lia.
  - cbn [xbody xneg hd] in *. destruct sep; cbn [comma] in *; [destruct H1 as [H1 _]; change (zlen [44]) with 1; now apply outer_comma with t|]. change (zlen (@nil Z)) with 0 in *. rewrite Z.add_0_r in *. apply outer_plain with t 38; auto; lia.
Qed.

Lemma class_for_zero m : forall cs re fuel, Forall (fun c => 1 <= c <= 255 /\ c <> 93) cs -> bytes_at m re (cs ++ [93]) -> (length cs < fuel)%nat ->
  class_for fuel m re 0 = Ok None.
Proof.
  induction cs as [|x cs IH]; intros re fuel F B Hf; (destruct fuel as [|k]; [cbn [length] in Hf; lia|]); cbn [class_for app] in *; destruct B as [B1 B2]; rewrite (load_some _ _ _ B1), bind_Ok; [reflexivity|].
  apply Forall_cons_iff in F as [[F1 F3] F2]. replace ((x =? 0) || (x =? 0)) with false by lia. replace (x =? 93) with false by lia. cbn [length] in Hf. apply IH; auto; lia.
Qed.
Lemma inner_fixed k m text re nm e t i c pos : m text = Some t -> 0 <= t <= 255 -> bytes_at m pos (ibody i) -> xitem_ok i -> fixedx i = true -> 1 <= c -> (length (ibody i) <= k)%nat ->
  x_loop (S k) m (Inner c (ineg i) pos) text re nm e =
  if hit i t then x_loop k m (Inner (c - 1) (ineg i) pos) (text + 1) (pos + zlen (ibody i) - 1) nm e else Ok (0, e).
Proof.
  intros Ht T HB W Fi Hc Hk. cbn [x_loop]. replace (0 <? c) with true by lia. rewrite (load_some _ _ _ Ht), bind_Ok.
  assert (Ehit : forall neg x (P Q : res (Z * ext)), (if xorb neg (negb (x =? t)) then P else Q) = (if xorb neg (x =? t) then Q else P)) by (intros neg x P Q; destruct neg, (x =? t); reflexivity).
  destruct i as [neg s| |cs| | | | | | ]; try discriminate; cbn [ibody ineg hit write] in *.
  - destruct s as [x|x| | | | | | ]; cbn [write1 xitem_ok hit1 bytes_at] in *; destruct HB as [HB HB2]; rewrite (load_some _ _ _ HB), bind_Ok.
    + apply xplain_ne in W. destruct W as (?N & ?N & ?N & ?N & ?N & ?N & ?N & ?N & ?N & ?N & ?N & ?N & ?N & ?N). neqs. cbn [orb]. cbv iota zeta. rewrite Ehit. replace (pos + zlen [x] - 1) with pos by (zl; lia). reflexivity.
    + destruct HB2 as [HB2 _]. destruct W as [W1 W2]. cbn [In] in W2. assert (x <> 100 /\ x <> 68 /\ x <> 115 /\ x <> 83 /\ x <> 119 /\ x <> 87 /\ x <> 0) as (A1 & A2 & A3 & A4 & A5 & A6 & A7) by intuition lia.
      closed_eqb. cbn [orb]. cbv iota zeta. rewrite (load_some _ _ _ HB2), bind_Ok. unfold xescape, escape. neqs. cbv iota. rewrite Ehit. replace (pos + zlen [92; x] - 1) with (pos + 1) by (zl; lia). reflexivity.
    + destruct HB2 as [HB2 _]. closed_eqb. cbn [orb]. cbv iota zeta. rewrite (load_some _ _ _ HB2), bind_Ok. unfold xescape, escape. closed_eqb. cbv iota. replace (pos + zlen [92; 100] - 1) with (pos + 1) by (zl; lia). now destruct (xorb _ _).
    + destruct HB2 as [HB2 _]. closed_eqb. cbn [orb]. cbv iota zeta. rewrite (load_some _ _ _ HB2), bind_Ok. unfold xescape, escape. closed_eqb. cbv iota. replace (pos + zlen [92; 68] - 1) with (pos + 1) by (zl; lia). now destruct (xorb _ _).
    + destruct HB2 as [HB2 _]. closed_eqb. cbn [orb]. cbv iota zeta. rewrite (load_some _ _ _ HB2), bind_Ok. unfold xescape, escape. closed_eqb. cbv iota. replace (pos + zlen [92; 115] - 1) with (pos + 1) by (zl; lia). now destruct (xorb _ _).
    + destruct HB2 as [HB2 _]. closed_eqb. cbn [orb]. cbv iota zeta. rewrite (load_some _ _ _ HB2), bind_Ok. unfold xescape, escape. closed_eqb. cbv iota. replace (pos + zlen [92; 83] - 1) with (pos + 1) by (zl; lia). now destruct (xorb _ _).
    + destruct HB2 as [HB2 _]. closed_eqb. cbn [orb]. cbv iota zeta. rewrite (load_some _ _ _ HB2), bind_Ok. unfold xescape, escape. closed_eqb. cbv iota. replace (pos + zlen [92; 119] - 1) with (pos + 1) by (zl; lia). now destruct (xorb _ _ || _).
    + destruct HB2 as [HB2 _]. closed_eqb. cbn [orb]. cbv iota zeta. rewrite (load_some _ _ _ HB2), bind_Ok. unfold xescape, escape. closed_eqb. cbv iota. replace (pos + zlen [92; 87] - 1) with (pos + 1) by (zl; lia). now destruct (xorb _ _ || _).
  - destruct HB as [HB _]. rewrite (load_some _ _ _ HB), bind_Ok. closed_eqb. cbv iota zeta. replace (pos + zlen [63] - 1) with pos by (zl; lia). reflexivity.
  - cbn [bytes_at app] in HB. destruct HB as [HB HB2]. rewrite (load_some _ _ _ HB), bind_Ok. closed_eqb. cbv iota zeta. cbn [xitem_ok] in W. cbn [length] in Hk. rewrite app_length in Hk. cbn [length] in Hk.
    destruct (Z.eq_dec t 0) as [-> |T0].
    + rewrite (class_for_zero m cs) by (auto; lia). rewrite bind_Ok. replace (existsb (Z.eqb 0) cs || (0 =? 93)) with false; [reflexivity|].
      symmetry. apply orb_false_intro; [|reflexivity]. clear -W. induction W as [|x l [W _] _ IH]; [reflexivity|]. cbn [existsb]. rewrite IH. lia.
    + pose proof (class_for_ok m t cs (pos + 1) k W HB2 ltac:(lia) ltac:(lia)) as HC.
      destruct (existsb (Z.eqb t) cs || (t =? 93)).
      * destruct HC as (a & b & E1 & E2 & E3 & E4). rewrite E4, bind_Ok.
        assert (Hb : exists b', b = b' ++ [93] /\ cs = a ++ b').
        { destruct b as [|y b' _] using rev_ind; [congruence|]. rewrite app_assoc in E1. apply app_inj_tail in E1 as [E1 <-]. eauto. }
        destruct Hb as (b' & -> & ->). apply Forall_app in W as [W1 W2]. rewrite <- app_assoc in HB2. apply bytes_at_app in HB2 as [_ HB2]. rewrite app_length in Hk.
        rewrite (class_end_ok m b') by (auto; lia). rewrite bind_Ok. apply bytes_at_app in HB2 as [_ [HB2 _]]. rewrite (load_some _ _ _ HB2), bind_Ok. closed_eqb. cbv iota.
        replace (pos + 1 + zlen a + zlen b') with (pos + zlen (91 :: (a ++ b') ++ [93]) - 1); [reflexivity|]. rewrite zlen_cons, !zlen_app. change (zlen [93]) with 1. lia.
      * rewrite HC, bind_Ok. reflexivity.
  - destruct HB as [HB _]. rewrite (load_some _ _ _ HB), bind_Ok. closed_eqb. cbv iota zeta. rewrite xorb_false_l. replace (pos + zlen [35] - 1) with pos by (zl; lia). reflexivity.
  - destruct HB as [HB _]. rewrite (load_some _ _ _ HB), bind_Ok. closed_eqb. cbn [orb]. cbv iota zeta. rewrite xorb_false_l. replace (pos + zlen [36] - 1) with pos by (zl; lia). rewrite (Z.eqb_sym 36 t). now destruct (t =? 36).
Qed.
Lemma inner_amp k m text re nm e t n d pos : m text = Some t -> pmc e = None -> bytes_at m pos (38 :: number n) -> number_ok n ->
  m (pos + 1) = Some d -> (n = None -> is_digit d = false) ->
  x_loop (S k) m (Inner 1 false pos) text re nm e = x_loop k m (Inner 0 false pos) (text + 1) (pos + zlen (38 :: number n) - 1) (nmof n nm) e.
Proof.
  intros Ht Hp HB W Hd Hn. cbn [x_loop]. change (0 <? 1) with true. cbv iota. rewrite (load_some _ _ _ Ht), bind_Ok. destruct HB as [HB HB2]. rewrite (load_some _ _ _ HB), bind_Ok. closed_eqb. cbn [orb]. cbv iota zeta.
  rewrite (load_some _ _ _ Hd), bind_Ok, Hp. destruct n as [x|]; cbn [number nmof number_ok] in *.
  - destruct HB2 as [HB2 _]. assert (d = 48 + x) as -> by congruence. replace ((48 <=? 48 + x) && (48 + x <=? 57)) with true by lia. cbv iota. replace (pos + zlen [38; 48 + x] - 1) with (pos + 1) by (zl; lia). replace (48 + x - 48) with x by lia. reflexivity.
  - specialize (Hn eq_refl). unfold is_digit in Hn. rewrite Hn. cbv iota. replace (pos + zlen [38] - 1) with pos by (zl; lia). reflexivity.
Qed.
