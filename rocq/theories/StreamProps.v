(* C45, C46, C47, C74, C75, C76: streams. *)
From Verif Require Import Base BaseLemmas StreamModel StreamSpec StreamProofs StreamProofs2.
Ltac Zify.zify_post_hook ::= Z.div_mod_to_equations.

(* ---- C45: slots ---- *)
(* Missing: histories that close a stream whose upper neighbour is already closed while a
   stream further up is open (see the refutation), and more than twelve fopen. *)
Theorem C45_slots_partial : forall n t l,
  history (fun l a => (forall b e, In (b, e) l -> b <= a) \/ (exists e, In (a + 1, e) l)) n t l ->
  (* open streams have different slots, which hold their descriptors *)
  NoDup (map fst l) /\
  (forall a fd, In (a, fd) l -> slot t a = fd) /\
  (* the next fopen hands out a slot that is not in use and leaves the others alone *)
  (forall r t' a, fopen_slot t r = Ok (t', Some a) ->
     ~ In a (map fst l) /\ slot t' a = r /\ forall b, b <> a -> slot t' b = slot t b) /\
  (* fclose closes the descriptor of the stream *)
  (forall a fd t' d, In (a, fd) l -> fclose t a = Ok (t', d) -> d = fd) /\
  (* and nothing goes outside the table *)
  ((n <= 12)%nat -> (forall r, exists t' o, fopen_slot t r = Ok (t', o)) /\
     (forall a fd, In (a, fd) l -> exists t' d, fclose t a = Ok (t', d))).
Proof.
  intros n t l H. pose proof (history_inv n t l H) as I. pose proof I as (I1 & I2 & I3 & I4 & I5 & I6).
  split; [exact I1|]. split; [|split; [|split]].
  - intros a fd Ha. apply (I2 _ _ Ha).
  - intros r t' a Hf. destruct (fopen_slot_inv _ _ _ _ _ _ I Hf) as (a' & E & A1 & A2 & A3 & A4 & A5 & A6).
    destruct (r <? 0); [discriminate E|]. injection E as <-. split; [exact A2|]. split.
    + rewrite A3, Z.eqb_refl. reflexivity.
    + intros b Hb. rewrite A3. assert (b =? a = false) as -> by lia. reflexivity.
  - intros a fd t' d Ha Hc. destruct (I2 _ _ Ha) as (J1 & J2 & J3). unfold fclose in Hc.
    rewrite sget_ok in Hc by lia. cbn [bind] in Hc. rewrite J1, fileno_ok in Hc by lia.
    destruct (sset t a (-1)) as [t1| |]; cbn [bind] in Hc; try discriminate Hc.
    destruct (sget t1 (a + 1)); cbn [bind] in Hc; try discriminate Hc.
    destruct (sget t1 (pstream t1)); cbn [bind] in Hc; try discriminate Hc.
    destruct (a0 =? a1); [|congruence].
    destruct (fclose_pop 20 t1 (pstream t1 - 1)); cbn [bind] in Hc; congruence.
  - intros Hn. split.
    + intros r. exact (fopen_total _ _ _ r I Hn).
    + intros a fd Ha. exact (fclose_total _ _ _ a fd I Hn Ha).
Qed.
Print Assumptions C45_slots_partial.
Ltac opn H r :=
  match type of H with history ?may ?n ?t ?l =>
    let v := eval vm_compute in (fopen_slot t r) in
    match v with Ok (?t', Some ?a) =>
      let H' := fresh in
      pose proof (h_open may n t l r t' a H ltac:(lia) ltac:(vm_compute; reflexivity)) as H'; clear H; rename H' into H
    end end.
Ltac cls H a fd l1 l2 tac :=
  match type of H with history ?may ?n ?t ?l =>
    let v := eval vm_compute in (fclose t a) in
    match v with Ok (?t', ?d) =>
      let H' := fresh in
      pose proof (h_close may n t l a fd l1 l2 t' d H ltac:(reflexivity) ltac:(tac) ltac:(vm_compute; reflexivity)) as H'; clear H; rename H' into H;
      cbn [app] in H
    end end.
(* Four streams are opened and three closed, in the order 6, 4, 3.  Two fopen later the
   next one hands out the slot of the stream that is still open. *)
Theorem C45_slots_refuted : exists n t l t' a, history (fun _ _ => True) n t l /\
  fopen_slot t 9 = Ok (t', Some a) /\ In (a, 5) l /\ slot t' a = 9.
Proof.
  pose proof (h_init (fun _ _ => True)) as H.
  opn H 3. opn H 4. opn H 5. opn H 6.
  cls H 6 6 (@nil (Z * Z)) [(5, 5); (4, 4); (3, 3)] ltac:(exact I).
  cls H 4 4 [(5, 5)] [(3, 3)] ltac:(exact I).
  cls H 3 3 [(5, 5)] (@nil (Z * Z)) ltac:(exact I).
  opn H 7. opn H 8.
  match type of H with history _ ?n ?t ?l =>
    let v := eval vm_compute in (fopen_slot t 9) in
    match v with Ok (?t', Some ?a) => exists n, t, l, t', a end end.
  split; [exact H|]. split; [vm_compute; reflexivity|]. split; [|vm_compute; reflexivity].
  right. right. left. reflexivity.
Qed.
Print Assumptions C45_slots_refuted.
(* With all thirteen slots in use both fopen and fclose read stream[16]. *)
Theorem C45_full_table_refuted : exists n t l, history (fun _ _ => True) n t l /\ length l = 13%nat /\
  (forall r, fopen_slot t r = Fault) /\ (forall a fd, In (a, fd) l -> fclose t a = Fault).
Proof.
  pose proof (h_init (fun _ _ => True)) as H. do 13 opn H 7.
  match type of H with history _ ?n ?t ?l => exists n, t, l end.
  split; [exact H|]. split; [reflexivity|]. split.
  - intros r. vm_compute. reflexivity.
  - intros a fd Hin. cbn [In] in Hin.
    repeat (destruct Hin as [Hin|Hin]; [inversion Hin; subst; vm_compute; reflexivity|]). destruct Hin.
Qed.
Print Assumptions C45_full_table_refuted.
(* open 3, 4, 5, close the middle one, then the last *)
Example C45_case : exists n t, 
  history (fun l a => (forall b e, In (b, e) l -> b <= a) \/ (exists e, In (a + 1, e) l)) n t [(3, 3)].
Proof.
  pose proof (h_init (fun l a => (forall b e, In (b, e) l -> b <= a) \/ (exists e, In (a + 1, e) l))) as H.
  opn H 3. opn H 4. opn H 5.
  cls H 4 4 [(5, 5)] [(3, 3)] ltac:(right; exists 5; left; reflexivity).
  cls H 5 5 (@nil (Z * Z)) [(3, 3)] ltac:(left; cbn; intros b e [E|[E|[]]]; inversion E; lia).
  eexists. eexists. exact H.
Qed.

(* ---- C46: fgets, fgetsn, fgetsp ---- *)
(* Missing: fgets and fgetsn stay inside the size only if the line is shorter than it (see
   the refutation): they store up to [size] bytes and then the NUL.  Input with NUL bytes. *)
Theorem C46_fgets_partial : forall fuel m s buf size,
  INT_MIN <= word s <= INT_MAX -> text (content (word s) (input s)) ->
  1 <= size <= INT_MAX -> (Z.to_nat size <= fuel)%nat ->
  let l := line (Z.to_nat size) (content (word s) (input s)) in
  room m buf (zlen l + 1) ->
  zlen l <= size /\
  exists m' s' r, fgets fuel m s buf size = Ok (m', s', r) /\ fgetsn fuel m s buf size = Ok (m', s', zlen l) /\
    r = (if content (word s) (input s) then 0 else buf) /\
    str_at m' buf l /\ same_outside m m' buf (zlen l + 1) /\
    content (word s) (input s) = l ++ content (word s') (input s').
Proof.
  intros fuel m s buf size Hw Ht Hs Hf l Hr. split.
  { pose proof (line_len (Z.to_nat size) (content (word s) (input s))). fold l in H. lia. }
  destruct (content (word s) (input s)) as [|c r] eqn:Ec.
  - assert (l = []) as El by (unfold l; destruct (Z.to_nat size); reflexivity). rewrite El in *.
    change (zlen (@nil Z)) with 0 in *. unfold fgets, fgetsn.
    rewrite (fgets_eof fuel m s buf size Ec Hw Hr). cbn [bind].
    exists (upd m buf 0), s, 0. split; [reflexivity|]. split; [do 2 f_equal; lia|]. split; [reflexivity|].
    split; [apply str_at_nil, upd_same|]. split; [apply same_outside_upd; lia|]. cbn [app]. symmetry. exact Ec.
  - destruct (fgets_ok fuel m s buf size) as (m' & s' & G1 & G2 & G3 & G4 & G5); auto.
    + unfold cont. rewrite Ec. exact Ht.
    + unfold cont. rewrite Ec. discriminate.
    + unfold cont. rewrite Ec. exact Hr.
    + cbn zeta in *. unfold cont in *. rewrite Ec in *. fold l in G1, G2, G3, G4. exists m', s', buf. unfold fgets, fgetsn.
      rewrite G1. cbn [bind]. split; [reflexivity|]. split; [do 2 f_equal; lia|]. split; [reflexivity|].
      split; [exact G2|]. split; [exact G3|]. exact G4.
Qed.
Print Assumptions C46_fgets_partial.
(* For every size there is an input for which fgets and fgetsn write buf[size]. *)
Theorem C46_fgets_refuted : forall m buf size fuel, 1 <= size <= INT_MAX -> (Z.to_nat size <= fuel)%nat ->
  room m buf size -> m (buf + size) = None ->
  exists inp, text inp /\
    fgets fuel m {| word := 3; input := inp |} buf size = Fault /\
    fgetsn fuel m {| word := 3; input := inp |} buf size = Fault.
Proof.
  intros m buf size fuel Hs Hf Hr Hn. exists (repeat 65 (Z.to_nat size)).
  assert (Ht : text (repeat 65 (Z.to_nat size))).
  { unfold text. apply Forall_forall. intros x Hx. apply repeat_spec in Hx. lia. }
  split; [exact Ht|].
  assert (E : fgets_raw fuel m {| word := 3; input := repeat 65 (Z.to_nat size) |} buf size = Fault).
  { apply fgets_overrun; auto.
    - unfold wok, INT_MIN, INT_MAX. cbn [word]. lia.
    - unfold cont. cbn [word input].
      change (content 3 (repeat 65 (Z.to_nat size))) with (repeat 65 (Z.to_nat size)).
      assert (L : forall n, line n (repeat 65 n) = repeat 65 n) by (induction n; cbn [line repeat]; [reflexivity|]; change (65 =? 10) with false; cbn iota; f_equal; assumption).
      rewrite L, zlen_repeat. lia. }
  unfold fgets, fgetsn. rewrite E. split; reflexivity.
Qed.
Print Assumptions C46_fgets_refuted.
(* Successive calls deliver the input in pieces. *)
Theorem C46_concat : forall s ts s', fgets_calls s ts s' ->
  INT_MIN <= word s <= INT_MAX -> text (content (word s) (input s)) ->
  content (word s) (input s) = concat ts ++ content (word s') (input s').
Proof.
  induction 1 as [s|fuel m s buf size m' s1 t ts s2 Hs Hf Hr E Hb Hst Hc IH]; intros Hw Ht; [reflexivity|].
  assert (Hne : cont s <> []).
  { intros He. unfold fgets in E. rewrite fgets_eof in E; auto; [|eapply room_sub; [exact Hr| |]; lia].
    cbn [bind] in E. inversion E. congruence. }
  destruct (fgets_ok fuel m s buf size) as (m2 & s2' & G1 & G2 & G3 & G4 & G5); auto.
  { pose proof (line_len (Z.to_nat size) (cont s)). eapply room_sub; [exact Hr| |]; lia. }
  cbn zeta in *. unfold fgets in E. rewrite G1 in E. cbn [bind] in E. inversion E; subst.
  assert (Et : t = line (Z.to_nat size) (cont s)).
  { clear - Hst G2. revert Hst G2. generalize (line (Z.to_nat size) (cont s)) as u. revert buf.
    induction t as [|a t IH]; intros p u H1 H2; destruct u as [|b u]; cbn [str_at] in *.
    - reflexivity.
    - destruct H2 as (H2 & H3 & _). rewrite H1 in H2. inversion H2. lia.
    - destruct H1 as (H1 & H3 & _). rewrite H2 in H1. inversion H1. lia.
    - destruct H1 as (H1 & H3 & H4), H2 as (H2 & H5 & H6). f_equal; [congruence|]. eapply IH; eauto. }
  fold (cont s). rewrite G4. cbn [concat]. rewrite <- app_assoc. rewrite <- Et. f_equal.
  rewrite G4 in Ht at 1. apply IH; [exact G5|]. unfold cont in Ht, G4. rewrite G4 in Ht. apply Forall_app in Ht. apply Ht.
Qed.
Print Assumptions C46_concat.
(* fgetsp keeps to the size and drops the newline. *)
Theorem C46_fgetsp : forall fuel m s buf size,
  INT_MIN <= word s <= INT_MAX -> text (content (word s) (input s)) ->
  1 <= size <= INT_MAX -> (Z.to_nat size <= fuel)%nat -> room m buf size ->
  let l := line (Z.to_nat (size - 1)) (content (word s) (input s)) in
  exists m' s', fgetsp fuel m s buf size = Ok (m', s', buf + zlen (chomp l)) /\
    zlen (chomp l) <= size - 1 /\ str_at m' buf (chomp l) /\ same_outside m m' buf size /\
    content (word s) (input s) = l ++ content (word s') (input s').
Proof.
  intros fuel m s buf size Hw Ht Hs Hf Hr l.
  pose proof (line_len (Z.to_nat (size - 1)) (content (word s) (input s))) as Hl. fold l in Hl.
  pose proof (chomp_len l) as Hc. nneg (chomp l).
  destruct (fgetsp_ok fuel m s buf size) as (m' & s' & G1 & G2 & G3 & G4 & G5); auto.
  - fold (cont s) in l. fold l. eapply room_sub; [exact Hr| |]; lia.
  - cbn zeta in *. fold (cont s) in l. fold l in G1, G2, G3, G4. exists m', s'. split; [exact G1|]. split; [lia|].
    split; [exact G2|]. split; [|exact G4]. eapply same_outside_weaken; [exact G3| |]; lia.
Qed.
Print Assumptions C46_fgetsp.
(* "ab\ncd" into five bytes, with an 'x' pushed back *)
Example C46_case : exists m' s',
  fgets 9 (mem_of [(100, repeat 7 5)]) {| word := 3 + 120 * 16777216; input := [97; 98; 10; 99; 100] |} 100 4 = Ok (m', s', 100) /\
  str_at m' 100 [120; 97; 98; 10] /\ input s' = [99; 100].
Proof. do 2 eexists. split; [reflexivity|]. split; [|reflexivity]. repeat split; reflexivity || lia. Qed.
Example C46_calls_case : exists s', fgets_calls {| word := 3; input := [97; 98; 10; 99; 100] |} [[97; 98; 10]; [99; 100]] s'.
Proof.
  eexists.
  eapply fc_cons with (fuel := 9%nat) (m := mem_of [(100, repeat 7 5)]) (buf := 100) (size := 4); try reflexivity.
  { unfold INT_MAX. lia. } { lia. } { apply room_check. reflexivity. } { lia. } { repeat split; reflexivity || lia. }
  eapply fc_cons with (fuel := 9%nat) (m := mem_of [(100, repeat 7 5)]) (buf := 100) (size := 4); try reflexivity.
  { unfold INT_MAX. lia. } { lia. } { apply room_check. reflexivity. } { lia. } { repeat split; reflexivity || lia. }
  constructor.
Qed.

(* ---- C47: ungetc ---- *)
(* Missing: 0, and the characters from 128 on (see the refutations). *)
Theorem C47_ungetc_partial : forall strict c s, INT_MIN <= word s <= INT_MAX -> 1 <= c <= 127 ->
  exists s1 s2, ungetc strict c s = Ok (c, s1) /\ fileno (word s1) = fileno (word s) /\
    fgetc s1 = (c, s2) /\ input s2 = input s /\
    (* nothing was pushed back before: the stream is as it was *)
    (pushed (word s) = [] -> s2 = s).
Proof.
  intros strict c s Hw Hc. destruct (ungetc_word strict c s) as (v & E1 & E2 & E3).
  { destruct strict; lia. }
  rewrite schar_low in E3 by lia.
  exists v, {| word := word s mod 16777216; input := input v |}.
  split; [exact E1|]. split; [|split; [|split]].
  - unfold fileno. change 0x3fffff with (Z.ones 22). rewrite !Z.land_ones by lia. change (2 ^ 22) with 4194304. unfold u32. rewrite E3. lia.
  - apply fgetc_pushed; lia.
  - exact E2.
  - intros Hp. unfold pushed in Hp. destruct (word s / 16777216 =? 0) eqn:E; [|discriminate Hp].
    destruct s as [w i]. cbn [word input] in *. subst i. f_equal. lia.
Qed.
Print Assumptions C47_ungetc_partial.
(* A character from 128 on: as a char it is right (with wrapping arithmetic), as an int it
   comes back negative. *)
Theorem C47_high_partial : forall c s, INT_MIN <= word s <= INT_MAX -> 128 <= c <= 255 ->
  exists s1 s2, ungetc false c s = Ok (c, s1) /\ fgetc s1 = (c - 256, s2) /\ input s2 = input s.
Proof.
  intros c s Hw Hc. destruct (ungetc_word false c s) as (v & E1 & E2 & E3); [lia|].
  unfold schar in E3. assert (c <? 128 = false) as X by lia. rewrite X in E3.
  exists v, {| word := word s mod 16777216; input := input v |}. split; [exact E1|]. split; [|exact E2].
  apply fgetc_pushed; lia.
Qed.
Print Assumptions C47_high_partial.
Theorem C47_ungetc_refuted : 
  (* 0 is lost *)
  (forall strict s, 0 <= word s < 16777216 -> ungetc strict 0 s = Ok (0, s)) /\
  (* 200 is a signed overflow, or comes back as -56 *)
  (forall s, ungetc true 200 s = Fault) /\
  (exists s s1 s2, ungetc false 200 s = Ok (200, s1) /\ fgetc s1 = (-56, s2)).
Proof.
  split; [|split].
  - intros strict s Hw. unfold ungetc. rewrite mask24.
    assert (E : {| word := s32 (Z.lor (word s mod 16777216) 0); input := input s |} = s).
    { destruct s as [w i]. cbn [word input] in *. f_equal. rewrite Z.lor_0_r. rewrite s32_small; [lia|unfold INT_MIN, INT_MAX; lia]. }
    destruct strict; cbn [bind].
    + change (0 <=? 0) with true. cbv iota. change (iop (0 * 16777216)) with (Ok 0). cbn [bind]. change (u32 0) with 0. rewrite E. reflexivity.
    + change (u32 (s32 (0 * 16777216))) with 0. rewrite E. reflexivity.
  - reflexivity.
  - exists {| word := 3; input := [] |}. do 2 eexists. split; reflexivity.
Qed.
Print Assumptions C47_ungetc_refuted.
Example C47_case : exists s1, ungetc true 97 {| word := 0x800003; input := [98] |} = Ok (97, s1) /\
  fst (fgetc s1) = 97 /\ fst (fgetc (snd (fgetc s1))) = 98.
Proof. eexists. split; [reflexivity|]. split; reflexivity. Qed.

(* ---- C74: fgetud, fgetul ---- *)
Theorem C74_fgetud : forall fuel s ds rest, INT_MIN <= word s <= INT_MAX ->
  Forall (fun c => 0 <= c < 256) (content (word s) (input s)) ->
  content (word s) (input s) = ds ++ rest -> Forall is_digit ds -> no_digit rest -> (length ds < fuel)%nat ->
  exists s1 s2,
    fgetud fuel s = Ok (decimal 0 ds mod 2 ^ 32, s1) /\ content (word s1) (input s1) = tl rest /\
    fgetul fuel s = Ok (decimal 0 ds mod 2 ^ 64, s2) /\ content (word s2) (input s2) = tl rest.
Proof.
  intros fuel s ds rest Hw Hb Hc Hd Hn Hf.
  destruct (fgetud_ok 4294967296 ltac:(lia) u32 ltac:(reflexivity) ds rest fuel s 0) as (s1 & A1 & A2 & A3); auto; [lia|].
  destruct (fgetud_ok 18446744073709551616 ltac:(lia) u64 ltac:(reflexivity) ds rest fuel s 0) as (s2 & B1 & B2 & B3); auto; [lia|].
  exists s1, s2. auto.
Qed.
Print Assumptions C74_fgetud.
Example C74_case : exists s1, fgetud 9 {| word := 3; input := [49; 50; 51; 58; 52] |} = Ok (123, s1) /\ input s1 = [52].
Proof. eexists. split; reflexivity. Qed.

(* ---- C75: fread, feof ---- *)
(* Missing: ferror (see the refutation). *)
Theorem C75_fread_partial : forall m s p size nmemb, 1 <= size <= LONG_MAX -> 0 <= nmemb <= INT_MAX ->
  0 <= word s < 4194304 -> room m p (Z.min (nmemb * size) (zlen (input s))) ->
  exists m' s' k,
    fread m s p size nmemb = Ok (m', s', k) /\
    (* the number of complete items *)
    k = Z.min nmemb (zlen (input s) / size) /\
    (* the bytes of the input, nothing else *)
    bytes_at m' p (firstn (Z.to_nat (nmemb * size)) (input s)) /\
    same_outside m m' p (Z.min (nmemb * size) (zlen (input s))) /\
    input s' = skipn (Z.to_nat (nmemb * size)) (input s) /\
    (* feof tells whether there were fewer items than wanted *)
    feof s' = (if k <? nmemb then 1 else 0) /\
    feof (clearerr s') = 0 /\ fileno (word s') = fileno (word s).
Proof.
  intros m s p size nmemb Hs Hn Hw Hr.
  assert (En : (Z.to_nat nmemb * Z.to_nat size)%nat = Z.to_nat (nmemb * size)) by (rewrite Z2Nat.inj_mul; lia).
  assert (0 <= nmemb * size) by nia.
  assert (El : zlen (firstn (Z.to_nat (nmemb * size)) (input s)) = Z.min (nmemb * size) (zlen (input s))).
  { rewrite zlen_firstn. lia. }
  destruct (fread_loop_ok size ltac:(lia) (Z.to_nat nmemb) m s p 0) as (m' & s' & k & G1 & G2 & G3 & G4 & G5 & G6).
  - lia.
  - lia.
  - rewrite En, El. exact Hr.
  - rewrite En in *. rewrite El in *. rewrite Z2Nat.id in * by lia. exists m', s', k. split; [exact G1|].
    split; [exact G2|]. split; [exact G3|]. split; [exact G4|]. split; [exact G5|].
    set (d := k <? nmemb) in *. clearbody d. clear - G6 Hw. unfold feof, clearerr, fileno. cbn [word]. rewrite G6.
    assert (F : Z.land (word s) 0xc00000 = 0).
    { change 0xc00000 with (Z.shiftl 3 22). apply Z.bits_inj'. intros n Hn. rewrite Z.land_spec, Z.bits_0.
      destruct (Z.lt_ge_cases n 22); [rewrite Z.shiftl_spec_low by lia; apply andb_false_r|].
      rewrite (Z.bits_above_log2 (word s)); [reflexivity|lia|]. destruct (Z.eq_dec (word s) 0) as [->|]; [cbn; lia|].
      assert (Z.log2 (word s) < 22) by (apply Z.log2_lt_pow2; lia). lia. }
    destruct d.
    + split; [|split].
      * rewrite Z.land_lor_distr_l, F. reflexivity.
      * rewrite Z.land_lor_distr_l. rewrite Z.land_lor_distr_l. rewrite <- Z.land_assoc. change (Z.land 0x3fffff 0xc00000) with 0. rewrite Z.land_0_r. reflexivity.
      * assert (0 <= Z.lor (word s) 0x800000 < 4294967296).
        { split; [apply Z.lor_nonneg; lia|]. destruct (Z.eq_dec (word s) 0) as [->|]; [cbn; lia|].
          apply Z.log2_lt_cancel. rewrite Z.log2_lor by lia. apply Z.max_lub_lt; [|reflexivity].
          apply Z.log2_lt_pow2; [lia|]. change (Z.log2 4294967296) with 32. lia. }
        rewrite !u32_small by lia. rewrite Z.land_lor_distr_l. change (Z.land 0x800000 0x3fffff) with 0. apply Z.lor_0_r.
    + split; [rewrite F; reflexivity|]. split; [|reflexivity].
      rewrite <- Z.land_assoc. change (Z.land 0x3fffff 0xc00000) with 0. rewrite Z.land_0_r. reflexivity.
Qed.
Print Assumptions C75_fread_partial.
(* ferror is 1 at the end of the input, although there was no error *)
Theorem C75_ferror_refuted : exists m s p m' s',
  fread m s p 1 3 = Ok (m', s', 2) /\ input s = [1; 2] /\ ferror s = 0 /\ ferror s' = 1.
Proof.
  exists (mem_of [(100, [0; 0; 0])]), {| word := 3; input := [1; 2] |}, 100. do 2 eexists.
  split; [reflexivity|]. split; [reflexivity|]. split; reflexivity.
Qed.
Print Assumptions C75_ferror_refuted.
Example C75_case : exists m' s', fread (mem_of [(100, repeat 0 6)]) {| word := 3; input := [1; 2; 3; 4; 5] |} 100 2 3 = Ok (m', s', 2) /\
  feof s' = 1 /\ room (mem_of [(100, repeat 0 6)]) 100 5.
Proof. do 2 eexists. split; [reflexivity|]. split; [reflexivity|]. apply room_check. reflexivity. Qed.

(* ---- C76: open flags ---- *)
(* Missing: the modes that append and those of more than six characters (see the refutations). *)
Theorem C76_flags_partial : forall first r, first <> 97 -> (length r <= 5)%nat ->
  fopen_flags (first :: r) = posix_flags first (existsb (Z.eqb 43) r).
Proof.
  intros first r Ha Hr. unfold fopen_flags, posix_flags. rewrite !fopen_plus_twice. rewrite firstn_all2 by lia.
  destruct (first =? 114); [destruct (existsb (Z.eqb 43) r); reflexivity|].
  destruct (first =? 119); [destruct (existsb (Z.eqb 43) r); reflexivity|].
  assert (first =? 97 = false) as -> by lia. reflexivity.
Qed.
Print Assumptions C76_flags_partial.
(* a '+' behind the sixth character is ignored: "rbbbbb+" *)
Theorem C76_long_refuted : fopen_flags [114; 98; 98; 98; 98; 98; 43] = Some 0 /\ posix_flags 114 (existsb (Z.eqb 43) [98; 98; 98; 98; 98; 43]) = Some 2.
Proof. split; reflexivity. Qed.
Print Assumptions C76_long_refuted.
(* "a" and "a+" do not create the file, and "a" opens it for reading too. *)
Theorem C76_append_refuted : fopen_flags [97] = Some 0x402 /\ posix_flags 97 false = Some 0x441 /\
  fopen_flags [97; 43] = Some 0x402 /\ posix_flags 97 true = Some 0x442.
Proof. repeat split. Qed.
Print Assumptions C76_append_refuted.
Example C76_case : fopen_flags [119; 98; 43] = Some 0x242.
Proof. reflexivity. Qed.
