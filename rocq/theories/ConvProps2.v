(* C85: decimal numbers with a character between groups of three digits. *)
From Verif Require Import Base BaseLemmas ConvModel ConvSpec ConvProofs ConvProofs2 ConvProofs3 ConvProofs4 ConvProofs7.
Ltac Zify.zify_post_hook ::= Z.div_mod_to_equations.
Ltac rmc := apply room_check; vm_compute; reflexivity.
Ltac digs_tac := repeat (constructor; [vm_compute; split; [discriminate|reflexivity]|]); constructor.

(* c is the limiter, a nonzero char; ubyte c the byte it is stored as *)
Theorem C85_uitodec : forall c i, c <> 0 -> -128 <= c <= 127 -> 0 <= i < 4294967296 ->
  exists l, numeral 10 i l /\
    forall m buf pad, room m buf (zlen (group (ubyte c) l) + 1) ->
    exists m', uitodec m i buf 0 c pad = Ok (m', zlen (group (ubyte c) l)) /\
      wrote m m' buf (group (ubyte c) l).
Proof.
  intros c i Hc Rc Hi. destruct (uitodec_grouped c i Hc Rc Hi) as (l & N & _ & H). exists l. split; [exact N|exact H].
Qed.
Print Assumptions C85_uitodec.

Theorem C85_itodec : forall strict c i, c <> 0 -> -128 <= c <= 127 -> INT_MIN <= i <= INT_MAX ->
  (strict = true -> i <> INT_MIN) ->
  exists l, numeral 10 (Z.abs i) l /\
    forall m buf pad, let t := (if i <? 0 then [45] else []) ++ group (ubyte c) l in
    room m buf (zlen t + 1) ->
    exists m', itodec strict m i buf 0 c pad = Ok (m', zlen t) /\ wrote m m' buf t.
Proof. exact itodec_grouped. Qed.
Print Assumptions C85_itodec.
Example C85_case : numeral 10 (Z.abs (-1234567)) [49; 50; 51; 52; 53; 54; 55] /\
  [45] ++ group (ubyte 46) [49; 50; 51; 52; 53; 54; 55] = [45; 49; 46; 50; 51; 52; 46; 53; 54; 55] /\
  room (mem_of [(100, repeat 7 11)]) 100 (zlen [45; 49; 46; 50; 51; 52; 46; 53; 54; 55] + 1).
Proof. split; [|split; [reflexivity|rmc]]. split; [digs_tac|]. split; [reflexivity|]. split; [discriminate|]. cbn. discriminate. Qed.

Lemma ult_numeral i : 0 < i < 18446744073709551616 -> numeral 10 i (ult_text i 0).
Proof.
  intros Hi. destruct (ult_text_padded i 0) as (_ & P); [lia|lia|]. destruct (P ltac:(lia)) as (D & V & L & Hh).
  split; auto. split; auto. revert L Hh. generalize (ult_text i 0). intros l L Hh.
  split; [destruct l; [revert L; zl; lia|discriminate]|].
  intro H. pose proof (Hh H) as E. destruct l as [|x [|y r]]; cbn [hd] in *; try congruence. revert E. zl. nneg r. lia.
Qed.
Lemma sep_mod3 (l : list Z) : l <> [] -> sep (length l) = (zlen l mod 3 =? 0).
Proof.
  intro Hne. unfold zlen. rewrite mod3. unfold sep. destruct l; [congruence|]. reflexivity.
Qed.
Lemma mark_bytes c l : c <> 0 -> -128 <= c <= 127 -> digits 10 l -> Forall (fun b => 1 <= b <= 255) (mark (ubyte c) l).
Proof.
  intros Hc Rc D. rewrite mark_group. pose proof (ubyte_pos c Hc Rc).
  assert (G : Forall (fun b => 1 <= b <= 255) (group (ubyte c) l)) by (apply group_forall; auto; eapply digits_bytes; eauto).
  destruct (sep (length l)); auto.
Qed.

(* Partial: numbers whose count of digits is no multiple of three; the others get
   one limiter too many, in front of the first digit.  0 prints nothing (C28). *)
Theorem C85_ultodec_partial : forall c i, c <> 0 -> -128 <= c <= 127 -> 0 < i < 18446744073709551616 ->
  exists l, numeral 10 i l /\
    forall m buf, let t := (if zlen l mod 3 =? 0 then [ubyte c] else []) ++ group (ubyte c) l in
    room m buf (zlen t + 1) ->
    exists m', ultodec m i buf 0 c = Ok (m', zlen t) /\ wrote m m' buf t.
Proof.
  intros c i Hc Rc Hi. pose proof (ult_numeral i Hi) as N. exists (ult_text i 0). split; [exact N|].
  intros m buf t R. destruct N as (D & _ & Hne & _).
  assert (Et : t = mark (ubyte c) (ult_text i 0)).
  { unfold t. rewrite mark_group, sep_mod3 by auto. destruct (_ =? _); reflexivity. }
  clearbody t. subst t. exists (wr m buf (mark (ubyte c) (ult_text i 0) ++ [0])).
  split; [apply ultodec_mark; auto; lia|]. apply wrote_wr. now apply mark_bytes.
Qed.
Print Assumptions C85_ultodec_partial.

Theorem C85_ltodec_partial : forall strict c i, c <> 0 -> -128 <= c <= 127 -> LONG_MIN <= i <= LONG_MAX -> i <> 0 ->
  (strict = true -> i <> LONG_MIN) ->
  exists l, numeral 10 (Z.abs i) l /\
    forall m buf, let t := (if i <? 0 then [45] else []) ++ (if zlen l mod 3 =? 0 then [ubyte c] else []) ++ group (ubyte c) l in
    room m buf (zlen t + 1) ->
    exists m', ltodec strict m i buf 0 c = Ok (m', zlen t) /\ wrote m m' buf t.
Proof.
  unfold LONG_MIN, LONG_MAX. intros strict c i Hc Rc Hi H0 Hs. unfold ltodec.
  destruct (C85_ultodec_partial c (Z.abs i) Hc Rc ltac:(lia)) as (l & N & H). exists l. split; [exact N|].
  intros m buf. set (g := (if zlen l mod 3 =? 0 then [ubyte c] else []) ++ group (ubyte c) l) in *. cbv zeta in *.
  destruct (Z.ltb_spec i 0) as [Hneg|Hpos]; cbn [app].
  - zl. intro R. nneg g. rewrite (put_ok m buf 0 45 (zlen g + 1 + 1)) by (auto; lia). rewrite bind_Ok.
    assert (E : lar strict (- i) = Ok (- i) \/ lar strict (- i) = Ok (-9223372036854775808) /\ i = -9223372036854775808).
    { unfold lar. destruct strict.
      - left. apply lop_ok. unfold LONG_MIN, LONG_MAX. specialize (Hs eq_refl). lia.
      - destruct (Z.eq_dec i (-9223372036854775808)) as [->|]; [right; auto|left; f_equal; unfold s64; lia]. }
    assert (E2 : (let* j := lar strict (- i) in (let* (m2, r) := ultodec (wr m (buf + 0) [45]) (u64 j) (buf + 1) 0 c in Ok (m2, r + 1)))
       = (let* (m2, r) := ultodec (wr m (buf + 0) [45]) (Z.abs i) (buf + 1) 0 c in Ok (m2, r + 1))).
    { destruct E as [E|[E ->]]; rewrite E, bind_Ok; [|reflexivity].
      replace (u64 (- i)) with (Z.abs i) by (unfold u64; lia). reflexivity. }
    rewrite E2. destruct (H (wr m (buf + 0) [45]) (buf + 1)) as (m' & E3 & W).
    { apply wr_room. eapply room_sub; [exact R|lia|lia]. }
    rewrite E3, bind_Ok. exists m'. split; auto. eapply wrote_cons; [lia| |exact W]. cbn [wr]. now rewrite Z.add_0_r.
  - intro R. replace (u64 i) with (Z.abs i) by (unfold u64; lia). apply H. exact R.
Qed.
Print Assumptions C85_ltodec_partial.
Example C85_long_case : numeral 10 (Z.abs (-100000)) [49; 48; 48; 48; 48; 48] /\
  (if zlen [49; 48; 48; 48; 48; 48] mod 3 =? 0 then [ubyte 44] else []) ++ group (ubyte 44) [49; 48; 48; 48; 48; 48]
  = [44; 49; 48; 48; 44; 48; 48; 48].
Proof. split; [|reflexivity]. split; [digs_tac|]. split; [reflexivity|]. split; [discriminate|]. cbn. discriminate. Qed.

(* 100 with ',' comes out as ",100" *)
Theorem C85_ultodec_refuted : exists i c l m buf m' n, 0 < i < 18446744073709551616 /\ numeral 10 i l /\
  room m buf 64 /\ ultodec m i buf 0 c = Ok (m', n) /\ str_at m' buf [44; 49; 48; 48] /\
  group (ubyte c) l = [49; 48; 48].
Proof.
  pose proof (ultodec_mark 44 ltac:(lia) 100 0 ltac:(lia) ltac:(lia) (mem_of [(100, repeat 7 64)]) 100) as E.
  pose proof (ult_numeral 100 ltac:(lia)) as N.
  replace (ult_text 100 0) with [49; 48; 48] in * by (vm_compute; reflexivity).
  exists 100, 44, [49; 48; 48], (mem_of [(100, repeat 7 64)]), 100, (wr (mem_of [(100, repeat 7 64)]) 100 [44; 49; 48; 48; 0]), 4.
  split; [lia|]. split; [exact N|]. split; [rmc|]. split; [apply E; rmc|]. split; [|reflexivity].
  apply (wrote_wr _ _ [44; 49; 48; 48]). repeat (constructor; [lia|]). constructor.
Qed.
Print Assumptions C85_ultodec_refuted.
