(* C37-C40, C71: network helpers. *)
From Verif Require Import Base BaseLemmas ConvModel ConvSpec NetModel NetSpec NetProofs NetProofs2.
Ltac rmc := apply room_check; vm_compute; reflexivity.

(* ---- C37 ---- *)
Theorem C37_htonl : forall x, htonl x = le_word (rev (le_bytes 4 x)).
Proof. intro x. rewrite htonl_eq, le_bytes4. cbn [rev app]. now rewrite le_word4. Qed.
Print Assumptions C37_htonl.
Theorem C37_htons : forall x, htons x = le_word (rev (le_bytes 2 x)).
Proof. intro x. rewrite htons_eq, le_bytes2. cbn [rev app le_word]. lia. Qed.
Print Assumptions C37_htons.
Lemma rev_involution k x : 0 <= x < 256 ^ Z.of_nat k ->
  le_word (rev (le_bytes k (le_word (rev (le_bytes k x))))) = x.
Proof.
  intro H. pose proof (le_bytes_range k x) as R.
  assert (L : length (rev (le_bytes k x)) = k).
  { rewrite rev_length. clear. revert x. induction k; intro; cbn [le_bytes length]; auto. }
  rewrite <- L at 1. rewrite le_bytes_word by now apply Forall_rev.
  rewrite rev_involutive. now apply le_word_bytes.
Qed.
Theorem C37_htonl_involution : forall x, 0 <= x < 2 ^ 32 -> htonl (htonl x) = x.
Proof. intros. rewrite !C37_htonl. now apply (rev_involution 4). Qed.
Print Assumptions C37_htonl_involution.
Theorem C37_htons_involution : forall x, 0 <= x < 2 ^ 16 -> htons (htons x) = x.
Proof. intros. rewrite !C37_htons. now apply (rev_involution 2). Qed.
Print Assumptions C37_htons_involution.
Example C37_case : htonl 0x01020384 = 0x84030201 /\ htonl (htonl 0x01020384) = 0x01020384 /\ htons 0x1f90 = 0x901f.
Proof. repeat split. Qed.

(* ---- C38 ---- *)
(* the buffer is mlgl->inet_ntoa_addr, 16 bytes (include/minilib_global.h:112) *)
Theorem C38_inet_ntoa : forall m addr w fuel, room m addr 16 -> (10 <= fuel)%nat ->
  exists m' l, inet_ntoa fuel m addr w = Ok (m', addr) /\ str_at m' addr l
    /\ dotted_quad (le_bytes 4 w) l /\ zlen l <= 15 /\ same_outside m m' addr 16.
Proof.
  intros m a w fuel R Hf. destruct (inet_ntoa_ok m a w fuel R Hf) as (m' & E & S & O).
  exists m', (dtext w). repeat (split; auto using dtext_dotted, dtext_len).
Qed.
Print Assumptions C38_inet_ntoa.
Example C38_case : let m := mem_of [(100, repeat 7 16)] in room m 100 16 /\
  match inet_ntoa 10 m 100 (le_word [192; 168; 0; 255]) with
  | Ok (m', 100) => map m' [100; 101; 102; 103; 104; 105; 106; 107; 108; 109; 110; 111; 112; 113]
                    = map Some [49; 57; 50; 46; 49; 54; 56; 46; 48; 46; 50; 53; 53; 0]
  | _ => False
  end.
Proof. split; [rmc|]. vm_compute. reflexivity. Qed.

(* ---- C39 ---- *)
Theorem C39_round_trip : forall m addr w fuel, room m addr 16 -> 0 <= w < 2 ^ 32 -> (16 <= fuel)%nat ->
  exists m', inet_ntoa fuel m addr w = Ok (m', addr) /\ inet_aton fuel m' addr = Ok (1, w).
Proof.
  intros m a w fuel R Hw Hf. destruct (inet_ntoa_ok m a w fuel R ltac:(lia)) as (m' & E & S & O).
  exists m'. split; auto.
  destruct (btext_ok _ (wbyte_range w 0)) as [(D0 & V0 & _) _]. destruct (btext_ok _ (wbyte_range w 1)) as [(D1 & V1 & _) _].
  destruct (btext_ok _ (wbyte_range w 2)) as [(D2 & V2 & _) _]. destruct (btext_ok _ (wbyte_range w 3)) as [(D3 & V3 & _) _].
  pose proof (wbyte_range w 0). pose proof (wbyte_range w 1). pose proof (wbyte_range w 2). pose proof (wbyte_range w 3).
  rewrite (aton_quad m' a (btext (wbyte w 0)) (btext (wbyte w 1)) (btext (wbyte w 2)) (btext (wbyte w 3))); auto;
    rewrite ?V0, ?V1, ?V2, ?V3; try lia.
  - rewrite <- le_bytes4, le_word_bytes; auto.
  - pose proof (dtext_len w) as L. unfold dtext, zlen in L. lia.
Qed.
Print Assumptions C39_round_trip.
(* every spelling of an address as four decimal numbers up to 255 *)
Theorem C39_parse : forall m s a b c d fuel, digits 10 a -> digits 10 b -> digits 10 c -> digits 10 d ->
  value 10 a < 256 -> value 10 b < 256 -> value 10 c < 256 -> value 10 d < 256 ->
  str_at m s (a ++ [46] ++ b ++ [46] ++ c ++ [46] ++ d) ->
  (length (a ++ [46%Z] ++ b ++ [46%Z] ++ c ++ [46%Z] ++ d) < fuel)%nat ->
  inet_aton fuel m s = Ok (1, le_word [value 10 a; value 10 b; value 10 c; value 10 d]).
Proof. exact aton_quad. Qed.
Print Assumptions C39_parse.
(* shorter forms: the last number is the last byte, missing ones are 0 *)
Theorem C39_parse_short : forall m s a b d fuel, digits 10 a -> digits 10 b -> digits 10 d ->
  value 10 a < 256 -> value 10 b < 256 -> value 10 d < 256 ->
  (length (a ++ [46%Z] ++ b ++ [46%Z] ++ d) < fuel)%nat ->
  (str_at m s (a ++ [46] ++ b ++ [46] ++ d) -> inet_aton fuel m s = Ok (1, le_word [value 10 a; value 10 b; 0; value 10 d]))
  /\ (str_at m s (a ++ [46] ++ d) -> inet_aton fuel m s = Ok (1, le_word [value 10 a; 0; 0; value 10 d]))
  /\ (str_at m s d -> inet_aton fuel m s = Ok (1, le_word [0; 0; 0; value 10 d])).
Proof.
  intros m s a b d fuel Da Db Dd Va Vb Vd Hf. pose proof Hf as Hg. rewrite !app_length in Hg. cbn [length] in Hg.
  split; [|split]; intro H.
  - apply aton_three; auto.
  - apply aton_two; auto. rewrite !app_length. cbn [length]. lia.
  - apply aton_one; auto. lia.
Qed.
Print Assumptions C39_parse_short.
(* no string makes it read past its end; but none is rejected either *)
Theorem C39_any_string_partial : forall m s l fuel, str_at m s l -> (length l < fuel)%nat ->
  exists w, inet_aton fuel m s = Ok (1, w).
Proof. exact aton_any. Qed.
Print Assumptions C39_any_string_partial.
(* "abc" is not an address, yet 1 is returned *)
Theorem C39_malformed_refuted : exists m s l, str_at m s l /\ l = [97; 98; 99] /\
  exists w, inet_aton 10 m s = Ok (1, w).
Proof.
  exists (mem_of [(10, [97; 98; 99; 0])]), 10, [97; 98; 99]. split; [cbn; repeat split; lia|].
  split; auto. exists 0. reflexivity.
Qed.
Print Assumptions C39_malformed_refuted.
Example C39_case : let m := mem_of [(10, [49; 50; 55; 46; 48; 46; 48; 48; 49; 46; 57; 0])] in
  str_at m 10 ([49; 50; 55] ++ [46] ++ [48] ++ [46] ++ [48; 48; 49] ++ [46] ++ [57]) /\
  inet_aton 20 m 10 = Ok (1, le_word [127; 0; 1; 9]).
Proof. cbn zeta. split; [cbn; repeat split; lia|reflexivity]. Qed.

(* ---- C40 ---- *)
(* what is printed: the bytes with their two digits exchanged *)
Theorem C40_ether_ntoa_partial : forall m addr e bs, length bs = 6%nat -> Forall (fun b => 0 <= b < 256) bs ->
  bytes_at m e bs -> room m addr 18 -> apart addr 18 e 6 ->
  exists m', ether_ntoa m addr e = Ok (m', addr) /\ str_at m' addr (colon_hex (map nibble_swap bs))
    /\ same_outside m m' addr 18
    /\ (Forall (fun b => b / 16 = b mod 16) bs -> str_at m' addr (colon_hex bs)).
Proof.
  intros m a e bs L F B R A. destruct (ether_ok m a e bs L F B R A) as (m' & E & S & O).
  exists m'. repeat (split; auto). intro Q. replace bs with (map nibble_swap bs); auto.
  clear -Q. induction Q as [|b bs H Q IH]; cbn; auto. rewrite IH. f_equal. unfold nibble_swap.
  rewrite (Z.div_mod b 16) at 3 by lia. lia.
Qed.
Print Assumptions C40_ether_ntoa_partial.
Theorem C40_order_refuted : exists m addr e bs, length bs = 6%nat /\ Forall (fun b => 0 <= b < 256) bs /\
  bytes_at m e bs /\ room m addr 18 /\ apart addr 18 e 6 /\
  exists m', ether_ntoa m addr e = Ok (m', addr) /\ ~ str_at m' addr (colon_hex bs).
Proof.
  pose (m := mem_of [(100, repeat 7 18); (200, [0x12; 0; 0; 0; 0; 0])]).
  assert (B : bytes_at m 200 [0x12; 0; 0; 0; 0; 0]) by (cbn; repeat split).
  assert (F : Forall (fun b => 0 <= b < 256) [0x12; 0; 0; 0; 0; 0]) by (repeat constructor; lia).
  assert (R : room m 100 18) by rmc.
  assert (A : apart 100 18 200 6) by (unfold apart; lia).
  exists m, 100, 200, [0x12; 0; 0; 0; 0; 0]. repeat (split; auto).
  destruct (ether_ok m 100 200 [0x12; 0; 0; 0; 0; 0] eq_refl F B R A) as (m' & E & S & O). exists m'. split; auto.
  intro S2. cbn in S, S2. destruct S as (S & _), S2 as (S2 & _). rewrite S in S2. vm_compute in S2. discriminate.
Qed.
Print Assumptions C40_order_refuted.
Example C40_case : let m := mem_of [(100, repeat 7 18); (200, [0x12; 0xff; 0; 0xab; 1; 2])] in
  bytes_at m 200 [0x12; 0xff; 0; 0xab; 1; 2] /\ room m 100 18 /\
  colon_hex (map nibble_swap [0x12; 0xff; 0; 0xab; 1; 2])
  = [50; 49; 58; 102; 102; 58; 48; 48; 58; 98; 97; 58; 49; 48; 58; 50; 48].
Proof. cbn zeta. split; [cbn; repeat split|]. split; [rmc|reflexivity]. Qed.

(* ---- C71: gethostname ---- *)
Theorem C71_gethostname : forall m name u s len, str_at m u s -> zlen s <= 64 -> 0 < len <= INT_MAX ->
  room m name len -> apart name len u 65 ->
  exists m', gethostname 0 m name u len = Ok (m', 0)
    /\ str_at m' name (firstn (Z.to_nat (len - 1)) s) /\ same_outside m m' name len.
Proof. exact gethostname_ok. Qed.
Print Assumptions C71_gethostname.
(* nothing is written when uname fails or for a buffer of length 0 *)
Theorem C71_nothing : forall ret m name u len, ret <> 0 \/ len = 0 -> gethostname ret m name u len = Ok (m, ret).
Proof.
  intros ret m name u len [H| ->]; unfold gethostname; destruct (Z.eqb_spec ret 0); auto; congruence.
Qed.
Print Assumptions C71_nothing.
Example C71_case : let m := mem_of [(10, repeat 7 4); (50, [104; 111; 115; 116; 49; 0])] in
  str_at m 50 [104; 111; 115; 116; 49] /\ room m 10 4 /\ apart 10 4 50 65 /\
  firstn (Z.to_nat (4 - 1)) [104; 111; 115; 116; 49] = [104; 111; 115].
Proof. cbn zeta. split; [cbn; repeat split; lia|]. split; [rmc|]. split; [unfold apart; lia|reflexivity]. Qed.
