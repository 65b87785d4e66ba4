(* vsnprintf. *)
From Verif Require Import Base BaseLemmas ConvModel ConvSpec PrintModel PrintSpec PrintProofs PrintProofs2 PrintProofs3 PrintProofs4 PrintProofs5 PrintProofs6.

(* ---- C48: never outside [buf, buf+size) ---- *)
(* Partial: conversions % u d x X s c o b f; 'd' with the ' flag only with l, 's' without a width,
   'o' not of INT_MIN, 'b' of 0..32767 and 'f' of numbers in the range of int, both with at most one
   digit of width; no "("; at most 9 digits in a conversion.  The refutations below show what
   happens otherwise. *)
Theorem C48_bounds_partial : forall strict N tmp0 m buf size fmt items args fuel,
  str_at m fmt (format_text items) -> apart fmt (zlen (format_text items) + 1) buf size ->
  Forall well_formed items -> safe_args strict N m buf size items args ->
  room m buf size -> 1 <= size -> (length (format_text items) + N < fuel)%nat ->
  exists o, vsnprintf strict fuel tmp0 m buf size fmt args = Ok o /\
    match o with
    | Done m' b => 0 <= b < size /\ same_outside m m' buf size /\ m' (buf + b) = Some 0
    | Segv m' _ => same_outside m m' buf size
    end.
Proof.
  intros strict N tmp0 m buf size fmt items args fuel Hs Ha Hw HA R Hsz Hf.
  unfold vsnprintf. destruct (print_safe strict N tmp0 buf size fmt items args m 0 0 fuel) as (o & E & F); auto; try lia; try (now rewrite Z.add_0_r).
  exists o. split; [exact E|]. destruct o; exact F.
Qed.
Print Assumptions C48_bounds_partial.

(* "a=%05lx b=%s" *)
Definition ex_fmt : list item := [Lit 97; Lit 61; Conv [([48; 53], 108)] [] 120; Lit 98; Conv [] [] 115].
Example C48_case : let m := mem_of [(100, repeat 7 40); (300, format_text ex_fmt ++ [0]); (400, [104; 105; 0])] in
  str_at m 300 (format_text ex_fmt) /\ apart 300 (zlen (format_text ex_fmt) + 1) 100 40 /\ Forall well_formed ex_fmt /\
  safe_args true 3 m 100 40 ex_fmt [255; 400] /\ room m 100 40.
Proof.
  cbv zeta. split; [cbn; repeat split; lia|]. split; [unfold apart; cbn; lia|]. split; [|split; [|apply room_check; reflexivity]].
  - unfold ex_fmt. constructor; [cbn; lia|]. constructor; [cbn; lia|]. constructor.
    + cbn. unfold digit. split; [constructor; [|constructor]|split; [constructor|lia]]. cbn. split; [repeat constructor; lia|]. repeat split; lia.
    + constructor; [cbn; lia|]. constructor; [cbn; split; [constructor|split; [constructor|lia]]|constructor].
  - unfold ex_fmt. apply s_lit, s_lit, s_hex; [lia|]. apply s_lit. apply (s_string _ _ _ _ _ [] [] 400 [104; 105]); [reflexivity|cbn; repeat split; lia|cbn; lia|unfold apart; cbn; lia|apply s_nil].
Qed.

(* "%o%b%f" with 8, 5 and -0.5 *)
Example C48_case2 : let f := [Conv [] [] 111; Conv [] [53] 98; Conv [] [] 102] in let m := mem_of [(100, repeat 7 90); (300, format_text f ++ [0])] in
  str_at m 300 (format_text f) /\ Forall well_formed f /\ safe_args true 16 m 100 90 f [8; 5; 13826050856027422720] /\
  exists o, vsnprintf true 30 (fun _ => 7) m 100 90 300 [8; 5; 13826050856027422720] = Ok o.
Proof.
  cbv zeta. split; [cbn; repeat split; lia|]. split; [repeat constructor; cbn; lia|]. split; [|vm_compute; eexists; reflexivity].
  apply s_octal; [discriminate|lia|]. apply s_binary; [vm_compute; split; congruence|cbn; lia|].
  apply (s_double _ _ _ _ _ _ _ _ 0 500000000); [vm_compute; reflexivity|discriminate|vm_compute; reflexivity|cbn; lia|apply s_nil].
Qed.

(* "%5s" with size 3 stores at b = 3 *)
Theorem C48_width_refuted : exists m m' b, room m 100 10 /\ str_at m 300 [37; 53; 115] /\ str_at m 400 [] /\
  vsnprintf true 100 (fun _ => 7) m 100 3 300 [400] = Ok (Done m' b) /\ 3 <= b /\ m' 103 <> m 103.
Proof.
  exists (mem_of [(100, repeat 170 20); (300, [37; 53; 115; 0]); (400, [0])]). do 2 eexists.
  split; [apply room_check; reflexivity|]. split; [cbn; repeat split; lia|]. split; [reflexivity|]. split; [vm_compute; reflexivity|]. split; [lia|]. vm_compute. discriminate.
Qed.
Print Assumptions C48_width_refuted.
(* "%'d" of -1000000000: 14 characters and the NUL with size 14 *)
Theorem C48_group_refuted : exists m m', room m 100 20 /\ str_at m 300 [37; 39; 100] /\
  vsnprintf true 100 (fun _ => 7) m 100 14 300 [-1000000000] = Ok (Done m' 14) /\ m' 114 <> m 114.
Proof.
  exists (mem_of [(100, repeat 170 20); (300, [37; 39; 100; 0])]). eexists.
  split; [apply room_check; reflexivity|]. split; [cbn; repeat split; lia|]. split; [vm_compute; reflexivity|]. vm_compute. discriminate.
Qed.
Print Assumptions C48_group_refuted.
(* "%b" of -1 writes 64 characters although only 32 are asked for *)
Theorem C48_binary_refuted : exists m m' b, room m 100 80 /\ str_at m 300 [37; 98] /\
  vsnprintf true 100 (fun _ => 7) m 100 40 300 [-1] = Ok (Done m' b) /\ 40 <= b /\ m' 140 <> m 140.
Proof.
  exists (mem_of [(100, repeat 170 80); (300, [37; 98; 0])]). do 2 eexists.
  split; [apply room_check; reflexivity|]. split; [cbn; repeat split; lia|]. split; [vm_compute; reflexivity|]. split; [lia|]. vm_compute. discriminate.
Qed.
Print Assumptions C48_binary_refuted.
(* "%30f" of 0.0 with size 30: b is moved to 33, the 0 is stored there *)
Theorem C48_double_refuted : exists m m' b, room m 100 40 /\ str_at m 300 [37; 51; 48; 102] /\
  vsnprintf true 100 (fun _ => 7) m 100 30 300 [0] = Ok (Done m' b) /\ 30 <= b /\ m' 133 <> m 133.
Proof.
  exists (mem_of [(100, repeat 170 40); (300, [37; 51; 48; 102; 0])]). do 2 eexists.
  split; [apply room_check; reflexivity|]. split; [cbn; repeat split; lia|]. split; [vm_compute; reflexivity|]. split; [lia|]. vm_compute. discriminate.
Qed.
Print Assumptions C48_double_refuted.
(* "%o" of INT_MIN, and "%f" of 3000000000.0 (out of the range of int), are undefined *)
Theorem C48_range_refuted : exists m, room m 100 80 /\ str_at m 300 [37; 111] /\ str_at m 400 [37; 102] /\
  vsnprintf true 100 (fun _ => 7) m 100 80 300 [-2147483648] = Fault /\
  vsnprintf true 100 (fun _ => 7) m 100 80 400 [4748946463168167936] = Fault.
Proof.
  exists (mem_of [(100, repeat 170 80); (300, [37; 111; 0]); (400, [37; 102; 0])]).
  split; [apply room_check; reflexivity|]. split; [cbn; repeat split; lia|]. split; [cbn; repeat split; lia|]. split; vm_compute; reflexivity.
Qed.
Print Assumptions C48_range_refuted.
(* sixteen or more digits behind "(" overrun the array tmp, whatever the digits, the buffer and the rest *)
Theorem C48_bracket_refuted : forall strict tmp0 m buf size fmt ds r args fuel, str_at m fmt (37 :: 40 :: ds ++ r) -> Forall digit ds ->
  (length ds = 16)%nat -> (19 <= fuel)%nat -> vsnprintf strict fuel tmp0 m buf size fmt args = Fault.
Proof.
  intros strict tmp0 m buf size fmt ds r args fuel Hs Hd Hl Hf. unfold vsnprintf. destruct fuel as [|k]; [lia|]. cbn [print_loop].
  destruct Hs as (H1 & _ & H2 & _ & Hs). rewrite Z.add_0_r, (ldc_ok _ _ _ H1), bind_Ok. change (schar 37 =? 0) with false. change (schar 37 =? 37) with true. cbv iota.
  destruct k as [|k]; [lia|]. cbn [conv_loop]. rewrite Z.add_0_l. rewrite (ldc_ok _ _ _ H2), bind_Ok. change (schar 40 =? 48) with false. cbv iota beta.
  cbn [width_loop]. rewrite (ldc_ok _ _ _ H2), bind_Ok. change ((47 <? schar 40) && (schar 40 <? 58)) with false. cbv iota. rewrite bind_Ok. cbn beta iota.
  rewrite (ldc_ok _ _ _ H2), bind_Ok. unfold switch. cbv zeta. ceq.
  assert (G : forall ds f a tmp, Forall digit ds -> str_at m (fmt + a) (ds ++ r) -> zlen tmp < 16 -> zlen tmp + zlen ds = 16 -> (length ds < f)%nat -> group_loop f m fmt a tmp = Fault).
  { clear. induction ds as [|d ds IH]; intros f a tmp Hd Hs Lt L Hf; [change (zlen (@nil Z)) with 0 in L; lia|]. destruct f as [|f]; [lia|]. cbn [group_loop].
    rewrite zlen_cons in L. cbn [app] in Hs. apply Forall_cons_iff in Hd as [Hd1 Hd]. destruct Hs as (H1 & Hr & Hs). rewrite (ldc_ok _ _ _ H1), bind_Ok.
    unfold digit in Hd1. rewrite schar_digit by lia. assert ((48 <=? d) && (d <=? 57) = true) as -> by lia.
    destruct (Z.ltb_spec (zlen tmp) 15); [|reflexivity]. apply IH; auto.
    - replace (fmt + (a + 1)) with (fmt + a + 1) by lia. exact Hs.
    - rewrite zlen_app. change (zlen [schar d]) with 1. lia.
    - rewrite zlen_app. change (zlen [schar d]) with 1. lia.
    - cbn [length] in Hf. lia. }
  rewrite (G ds); [reflexivity|exact Hd| |change (zlen (@nil Z)) with 0; lia|unfold zlen; cbn [length]; lia|lia].
  replace (fmt + (1 + 1)) with (fmt + 1 + 1) by lia. exact Hs.
Qed.
Print Assumptions C48_bracket_refuted.
(* a format ending in a lone '%' is read behind its NUL *)
Theorem C48_lone_percent_refuted : exists m, room m 100 20 /\ str_at m 300 [37] /\ vsnprintf true 100 (fun _ => 7) m 100 20 300 [] = Fault.
Proof.
  exists (mem_of [(100, repeat 170 20); (300, [37; 0])]).
  split; [apply room_check; reflexivity|]. split; [cbn; repeat split; lia|]. vm_compute. reflexivity.
Qed.
Print Assumptions C48_lone_percent_refuted.

(* ---- C49: the output of plain formats ---- *)
(* Partial: the size must be 14 more than the length of the output (only the bytes of the
   output and the terminator have to exist), and %u of 0 is left out *)
Theorem C49_output_partial : forall strict tmp0 m buf size fmt items args out fuel,
  str_at m fmt (format_text items) -> apart fmt (zlen (format_text items) + 1) buf (zlen out + 1) ->
  formats (fun v => strict = true -> v <> INT_MIN) (fun v => 0 < v) m buf (zlen out + 1) items args out ->
  room m buf (zlen out + 1) -> zlen out + 14 <= size -> (length (format_text items) + length out + 1 < fuel)%nat ->
  exists m', vsnprintf strict fuel tmp0 m buf size fmt args = Ok (Done m' (zlen out)) /\
    bytes_at m' buf (out ++ [0]) /\ same_outside m m' buf (zlen out + 1).
Proof.
  intros strict tmp0 m buf size fmt items args out fuel Hs Ha HF R Hsz Hf. unfold vsnprintf.
  destruct (print_plain_r strict tmp0 buf size (zlen out + 1) fmt items args out m 0 0 fuel) as (m' & E1 & E2 & E3); auto; try lia; try (now rewrite Z.add_0_r).
  rewrite Z.add_0_r in E2, E3. exists m'. auto.
Qed.
Print Assumptions C49_output_partial.

(* "%d%%:%s" with -7 and "hi" *)
Definition ex_plain : list item := [Conv [] [] 100; Conv [] [] 37; Lit 58; Conv [] [] 115].
Example C49_case : let m := mem_of [(100, repeat 7 40); (300, format_text ex_plain ++ [0]); (400, [104; 105; 0])] in
  str_at m 300 (format_text ex_plain) /\
  formats (fun v => true = true -> v <> INT_MIN) (fun v => 0 < v) m 100 7 ex_plain [-7; 400] [45; 55; 37; 58; 104; 105].
Proof.
  cbv zeta. split; [cbn; repeat split; lia|]. unfold ex_plain.
  apply (f_int _ _ _ _ _ (-7) [45; 55]); [unfold INT_MIN, INT_MAX; lia|unfold INT_MIN; lia| |].
  - exists [55]. split; [reflexivity|]. split; [repeat constructor; cbn; lia|]. split; [reflexivity|]. split; [discriminate|cbn; lia].
  - apply f_percent, f_lit; [lia|lia|]. apply (f_string _ _ _ _ _ 400 [104; 105] _ _ []); [cbn; repeat split; lia|unfold apart; cbn; lia|apply f_nil].
Qed.
(* For every size from 1 on: the output comes exactly when the size is enough; otherwise the process is
   stopped, and nothing behind the memory of the complete output has been written. *)
Theorem C49_exact_partial : forall strict tmp0 m buf size fmt items args out fuel,
  let iok := fun v => strict = true -> v <> INT_MIN in
  let uok := fun v => 0 < v in
  str_at m fmt (format_text items) -> apart fmt (zlen (format_text items) + 1) buf (zlen out + 1) ->
  formats iok uok m buf (zlen out + 1) items args out ->
  room m buf (zlen out + 1) -> 1 <= size -> (length (format_text items) + length out + 1 < fuel)%nat ->
  exists r, vsnprintf strict fuel tmp0 m buf size fmt args = Ok r /\
    match r with
    | Done m' n => enough iok uok m buf (zlen out + 1) size 0 items args out /\
        n = zlen out /\ bytes_at m' buf (out ++ [0]) /\ same_outside m m' buf (zlen out + 1)
    | Segv m' _ => ~ enough iok uok m buf (zlen out + 1) size 0 items args out /\ same_outside m m' buf (zlen out + 1)
    end.
Proof.
  intros strict tmp0 m buf size fmt items args out fuel iok uok Hs Ha HF R Hsz Hf. unfold vsnprintf.
  destruct (print_exact strict tmp0 buf size (zlen out + 1) fmt items args out m 0 0 fuel) as [(m' & E1 & E0 & E2 & E3)|(m' & b' & E1 & E0 & E3)];
    auto; try lia; try (now rewrite Z.add_0_r); rewrite E1; eexists; (split; [reflexivity|]); cbv beta iota.
  - rewrite Z.add_0_r in E2, E3. auto.
  - auto.
Qed.
Print Assumptions C49_exact_partial.
(* "a%c%%" with 'b' needs 4 bytes and no more; "%d" of 5 needs 14 *)
Example C49_exact_case : let m := mem_of [(100, repeat 7 4); (300, format_text [Lit 97; Conv [] [] 99; Conv [] [] 37] ++ [0])] in
  let tight := fun size => enough (fun _ => True) (fun _ => True) m 100 4 size 0 [Lit 97; Conv [] [] 99; Conv [] [] 37] [98] [97; 98; 37] in
  tight 4 /\ ~ tight 3 /\
  ~ enough (fun _ => True) (fun _ => True) m 100 4 13 0 [Conv [] [] 100] [5] [53] /\
  enough (fun _ => True) (fun _ => True) m 100 4 14 0 [Conv [] [] 100] [5] [53].
Proof.
  cbv zeta. split; [split; [unfold zlen; cbn; lia|]|split; [intros [H _]; unfold zlen in H; cbn in H; lia|split]].
  - intros [|a [|b [|c pre]]] i post o E HF; injection E; intros; subst.
    + inversion HF; subst. unfold zlen; cbn; lia.
    + inversion HF; subst; clear HF. match goal with H : formats _ _ _ _ _ [] _ _ |- _ => inversion H; subst; clear H end. unfold zlen; cbn; lia.
    + inversion HF; subst; clear HF. match goal with H : formats _ _ _ _ _ _ _ _ |- _ => inversion H; subst; clear H end.
      match goal with H : formats _ _ _ _ _ [] _ _ |- _ => inversion H; subst; clear H end. unfold zlen; cbn; lia.
    + destruct pre; discriminate.
  - intros [_ H]. specialize (H [] (Conv [] [] 100) [] [] eq_refl (f_nil _ _ _ _ _ _)). unfold zlen in H; cbn in H; lia.
  - split; [unfold zlen; cbn; lia|]. intros [|a pre] i post o E HF; injection E; intros; subst.
    + inversion HF; subst. unfold zlen; cbn; lia.
    + destruct pre; discriminate.
Qed.
(* "%u" of 0 gives a blank, not "0" *)
Theorem C49_zero_refuted : exists m m', room m 100 40 /\ str_at m 300 (format_text [Conv [] [] 117]) /\
  formats (fun _ => True) (fun _ => True) m 100 40 [Conv [] [] 117] [0] [48] /\
  vsnprintf true 100 (fun _ => 7) m 100 40 300 [0] = Ok (Done m' 1) /\ m' 100 = Some 32.
Proof.
  exists (mem_of [(100, repeat 170 40); (300, [37; 117; 0])]). eexists.
  split; [apply room_check; reflexivity|]. split; [cbn; repeat split; lia|]. split.
  - apply (f_unsigned _ _ _ _ _ 0 [48] _ _ []); [lia|exact I| |apply f_nil]. split; [repeat constructor; cbn; lia|]. split; [reflexivity|]. split; [discriminate|reflexivity].
  - split; [vm_compute; reflexivity|]. vm_compute. reflexivity.
Qed.
Print Assumptions C49_zero_refuted.
(* the output "5" fits into 4 bytes, but the process is stopped *)
Theorem C49_fits_refuted : exists m m', room m 100 4 /\ str_at m 300 (format_text [Conv [] [] 100]) /\
  formats (fun _ => True) (fun _ => True) m 100 4 [Conv [] [] 100] [5] [53] /\
  vsnprintf true 100 (fun _ => 7) m 100 4 300 [5] = Ok (Segv m' 0).
Proof.
  exists (mem_of [(100, repeat 170 40); (300, [37; 100; 0])]). eexists.
  split; [apply room_check; reflexivity|]. split; [cbn; repeat split; lia|]. split.
  - apply (f_int _ _ _ _ _ 5 [53] _ _ []); [unfold INT_MIN, INT_MAX; lia|exact I| |apply f_nil]. split; [repeat constructor; cbn; lia|]. split; [reflexivity|]. split; [discriminate|cbn; lia].
  - vm_compute. reflexivity.
Qed.
Print Assumptions C49_fits_refuted.

(* ---- C86: widths and the modifier l ---- *)
Local Ltac num := split; [repeat constructor; vm_compute; discriminate|]; split; [reflexivity|]; split; [vm_compute; discriminate|]; vm_compute; (discriminate || reflexivity || lia).
(* Partial: widths up to 9 (decimal ints), 8 (hexadecimal) and 20 (longs); a blank filled
   width is proved for positive ints only; 28 bytes beyond the output are asked for. *)
Theorem C86_width_partial : forall strict tmp0 m buf size fmt items args out fuel,
  str_at m fmt (format_text items) -> apart fmt (zlen (format_text items) + 1) buf size ->
  numbers strict items args out -> room m buf size -> zlen out + 28 <= size -> (length (format_text items) < fuel)%nat ->
  exists m', vsnprintf strict fuel tmp0 m buf size fmt args = Ok (Done m' (zlen out)) /\
    bytes_at m' buf (out ++ [0]) /\ same_outside m m' buf (zlen out + 1).
Proof.
  intros strict tmp0 m buf size fmt items args out fuel Hs Ha HF R Hsz Hf. unfold vsnprintf.
  destruct (print_numbers strict tmp0 buf size fmt items args out m 0 0 fuel) as (m' & E1 & E2 & E3); auto; try lia; try (now rewrite Z.add_0_r).
  rewrite Z.add_0_r in E2, E3. exists m'. auto.
Qed.
Print Assumptions C86_width_partial.
(* "%4u:%02d %04X %ld" with 42, 0, 0xaf, -7 gives "  42:00 00AF -7" *)
Definition ex_width : list item := [Conv [] [52] 117; Lit 58; Conv [] [48; 50] 100; Lit 32; Conv [] [48; 52] 88; Lit 32; Conv [([], 108)] [] 100].
Example C86_case : let m := mem_of [(100, repeat 7 60); (300, format_text ex_width ++ [0])] in
  str_at m 300 (format_text ex_width) /\ room m 100 60 /\
  numbers true ex_width [42; 0; 175; -7] [32; 32; 52; 50; 58; 48; 48; 32; 48; 48; 65; 70; 32; 45; 55].
Proof.
  cbv zeta. split; [cbn; repeat split; lia|]. split; [apply room_check; reflexivity|]. unfold ex_width.
  assert (D : forall l, forallb (fun d => (48 <=? d) && (d <=? 57)) l = true -> Forall digit l).
  { intros l H. apply Forall_forall. intros d Hd. rewrite forallb_forall in H. specialize (H d Hd). unfold digit. lia. }
  apply (ns_conv true [] [52] 117 42 ([32; 32] ++ [52; 50])).
  { apply (num_blanks true 117 [52] 42 [52; 50]); auto; try (cbn; unfold INT_MAX; lia). num. }
  apply ns_lit; [lia|lia|]. apply (ns_conv true [] [48; 50] 100 0 [48; 48]).
  { apply num_zeros; auto; try (cbn; unfold INT_MAX; lia). num. }
  apply ns_lit; [lia|lia|]. apply (ns_conv true [] [48; 52] 88 175 [48; 48; 65; 70]).
  { apply num_hex; auto; try (cbn; unfold INT_MAX; lia). num. }
  apply ns_lit; [lia|lia|]. apply (ns_conv true [([], 108)] [] 100 (-7) [45; 55] [] [] []); [|apply ns_nil].
  apply num_long; [unfold LONG_MIN, LONG_MAX; lia|unfold LONG_MIN; lia|].
  exists [55]. split; [reflexivity|]. num.
Qed.
(* "%5d" of -42 gives "-   42", six characters *)
Theorem C86_negative_refuted : exists m m' w v l n, str_at m 300 (format_text [Conv [] w 100]) /\ room m 100 60 /\
  Forall digit w /\ signed_numeral 10 v l /\ vsnprintf true 100 (fun _ => 7) m 100 60 300 [v] = Ok (Done m' n) /\
  n <> Z.max (value 10 w) (zlen l).
Proof.
  exists (mem_of [(100, repeat 7 60); (300, format_text [Conv [] [53] 100] ++ [0])]). eexists. exists [53], (-42), [45; 52; 50], 6.
  split; [cbn; repeat split; lia|]. split; [apply room_check; reflexivity|]. split; [repeat constructor; unfold digit; lia|].
  split; [exists [52; 50]; split; [reflexivity|]; num|].
  split; [vm_compute; reflexivity|]. vm_compute. discriminate.
Qed.
Print Assumptions C86_negative_refuted.
(* "%4x" fills with zeros *)
Theorem C86_hex_blank_refuted : exists m m' w v l n, str_at m 300 (format_text [Conv [] w 120]) /\ room m 100 60 /\
  Forall digit w /\ hd 0 w <> 48 /\ numeral 16 v l /\ zlen l < value 10 w /\
  vsnprintf true 100 (fun _ => 7) m 100 60 300 [v] = Ok (Done m' n) /\ m' 100 = Some 48.
Proof.
  exists (mem_of [(100, repeat 7 60); (300, format_text [Conv [] [52] 120] ++ [0])]). eexists. exists [52], 10, [97], 4.
  split; [cbn; repeat split; lia|]. split; [apply room_check; reflexivity|]. split; [repeat constructor; unfold digit; lia|].
  split; [cbn; lia|]. split; [num|]. split; [reflexivity|].
  split; [vm_compute; reflexivity|]. vm_compute. reflexivity.
Qed.
Print Assumptions C86_hex_blank_refuted.
