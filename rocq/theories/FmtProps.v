(* C136-C138: the functions on top of vsnprintf. *)
From Coq Require Import String.
From Verif Require Import Base BaseLemmas ConvModel ConvSpec ConvProofs ConvProofs3 PrintModel PrintSpec PrintProofs3 PrintProofs5 PrintProps
  ProcSpec ProcProofs StreamModel OutModel OutProofs FmtModel.
Local Open Scope list_scope.

(* ---- C136: printf, fprintf, dprintf ---- *)
(* One write to the descriptor with exactly the formatted text.  Partial: the conditions of
   C49_output_partial: the text is 14 bytes shorter than the buffer, no %u of 0. *)
Theorem C136_fprintf_partial : forall {W} strict (k : kernel W) fuel tmp0 m mbuf size f fmt items args out w,
  str_at m fmt (format_text items) -> apart fmt (zlen (format_text items) + 1) mbuf (zlen out + 1) ->
  formats (fun v => strict = true -> v <> INT_MIN) (fun v => 0 < v) m mbuf (zlen out + 1) items args out ->
  room m mbuf size -> zlen out + 14 <= size <= INT_MAX -> (length (format_text items) + length out + 1 < fuel)%nat ->
  exists m', fprintf strict k fuel tmp0 m mbuf size f fmt args w = Ok (FRet m' (fst (k (fileno f) out w)) (snd (k (fileno f) out w))) /\
    same_outside m m' mbuf size.
Proof.
  intros W strict k fuel tmp0 m mbuf size f fmt items args out w Hs Ha HF R Hsz Hf. nneg out.
  destruct (C49_output_partial strict tmp0 m mbuf size fmt items args out fuel Hs Ha HF) as (m' & E & B & S); [eapply room_sub; [exact R|lia|lia]|lia|exact Hf|].
  exists m'. unfold fprintf, snprintf. rewrite E, bind_Ok. apply bytes_at_app in B as [B _]. rewrite write_ok by (auto; lia). rewrite bind_Ok.
  split; [reflexivity|]. eapply same_outside_weaken; [exact S|lia|lia].
Qed.
Print Assumptions C136_fprintf_partial.
Theorem C136_dprintf_partial : forall {W} strict (k : kernel W) fuel tmp0 m mbuf size over fd fmt items args out w,
  str_at m fmt (format_text items) -> apart fmt (zlen (format_text items) + 1) mbuf (zlen out + 1) ->
  formats (fun v => strict = true -> v <> INT_MIN) (fun v => 0 < v) m mbuf (zlen out + 1) items args out ->
  room m mbuf size -> zlen out + 14 <= size <= INT_MAX -> (length (format_text items) + length out + 1 < fuel)%nat ->
  exists m', dprintf strict k fuel tmp0 m mbuf size over fd fmt args w = Ok (FRet m' (zlen out) (snd (k fd out w))) /\
    same_outside m m' mbuf size.
Proof.
  intros W strict k fuel tmp0 m mbuf size over fd fmt items args out w Hs Ha HF R Hsz Hf. nneg out.
  destruct (C49_output_partial strict tmp0 m mbuf size fmt items args out fuel Hs Ha HF) as (m' & E & B & S); [eapply room_sub; [exact R|lia|lia]|lia|exact Hf|].
  exists m'. unfold dprintf. rewrite E, bind_Ok. apply bytes_at_app in B as [B _]. destruct (Z.ltb_spec (zlen out) 0); [lia|].
  rewrite write_ok by (auto; lia). rewrite bind_Ok. split; [reflexivity|]. eapply same_outside_weaken; [exact S|lia|lia].
Qed.
Print Assumptions C136_dprintf_partial.
Definition m136 : mem := mem_of [(100, repeat 7 40); (300, format_text ex_plain ++ [0]); (400, [104; 105; 0])].
(* a file as a list of bytes; everything is taken *)
Definition k136 : kernel (list Z) := fun fd l w => if fd =? 1 then (zlen l, w ++ l) else (-1, w).
Example C136_case : str_at m136 300 (format_text ex_plain) /\ room m136 100 40 /\
  match fprintf true k136 100 (fun _ => 7) m136 100 40 1 300 [-7; 400] [35] with
  | Ok (FRet _ r w) => r = 6 /\ w = 35 :: txt "-7%:hi" | _ => False end.
Proof. split; [apply strb_ok; reflexivity|]. split; [apply room_check; reflexivity|]. vm_compute. split; reflexivity. Qed.
(* dprintf does not report a failing write: on a descriptor that is not open it returns the length *)
Theorem C136_dprintf_error_refuted : exists (m : mem) mbuf size fmt args (out : list Z),
  str_at m fmt (format_text ex_plain) /\ room m mbuf size /\ zlen out + 14 <= size /\ 0 < zlen out /\
  forall (W : Type) (k : kernel W) fd w, (forall l, k fd l w = (-1, w)) ->
    exists m', dprintf true k 100 (fun _ => 7) m mbuf size 0 fd fmt args w = Ok (FRet m' (zlen out) w).
Proof.
  exists m136, 100, 40, 300, [-7; 400], (txt "-7%:hi"). split; [apply strb_ok; reflexivity|]. split; [apply room_check; reflexivity|].
  split; [vm_compute; discriminate|]. split; [reflexivity|]. intros W k fd w H.
  destruct C49_case as [_ F].
  destruct (C136_dprintf_partial true k 100 (fun _ => 7) m136 100 40 0 fd 300 ex_plain [-7; 400] (txt "-7%:hi") w) as (m' & E & _).
  - apply strb_ok. reflexivity.
  - vm_compute. intuition discriminate.
  - exact F.
  - apply room_check. reflexivity.
  - vm_compute. split; discriminate.
  - apply Nat.ltb_lt. reflexivity.
  - exists m'. rewrite E, H. reflexivity.
Qed.
Print Assumptions C136_dprintf_error_refuted.

(* ---- C137: sprintf ---- *)
(* the text, its 0 and nothing else is written.  Partial: the text has at most mini_buf - 14
   bytes, and the exceptions of C49 *)
Theorem C137_sprintf_partial : forall strict fuel tmp0 mini_buf m str fmt items args out,
  str_at m fmt (format_text items) -> apart fmt (zlen (format_text items) + 1) str (zlen out + 1) ->
  formats (fun v => strict = true -> v <> INT_MIN) (fun v => 0 < v) m str (zlen out + 1) items args out ->
  room m str (zlen out + 1) -> zlen out + 14 <= mini_buf -> (length (format_text items) + length out + 1 < fuel)%nat ->
  exists m', sprintf strict fuel tmp0 mini_buf m str fmt args = Ok (Done m' (zlen out)) /\
    bytes_at m' str (out ++ [0]) /\ same_outside m m' str (zlen out + 1).
Proof. intros. apply C49_output_partial with (items := items); assumption. Qed.
Print Assumptions C137_sprintf_partial.
Example C137_case : let m := mem_of [(100, repeat 7 7); (300, format_text ex_plain ++ [0]); (400, [104; 105; 0])] in
  str_at m 300 (format_text ex_plain) /\ room m 100 7 /\
  match sprintf true 100 (fun _ => 7) 1024 m 100 300 [-7; 400] with Ok (Done m' r) => r = 6 /\ bytes_at m' 100 (txt "-7%:hi" ++ [0]) | _ => False end.
Proof. split; [apply strb_ok; reflexivity|]. split; [apply room_check; reflexivity|]. vm_compute. repeat split. Qed.
(* with a buffer of 100 bytes sprintf of a text with 70 bytes raises SIGSEGV, if mini_buf is 64 *)
Theorem C137_long_refuted : exists m str fmt arg s, room m str 100 /\ str_at m fmt (format_text [Conv [] [] 115]) /\ str_at m arg s /\ zlen s = 70 /\
  match sprintf true 100 (fun _ => 7) 64 m str fmt [arg] with Ok (Segv _ _) => True | _ => False end.
Proof.
  exists (mem_of [(100, repeat 7 100); (300, [37; 115; 0]); (400, repeat 120 70 ++ [0])]), 100, 300, 400, (repeat 120 70).
  split; [apply room_check; reflexivity|]. split; [apply strb_ok; reflexivity|]. split; [apply strb_ok; reflexivity|]. split; [reflexivity|]. vm_compute. exact I.
Qed.
Print Assumptions C137_long_refuted.

(* ---- C138: vsprintf and vfprintf ---- *)
(* a format without conversions that take arguments: right, whatever ap is.  Called with the
   arguments themselves instead of a va_list, vsprintf formats them. *)
Theorem C138_vsprintf_partial : forall strict fuel tmp0 m buf fmt items args out,
  str_at m fmt (format_text items) -> apart fmt (zlen (format_text items) + 1) buf (zlen out + 1) ->
  formats (fun v => strict = true -> v <> INT_MIN) (fun v => 0 < v) m buf (zlen out + 1) items args out ->
  room m buf (zlen out + 1) -> zlen out + 14 <= 4096 -> (length (format_text items) + length out + 1 < fuel)%nat ->
  exists m', vsprintf strict fuel tmp0 m buf fmt args = Ok (Done m' (zlen out)) /\
    bytes_at m' buf (out ++ [0]) /\ same_outside m m' buf (zlen out + 1).
Proof. intros. apply C49_output_partial with (items := items); assumption. Qed.
Print Assumptions C138_vsprintf_partial.
Definition ex_text : list item := [Lit 97; Conv [] [] 37].
Example C138_case : let m := mem_of [(100, repeat 7 3); (300, format_text ex_text ++ [0])] in
  str_at m 300 (format_text ex_text) /\ room m 100 3 /\ forall ap, formats (fun v => true = true -> v <> INT_MIN) (fun v => 0 < v) m 100 3 ex_text [ap] (txt "a%").
Proof.
  split; [apply strb_ok; reflexivity|]. split; [apply room_check; reflexivity|]. intro ap. change (txt "a%") with [97; 37]. apply f_lit; [lia|lia|]. apply f_percent. apply f_nil.
Qed.
(* "%c" prints the lowest byte of the address of the va_list, whatever arguments the list holds *)
Theorem C138_va_list_refuted : forall m buf fmt ap tmp0 {W} (k : kernel W) f w, str_at m fmt (format_text [Conv [] [] 99]) -> apart fmt 3 buf 100 -> room m buf 100 ->
  (exists m', vsprintf true 100 tmp0 m buf fmt [ap] = Ok (Done m' 1) /\ m' buf = Some (ubyte ap)) /\
  (exists m', vfprintf true k 100 tmp0 m buf 100 f fmt ap w = Ok (FRet m' (fst (k (fileno f) [ubyte ap] w)) (snd (k (fileno f) [ubyte ap] w)))).
Proof.
  intros m buf fmt ap tmp0 W k f w F A R. assert (Q : formats (fun v => true = true -> v <> INT_MIN) (fun v => 0 < v) m buf 2 [Conv [] [] 99] [ap] [ubyte ap])
    by (apply f_char; apply f_nil). split.
  - destruct (C138_vsprintf_partial true 100 tmp0 m buf fmt [Conv [] [] 99] [ap] [ubyte ap] F) as (m' & E & B & _).
    + unfold apart in *. change (zlen (format_text [Conv [] [] 99]) + 1) with 3. change (zlen [ubyte ap] + 1) with 2. lia.
    + exact Q.
    + eapply room_sub; [exact R|change (zlen [ubyte ap]) with 1; lia|change (zlen [ubyte ap]) with 1; lia].
    + vm_compute. discriminate.
    + apply Nat.ltb_lt. reflexivity.
    + exists m'. split; [exact E|]. apply B.
  - destruct (C136_fprintf_partial true k 100 tmp0 m buf 100 f fmt [Conv [] [] 99] [ap] [ubyte ap] w F) as (m' & E & _).
    + unfold apart in *. change (zlen (format_text [Conv [] [] 99]) + 1) with 3. change (zlen [ubyte ap] + 1) with 2. lia.
    + exact Q.
    + exact R.
    + vm_compute. split; discriminate.
    + apply Nat.ltb_lt. reflexivity.
    + exists m'. exact E.
Qed.
Print Assumptions C138_va_list_refuted.
Example C138_va_list_case : let m := mem_of [(100, repeat 7 100); (300, [37; 99; 0])] in str_at m 300 (format_text [Conv [] [] 99]) /\ room m 100 100.
Proof. split; [apply strb_ok; reflexivity|apply room_check; reflexivity]. Qed.
