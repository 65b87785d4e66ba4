(* C160: the macros error, err, errx and warn. *)
From Coq Require Import String.
From Verif Require Import Base BaseLemmas ConvModel ConvSpec ConvProofs ConvProofs3 PrintModel PrintSpec PrintProofs3 PrintProofs5 PrintProps
  ProcSpec ProcProofs StreamModel OutModel OutSpec OutProofs OutProofs2 OutProofs3 OutProps FmtModel FmtProps ErrmModel.
Local Open Scope list_scope.

(* a message: the format, its arguments and the text they give, in the cases of C136: the text is 14
   bytes shorter than the buffer, no %u of 0; the strings of the macros lie outside the buffer *)
Record message (strict : bool) (fuel : nat) (m : mem) (mbuf size colon e fmt : Z) (items : list item) (args out : list Z) : Prop := {
  msg_fmt : str_at m fmt (format_text items);
  msg_apart : apart fmt (zlen (format_text items) + 1) mbuf (zlen out + 1);
  msg_out : formats (fun v => strict = true -> v <> INT_MIN) (fun v => 0 < v) m mbuf (zlen out + 1) items args out;
  msg_room : room m mbuf size;
  msg_size : zlen out + 14 <= size <= INT_MAX;
  msg_fuel : (length (format_text items) + length out + 17 < fuel)%nat;
  msg_colon : colon <> 0 /\ str_at m colon [58] /\ apart mbuf size colon 2;
  msg_buf : e <> 0 /\ room m e 18 /\ apart mbuf size e 18 /\ apart e 18 colon 2 }.

Section C160.
Context {W : Type} (strict : bool) (k : kernel W) (content : W -> Z -> list Z) (Ka : takes_all k content).
Variables (fuel : nat) (tmp0 : Z -> Z) (m : mem) (mbuf size colon e fmt : Z) (items : list item) (args out : list Z) (w : W).
Hypothesis M : message strict fuel m mbuf size colon e fmt items args out.
Lemma said : exists m' r w', fprintf strict k fuel tmp0 m mbuf size 2 fmt args w = Ok (FRet m' r w') /\ w' = snd (k 2 out w) /\ wrote content 2 out w w' /\
  same_outside m m' mbuf size.
Proof.
  destruct M. destruct (C136_fprintf_partial strict k fuel tmp0 m mbuf size 2 fmt items args out w) as (m' & E & S); auto; try lia.
  exists m', (fst (k 2 out w)), (snd (k 2 out w)). split; [exact E|]. split; [reflexivity|]. split; [apply Ka|exact S].
Qed.
Lemma reported m1 w1 n : same_outside m m1 mbuf size -> 0 <= n <= 999 ->
  exists m' w', report k fuel colon e m1 n w1 = Ok (m', w') /\ wrote content 2 ([58] ++ errno_text ++ digits3 n) w1 w'.
Proof.
  intros S N. destruct M as [_ _ _ _ _ Fu (C1 & C2 & C3) (E1 & E2 & E3 & E4)]. unfold report.
  destruct (C112_strerror m1 e n) as (m2 & -> & T & S2); [eapply room_same; eauto|exact N|]. rewrite bind_Ok.
  assert (Cs : str_at m2 colon [58]).
  { eapply str_at_ext; [exact C2|]. intros x Hx. change (zlen [58]) with 1 in Hx. unfold apart in *. rewrite S2, S by lia. reflexivity. }
  destruct (dprints_ok k content Ka fuel m2 2 [errno_text ++ digits3 n] [e] colon [58] [] 0 w1) as (w' & E & Wr).
  - constructor; [split; auto|constructor].
  - split; auto.
  - lia.
  - vm_compute. discriminate.
  - cbn. lia.
  - constructor; [cbn; lia|constructor].
  - unfold dprints. cbn [app] in E. rewrite E, bind_Ok. exists m2, w'. split; [reflexivity|]. cbn [concat] in Wr. rewrite app_nil_r in Wr. exact Wr.
Qed.
End C160.

(* error: the text goes to stderr, behind it a colon and the text of errnum unless that is 0; the
   process ends with status unless that is 0.  Nothing else is written. *)
Theorem C160_error_partial : forall W strict (k : kernel W) content fuel tmp0 m mbuf size colon e fmt items args out status errnum w,
  takes_all k content -> message strict fuel m mbuf size colon e fmt items args out -> 0 <= errnum <= 999 ->
  exists m' r w', error strict k fuel tmp0 mbuf size colon e m status errnum fmt args w = Ok (if status =? 0 then FRet m' r w' else FExit m' status w') /\
    wrote content 2 (out ++ (if errnum =? 0 then [] else txt ":Error, errno: " ++ digits3 errnum)) w w'.
Proof.
  intros W strict k content fuel tmp0 m mbuf size colon e fmt items args out status errnum w Ka M N.
  destruct (said strict k content Ka fuel tmp0 m mbuf size colon e fmt items args out w M) as (m1 & r & w1 & E & _ & Wr & S).
  unfold error. rewrite E, bind_Ok. destruct (Z.eqb_spec errnum 0).
  - exists m1, r, w1. rewrite bind_Ok, app_nil_r. split; [destruct (status =? 0); reflexivity|exact Wr].
  - destruct (reported strict k content Ka fuel tmp0 m mbuf size colon e fmt items args out M m1 w1 errnum S N) as (m2 & w2 & E2 & Wr2).
    rewrite E2, bind_Ok. exists m2, r, w2. split; [destruct (status =? 0); reflexivity|]. eapply wrote_app; [exact Wr|exact Wr2].
Qed.
Print Assumptions C160_error_partial.
(* err: the same with the number that errno had when err was called, if a write that succeeds leaves it
   alone; it always ends the process, as errx does; warn only writes the text *)
Theorem C160_err_partial : forall W strict (k : kernel W) content errno_of fuel tmp0 m mbuf size colon e fmt items args out status w,
  takes_all k content -> (forall fd l w, errno_of (snd (k fd l w)) = errno_of w) ->
  message strict fuel m mbuf size colon e fmt items args out -> 0 <= errno_of w <= 999 ->
  (exists m' w', err strict k errno_of fuel tmp0 mbuf size colon e m status fmt args w = Ok (FExit m' status w') /\
    wrote content 2 (out ++ txt ":Error, errno: " ++ digits3 (errno_of w)) w w') /\
  (exists m' w', errx strict k fuel tmp0 mbuf size m status fmt args w = Ok (FExit m' status w') /\ wrote content 2 out w w') /\
  (exists m' r w', warn strict k fuel tmp0 mbuf size m fmt args w = Ok (FRet m' r w') /\ wrote content 2 out w w').
Proof.
  intros W strict k content errno_of fuel tmp0 m mbuf size colon e fmt items args out status w Ka Ke M N.
  destruct (said strict k content Ka fuel tmp0 m mbuf size colon e fmt items args out w M) as (m1 & r & w1 & E & Ew & Wr & S).
  split; [|split].
  - unfold err. rewrite E, bind_Ok. assert (Eq : errno_of w1 = errno_of w) by (rewrite Ew; apply Ke). rewrite Eq.
    destruct (reported strict k content Ka fuel tmp0 m mbuf size colon e fmt items args out M m1 w1 (errno_of w) S N) as (m2 & w2 & E2 & Wr2).
    rewrite E2, bind_Ok. exists m2, w2. split; [reflexivity|]. eapply wrote_app; [exact Wr|exact Wr2].
  - unfold errx. rewrite E, bind_Ok. exists m1, w1. auto.
  - unfold warn. exists m1, r, w1. auto.
Qed.
Print Assumptions C160_err_partial.

(* error(3, 2, "%d%%:%s", -7, "hi") *)
Definition m160 : mem := mem_of [(100, repeat 7 40); (300, format_text ex_plain ++ [0]); (400, [104; 105; 0]); (500, [58; 0]); (600, repeat 7 18)].
Example C160_case : message true 100 m160 100 40 500 600 300 ex_plain [-7; 400] (txt "-7%:hi") /\
  match error true plain 100 (fun _ => 7) 100 40 500 600 m160 3 2 300 [-7; 400] empty with
  | Ok (FExit _ c w) => c = 3 /\ w 2 = txt "-7%:hi:Error, errno: 002" /\ w 1 = [] | _ => False end.
Proof.
  split; [|vm_compute; repeat split]. constructor.
  - apply strb_ok. reflexivity.
  - vm_compute. intuition discriminate.
  - change (zlen (txt "-7%:hi") + 1) with 7. change (txt "-7%:hi") with ([45; 55] ++ 37 :: 58 :: [104; 105] ++ []). unfold ex_plain.
    apply f_int; [unfold INT_MIN, INT_MAX; lia|unfold INT_MIN; lia| |].
    + exists [55]. split; [reflexivity|]. split; [repeat constructor; cbn; lia|]. split; [reflexivity|]. split; [discriminate|cbn; lia].
    + apply f_percent, f_lit; [lia|lia|]. apply f_string; [apply strb_ok; reflexivity|unfold apart; cbn; lia|apply f_nil].
  - apply room_check. reflexivity.
  - vm_compute. split; discriminate.
  - apply Nat.ltb_lt. reflexivity.
  - split; [discriminate|]. split; [apply strb_ok; reflexivity|]. vm_compute. intuition discriminate.
  - split; [discriminate|]. split; [apply room_check; reflexivity|]. split; vm_compute; intuition discriminate.
Qed.

(* err reads errno after it has written the text: if that write is interrupted (errno 4), the report is
   about this and not about the error 2 that the program had *)
Definition k160 : kernel (Z * (Z -> list Z)) := fun fd l w =>
  if fst w =? 2 then (-1, (4, snd w)) else (zlen l, (fst w, fun x => snd w x ++ (if x =? fd then l else []))).
Theorem C160_errno_refuted : exists (k : kernel (Z * (Z -> list Z))) m w m' w', takes_some k snd /\ fst w = 2 /\
  message true 100 m 100 40 500 600 300 ex_plain [-7; 400] (txt "-7%:hi") /\
  err true k fst 100 (fun _ => 7) 100 40 500 600 m 1 300 [-7; 400] w = Ok (FExit m' 1 w') /\ snd w' 2 = txt ":Error, errno: 004".
Proof.
  assert (A : match err true k160 fst 100 (fun _ => 7) 100 40 500 600 m160 1 300 [-7; 400] (2, empty) with
    | Ok (FExit _ c w) => c = 1 /\ snd w 2 = txt ":Error, errno: 004" | _ => False end) by (vm_compute; split; reflexivity).
  destruct (err true k160 fst 100 (fun _ => 7) 100 40 500 600 m160 1 300 [-7; 400] (2, empty)) as [[| |m' c w']| |] eqn:E; try contradiction.
  destruct A as [-> A]. exists k160, m160, (2, empty), m', w'. split; [|split; [reflexivity|split; [exact (proj1 C160_case)|split; [exact E|exact A]]]].
  intros fd l [n w]. unfold k160. cbn [fst snd]. destruct (n =? 2); cbn [fst snd].
  - left. split; [reflexivity|]. intros x. cbn. destruct (x =? fd); now rewrite app_nil_r.
  - right. nneg l. split; [lia|]. unfold zlen. rewrite Nat2Z.id, firstn_all. intros x. reflexivity.
Qed.
Print Assumptions C160_errno_refuted.
