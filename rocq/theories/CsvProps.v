(* C186: a list of numbers written with snprintf, cut with strtok_r and read with atoi. *)
From Coq Require Import ZifyBool.
From Verif Require Import Base BaseLemmas ConvModel ConvSpec ConvProofs ConvProofs3 ConvProofs6 ConvProps StrModel StrSpec StrProofs3 StrProps PrintModel PrintSpec PrintProps.

(* ---- specification ---- *)
(* the format "%d,%d,...,%d" with n conversions *)
Fixpoint csv_format (n : nat) : list item :=
  match n with O => [] | S O => [Conv [] [] 100] | S k => Conv [] [] 100 :: Lit 44 :: csv_format k end.
(* the texts with a comma between each two *)
Fixpoint joined (l : list (list Z)) : list Z :=
  match l with [] => [] | [t] => t | t :: r => t ++ 44 :: joined r end.

(* ---- proofs ---- *)
Lemma span_unique {A} (D : A -> Prop) : forall t b t' b', Forall (fun x => ~ D x) t -> Forall (fun x => ~ D x) t' ->
  (b = [] \/ exists x r, b = x :: r /\ D x) -> (b' = [] \/ exists x r, b' = x :: r /\ D x) -> t ++ b = t' ++ b' -> t = t' /\ b = b'.
Proof.
  induction t as [|c t IH]; intros b [|c' t'] b' Ht Ht' Hb Hb' E; cbn [app] in E.
  - auto.
  - exfalso. apply Forall_inv in Ht'. destruct Hb as [->|(x & r & -> & Hx)]; inversion E. subst. auto.
  - exfalso. apply Forall_inv in Ht. destruct Hb' as [->|(x & r & -> & Hx)]; inversion E. subst. auto.
  - inversion E as [[E1 E2]]. destruct (IH b t' b') as [-> ->]; auto; try (eapply Forall_inv_tail; eassumption).
Qed.
Lemma fields_joined ls : Forall (fun t => t <> [] /\ Forall (fun x => ~ In x [44]) t) ls -> forall p ts, fields (fun x => In x [44]) p (joined ls) ts -> map snd ts = ls.
Proof.
  induction ls as [|t ls IH]; intros F p ts H.
  - cbn [joined] in H. inversion H as [|? a t b ts' Ha Ht Hn Hb Hf E]; [reflexivity|]. exfalso. destruct a, t; try discriminate. congruence.
  - apply Forall_cons_iff in F as [[Ne Ft] F].
    assert (exists b, joined (t :: ls) = t ++ b /\ ((b = [] /\ ls = []) \/ b = 44 :: joined ls)) as (b & Eb & Hb).
    { destruct ls as [|u ls]; [exists []; cbn [joined]; rewrite app_nil_r; auto|exists (44 :: joined (u :: ls)); cbn [joined]; auto]. }
    rewrite Eb in H. inversion H as [? ? Hall E|? a t' b' ts' Ha Ht Hn Hb' Hf E1 E2 E3].
    + exfalso. destruct t; [congruence|]. subst s. apply Forall_inv in Hall. apply Forall_inv in Ft. auto.
    + assert (a = []) as ->. { destruct a as [|x a]; [reflexivity|]. destruct t as [|c t]; [congruence|]. cbn [app] in E2. inversion E2. subst. exfalso. apply Forall_inv in Ha. apply Forall_inv in Ft. auto. }
      cbn [app] in E2. destruct (span_unique _ t' b' t b Hn Ft Hb') as [-> ->].
      * destruct Hb as [[-> _] | -> ]; [auto|right; exists 44, (joined ls); split; [reflexivity|now left]].
      * exact E2.
      * cbn [map snd]. f_equal. destruct Hb as [[-> ->] | -> ].
        -- inversion Hf as [|? a2 t2 b2 ts2 Ha2 Ht2 Hn2 Hb2 Hf2 E4]; [reflexivity|]. exfalso. destruct a2, t2; try discriminate. congruence.
        -- apply fields_tail in Hf; [|now left]. eapply IH; eauto.
Qed.
(* the numerals of a list of ints *)
Lemma numerals strict vs : Forall (fun v => INT_MIN <= v <= INT_MAX /\ (strict = true -> v <> INT_MIN)) vs ->
  exists ls, Forall2 (fun v l => signed_numeral 10 v l /\ zlen l <= 11) vs ls.
Proof.
  induction 1 as [|v vs [Hv Hs] F (ls & IH)]; [exists []; constructor|]. destruct (itodec_numeral strict v Hv Hs) as (l & N & L & _). exists (l :: ls). constructor; auto.
Qed.
Lemma numeral_chars v l : signed_numeral 10 v l -> l <> [] /\ Forall (fun x => ~ In x [44]) l /\ exists ds, l = minus (v <? 0) ++ ds /\ digits 10 ds /\ signed (v <? 0) (value 10 ds) = v.
Proof.
  assert (C : forall ds, digits 10 ds -> Forall (fun x => ~ In x [44]) ds).
  { intros ds D. eapply Forall_impl; [|exact D]. cbn beta. intros c Hc [<-|[]]. vm_compute in Hc. intuition congruence. }
  unfold signed_numeral. destruct (Z.ltb_spec v 0).
  - intros (r & -> & D & V & Ne & _). split; [discriminate|]. split; [constructor; [intros [|[]]; discriminate|auto]|]. exists r. unfold signed, minus. repeat split; auto. lia.
  - intros (D & V & Ne & _). split; [exact Ne|]. split; [auto|]. exists l. unfold signed, minus. auto.
Qed.
Lemma csv_formats iok uok m buf n vs ls : Forall2 (fun v l => INT_MIN <= v <= INT_MAX /\ iok v /\ signed_numeral 10 v l) vs ls ->
  formats iok uok m buf n (csv_format (length vs)) vs (joined ls).
Proof.
  induction 1 as [|v l vs ls (Hv & Hi & Hn) F IH]; [apply f_nil|]. destruct F as [|v2 l2 vs ls H2 F].
  - cbn [length csv_format joined]. rewrite <- (app_nil_r l). apply f_int; auto; apply f_nil.
  - cbn [length csv_format joined] in *. apply f_int; auto. apply f_lit; [lia|lia|exact IH].
Qed.
Lemma joined_len ls : Forall (fun l => zlen l <= 11) ls -> zlen (joined ls) <= 12 * zlen ls.
Proof.
  induction 1 as [|l ls H F IH]; [vm_compute; discriminate|]. destruct ls as [|u ls]; [cbn [joined]; rewrite zlen_cons; change (zlen (@nil (list Z))) with 0; lia|].
  change (joined (l :: u :: ls)) with (l ++ 44 :: joined (u :: ls)). rewrite zlen_app, zlen_cons. rewrite (zlen_cons l (u :: ls)). lia.
Qed.
Lemma csv_length n : (length (format_text (csv_format n)) <= 3 * n)%nat.
Proof. induction n as [|[|n] IH]; [cbn; lia|cbn; lia|]. change (csv_format (S (S n))) with (Conv [] [] 100 :: Lit 44 :: csv_format (S n)). cbn [format_text flat_map item_text mods_text app length] in *. unfold format_text in IH. lia. Qed.

(* Partial: the size must be 14 more than the text can be long (C49); without INT_MIN where overflow is undefined *)
Theorem C186_list_partial : forall strict tmp0 vs m buf size fmt d last fuel,
  Forall (fun v => INT_MIN <= v <= INT_MAX /\ (strict = true -> v <> INT_MIN)) vs ->
  str_at m fmt (format_text (csv_format (length vs))) -> str_at m d [44] ->
  room m buf (12 * zlen vs + 1) -> 0 < buf -> 12 * zlen vs + 14 <= size ->
  apart fmt (zlen (format_text (csv_format (length vs))) + 1) buf (12 * zlen vs + 1) -> apart buf (12 * zlen vs + 1) d 2 ->
  (15 * length vs + 12 < fuel)%nat ->
  exists m1 n m2 ps, vsnprintf strict fuel tmp0 m buf size fmt vs = Ok (Done m1 n) /\
    strtok_all fuel fuel m1 buf d last = Ok (m2, ps, 0) /\ map (atoi strict fuel m2) ps = map (@Ok Z) vs.
Proof.
  intros strict tmp0 vs m buf size fmt d last fuel Hv Sf Sd R Hb Hs Af Ad Hf. destruct (numerals strict vs Hv) as (ls & N). nneg vs.
  assert (Ln : zlen ls = zlen vs) by (unfold zlen; clear -N; induction N; cbn; lia).
  assert (L11 : Forall (fun l => zlen l <= 11) ls) by (clear -N; induction N as [|? ? ? ? [? ?]]; constructor; auto).
  pose proof (joined_len ls L11) as Lj. rewrite Ln in Lj. nneg (joined ls). pose proof (csv_length (length vs)) as Lc.
  assert (FF : formats (fun v => strict = true -> v <> INT_MIN) (fun v => 0 < v) m buf (zlen (joined ls) + 1) (csv_format (length vs)) vs (joined ls)).
  { apply csv_formats. clear -N Hv. induction N as [|v l vs ls [H1 H2] N IH]; constructor; apply Forall_cons_iff in Hv as [[? ?] Hv]; auto. }
  destruct (C49_output_partial strict tmp0 m buf size fmt _ vs (joined ls) fuel Sf) as (m1 & E1 & B1 & O1); auto; try lia.
  { unfold apart in *. lia. } { eapply room_sub; [exact R| |]; lia. } { unfold zlen in *. lia. }
  assert (G : Forall (fun l => l <> [] /\ Forall (fun x => ~ In x [44]) l) ls).
  { clear -N. induction N as [|v l vs ls [H1 H2] N IH]; constructor; auto. destruct (numeral_chars v l H1) as (? & ? & _). auto. }
  assert (Cb : Forall (fun b => 1 <= b <= 255) (joined ls)).
  { assert (Q : Forall (Forall (fun b => 1 <= b <= 255)) ls).
    { clear -N. induction N as [|v l vs ls [H1 H2] N IH]; constructor; auto. destruct (numeral_chars v l H1) as (_ & _ & ds & -> & D & _).
      apply Forall_app. split; [unfold minus; destruct (v <? 0); repeat constructor; lia|apply digits_bytes in D; exact D]. }
    clear -Q. induction Q as [|l ls H Q IH]; [constructor|]. destruct ls; [exact H|]. change (joined (l :: l0 :: ls)) with (l ++ 44 :: joined (l0 :: ls)). apply Forall_app. split; [exact H|]. constructor; [lia|exact IH]. }
  assert (S1 : str_at m1 buf (joined ls)) by (apply bytes_at_app in B1 as [B1 [B2 _]]; apply str_at_intro; auto).
  assert (Sd1 : str_at m1 d [44]).
  { cbn [str_at] in Sd |- *. unfold apart in Ad. rewrite !O1 by lia. exact Sd. }
  destruct (C13_strtok [44] (joined ls) fuel fuel m1 buf d last S1 Sd1) as (m2 & ts & Hts & E2 & F2 & _); auto.
  { unfold apart in *. change (zlen [44]) with 1. lia. } { unfold zlen in *. lia. } { unfold zlen in *. cbn [length]. lia. }
  exists m1, (zlen (joined ls)), m2, (map fst ts). split; [exact E1|]. split; [exact E2|].
  apply fields_joined in Hts; [|exact G]. subst ls. clear -N Hv F2 Hf.
  assert (Hf' : (12 < fuel)%nat) by lia. clear Hf. revert ts N F2. induction Hv as [|v vs [Hv Hs] Hvs IH]; intros [|[p l] ts] N F2; cbn [map] in *; try (inversion N; fail); [reflexivity|].
  inversion N as [|? ? ? ? [N1 N2] N']. subst. apply Forall_cons_iff in F2 as [S2 F2]. cbn [fst snd] in *. f_equal; [|apply IH; auto].
  destruct (numeral_chars v l N1) as (_ & _ & ds & -> & D & V). transitivity (Ok (signed (v <? 0) (value 10 ds)) : res Z); [|now rewrite V]. apply atoi_ok; auto; try (rewrite V; exact Hv).
  - unfold INT_MAX. lia.
  - unfold zlen in N2. lia.
  - intro S. rewrite V. split; [lia|auto].
Qed.
Print Assumptions C186_list_partial.

(* -17, 0, 2147483647 *)
Definition ex_csv_m : mem := mem_of [(100, repeat 7 60); (300, format_text (csv_format 3) ++ [0]); (400, [44; 0])].
Example C186_case : str_at ex_csv_m 300 (format_text (csv_format 3)) /\ str_at ex_csv_m 400 [44] /\ room ex_csv_m 100 60 /\
  match vsnprintf true 80 (fun _ => 7) ex_csv_m 100 60 300 [-17; 0; 2147483647] with
  | Ok (Done m n) => str_at m 100 [45; 49; 55; 44; 48; 44; 50; 49; 52; 55; 52; 56; 51; 54; 52; 55] /\ n = 16
  | _ => False
  end.
Proof.
  split; [cbn; repeat split; lia|]. split; [cbn; repeat split; lia|]. split; [apply room_check; reflexivity|]. vm_compute. repeat split; discriminate.
Qed.
(* the text fits, but with fewer than 14 bytes more the process is stopped: one number, a buffer of 13 bytes *)
Theorem C186_size_refuted : exists m m1, room m 100 13 /\ str_at m 300 (format_text (csv_format 1)) /\ vsnprintf true 80 (fun _ => 7) m 100 13 300 [5] = Ok (Segv m1 0).
Proof.
  exists (mem_of [(100, repeat 170 13); (300, [37; 100; 0])]). eexists. split; [apply room_check; reflexivity|]. split; [cbn; repeat split; lia|]. vm_compute. reflexivity.
Qed.
Print Assumptions C186_size_refuted.
