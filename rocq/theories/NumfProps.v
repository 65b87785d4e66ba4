(* C188: reading a file of numbers with fgetud and fgetul. *)
From Coq Require Import ZifyBool.
From Verif Require Import Base BaseLemmas ConvSpec StreamModel StreamSpec StreamProofs StreamProofs2 StreamProps PrintModel PrintSpec.

(* the program (of the user): n calls of get, the results in order; get is fgetud or fgetul *)
Fixpoint read_numbers (get : stream -> res (Z * stream)) (n : nat) (s : stream) : res (list Z * stream) :=
  match n with
  | O => Ok ([], s)
  | S k => let* (v, s) := get s in let* (l, s) := read_numbers get k s in Ok (v :: l, s)
  end.

(* f spells the numbers vs, one behind the other, each followed by one character that is no digit *)
Inductive numbers : list Z -> list Z -> Prop :=
| n_nil : numbers [] []
| n_cons v l c vs f : Forall is_digit l -> l <> [] -> value 10 l = v -> 0 <= c < 256 -> ~ is_digit c -> numbers vs f ->
    numbers (v :: vs) (l ++ c :: f).

Lemma decimal_value : forall l a, Forall is_digit l -> decimal a l = fold_left (fun v b => 10 * v + digval b) l a.
Proof.
  induction l as [|c l IH]; intros a H; cbn [decimal fold_left]; [reflexivity|]. apply Forall_cons_iff in H as [H1 H2]. unfold is_digit in H1.
  rewrite IH by assumption. f_equal. unfold digval. assert ((48 <=? c) && (c <=? 57) = true) as -> by lia. lia.
Qed.
Lemma numbers_bytes vs f : numbers vs f -> Forall (fun c => 0 <= c < 256) f.
Proof.
  induction 1; [constructor|]. apply Forall_app. split; [|constructor; assumption].
  eapply Forall_impl; [|eassumption]. unfold is_digit. intros; lia.
Qed.

Section READ.
Variable N : Z.
Hypothesis HN : 1000 < N.
Variable wrap : Z -> Z.
Hypothesis Hwrap : forall z, wrap z = z mod N.
Lemma read_ok fuel : forall vs f rest s, numbers vs f -> wok s -> cont s = f ++ rest -> Forall (fun c => 0 <= c < 256) rest ->
  (length f < fuel)%nat ->
  exists s', read_numbers (fun s => fgetud_loop wrap fuel s 0) (length vs) s = Ok (map (fun v => v mod N) vs, s') /\ cont s' = rest /\ wok s'.
Proof.
  induction vs as [|v vs IH]; intros f rest s HF Hw Hc Hr Hf; inversion HF as [|? l c ? g Hl Hne Hv Hc0 Hcd HF']; subst; cbn [length read_numbers map].
  - exists s. auto.
  - pose proof (numbers_bytes _ _ HF') as Hg. rewrite app_length in Hf. cbn [length] in Hf.
    destruct (fgetud_ok N HN wrap Hwrap l (c :: g ++ rest) fuel s 0) as (s1 & E1 & E2 & E3); auto; try lia.
    + rewrite Hc. rewrite <- app_assoc. apply Forall_app. split; [eapply Forall_impl; [|exact Hl]; unfold is_digit; intros; lia|].
      constructor; [assumption|]. apply Forall_app. split; assumption.
    + rewrite Hc, <- app_assoc. reflexivity.
    + rewrite E1, bind_Ok. cbn [tl] in E2. destruct (IH g rest s1 HF' E3 E2 Hr ltac:(lia)) as (s2 & A1 & A2 & A3).
      rewrite A1, bind_Ok. exists s2. split; [|auto]. do 3 f_equal. unfold value. now rewrite decimal_value.
Qed.
Lemma read_end fuel : forall n s, wok s -> cont s = [] -> (0 < fuel)%nat ->
  read_numbers (fun s => fgetud_loop wrap fuel s 0) n s = Ok (repeat 0 n, s).
Proof.
  induction n as [|n IH]; intros s Hw Hc Hf; cbn [read_numbers repeat]; [reflexivity|].
  destruct fuel as [|k]; [lia|]. cbn [fgetud_loop]. destruct (fgetc s) as [x s'] eqn:E.
  assert (Hb : Forall (fun c => 0 <= c < 256) (cont s)) by (rewrite Hc; constructor).
  destruct (fgetc_ok _ _ _ Hw Hb E) as [(_ & -> & ->)|[E1 _]]; [|rewrite Hc in E1; discriminate].
  change (ubyte 0) with 0. cbn [Z.eqb negb andb]. rewrite bind_Ok. cbn [fgetud_loop] in IH. rewrite IH by (auto; lia). reflexivity.
Qed.
End READ.

(* n calls read the n numbers of the file (modulo 2^32 or 2^64) and leave what follows *)
Theorem C188_numbers : forall fuel vs f rest s, INT_MIN <= word s <= INT_MAX -> numbers vs f ->
  content (word s) (input s) = f ++ rest -> Forall (fun c => 0 <= c < 256) rest -> (length f < fuel)%nat ->
  exists s1 s2,
    read_numbers (fgetud fuel) (length vs) s = Ok (map (fun v => v mod 2 ^ 32) vs, s1) /\ content (word s1) (input s1) = rest /\
    read_numbers (fgetul fuel) (length vs) s = Ok (map (fun v => v mod 2 ^ 64) vs, s2) /\ content (word s2) (input s2) = rest.
Proof.
  intros fuel vs f rest s Hw HF Hc Hr Hf.
  destruct (read_ok 4294967296 ltac:(lia) u32 ltac:(reflexivity) fuel vs f rest s) as (s1 & A1 & A2 & _); auto.
  destruct (read_ok 18446744073709551616 ltac:(lia) u64 ltac:(reflexivity) fuel vs f rest s) as (s2 & B1 & B2 & _); auto.
  exists s1, s2. auto.
Qed.
Print Assumptions C188_numbers.
Example C188_case : numbers [12; 0; 7] [49; 50; 10; 48; 44; 48; 55; 10].
Proof.
  apply (n_cons 12 [49; 50] 10); [repeat constructor; unfold is_digit; lia|discriminate|reflexivity|lia|unfold is_digit; lia|].
  apply (n_cons 0 [48] 44); [repeat constructor; unfold is_digit; lia|discriminate|reflexivity|lia|unfold is_digit; lia|].
  apply (n_cons 7 [48; 55] 10); [repeat constructor; unfold is_digit; lia|discriminate|reflexivity|lia|unfold is_digit; lia|]. constructor.
Qed.
Example C188_run : read_numbers (fgetud 20) 3 {| word := 3; input := [49; 50; 10; 48; 44; 48; 55; 10] |} = Ok ([12; 0; 7], {| word := 3; input := [] |}).
Proof. reflexivity. Qed.

(* The end of the file can't be seen: behind the last number each call returns 0, and the stream is the
   same as behind a number 0 at the end of the file, so that feof and ferror can't tell them apart *)
Theorem C188_end_refuted : exists f1 f2, numbers [5] f1 /\ numbers [5; 0] f2 /\
  forall fuel n, (3 < fuel)%nat -> (2 <= n)%nat ->
    exists l s, read_numbers (fgetud fuel) n {| word := 3; input := f1 |} = Ok (l, s) /\ read_numbers (fgetud fuel) n {| word := 3; input := f2 |} = Ok (l, s).
Proof.
  exists [53; 10], [53; 10; 48; 10]. split; [|split].
  - apply (n_cons 5 [53] 10); [repeat constructor; unfold is_digit; lia|discriminate|reflexivity|lia|unfold is_digit; lia|]. constructor.
  - apply (n_cons 5 [53] 10); [repeat constructor; unfold is_digit; lia|discriminate|reflexivity|lia|unfold is_digit; lia|].
    apply (n_cons 0 [48] 10); [repeat constructor; unfold is_digit; lia|discriminate|reflexivity|lia|unfold is_digit; lia|]. constructor.
  - intros fuel n Hf Hn. destruct fuel as [|[|[|[|k]]]]; try lia. destruct n as [|[|n]]; try lia.
    pose proof (read_end 4294967296 u32 ltac:(reflexivity) (S (S (S (S k)))) n {| word := 3; input := [] |} ltac:(unfold wok, INT_MIN, INT_MAX; cbn; lia) eq_refl ltac:(lia)) as R.
    change (fun s => fgetud_loop u32 (S (S (S (S k)))) s 0) with (fgetud (S (S (S (S k))))) in R.
    assert (E1 : forall i, fgetud (S (S (S (S k)))) {| word := 3; input := 53 :: 10 :: i |} = Ok (5, {| word := 3; input := i |})) by reflexivity.
    assert (E2 : fgetud (S (S (S (S k)))) {| word := 3; input := [48; 10] |} = Ok (0, {| word := 3; input := [] |})) by reflexivity.
    assert (E3 : fgetud (S (S (S (S k)))) {| word := 3; input := [] |} = Ok (0, {| word := 3; input := [] |})) by reflexivity.
    do 2 eexists. cbn [read_numbers]. rewrite !E1, !bind_Ok, E2, E3, !bind_Ok, R, !bind_Ok. split; reflexivity.
Qed.
Print Assumptions C188_end_refuted.

(* An empty line, or a blank behind a comma, is read as a number 0 *)
Theorem C188_separators_refuted : exists s', read_numbers (fgetud 9) 3 {| word := 3; input := [53; 44; 32; 55; 10] |} = Ok ([5; 0; 7], s').
Proof. eexists. vm_compute. reflexivity. Qed.
Print Assumptions C188_separators_refuted.
(* What fprintf(f,"%u\n",v) writes for v = 0 is no number: " \n", read as two *)
Theorem C188_zero_refuted : exists m m' s', str_at m 300 (format_text [Conv [] [] 117; Lit 10]) /\
  vsnprintf true 100 (fun _ => 7) m 100 40 300 [0] = Ok (Done m' 2) /\ bytes_at m' 100 [32; 10; 0] /\
  read_numbers (fgetud 9) 2 {| word := 3; input := [32; 10; 53; 10] |} = Ok ([0; 0], s').
Proof.
  exists (mem_of [(100, repeat 170 40); (300, [37; 117; 10; 0])]). do 2 eexists.
  split; [cbn; repeat split; lia|]. split; [vm_compute; reflexivity|]. split; [vm_compute; repeat split|]. vm_compute. reflexivity.
Qed.
Print Assumptions C188_zero_refuted.
