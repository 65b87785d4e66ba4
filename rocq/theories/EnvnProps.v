(* C187: a number that a program hands on in its environment. *)
From Coq Require Import ZifyBool.
From Verif Require Import Base BaseLemmas ConvModel ConvSpec ConvProofs ConvProofs3 ConvProofs6 ConvProps StrModel StrSpec PrintModel PrintSpec PrintProps CsvProps EnvModel EnvSpec EnvProofs EnvProps.

(* the program (of the user): snprintf(buf,size,"%d",v); setenv(name,buf,1); ... atoi(getenv(name));
   d is the block malloc gives to setenv; the memory and environ after setenv are returned, and the number read *)
Definition hand_on (strict : bool) (efuel fuel : nat) (tmp0 : Z -> Z) (m env : mem) (buf size fmt v name d : Z) : res (mem * mem * Z) :=
  let* o := vsnprintf strict fuel tmp0 m buf size fmt [v] in
  match o with
  | Done m _ =>
      let* r := setenv efuel fuel (malloc_at d) m env name buf 1 in
      let '(m, env, c) := r in
      let* p := getenv efuel fuel m env name in
      let* x := atoi strict fuel m p in Ok (m, env, x)
  | Segv _ _ => Fault
  end.

(* Partial: malloc returns one byte more than setenv asks for (C44), no name is the beginning of another,
   the size is 14 more than the text is long (C49); without INT_MIN where overflow is undefined *)
Theorem C187_number_partial : forall strict tmp0 v n name m env cap ps vs buf size fmt d efuel fuel,
  INT_MIN <= v <= INT_MAX -> (strict = true -> v <> INT_MIN) ->
  env_at m env cap ps vs -> NoDup (map fst vs) -> prefix_free (map fst vs ++ [n]) ->
  name <> 0 -> str_at m name n -> name_ok n -> zlen n <= INT_MAX - 20 ->
  str_at m fmt [37; 100] -> apart fmt 3 buf 12 -> room m buf 12 -> buf <> 0 -> 25 <= size ->
  Forall2 (fun p x => apart p (zlen (text x) + 1) buf 12) ps vs -> apart name (zlen n + 1) buf 12 ->
  d <> 0 -> (forall x, d <= x < d + (zlen n + 13) -> m x = None) ->
  zlen ps + 3 <= cap -> zlen ps + 2 < INT_MAX -> zlen ps + 1 < Z.of_nat efuel ->
  Forall (fun x => (length (text x) < fuel)%nat) vs -> (length n + 16 < fuel)%nat ->
  exists m' env', hand_on strict efuel fuel tmp0 m env buf size fmt v name d = Ok (m', env', v) /\
    (* the other variables are as before *)
    (forall q k, str_at m' q k -> k <> [] -> ~ In 61 k -> k <> n ->
      exists r, getenv efuel fuel m' env' q = Ok r /\ match lookup k vs with Some t => str_at m' r t | None => r = 0 end).
Proof.
  intros strict tmp0 v n name m env cap ps vs buf size fmt d efuel fuel Hv Hs HE ND PF Hn0 Hn Nn Ln Sf Af R Hb0 Hsz Ap An Hd0 Hd Hc1 Hc2 Hef Hfv Hf.
  destruct (itodec_numeral strict v Hv Hs) as (l & N & L & _). nneg l. nneg n.
  assert (FF : formats (fun v => strict = true -> v <> INT_MIN) (fun v => 0 < v) m buf (zlen l + 1) (csv_format 1) [v] l).
  { cbn [csv_format]. rewrite <- (app_nil_r l) at 2. apply f_int; auto; apply f_nil. }
  destruct (C49_output_partial strict tmp0 m buf size fmt (csv_format 1) [v] l fuel Sf) as (m1 & E1 & B1 & O1); auto; try lia.
  { change (zlen (format_text (csv_format 1)) + 1) with 3. unfold apart in *. lia. } { eapply room_sub; [exact R| |]; lia. }
  { change (length (format_text (csv_format 1))) with 2%nat. unfold zlen in *. lia. }
  destruct (numeral_chars v l N) as (Ne & _ & ds & El & D & V).
  assert (Cb : Forall (fun b => 1 <= b <= 255) l).
  { rewrite El. apply Forall_app. split; [unfold minus; destruct (v <? 0); repeat constructor; lia|apply digits_bytes in D; exact D]. }
  assert (S1 : str_at m1 buf l) by (apply bytes_at_app in B1 as [B1 [B2 _]]; apply str_at_intro; auto).
  assert (KS : forall p t, str_at m p t -> apart p (zlen t + 1) buf 12 -> str_at m1 p t).
  { intros p t Ht At. apply (str_at_ext m); auto. intros x Hx. apply O1. unfold apart in *. lia. }
  assert (HE1 : env_at m1 env cap ps vs).
  { destruct HE as (H1 & H2 & H3 & H4). split; [|auto]. clear -H1 Ap KS. induction H1 as [|p x ps vs (A & B & C) H1 IH]; [constructor|].
    inversion Ap; subst. constructor; [|auto]. split; [exact A|]. split; [apply KS; auto|exact C]. }
  assert (Hn1 : str_at m1 name n) by (apply KS; auto).
  assert (VO : var_ok (n, l)). { split; [exact Nn|]. split; [exact Cb|]. cbn [fst snd]. lia. }
  assert (M1 : forall x, m x = None -> m1 x = None).
  { intros x Hx. rewrite O1; auto. intro Hin. apply (R x); [lia|exact Hx]. }
  destruct (C44_history_partial [SetE name n buf l 1 d] m1 env cap ps vs efuel fuel HE1 ND PF) as (m2 & env2 & ER & MK & G).
  { constructor; [|constructor]. cbn [op_args]. auto 6. }
  { cbn [fresh]. split; [exact Hd0|]. split; [|exact I]. intros x Hx. apply M1. apply Hd. lia. }
  { change (zlen [SetE name n buf l 1 d]) with 1. lia. } { change (zlen [SetE name n buf l 1 d]) with 1. lia. }
  { exact Hfv. } { constructor; [|constructor]. cbn [op_size]. unfold text. cbn [fst snd]. rewrite app_length. cbn [length]. unfold zlen in *. lia. }
  { change (zlen [SetE name n buf l 1 d]) with 1. lia. }
  cbn [run_env] in ER. exists m2, env2.
  assert (Hn2 : str_at m2 name n).
  { apply (str_at_ext m1); auto. intros x Hx. apply MK. eapply str_some; eauto. }
  unfold hand_on. rewrite E1, bind_Ok.
  destruct (setenv efuel fuel (malloc_at d) m1 env name buf 1) as [[[m3 env3] c]| |]; cbn [bind] in ER |- *; try discriminate.
  destruct (c =? 0); [|discriminate]. inversion ER. subst m3 env3.
  destruct Nn as (N1 & N2 & N3). destruct (G name n Hn2 N3 N2) as (r & Er & Hr).
  unfold map_after in Hr, G. cbn [fold_left map_op] in Hr, G. unfold str_eqb in Hr at 1. destruct (list_eq_dec Z.eq_dec n n); [|congruence].
  assert (Hr' : str_at m2 r l). { destruct (lookup n vs); [|exact Hr]. exact Hr. }
  split.
  - rewrite Er, bind_Ok.
    assert (EA : atoi strict fuel m2 r = Ok v).
    { rewrite El in Hr'. transitivity (Ok (signed (v <? 0) (value 10 ds)) : res Z); [|now rewrite V]. apply atoi_ok; auto; try (rewrite V; exact Hv).
      - unfold INT_MAX. rewrite <- El. lia.
      - clear -L El Hf. rewrite <- El. unfold zlen in L. lia.
      - intro S. rewrite V, <- El. split; [lia|auto]. }
    now rewrite EA, bind_Ok.
  - intros q k Hq K1 K2 K3. destruct (G q k Hq K1 K2) as (r' & Er' & Hr2). exists r'. split; [exact Er'|].
    unfold str_eqb in Hr2. destruct (list_eq_dec Z.eq_dec k n); [congruence|]. exact Hr2.
Qed.
Print Assumptions C187_number_partial.

(* X=1 before; the number is -17, its name Y *)
Definition ex_envn_m : mem := mem_of [(50, [37; 100; 0]); (60, [89; 0]); (70, repeat 170 30); (110, [88; 61; 49; 0])].
Definition ex_envn_e : mem := mem_of [(0, [110; 0; 0; 0; 0; 0])].
Example C187_case : env_at ex_envn_m ex_envn_e 6 [110] [([88], [49])] /\ str_at ex_envn_m 60 [89] /\ str_at ex_envn_m 50 [37; 100] /\
  room ex_envn_m 70 12 /\ prefix_free [[88]; [89]] /\ (forall x, 300 <= x < 300 + 14 -> ex_envn_m x = None) /\
  match hand_on true 20 40 (fun _ => 7) ex_envn_m ex_envn_e 70 30 50 (-17) 60 300 with
  | Ok (m, env, x) => x = -17 /\ env 0 = Some 110 /\ env 1 = Some 300 /\ bytes_at m 300 [89; 61; 45; 49; 55; 0]
  | _ => False
  end.
Proof.
  split; [|split; [|split; [|split; [|split; [|split]]]]].
  - split; [|split; [|split]].
    + constructor; [|constructor]. split; [discriminate|]. split; [vm_compute; repeat split; discriminate|].
      split; [split; [repeat constructor; cbn; lia|split; [intros [K|[]]; discriminate|discriminate]]|]. split; [repeat constructor; cbn; lia|vm_compute; reflexivity].
    + vm_compute. auto.
    + apply room_check. reflexivity.
    + vm_compute. reflexivity.
  - vm_compute. repeat split; discriminate.
  - vm_compute. repeat split; discriminate.
  - apply room_check. reflexivity.
  - intros a b Ha Hb (t & E). cbn in Ha, Hb. destruct Ha as [<-|[<-|[]]], Hb as [<-|[<-|[]]]; auto; discriminate.
  - intros x Hx. unfold ex_envn_m, mem_of.
    repeat match goal with |- context [zlen ?l] => let n := eval vm_compute in (zlen l) in change (zlen l) with n end.
    repeat match goal with |- context [(?a <=? x) && (x <? ?b)] => replace ((a <=? x) && (x <? b)) with false by lia end. reflexivity.
  - vm_compute. repeat split; reflexivity.
Qed.
(* a name that begins another one takes its place: the number is found, but the other variable is gone
   (a malloc that gives no more than setenv asks for: C44_setenv_refuted) *)
Theorem C187_prefix_refuted : exists m env ps vs n v m' env',
  env_at m env 6 ps vs /\ str_at m 60 n /\ name_ok n /\ room m 70 12 /\ str_at m 50 [37; 100] /\
  hand_on true 20 40 (fun _ => 7) m env 70 30 50 v 60 300 = Ok (m', env', v) /\
  lookup [89; 90] vs = Some [49] /\ str_at m' 120 [89; 90] /\ getenv 20 40 m' env' 120 = Ok 0.
Proof.
  exists (mem_of [(50, [37; 100; 0]); (60, [89; 0]); (70, repeat 170 30); (110, [89; 90; 61; 49; 0]); (120, [89; 90; 0])]), ex_envn_e, [110], [([89; 90], [49])], [89], 5.
  eexists _, _. split; [|split; [|split; [|split; [|split; [|split; [vm_compute; reflexivity|]]]]]].
  - split; [|split; [|split]].
    + constructor; [|constructor]. split; [discriminate|]. split; [vm_compute; repeat split; discriminate|].
      split; [split; [repeat constructor; cbn; lia|split; [intros [K|[K|[]]]; discriminate|discriminate]]|]. split; [repeat constructor; cbn; lia|vm_compute; reflexivity].
    + vm_compute. auto.
    + apply room_check. reflexivity.
    + vm_compute. reflexivity.
  - vm_compute. repeat split; discriminate.
  - split; [repeat constructor; cbn; lia|]. split; [intros [K|[]]; discriminate|discriminate].
  - apply room_check. reflexivity.
  - vm_compute. repeat split; discriminate.
  - split; [reflexivity|]. split; [vm_compute; repeat split; discriminate|vm_compute; reflexivity].
Qed.
Print Assumptions C187_prefix_refuted.
