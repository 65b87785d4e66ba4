(* C144: the timespec macros. *)
From Coq Require Import ZifyBool.
From Verif Require Import Base BaseLemmas ConvModel TspecModel.
Ltac Zify.zify_post_hook ::= Z.div_mod_to_equations.

(* the time in nanoseconds, and the form of a struct timespec *)
Definition nanoseconds (t : timespec) : Z := sec t * 1000000000 + nsec t.
Definition normal (t : timespec) : Prop := LONG_MIN <= sec t <= LONG_MAX /\ 0 <= nsec t < 1000000000.
(* a number of nanoseconds a struct timespec can hold *)
Definition fits (n : Z) : Prop := exists t, normal t /\ nanoseconds t = n.

Lemma lar_wrap z : lar false z = Ok (s64 z). Proof. reflexivity. Qed.
Lemma lar_in strict z : LONG_MIN <= z <= LONG_MAX -> lar strict z = Ok z.
Proof. intro H. unfold lar. destruct strict; [now apply lop_ok|]. f_equal. unfold s64, LONG_MIN, LONG_MAX in *. lia. Qed.
Definition same_but (v : Z) (s s' : timespecs) : Prop := forall x, x <> v -> s' x = s x.
Lemma add_ok strict s t u v : normal (s t) -> normal (s u) -> fits (nanoseconds (s t) + nanoseconds (s u)) ->
  (strict = true -> LONG_MIN <= sec (s t) + sec (s u)) ->
  exists s', timespecadd strict s t u v = Ok s' /\ normal (s' v) /\ nanoseconds (s' v) = nanoseconds (s t) + nanoseconds (s u) /\ same_but v s s'.
Proof.
  intros Nt Nu (r & Nr & Er) Hs. unfold normal, nanoseconds in *. set (A := sec (s t) + sec (s u)) in *. set (B := nsec (s t) + nsec (s u)) in *.
  assert (HA : exists a, lar strict A = Ok a /\ (if 1000000000 <=? B then lar strict (a + 1) = Ok (A + 1) else a = A)).
  { destruct (LONG_MIN <=? A) eqn:L.
    - assert (I : LONG_MIN <= A <= LONG_MAX) by (subst A B; unfold LONG_MIN, LONG_MAX in *; lia). exists A. split; [apply lar_in; exact I|]. destruct (1000000000 <=? B) eqn:K; [|reflexivity].
      apply lar_in. subst A B. unfold LONG_MIN, LONG_MAX in *. lia.
    - destruct strict; [specialize (Hs eq_refl); lia|]. exists (s64 A). split; [reflexivity|]. assert (K : A = LONG_MIN - 1 /\ 1000000000 <= B) by (subst A B; unfold LONG_MIN in *; lia).
      destruct K as [K1 K2]. replace (1000000000 <=? B) with true by lia. rewrite K1. reflexivity. }
  destruct HA as (a & E1 & E2). unfold timespecadd. fold A. rewrite E1, bind_Ok.
  assert (Q : nsec (set_sec s v a t) + nsec (set_sec s v a u) = B) by (unfold set_sec, B; destruct (t =? v), (u =? v); reflexivity). rewrite Q.
  rewrite lar_in, bind_Ok by (subst A B; unfold LONG_MIN, LONG_MAX; lia). cbn zeta.
  assert (Qn : nsec (set_nsec (set_sec s v a) v B v) = B) by (unfold set_nsec; now rewrite Z.eqb_refl).
  assert (Qs : sec (set_nsec (set_sec s v a) v B v) = a) by (unfold set_nsec, set_sec; now rewrite !Z.eqb_refl). rewrite Qn, Qs.
  destruct (1000000000 <=? B) eqn:K.
  - rewrite E2, bind_Ok. assert (Qm : nsec (set_sec (set_nsec (set_sec s v a) v B) v (A + 1) v) = B) by (unfold set_sec at 1; rewrite Z.eqb_refl; exact Qn). rewrite Qm.
    rewrite lar_in, bind_Ok by (subst A B; unfold LONG_MIN, LONG_MAX; lia). eexists. split; [reflexivity|]. split; [|split].
    + unfold set_nsec, set_sec. rewrite !Z.eqb_refl. cbn [sec nsec]. subst A B. lia.
    + unfold set_nsec, set_sec. rewrite !Z.eqb_refl. cbn [sec nsec]. subst A B. lia.
    + intros x X. unfold set_nsec, set_sec. destruct (Z.eqb_spec x v); [contradiction|reflexivity].
  - subst a. eexists. split; [reflexivity|]. split; [|split].
    + unfold set_nsec, set_sec. rewrite !Z.eqb_refl. cbn [sec nsec]. subst A B. lia.
    + unfold set_nsec, set_sec. rewrite !Z.eqb_refl. cbn [sec nsec]. subst A B. lia.
    + intros x X. unfold set_nsec, set_sec. destruct (Z.eqb_spec x v); [contradiction|reflexivity].
Qed.
Lemma sub_ok strict s t u v : normal (s t) -> normal (s u) -> fits (nanoseconds (s t) - nanoseconds (s u)) ->
  (strict = true -> sec (s t) - sec (s u) <= LONG_MAX) ->
  exists s', timespecsub strict s t u v = Ok s' /\ normal (s' v) /\ nanoseconds (s' v) = nanoseconds (s t) - nanoseconds (s u) /\ same_but v s s'.
Proof.
  intros Nt Nu (r & Nr & Er) Hs. unfold normal, nanoseconds in *. set (A := sec (s t) - sec (s u)) in *. set (B := nsec (s t) - nsec (s u)) in *.
  assert (HA : exists a, lar strict A = Ok a /\ (if B <? 0 then lar strict (a - 1) = Ok (A - 1) else a = A)).
  { destruct (A <=? LONG_MAX) eqn:L.
    - assert (I : LONG_MIN <= A <= LONG_MAX) by (subst A B; unfold LONG_MIN, LONG_MAX in *; lia). exists A. split; [apply lar_in; exact I|]. destruct (B <? 0) eqn:K; [|reflexivity].
      apply lar_in. subst A B. unfold LONG_MIN, LONG_MAX in *. lia.
    - destruct strict; [specialize (Hs eq_refl); lia|]. exists (s64 A). split; [reflexivity|]. assert (K : A = LONG_MAX + 1 /\ B < 0) by (subst A B; unfold LONG_MAX in *; lia).
      destruct K as [K1 K2]. replace (B <? 0) with true by lia. rewrite K1. reflexivity. }
  destruct HA as (a & E1 & E2). unfold timespecsub. fold A. rewrite E1, bind_Ok.
  assert (Q : nsec (set_sec s v a t) - nsec (set_sec s v a u) = B) by (unfold set_sec, B; destruct (t =? v), (u =? v); reflexivity). rewrite Q.
  rewrite lar_in, bind_Ok by (subst A B; unfold LONG_MIN, LONG_MAX; lia). cbn zeta.
  assert (Qn : nsec (set_nsec (set_sec s v a) v B v) = B) by (unfold set_nsec; now rewrite Z.eqb_refl).
  assert (Qs : sec (set_nsec (set_sec s v a) v B v) = a) by (unfold set_nsec, set_sec; now rewrite !Z.eqb_refl). rewrite Qn, Qs.
  destruct (B <? 0) eqn:K.
  - rewrite E2, bind_Ok. assert (Qm : nsec (set_sec (set_nsec (set_sec s v a) v B) v (A - 1) v) = B) by (unfold set_sec at 1; rewrite Z.eqb_refl; exact Qn). rewrite Qm.
    rewrite lar_in, bind_Ok by (subst A B; unfold LONG_MIN, LONG_MAX; lia). eexists. split; [reflexivity|]. split; [|split].
    + unfold set_nsec, set_sec. rewrite !Z.eqb_refl. cbn [sec nsec]. subst A B. lia.
    + unfold set_nsec, set_sec. rewrite !Z.eqb_refl. cbn [sec nsec]. subst A B. lia.
    + intros x X. unfold set_nsec, set_sec. destruct (Z.eqb_spec x v); [contradiction|reflexivity].
  - subst a. eexists. split; [reflexivity|]. split; [|split].
    + unfold set_nsec, set_sec. rewrite !Z.eqb_refl. cbn [sec nsec]. subst A B. lia.
    + unfold set_nsec, set_sec. rewrite !Z.eqb_refl. cbn [sec nsec]. subst A B. lia.
    + intros x X. unfold set_nsec, set_sec. destruct (Z.eqb_spec x v); [contradiction|reflexivity].
Qed.
(* timespecadd and timespecsub compute the sum and the difference in normal form whenever it can
   be represented, also if v is t or u, and change nothing else.  Partial: with ISO C overflow
   rules the seconds alone have to stay in range (see the refutation). *)
Theorem C144_arithmetic_partial : forall strict s t u v, normal (s t) -> normal (s u) ->
  (fits (nanoseconds (s t) + nanoseconds (s u)) -> (strict = true -> LONG_MIN <= sec (s t) + sec (s u)) ->
   exists s', timespecadd strict s t u v = Ok s' /\ normal (s' v) /\ nanoseconds (s' v) = nanoseconds (s t) + nanoseconds (s u) /\ forall x, x <> v -> s' x = s x) /\
  (fits (nanoseconds (s t) - nanoseconds (s u)) -> (strict = true -> sec (s t) - sec (s u) <= LONG_MAX) ->
   exists s', timespecsub strict s t u v = Ok s' /\ normal (s' v) /\ nanoseconds (s' v) = nanoseconds (s t) - nanoseconds (s u) /\ forall x, x <> v -> s' x = s x).
Proof. intros strict s t u v Nt Nu. split; intros F Hs; [exact (add_ok strict s t u v Nt Nu F Hs)|exact (sub_ok strict s t u v Nt Nu F Hs)]. Qed.
Print Assumptions C144_arithmetic_partial.
(* the six operators of C: comparing as timespeccmp does is comparing the times *)
Inductive operator : (Z -> Z -> bool) -> Prop :=
| o_lt : operator Z.ltb | o_le : operator Z.leb | o_gt : operator Z.gtb | o_ge : operator Z.geb | o_eq : operator Z.eqb
| o_ne : operator (fun x y => negb (x =? y)).
Theorem C144_compare : forall s t u cmp, normal (s t) -> normal (s u) -> operator cmp ->
  timespeccmp s t u cmp = cmp (nanoseconds (s t)) (nanoseconds (s u)).
Proof. intros s t u cmp Nt Nu O. unfold timespeccmp, normal, nanoseconds in *. destruct (Z.eqb_spec (sec (s t)) (sec (s u))); destruct O; lia. Qed.
Print Assumptions C144_compare.
Theorem C144_set : forall s t, normal (s t) ->
  timespecisset s t = negb (nanoseconds (s t) =? 0) /\
  nanoseconds (timespecclear s t t) = 0 /\ timespecisset (timespecclear s t) t = false /\ forall x, x <> t -> timespecclear s t x = s x.
Proof.
  intros s t N. unfold timespecisset, timespecclear, set_sec, set_nsec, normal, nanoseconds in *. rewrite Z.eqb_refl. cbn [sec nsec].
  split; [lia|]. split; [reflexivity|]. split; [reflexivity|]. intros x X. destruct (Z.eqb_spec x t); [contradiction|reflexivity].
Qed.
Print Assumptions C144_set.
(* 1.7 s and 2.6 s: the sum is stored in the first, which gives 4.3 s *)
Example C144_case : let s := fun p => if p =? 1 then {| sec := 1; nsec := 700000000 |} else {| sec := 2; nsec := 600000000 |} in
  normal (s 1) /\ normal (s 2) /\ fits (nanoseconds (s 1) + nanoseconds (s 2)) /\
  (let* s := timespecadd true s 1 2 1 in Ok (s 1, s 2)) = Ok ({| sec := 4; nsec := 300000000 |}, {| sec := 2; nsec := 600000000 |}) /\
  (let* s := timespecsub true s 1 2 2 in Ok (s 2)) = Ok {| sec := -1; nsec := 100000000 |}.
Proof.
  cbn zeta. unfold normal, fits, nanoseconds, LONG_MIN, LONG_MAX. cbn [Z.eqb Pos.eqb sec nsec]. split; [lia|]. split; [lia|]. split; [|split; reflexivity].
  exists {| sec := 4; nsec := 300000000 |}. unfold normal, LONG_MIN, LONG_MAX. cbn [sec nsec]. lia.
Qed.
(* a representable difference, and a representable sum, whose seconds overflow before the carry *)
Theorem C144_overflow_refuted :
  (exists s, normal (s 1) /\ normal (s 2) /\ fits (nanoseconds (s 1) - nanoseconds (s 2)) /\ timespecsub true s 1 2 3 = Fault) /\
  (exists s, normal (s 1) /\ normal (s 2) /\ fits (nanoseconds (s 1) + nanoseconds (s 2)) /\ timespecadd true s 1 2 3 = Fault).
Proof.
  split.
  - exists (fun p => if p =? 1 then {| sec := LONG_MAX; nsec := 0 |} else {| sec := -1; nsec := 1 |}). unfold normal, fits, nanoseconds, LONG_MIN, LONG_MAX. cbn [Z.eqb Pos.eqb sec nsec].
    split; [lia|]. split; [lia|]. split; [|reflexivity]. exists {| sec := 9223372036854775807; nsec := 999999999 |}. unfold normal, LONG_MIN, LONG_MAX. cbn [sec nsec]. lia.
  - exists (fun p => if p =? 1 then {| sec := LONG_MIN; nsec := 999999999 |} else {| sec := -1; nsec := 1 |}). unfold normal, fits, nanoseconds, LONG_MIN, LONG_MAX. cbn [Z.eqb Pos.eqb sec nsec].
    split; [lia|]. split; [lia|]. split; [|reflexivity]. exists {| sec := -9223372036854775808; nsec := 0 |}. unfold normal, LONG_MIN, LONG_MAX. cbn [sec nsec]. lia.
Qed.
Print Assumptions C144_overflow_refuted.
