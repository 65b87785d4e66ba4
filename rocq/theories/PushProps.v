(* C174: saving registers with mpush and mpop. *)
From Verif Require Import Base BaseLemmas AsmModel PushModel.

(* n words below a are memory, aligned and in the address range *)
Definition stack (s : mach) (n : Z) : Prop :=
  let a := regs s RSP in a mod 8 = 0 /\ 8 * n <= a < 2 ^ 64 /\ forall i, 1 <= i <= n -> words s (a - 8 * i) <> None.
(* code between: it leaves the stack pointer and the n saved words as they are *)
Definition keeps (n : Z) (s s' : mach) : Prop :=
  regs s' RSP = regs s RSP /\ forall i, 0 <= i < n -> words s' (regs s RSP + 8 * i) = words s (regs s RSP + 8 * i).
(* [saved] holds the values of the registers of l, the last one at the lowest address *)
Definition saved (s0 s : mach) (l : list rg) : Prop :=
  regs s RSP = regs s0 RSP - 8 * zlen l /\
  (forall i, 0 <= i < zlen l -> words s (regs s0 RSP - 8 - 8 * i) = Some (regs s0 (nth (Z.to_nat i) l RAX))) /\
  (forall r, r <> RSP -> regs s r = regs s0 r) /\
  (forall a, ~ (regs s0 RSP - 8 * zlen l <= a < regs s0 RSP) -> words s a = words s0 a).

Lemma rg_eqb_eq a b : rg_eqb a b = true <-> a = b.
Proof. unfold rg_eqb. rewrite Z.eqb_eq. split; [destruct a, b; cbn; congruence|congruence]. Qed.
Lemma rg_eqb_ne a b : a <> b -> rg_eqb a b = false.
Proof. intros H. destruct (rg_eqb a b) eqn:E; [apply rg_eqb_eq in E; contradiction|reflexivity]. Qed.
Lemma rg_refl a : rg_eqb a a = true.
Proof. now apply rg_eqb_eq. Qed.
Lemma steps_app p q s s' : steps p s = Ok s' -> steps (p ++ q) s = steps q s'.
Proof.
  revert s. induction p as [|i p IH]; intros s E; cbn [steps app] in *; [injection E as <-; reflexivity|].
  destruct (step i s); cbn [bind] in *; try discriminate. now apply IH.
Qed.

Lemma push_list l : forall s, stack s (zlen l) -> ~ In RSP l -> exists s', steps (map Push_ l) s = Ok s' /\ saved s s' l.
Proof.
  induction l as [|r l IH]; intros s (A & B & C) N.
  - exists s. split; [reflexivity|]. split; [unfold zlen; cbn; lia|]. split; [unfold zlen; cbn; lia|]. split; reflexivity.
  - nneg l. replace (zlen (r :: l)) with (zlen l + 1) in * by (unfold zlen; cbn [length]; lia).
    cbn [map steps step]. assert (U : u64 (regs s RSP - 8) = regs s RSP - 8) by (apply u64_small; lia).
    rewrite U. set (s1 := setr RSP (regs s RSP - 8) s). unfold stw.
    replace ((regs s RSP - 8) mod 8) with 0 by (Z.div_mod_to_equations; lia). rewrite Z.eqb_refl.
    change (words s1) with (words s). destruct (words s (regs s RSP - 8)) eqn:E8.
    2:{ exfalso. apply (C 1); [lia|]. replace (regs s RSP - 8 * 1) with (regs s RSP - 8) by lia. exact E8. }
    cbn [bind]. set (s2 := mkm (regs s1) (zf s1) _).
    assert (Sp : regs s2 RSP = regs s RSP - 8) by reflexivity.
    destruct (IH s2) as (s' & Es & (P1 & P2 & P3 & P4)).
    + split; [rewrite Sp; Z.div_mod_to_equations; lia|]. rewrite Sp. split; [lia|]. intros i Hi. unfold s2. cbn [words].
      destruct (Z.eqb_spec (regs s RSP - 8 - 8 * i) (regs s RSP - 8)); [discriminate|].
      replace (regs s RSP - 8 - 8 * i) with (regs s RSP - 8 * (i + 1)) by lia. apply C. lia.
    + intros I. apply N. now right.
    + exists s'. split; [exact Es|]. rewrite Sp in *.
      assert (R2 : forall x, x <> RSP -> regs s2 x = regs s x) by (intros x Hx; unfold s2, s1; cbn [regs setr]; now rewrite rg_eqb_ne).
      unfold saved. replace (zlen (r :: l)) with (zlen l + 1) by (unfold zlen; cbn [length]; lia).
      split; [lia|]. split; [|split].
      * intros i Hi. destruct (Z.eq_dec i 0) as [->|Hn].
        -- cbn [nth Z.to_nat]. rewrite P4 by lia. unfold s2. cbn [words]. replace (regs s RSP - 8 - 8 * 0 =? regs s RSP - 8) with true by lia.
           reflexivity.
        -- replace (regs s RSP - 8 - 8 * i) with (regs s RSP - 8 - 8 - 8 * (i - 1)) by lia. rewrite P2 by lia.
           replace (Z.to_nat i) with (S (Z.to_nat (i - 1))) by lia. cbn [nth]. rewrite R2; [reflexivity|].
           intros I. apply N. right. rewrite <- I. apply nth_In. unfold zlen in *. lia.
      * intros x Hx. rewrite P3, R2; auto.
      * intros a Ha. rewrite P4 by lia. unfold s2. cbn [words]. destruct (Z.eqb_spec a (regs s RSP - 8)); [lia|reflexivity].
Qed.

(* popping a list: the i-th gets the i-th word; a register that occurs more than once gets the last *)
Fixpoint popped (l : list rg) (v : Z -> Z) (i : Z) (r : rg -> Z) : rg -> Z :=
  match l with [] => r | x :: l => popped l v (i + 1) (fun y => if rg_eqb y x then v i else r y) end.
Lemma pop_list l : forall s v, ~ In RSP l -> regs s RSP mod 8 = 0 -> 0 <= regs s RSP -> regs s RSP + 8 * zlen l < 2 ^ 64 ->
  (forall i, 0 <= i < zlen l -> words s (regs s RSP + 8 * i) = Some (v i)) ->
  exists s', steps (map Pop_ l) s = Ok s' /\ regs s' RSP = regs s RSP + 8 * zlen l /\ words s' = words s /\
    (forall r, r <> RSP -> regs s' r = popped l v 0 (regs s) r).
Proof.
  induction l as [|x l IH]; intros s v N A B C V.
  - exists s. split; [reflexivity|]. unfold zlen. cbn. split; [lia|]. split; reflexivity.
  - nneg l. replace (zlen (x :: l)) with (zlen l + 1) in * by (unfold zlen; cbn [length]; lia).
    cbn [map steps step]. unfold ldw. rewrite A, Z.eqb_refl. specialize (V 0 ltac:(lia)) as V0. rewrite Z.mul_0_r, Z.add_0_r in V0. rewrite V0. cbn [bind].
    rewrite u64_small by lia. set (s1 := setr x (v 0) _).
    assert (X : x <> RSP) by (intros ->; apply N; now left).
    assert (Sp : regs s1 RSP = regs s RSP + 8).
    { unfold s1. cbn [regs setr]. rewrite (rg_eqb_ne RSP x) by congruence. now rewrite rg_refl. }
    destruct (IH s1 (fun i => v (i + 1))) as (s' & E & Q1 & Q2 & Q3).
    + intros I. apply N. now right.
    + rewrite Sp. Z.div_mod_to_equations. lia.
    + lia.
    + lia.
    + intros i Hi. rewrite Sp. unfold s1. cbn [words setr]. replace (regs s RSP + 8 + 8 * i) with (regs s RSP + 8 * (i + 1)) by lia. apply V. lia.
    + exists s'. split; [exact E|]. split; [lia|]. split; [exact Q2|]. intros r Hr. rewrite Q3 by exact Hr. cbn [popped].
      assert (G : forall l i (a b : rg -> Z), (forall y, y <> RSP -> a y = b y) ->
        forall y, y <> RSP -> popped l (fun j => v (j + 1)) i a y = popped l v (i + 1) b y).
      { clear. induction l as [|z l IH]; intros i a b H y Hy; cbn [popped]; [now apply H|]. apply IH; [|exact Hy].
        intros u Hu. destruct (rg_eqb u z); [reflexivity|now apply H]. }
      apply (G l 0); [|exact Hr]. intros y Hy. unfold s1. cbn [regs setr]. destruct (rg_eqb y x); [reflexivity|]. now rewrite rg_eqb_ne.
Qed.
Lemma popped_val l v g : forall i r y, (forall j, 0 <= j < zlen l -> v (i + j) = g (nth (Z.to_nat j) l RAX)) ->
  (In y l -> popped l v i r y = g y) /\ (~ In y l -> popped l v i r y = r y).
Proof.
  induction l as [|x l IH]; intros i r y H; cbn [popped].
  - split; [intros []|reflexivity].
  - nneg l. assert (Hv : v i = g x). { specialize (H 0). rewrite Z.add_0_r in H. apply H. unfold zlen. cbn [length]. lia. }
    destruct (IH (i + 1) (fun y => if rg_eqb y x then v i else r y) y) as [I1 I2].
    { intros j Hj. specialize (H (j + 1)). replace (i + (j + 1)) with (i + 1 + j) in H by lia. rewrite H by (unfold zlen in *; cbn [length]; lia).
      replace (Z.to_nat (j + 1)) with (S (Z.to_nat j)) by lia. reflexivity. }
    assert (D : {In y l} + {~ In y l}). { apply in_dec. intros a b. destruct (rg_eqb a b) eqn:E; [left; now apply rg_eqb_eq|right; intros ->; now rewrite rg_refl in E]. }
    split.
    + intros [->|I]; [|now apply I1]. destruct D as [I|I]; [now apply I1|]. rewrite I2 by exact I. now rewrite rg_refl.
    + intros I. rewrite I2 by (intros J; apply I; now right). rewrite rg_eqb_ne; [reflexivity|]. intros ->. apply I. now left.
Qed.

Lemma mpop_rev l : l <> [] -> mpop l = Some (map Pop_ (rev l)).
Proof.
  induction l as [|x l IH]; intros N; [congruence|]. destruct l as [|y l]; [reflexivity|].
  change (mpop (x :: y :: l)) with (match mpop (y :: l) with Some p => Some (p ++ [Pop_ x]) | None => None end).
  rewrite IH by discriminate. change (rev (x :: y :: l)) with (rev (y :: l) ++ [x]). now rewrite map_app.
Qed.
Lemma mpushrev_rev l : l <> [] -> mpushrev l = Some (map Push_ (rev l)).
Proof.
  induction l as [|x l IH]; intros N; [congruence|]. destruct l as [|y l]; [reflexivity|].
  change (mpushrev (x :: y :: l)) with (match mpushrev (y :: l) with Some p => Some (p ++ [Push_ x]) | None => None end).
  rewrite IH by discriminate. change (rev (x :: y :: l)) with (rev (y :: l) ++ [x]). now rewrite map_app.
Qed.
Lemma zlen_rev {A} (l : list A) : zlen (rev l) = zlen l.
Proof. unfold zlen. now rewrite rev_length. Qed.

(* pushing l and popping its reverse around code that keeps the stack *)
Lemma around l s s1 s2 : stack s (zlen l) -> ~ In RSP l -> steps (map Push_ l) s = Ok s1 -> keeps (zlen l) s1 s2 ->
  exists s3, steps (map Pop_ (rev l)) s2 = Ok s3 /\
    regs s3 RSP = regs s RSP /\ (forall r, In r l -> regs s3 r = regs s r) /\ (forall r, r <> RSP -> ~ In r l -> regs s3 r = regs s2 r) /\ words s3 = words s2.
Proof.
  intros St N E (K1 & K2). destruct (push_list l s St N) as (s1' & E' & (P1 & P2 & P3 & P4)).
  rewrite E in E'. injection E' as <-. destruct St as (A & B & _). nneg l.
  assert (V : forall i, 0 <= i < zlen l -> words s2 (regs s2 RSP + 8 * i) = Some (regs s (nth (Z.to_nat i) (rev l) RAX))).
  { intros i Hi. rewrite K1, K2 by exact Hi. rewrite P1. replace (regs s RSP - 8 * zlen l + 8 * i) with (regs s RSP - 8 - 8 * (zlen l - 1 - i)) by lia.
    rewrite P2 by lia. rewrite rev_nth by (unfold zlen in *; lia). do 3 f_equal. unfold zlen in *. lia. }
  destruct (pop_list (rev l) s2 (fun i => regs s (nth (Z.to_nat i) (rev l) RAX))) as (s3 & E3 & Q1 & Q2 & Q3).
  - intros I. apply N. now apply in_rev.
  - rewrite K1, P1. Z.div_mod_to_equations. lia.
  - lia.
  - rewrite zlen_rev. lia.
  - rewrite zlen_rev. exact V.
  - exists s3. split; [exact E3|]. rewrite zlen_rev in Q1. split; [lia|].
    assert (G := fun y => popped_val (rev l) (fun i => regs s (nth (Z.to_nat i) (rev l) RAX)) (regs s) 0 (regs s2) y (fun j Hj => eq_refl)).
    split; [|split; [|exact Q2]].
    + intros r I. rewrite Q3 by (intros ->; contradiction). apply (proj1 (G r)). now apply in_rev in I.
    + intros r Hr I. rewrite Q3 by exact Hr. apply (proj2 (G r)). intros J. apply I. now apply in_rev.
Qed.

(* mpush stores the registers one below the other, and changes no other register and no other memory;
   mpop with the same list gives every register its value again, whatever code was between *)
Theorem C174_mpush : forall l s, l <> [] -> ~ In RSP l -> stack s (zlen l) ->
  exists p q s1, mpush l = Some p /\ mpop l = Some q /\ steps p s = Ok s1 /\ saved s s1 l /\
  forall s2, keeps (zlen l) s1 s2 -> exists s3, steps q s2 = Ok s3 /\
    regs s3 RSP = regs s RSP /\ (forall r, In r l -> regs s3 r = regs s r) /\ (forall r, r <> RSP -> ~ In r l -> regs s3 r = regs s2 r) /\ words s3 = words s2.
Proof.
  intros l s Ne N St. destruct (push_list l s St N) as (s1 & E & Sv). exists (map Push_ l), (map Pop_ (rev l)), s1.
  split; [destruct l; [congruence|reflexivity]|]. split; [now apply mpop_rev|]. split; [exact E|]. split; [exact Sv|].
  intros s2 K. now apply (around l s s1).
Qed.
Print Assumptions C174_mpush.
(* mpushrev and mpoprev: the same with the first register at the lowest address *)
Theorem C174_mpushrev : forall l s, l <> [] -> ~ In RSP l -> stack s (zlen l) ->
  exists p q s1, mpushrev l = Some p /\ mpoprev l = Some q /\ steps p s = Ok s1 /\ saved s s1 (rev l) /\
  forall s2, keeps (zlen l) s1 s2 -> exists s3, steps q s2 = Ok s3 /\
    regs s3 RSP = regs s RSP /\ (forall r, In r l -> regs s3 r = regs s r) /\ (forall r, r <> RSP -> ~ In r l -> regs s3 r = regs s2 r) /\ words s3 = words s2.
Proof.
  intros l s Ne N St. assert (N' : ~ In RSP (rev l)) by (intros I; apply N; now apply in_rev).
  assert (St' : stack s (zlen (rev l))) by now rewrite zlen_rev.
  destruct (push_list (rev l) s St' N') as (s1 & E & Sv). exists (map Push_ (rev l)), (map Pop_ l), s1.
  split; [now apply mpushrev_rev|]. split; [destruct l; [congruence|reflexivity]|]. split; [exact E|]. split; [exact Sv|].
  intros s2 K. rewrite <- (zlen_rev l) in K. destruct (around (rev l) s s1 s2 St' N' E K) as (s3 & E3 & Q1 & Q2 & Q3 & Q4).
  rewrite rev_involutive in E3. exists s3. split; [exact E3|]. split; [exact Q1|]. split; [|split; [|exact Q4]].
  - intros r I. apply Q2. now apply in_rev in I.
  - intros r Hr I. apply Q3; [exact Hr|]. intros J. apply I. now apply in_rev.
Qed.
Print Assumptions C174_mpushrev.

(* mpush %rax,%rbx,%rdi with a stack of ten words; the code between clears %rbx and changes %rsi *)
Definition ms174 : mach := mkm (fun r => if rg_eqb r RSP then 1080 else 100 + rg_n r) false
  (fun a => if (1000 <=? a) && (a <? 1088) && (a mod 8 =? 0) then Some 7 else None).
Example C174_case : stack ms174 3 /\ ~ In RSP [RAX; RBX; RDI] /\
  match mpush [RAX; RBX; RDI], mpop [RAX; RBX; RDI] with
  | Some p, Some q =>
      match steps p ms174 with
      | Ok s1 => words s1 1056 = Some 104 /\ words s1 1072 = Some 100 /\
          (let s2 := setr RBX 0 (setr RSI 5 s1) in keeps 3 s1 s2 /\
           match steps q s2 with Ok s3 => map (regs s3) [RAX; RBX; RDI; RSI; RSP] = [100; 101; 104; 5; 1080] | _ => False end)
      | _ => False end
  | _, _ => False end.
Proof.
  split; [|split].
  - split; [reflexivity|]. split; [vm_compute; intuition discriminate|]. intros i Hi. assert (i = 1 \/ i = 2 \/ i = 3) as [-> | [-> | ->]] by lia; discriminate.
  - cbn. intuition discriminate.
  - assert (K : forall s1, keeps 3 s1 (setr RBX 0 (setr RSI 5 s1))) by (intros s1; split; reflexivity).
    assert (A : match steps (map Push_ [RAX; RBX; RDI]) ms174 with
      | Ok s1 => words s1 1056 = Some 104 /\ words s1 1072 = Some 100 /\
          match steps (map Pop_ [RDI; RBX; RAX]) (setr RBX 0 (setr RSI 5 s1)) with
          | Ok s3 => map (regs s3) [RAX; RBX; RDI; RSI; RSP] = [100; 101; 104; 5; 1080] | _ => False end
      | _ => False end) by (vm_compute; repeat split).
    cbn [mpush irp mpop map app] in *. destruct (steps _ ms174) as [s1| |]; try contradiction. destruct A as (A1 & A2 & A3).
    split; [exact A1|]. split; [exact A2|]. split; [apply K|exact A3].
Qed.
