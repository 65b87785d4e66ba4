(* C151, C152: setjmp and longjmp, the program start. *)
From Verif Require Import Base BaseLemmas AsmModel.
From Coq Require Import Lia ZifyBool.

(* ---- specification ---- *)
(* the registers a function has to preserve (System V ABI for x86-64), without rsp *)
Definition preserved : list rg := [RBX; RBP; R12; R13; R14; R15].
(* [n] words at [a], aligned *)
Definition area (s : mach) (a n : Z) : Prop :=
  0 <= a /\ a + 8 * n <= 2 ^ 64 /\ a mod 8 = 0 /\ forall k, 0 <= k < n -> words s (a + 8 * k) <> None.

(* ---- proofs ---- *)
Lemma ldw_ok s a v : a mod 8 = 0 -> words s a = Some v -> ldw s a = Ok v.
Proof. intros H E. unfold ldw. rewrite H, E. reflexivity. Qed.
Lemma stw_ok s a v : a mod 8 = 0 -> words s a <> None ->
  stw s a v = Ok (mkm (regs s) (zf s) (fun x => if x =? a then Some v else words s x)).
Proof. intros H E. unfold stw. rewrite H. cbn [Z.eqb]. destruct (words s a); [reflexivity|contradiction]. Qed.

Ltac rd := cbn [run bind regs words zf setr rg_eqb rg_n Z.eqb Pos.eqb];
  unfold setr; cbn [regs words zf]; unfold rg_eqb; cbn [rg_n Z.eqb Pos.eqb].
Ltac al := rewrite ?u64_small by lia; Z.div_mod_to_equations; lia.

Theorem C151_setjmp : forall s env sp ra,
  regs s RDI = env -> area s env 8 -> regs s RSP = sp -> area s sp 1 -> sp + 8 < 2 ^ 64 -> words s sp = Some ra ->
  sp < env \/ env + 64 <= sp ->
  exists s1, run 0 0 setjmp_code s = Ok (LGoto ra s1) /\ regs s1 RAX = 0 /\ regs s1 RSP = sp + 8 /\
    (forall r, In r preserved -> regs s1 r = regs s r) /\
    (forall x, ~ (env <= x < env + 64) -> words s1 x = words s x) /\
    (* later, with env intact *)
    forall s2, regs s2 RDI = env -> (forall x, env <= x < env + 64 -> words s2 x = words s1 x) ->
      exists s3, run 0 0 longjmp_code s2 = Ok (LGoto ra s3) /\
        (forall r, In r (RSP :: preserved) -> regs s3 r = regs s1 r) /\
        (forall x, words s3 x = words s2 x) /\
        regs s3 RAX = (if regs s2 RSI =? 0 then 1 else regs s2 RSI).
Proof.
  intros s env sp ra Hd (E1 & E2 & E3 & E4) Hs (S1 & S2 & S3 & S4) S5 Hra D.
  change (2 ^ 64) with 18446744073709551616 in *.
  assert (W : forall k, 0 <= k < 8 -> exists v, words s (env + 8 * k) = Some v).
  { intros k Hk. specialize (E4 k Hk). destruct (words s (env + 8 * k)); [eauto|contradiction]. }
  destruct (W 0) as (v0 & W0); [lia|]. destruct (W 1) as (v1 & W1); [lia|]. destruct (W 2) as (v2 & W2); [lia|].
  destruct (W 3) as (v3 & W3); [lia|]. destruct (W 4) as (v4 & W4); [lia|]. destruct (W 5) as (v5 & W5); [lia|].
  destruct (W 6) as (v6 & W6); [lia|]. destruct (W 7) as (v7 & W7); [lia|]. clear W E4 S4.
  change (8 * 0) with 0 in W0. change (8 * 1) with 8 in W1. change (8 * 2) with 16 in W2. change (8 * 3) with 24 in W3.
  change (8 * 4) with 32 in W4. change (8 * 5) with 40 in W5. change (8 * 6) with 48 in W6. change (8 * 7) with 56 in W7.
  assert (U : forall k, 0 <= k < 64 -> u64 (env + k) = env + k) by (intros; apply u64_small; lia).
  assert (A : forall k, k mod 8 = 0 -> (env + k) mod 8 = 0).
  { intros k Hk. rewrite Zplus_mod, E3, Hk. reflexivity. }
  assert (Q : forall a b, a <> b -> (env + a =? env + b) = false) by (intros; lia).
  assert (Qs : forall a, 0 <= a < 64 -> (sp =? env + a) = false) by (intros; lia).
  unfold setjmp_code.
  assert (R : exists s1, run 0 0 setjmp_code s = Ok (LGoto ra s1) /\
     (forall r, regs s1 r = match r with RAX => 0 | RSP => sp + 8 | RDX => ra | _ => regs s r end) /\
     (forall x, words s1 x = if x =? env + 56 then Some ra else if x =? env + 48 then Some (sp + 8) else
        if x =? env + 40 then Some (regs s R15) else if x =? env + 32 then Some (regs s R14) else
        if x =? env + 24 then Some (regs s R13) else if x =? env + 16 then Some (regs s R12) else
        if x =? env + 8 then Some (regs s RBP) else if x =? env + 0 then Some (regs s RBX) else words s x)).
  { eexists. split; [|split].
    - unfold setjmp_code.
      do 6 (rd; rewrite Hd, U by lia; rewrite stw_ok;
        [|apply A; reflexivity|cbn [words]; rewrite ?Q by lia; rewrite ?W0, ?W1, ?W2, ?W3, ?W4, ?W5; discriminate]).
      rd. rewrite Hs. rewrite (u64_small (sp + 8)) by lia.
      rewrite Hd, U by lia. rewrite stw_ok; [|apply A; reflexivity|cbn [words]; rewrite ?Q by lia; rewrite ?W6; discriminate].
      rd. rewrite Hs, (Z.add_0_r sp). rewrite (u64_small sp) by lia.
      erewrite ldw_ok; [|exact S3|cbn [words]; rewrite ?Qs by lia; exact Hra].
      rd. rewrite Hd, U by lia. rewrite stw_ok; [|apply A; reflexivity|cbn [words]; rewrite ?Q by lia; rewrite ?W7; discriminate].
      rd. rewrite Hs. erewrite ldw_ok; [|exact S3|cbn [words]; rewrite ?Qs by lia; exact Hra].
      rd. rewrite (u64_small (sp + 8)) by lia. reflexivity.
    - intros r. cbn [regs]. destruct r; cbn [rg_n Z.eqb Pos.eqb]; rewrite ?Hs; reflexivity.
    - intros x. reflexivity. }
  destruct R as (s1 & R1 & R2 & R3). exists s1. split; [exact R1|]. split; [apply (R2 RAX)|]. split; [apply (R2 RSP)|].
  split. { intros r Hr. rewrite R2. cbn in Hr. repeat (destruct Hr as [<-|Hr]; [reflexivity|]). contradiction. }
  split. { intros x Hx. rewrite R3. rewrite !(proj2 (Z.eqb_neq _ _)) by lia. reflexivity. }
  intros s2 Hd2 K.
  assert (V : forall k, 0 <= k < 64 -> words s2 (env + k) = words s1 (env + k)) by (intros; apply K; lia).
  set (ax := if regs s2 RSI =? 0 then 1 else regs s2 RSI).
  assert (L : exists s3, run 0 0 longjmp_code s2 = Ok (LGoto ra s3) /\
     (forall r, regs s3 r = match r with RAX => ax | RBX => regs s RBX | RBP => regs s RBP | R12 => regs s R12 |
        R13 => regs s R13 | R14 => regs s R14 | R15 => regs s R15 | RDX => ra | RSP => sp + 8 | _ => regs s2 r end) /\
     (forall x, words s3 x = words s2 x)).
  { unfold longjmp_code, ax. rd.
    destruct (regs s2 RSI =? 0) eqn:Z0; [apply Z.eqb_eq in Z0|]; eexists; (split; [|split]);
    try (rd; rewrite ?Z0;
      do 7 (try rewrite Hd2; rewrite U by lia; erewrite ldw_ok; [|apply A; reflexivity|
        cbn [words]; rewrite V, R3 by lia; rewrite ?Q by lia; rewrite Z.eqb_refl; reflexivity]; rd);
      try rewrite Hd2; rewrite U by lia; erewrite ldw_ok; [|apply A; reflexivity|
        cbn [words]; rewrite V, R3 by lia; rewrite Z.eqb_refl; reflexivity]; rd; reflexivity);
    try (intros r; cbn [regs]; destruct r; cbn [rg_n Z.eqb Pos.eqb]; rewrite ?Z0; reflexivity);
    intros x; reflexivity. }
  destruct L as (s3 & L1 & L2 & L3). exists s3. split; [exact L1|].
  split. { intros r Hr. rewrite L2, R2. cbn in Hr. repeat (destruct Hr as [<-|Hr]; [reflexivity|]). contradiction. }
  split; [exact L3|]. apply (L2 RAX).
Qed.
Print Assumptions C151_setjmp.
(* env at 8000, the stack pointer at 9000 *)
Definition ex_mach : mach := mkm (fun r => match r with RDI => 8000 | RSP => 9000 | _ => 100 + rg_n r end) false
  (fun a => if a =? 9000 then Some 4242 else if (8000 <=? a) && (a <? 8064) then Some 0 else None).
Example C151_setjmp_case : regs ex_mach RDI = 8000 /\ area ex_mach 8000 8 /\ regs ex_mach RSP = 9000 /\ area ex_mach 9000 1 /\
  words ex_mach 9000 = Some 4242 /\ (9000 < 8000 \/ 8000 + 64 <= 9000).
Proof.
  split; [reflexivity|]. split; [|split; [reflexivity|split; [|split; [reflexivity|right; lia]]]].
  - split; [lia|]. split; [lia|]. split; [reflexivity|]. intros k Hk. unfold ex_mach; cbn [words].
    replace (8000 + 8 * k =? 9000) with false by lia. replace (8000 <=? 8000 + 8 * k) with true by lia.
    replace (8000 + 8 * k <? 8064) with true by lia. discriminate.
  - split; [lia|]. split; [lia|]. split; [reflexivity|]. intros k Hk. assert (k = 0) by lia; subst. discriminate.
Qed.

(* the int returned the second time: val, and 1 for val = 0 if the register is clear above it *)
Theorem C151_value_partial : forall rsi rax, 0 <= rsi < 2 ^ 64 -> (u32 rsi <> 0 \/ rsi = 0) ->
  rax = (if rsi =? 0 then 1 else rsi) -> s32 rax = (if s32 rsi =? 0 then 1 else s32 rsi).
Proof.
  intros rsi rax R H ->. destruct (rsi =? 0) eqn:E.
  - apply Z.eqb_eq in E; subst. reflexivity.
  - destruct (s32 rsi =? 0) eqn:F; [|reflexivity]. exfalso. apply Z.eqb_eq in F.
    unfold u32, s32 in *. Z.div_mod_to_equations. lia.
Qed.
Print Assumptions C151_value_partial.
Example C151_value_case : s32 (2 ^ 32 - 5) = -5 /\ u32 (2 ^ 32 - 5) <> 0. Proof. split; [reflexivity|discriminate]. Qed.

(* longjmp(env, 0) with something in the upper half of rsi: setjmp returns 0 again *)
Theorem C151_value_refuted : exists s2 s3, s32 (regs s2 RSI) = 0 /\ run 0 0 longjmp_code s2 = Ok (LGoto 4242 s3) /\ s32 (regs s3 RAX) = 0.
Proof.
  set (w := fun a => if a =? 8056 then Some 4242 else if (8000 <=? a) && (a <? 8064) then Some 0 else None).
  exists (mkm (fun r => match r with RDI => 8000 | RSI => 2 ^ 32 | _ => 0 end) false w).
  eexists. split; [reflexivity|]. split; [reflexivity|]. reflexivity.
Qed.
Print Assumptions C151_value_refuted.

(* ---- C152 ---- *)
(* the stack as the kernel leaves it: argc, argv, 0, envp, 0 *)
Definition initial (s : mach) (argv envp : list Z) : Prop :=
  let sp := regs s RSP in
  let l := Z.of_nat (length argv) :: argv ++ 0 :: envp ++ [0] in
  0 <= sp /\ sp mod 16 = 0 /\ sp + 8 * Z.of_nat (length l) <= 2 ^ 64 /\
  forall i, (i < length l)%nat -> words s (sp + 8 * Z.of_nat i) = Some (nth i l 0).

Theorem C152_start : forall s ra argv envp, initial s argv envp ->
  exists s1 k, run ra 0 start_code s = Ok (LCall s1 k) /\
    (* main(argc, argv, envp) *)
    regs s1 RDI = Z.of_nat (length argv) /\
    (forall i, (i <= length argv)%nat -> words s1 (regs s1 RSI + 8 * Z.of_nat i) = Some (nth i argv 0)) /\
    (forall i, (i <= length envp)%nat -> words s1 (regs s1 RDX + 8 * Z.of_nat i) = Some (nth i envp 0)) /\
    regs s1 RBP = 0 /\ words s1 (regs s1 RSP) = Some ra /\
    (* main returns: _exit(status) *)
    forall s2, exists s3, run ra 0 k s2 = Ok (LSys s3 []) /\ regs s3 RAX = 60 /\ regs s3 RDI = regs s2 RAX.
Proof.
  intros s ra argv envp (P0 & P1 & P2 & P3). set (sp := regs s RSP) in *.
  cbn [length] in P2, P3. rewrite app_length in P2, P3. cbn [length] in P2, P3. rewrite app_length in P2, P3. cbn [length] in P2, P3.
  change (2 ^ 64) with 18446744073709551616 in *.
  assert (W0 : words s sp = Some (Z.of_nat (length argv))).
  { assert (H := P3 0%nat ltac:(lia)). cbn [nth Z.of_nat Z.mul] in H. rewrite Z.add_0_r in H. exact H. }
  assert (A8 : sp mod 8 = 0) by (Z.div_mod_to_equations; lia).
  set (n := Z.of_nat (length argv)) in *.
  eexists. exists [Mov RAX RDI; MovI 60 RAX; Syscall].
  split.
  { unfold start_code. rd. fold sp. rewrite (ldw_ok _ sp n); [|exact A8|exact W0]. rd. fold sp.
    rewrite (u64_small (sp + 8)) by lia. rewrite (u64_small (sp + 8 - 8)) by lia.
    rewrite stw_ok; [|replace (sp + 8 - 8) with sp by lia; exact A8|
      cbn [words]; replace (sp + 8 - 8) with sp by lia; rewrite W0; discriminate].
    rd. reflexivity. }
  cbn [regs words rg_n Z.eqb Pos.eqb]. rewrite ?(u64_small (sp + 8)) by lia. rewrite ?(u64_small (sp + 8 + 8 * n + 8)) by lia.
  split; [reflexivity|]. split; [|split; [|split; [reflexivity|split]]].
  - intros i Hi. replace (sp + 8 + 8 * Z.of_nat i =? sp + 8 - 8) with false by lia.
    replace (sp + 8 + 8 * Z.of_nat i) with (sp + 8 * Z.of_nat (S i)) by lia. rewrite P3 by lia. cbn [nth]. f_equal.
    destruct (Nat.eq_dec i (length argv)) as [->|Ne].
    + rewrite app_nth2, Nat.sub_diag by lia. cbn [nth]. rewrite nth_overflow by lia. reflexivity.
    + rewrite app_nth1 by lia. reflexivity.
  - intros i Hi. replace (sp + 8 + 8 * n + 8 + 8 * Z.of_nat i =? sp + 8 - 8) with false by lia.
    replace (sp + 8 + 8 * n + 8 + 8 * Z.of_nat i) with (sp + 8 * Z.of_nat (S (length argv + S i))) by lia.
    rewrite P3 by lia. cbn [nth]. f_equal. rewrite app_nth2 by lia.
    replace (length argv + S i - length argv)%nat with (S i) by lia. cbn [nth].
    destruct (Nat.eq_dec i (length envp)) as [->|Ne].
    + rewrite app_nth2, Nat.sub_diag by lia. cbn [nth]. rewrite nth_overflow by lia. reflexivity.
    + rewrite app_nth1 by lia. reflexivity.
  - replace (sp + 8 - 8 =? sp + 8 - 8) with true by lia. reflexivity.
  - intros s2. eexists. split; [reflexivity|]. split; reflexivity.
Qed.
Print Assumptions C152_start.
(* two arguments, one variable *)
Definition ex_start : mach := mkm (fun r => match r with RSP => 160 | _ => 1 end) false
  (fun a => if a =? 160 then Some 2 else if a =? 168 then Some 500 else if a =? 176 then Some 510 else
            if a =? 184 then Some 0 else if a =? 192 then Some 520 else if a =? 200 then Some 0 else None).
Example C152_start_case : initial ex_start [500; 510] [520].
Proof.
  unfold initial. cbn [ex_start regs length app]. split; [lia|]. split; [reflexivity|]. split; [vm_compute; discriminate|].
  intros i Hi. do 6 (destruct i as [|i]; [reflexivity|]). lia.
Qed.

(* the ABI wants rsp + 8 to be a multiple of 16 at the first instruction of a function;
   in main it never is *)
Theorem C152_alignment_refuted : exists s argv envp s1 k, initial s argv envp /\ run 0 0 start_code s = Ok (LCall s1 k) /\
  (regs s1 RSP + 8) mod 16 <> 0.
Proof.
  exists ex_start, [500; 510], [520]. do 2 eexists. split; [exact C152_start_case|]. split; [reflexivity|]. vm_compute. discriminate.
Qed.
Print Assumptions C152_alignment_refuted.
