(* C128, C129: map_protected and unmap_protected. *)
From Verif Require Import Base BaseLemmas ConvModel ConvProofs6 PageModel PageSpec PageProofs.
Ltac Zify.zify_post_hook ::= Z.div_mod_to_equations.

(* ---- C128 ---- *)
(* The dead load of the mprotect wrapper is left out by the compiler, and memory is
   available.  Missing: a length that is a multiple of the page size is not rounded up
   to itself, see below. *)
Theorem C128_map_partial : forall strict mini_errno choose word pg len, 0 <= len <= INT_MAX - 12288 -> kernel_ok choose pg ->
  (forall n, exists a, choose n = inl a) ->
  exists pg' p n, map_protected strict false mini_errno choose word pg len = Ok (pg', p) /\ guarded pg' p n /\
    len <= n * 4096 <= len + 4096 /\ (len mod 4096 <> 0 -> n * 4096 < len + 4096) /\
    (forall x, x < p / 4096 - 1 \/ p / 4096 + n < x -> pg' x = pg x) /\
    (forall x, p / 4096 - 1 <= x <= p / 4096 + n -> pg x = None).
Proof.
  intros strict me choose word pg len H K C. destruct (C ((usable len + 2) * 4096)) as (a & Ea).
  destruct (map_ok strict me choose word pg len a H K Ea) as (pg' & E & A & B & _ & V & O).
  assert (U : usable len = len / 4096 + 1) by reflexivity.
  exists pg', (a + 4096), (usable len). split; [exact E|]. split.
  { split; [lia|]. split; [|split].
    - rewrite V. replace ((a / 4096 <=? _) && _) with true by lia. replace ((_ =? a / 4096) || _) with true by lia. reflexivity.
    - rewrite V. replace ((a / 4096 <=? _) && _) with true by lia. replace ((_ =? a / 4096) || _) with true by lia. reflexivity.
    - intros x Hx. rewrite V. replace ((a / 4096 <=? x) && _) with true by lia. replace ((x =? a / 4096) || _) with false by lia. reflexivity. }
  split; [lia|]. split; [lia|]. split.
  - intros x Hx. rewrite V. replace ((a / 4096 <=? x) && _) with false by lia. reflexivity.
  - intros x Hx. apply O. lia.
Qed.
Print Assumptions C128_map_partial.
(* "len rounded up to the next pagesize": every multiple of the page size gets one page
   too many, so that the byte behind the buffer is not protected *)
Theorem C128_rounding_refuted : forall strict mini_errno choose word pg len, 0 <= len <= INT_MAX - 12288 -> kernel_ok choose pg ->
  (forall n, exists a, choose n = inl a) -> len mod 4096 = 0 ->
  exists pg' p, map_protected strict false mini_errno choose word pg len = Ok (pg', p) /\ pg' ((p + len) / 4096) = Some 3.
Proof.
  intros strict me choose word pg len H K C D. destruct (C ((usable len + 2) * 4096)) as (a & Ea).
  destruct (map_ok strict me choose word pg len a H K Ea) as (pg' & E & A & B & _ & V & O).
  assert (U : usable len = len / 4096 + 1) by reflexivity.
  exists pg', (a + 4096). split; [exact E|]. rewrite V. replace ((a / 4096 <=? _) && _) with true by lia. replace ((_ =? a / 4096) || _) with false by lia. reflexivity.
Qed.
Print Assumptions C128_rounding_refuted.
(* no memory: "-1 returned, or the negative errno value", but the result is 4095 or
   4096 - errno *)
Theorem C128_failure_refuted : forall strict reads mini_errno choose word pg len e, 0 <= len <= INT_MAX - 12288 -> 1 <= e <= 133 ->
  (forall n, choose n = inr e) ->
  map_protected strict reads mini_errno choose word pg len = Ok (pg, if mini_errno then 4095 else 4096 - e).
Proof.
  intros strict reads me choose word pg len e H He C. unfold map_protected. rewrite round_len_ok by auto. rewrite bind_Ok. rewrite total_ok by auto. rewrite bind_Ok.
  assert (U : 1 <= usable len) by (unfold usable; lia). assert (U2 : usable len <= 2147483647) by (unfold usable, INT_MAX in *; lia). unfold mmap. replace (_ <=? 0) with false by lia. rewrite C. unfold bad.
  assert (M : forall k, 1 <= k <= 133 -> u64 (- k) = 18446744073709551616 - k /\ (u64 (- k)) mod 4096 <> 0 /\
    u64 (u64 (- k) + (usable len + 2) * 4096 - PAGESIZE) mod 4096 <> 0 /\ u64 (u64 (- k) + PAGESIZE) = 4096 - k).
  { intros k Hk. assert (E : u64 (- k) = 18446744073709551616 - k) by (unfold u64; lia). rewrite E. split; [reflexivity|]. split; [lia|]. unfold PAGESIZE, u64. split; lia. }
  destruct me.
  - destruct (M 1) as (M1 & M2 & M3 & M4); [lia|]. change (- (1)) with (-1) in *. replace (u64 (-1) <=? 0) with false by lia. unfold mprotect1 at 1. replace (u64 (-1) mod 4096 =? 0) with false by lia. cbn [negb]. rewrite bind_Ok.
    unfold mprotect1. replace (u64 _ mod 4096 =? 0) with false by lia. cbn [negb]. rewrite bind_Ok. rewrite M4. reflexivity.
  - destruct (M e) as (M1 & M2 & M3 & M4); [lia|]. replace (u64 (- e) <=? 0) with false by lia. unfold mprotect1 at 1. replace (u64 (- e) mod 4096 =? 0) with false by lia. cbn [negb]. rewrite bind_Ok.
    unfold mprotect1. replace (u64 _ mod 4096 =? 0) with false by lia. cbn [negb]. rewrite bind_Ok. rewrite M4. reflexivity.
Qed.
Print Assumptions C128_failure_refuted.
(* compiled without leaving out the load of the wrapper: every call faults *)
Theorem C128_wrapper_refuted : forall strict mini_errno choose word pg len, 0 <= len <= INT_MAX - 12288 -> kernel_ok choose pg ->
  (forall n, exists a, choose n = inl a) -> map_protected strict true mini_errno choose word pg len = Fault.
Proof.
  intros strict me choose word pg len H K C. destruct (C ((usable len + 2) * 4096)) as (a & Ea).
  assert (U : 1 <= usable len) by (unfold usable; lia). pose proof (K ((usable len + 2) * 4096) ltac:(lia)) as K1. rewrite Ea in K1. destruct K1 as (K1 & K2 & _).
  unfold map_protected. rewrite round_len_ok by auto. rewrite bind_Ok. rewrite total_ok by auto. rewrite bind_Ok.
  unfold mmap. replace (_ <=? 0) with false by lia. rewrite Ea. replace (a <=? 0) with false by lia.
  unfold mprotect1 at 1. replace (a mod 4096 =? 0) with true by lia. cbn [negb]. unfold set_pages at 1. rewrite page_count_mul.
  replace ((a / 4096 <=? a / 4096) && (a / 4096 <? a / 4096 + (usable len + 2))) with true by lia. reflexivity.
Qed.
Print Assumptions C128_wrapper_refuted.
(* mprotect itself: on success it returns the word at the address, not 0 *)
Theorem C128_mprotect_refuted : exists word pg addr prot pg', mprotect1 false true word pg addr prot = Ok (pg', 77) /\ pg' 1 = Some prot.
Proof. exists (fun _ => 77), (fun _ => Some 3), 4096, 1. eexists. split; reflexivity. Qed.
Print Assumptions C128_mprotect_refuted.
Definition ex_choose : Z -> Z + Z := fun _ => inl 1048576.
Example C128_case : kernel_ok (fun n => if n <=? 1000000 then inl 1048576 else inr 12) (fun _ => None) /\
  match map_protected true false true ex_choose (fun _ => 0) (fun _ => None) 5000 with
  | Ok (pg, p) => p = 1052672 /\ map pg [255; 256; 257; 258; 259; 260] = [None; Some 0; Some 3; Some 3; Some 0; None]
  | _ => False
  end.
Proof.
  split; [|vm_compute; split; reflexivity]. intros len H. destruct (Z.leb_spec len 1000000); [|lia].
  split; [lia|]. split; [reflexivity|]. split; [lia|reflexivity].
Qed.

(* ---- C129 ---- *)
(* mapping and unmapping with the same length gives the address space of before *)
Theorem C129_unmap : forall strict mini_errno choose word pg len pg' p, 0 <= len <= INT_MAX - 12288 -> kernel_ok choose pg ->
  (forall n, exists a, choose n = inl a) ->
  map_protected strict false mini_errno choose word pg len = Ok (pg', p) ->
  exists pg'', unmap_protected strict mini_errno pg' p len = Ok (pg'', 0) /\ forall x, pg'' x = pg x.
Proof.
  intros strict me choose word pg len pg' p H K C E. destruct (C ((usable len + 2) * 4096)) as (a & Ea).
  destruct (map_ok strict me choose word pg len a H K Ea) as (pg1 & E1 & A & B & B2 & V & O).
  rewrite E in E1. injection E1 as -> ->. assert (U : usable len = len / 4096 + 1) by reflexivity.
  destruct (unmap_ok strict me pg1 (a + 4096) len H) as (pg2 & E2 & V2); [lia|lia|].
  exists pg2. split; [exact E2|]. intros x. rewrite V2, V.
  replace (((a + 4096) / 4096 - 1 <=? x) && (x <? (a + 4096) / 4096 + usable len + 1)) with ((a / 4096 <=? x) && (x <? a / 4096 + usable len + 2)) by lia.
  destruct ((a / 4096 <=? x) && (x <? a / 4096 + usable len + 2)) eqn:D; [|reflexivity]. symmetry. apply O. lia.
Qed.
Print Assumptions C129_unmap.
(* nothing but the buffer and its two pages is unmapped, for any address space *)
Theorem C129_only : forall strict mini_errno pg p len, 0 <= len <= INT_MAX - 12288 -> p mod 4096 = 0 -> 4096 <= p < 140737488351232 ->
  exists pg', unmap_protected strict mini_errno pg p len = Ok (pg', 0) /\
    forall x, x < p / 4096 - 1 \/ (p + len) / 4096 + 1 < x -> pg' x = pg x.
Proof.
  intros strict me pg p len H A B. destruct (unmap_ok strict me pg p len H A B) as (pg' & E & V). exists pg'. split; [exact E|].
  assert (U : usable len = len / 4096 + 1) by reflexivity. intros x Hx. rewrite V. replace (_ && _) with false by lia. reflexivity.
Qed.
Print Assumptions C129_only.
Example C129_case : match map_protected true false true ex_choose (fun _ => 0) (fun _ => None) 8192 with
  | Ok (pg, p) => match unmap_protected true true pg p 8192 with Ok (pg', r) => r = 0 /\ map pg' [256; 257; 258; 259; 260] = repeat None 5 | _ => False end
  | _ => False
  end.
Proof. vm_compute. split; reflexivity. Qed.
