(* C53-C59, C65, C66, C72: atexit, signal and descriptor sets, ctype, division,
   alignment, sleeping, system call results, wait statuses, errno_str. *)
From Verif Require Import Base BaseLemmas SysModel SysSpec SysProofs.
Ltac Zify.zify_post_hook ::= idtac.

(* ---- C53: atexit ---- *)
(* fewer registrations than slots: all accepted, all called once in reverse order.
   Missing: a completely filled table, see the refutation. *)
Theorem C53_order_partial : forall max fs fuel,
  Forall (fun f => f <> 0) fs -> zlen fs < max -> max < Z.of_nat fuel ->
  exists t0 t, atexit_init max = Ok t0 /\ atexits fuel max t0 fs = Ok (t, map (fun _ => 0) fs)
    /\ run_atexit fuel max t = Ok (rev fs).
Proof.
  intros max fs fuel Hnz Hl Hf. nneg fs. destruct (init_ok max) as (t0 & H0 & H1); [lia|].
  destruct (atexits_ok fuel max fs t0 []) as (t & H2 & H3); auto; try (change (zlen (@nil Z)) with 0; lia).
  change (zlen (@nil Z)) with 0 in *. replace (max - 0) with max in H2, H3 by lia.
  rewrite firstn_all2 in H2, H3 by (unfold zlen in *; lia). rewrite skipn_all2 in H2 by (unfold zlen in *; lia).
  cbn [map app] in *. rewrite app_nil_r in H2.
  exists t0, t. split; [auto|]. split; [auto|]. apply run_ok; auto. unfold zlen in *. lia.
Qed.
Print Assumptions C53_order_partial.
(* more registrations than slots: the first [max] succeed, every other one is rejected
   with a nonzero result and the table keeps exactly the first [max] *)
Theorem C53_capacity : forall max fs f fuel,
  Forall (fun f => f <> 0) fs -> 0 < max <= zlen fs -> max < Z.of_nat fuel ->
  exists t0 t, atexit_init max = Ok t0
    /\ atexits fuel max t0 fs = Ok (t, repeat 0 (Z.to_nat max) ++ repeat 12 (length fs - Z.to_nat max))
    /\ (forall i, 0 <= i < max -> t i = Some (nth (Z.to_nat i) fs 0))
    /\ atexit fuel max t f = Ok (t, 12).
Proof.
  intros max fs f fuel Hnz Hl Hf. destruct (init_ok max) as (t0 & H0 & H1); [lia|].
  destruct (atexits_ok fuel max fs t0 []) as (t & H2 & H3); auto; try (change (zlen (@nil Z)) with 0; lia).
  change (zlen (@nil Z)) with 0 in *. replace (max - 0) with max in H2, H3 by lia. cbn [app] in *.
  assert (Hn : (Z.to_nat max <= length fs)%nat) by (unfold zlen in *; lia).
  assert (Hfl : length (firstn (Z.to_nat max) fs) = Z.to_nat max) by (rewrite firstn_length; lia).
  assert (M : forall (c : Z) (l : list Z), map (fun _ => c) l = repeat c (length l))
    by (induction l; cbn; congruence).
  exists t0, t. split; [auto|]. split; [|split].
  - rewrite H2, !M, Hfl, skipn_length. reflexivity.
  - intros i Hi. destruct H3 as [H3 _]. specialize (H3 (Z.to_nat i)). rewrite Z2Nat.id in H3 by lia.
    rewrite H3 by lia. f_equal. rewrite <- (firstn_skipn (Z.to_nat max) fs) at 2. rewrite app_nth1 by lia. reflexivity.
  - apply (atexit_full fuel max t (firstn (Z.to_nat max) fs)); auto; try lia.
    + now apply Forall_firstn.
    + unfold zlen. rewrite Hfl. lia.
Qed.
Print Assumptions C53_capacity.
(* a full table (8 of 8): the scan at exit reads the word behind the table *)
Theorem C53_order_refuted : exists max fs t0 t, Forall (fun f => f <> 0) fs /\ zlen fs = max /\
  atexit_init max = Ok t0 /\ atexits 20 max t0 fs = Ok (t, map (fun _ => 0) fs) /\ run_atexit 20 max t = Fault.
Proof.
  set (fs := [1;2;3;4;5;6;7;8]).
  destruct (atexit_init 8) as [t0| |] eqn:E0; [|discriminate E0|discriminate E0].
  destruct (atexits 20 8 t0 fs) as [[t cs]| |] eqn:E1.
  2,3: injection E0 as <-; vm_compute in E1; discriminate.
  exists 8, fs, t0, t. injection E0 as <-. vm_compute in E1. injection E1 as <- <-.
  repeat split; repeat constructor; discriminate.
Qed.
Print Assumptions C53_order_refuted.
Example C53_case : Forall (fun f => f <> 0) [11; 22; 33] /\ zlen [11; 22; 33] < 8
  /\ (let* t := atexit_init 8 in let* (t, c) := atexits 9 8 t [11; 22; 33] in
      let* r := run_atexit 9 8 t in Ok (c, r)) = Ok ([0; 0; 0], [33; 22; 11]).
Proof. repeat split; repeat constructor; discriminate. Qed.

(* ---- C54: signal sets ---- *)
(* signals 1..30: any history succeeds and membership is that of the set.
   Missing: 31..64, see the refutation. *)
Theorem C54_sigset_partial : forall ops w n, Forall (op_in 1 30) ops -> 0 <= w < 2 ^ 64 -> 1 <= n <= 30 ->
  exists w' r, run_ops sig_op ops w = Ok w' /\ sigismember w' n = Ok r /\ r <> -1
    /\ (r <> 0 <-> set_after (fun k => Z.testbit w (k - 1)) ops n = true).
Proof.
  intros ops w n Ho Hw Hn. destruct (sig_run ops w (fun k => Z.testbit w (k - 1))) as (w' & H1 & H2); auto.
  { intros k Hk. reflexivity. }
  destruct (sig_member w' _ n H2 Hn) as (r & H3 & H4 & H5). exists w', r. repeat split; auto.
  - intros Hr. rewrite <- H4. now apply negb_true_iff, Z.eqb_neq.
  - intros Ht. rewrite Ht in H4. now apply negb_true_iff, Z.eqb_neq in H4.
Qed.
Print Assumptions C54_sigset_partial.
(* every signal from 31 on (SIGSYS, all real time signals) is refused by all three *)
Theorem C54_sigset_refuted : exists n, 1 <= n <= 64 /\ forall w, sigaddset w n = Ok (w, -1)
  /\ sigdelset w n = Ok (w, -1) /\ sigismember w n = Ok (-1).
Proof. exists 31. split; [lia|]. intros w. repeat split. Qed.
Print Assumptions C54_sigset_refuted.
Theorem C54_range : forall n w, 31 <= n -> sigaddset w n = Ok (w, -1) /\ sigdelset w n = Ok (w, -1) /\ sigismember w n = Ok (-1).
Proof. intros. unfold sigaddset, sigdelset, sigismember, sig_bad. replace (32 - 1 <=? n) with true by lia. repeat split. Qed.
Print Assumptions C54_range.
Example C54_case : Forall (op_in 1 30) [SEmpty; SAdd 15; SAdd 2; SDel 15]
  /\ run_ops sig_op [SEmpty; SAdd 15; SAdd 2; SDel 15] 999 = Ok 2 /\ sigismember 2 2 = Ok 2 /\ sigismember 2 15 = Ok 0.
Proof. repeat split; repeat constructor; cbn; discriminate. Qed.

(* ---- C55: fd_set ---- *)
Theorem C55_fdset : forall ops (w : fdset) d, Forall (op_in 0 1023) ops -> ~ In SFill ops -> 0 <= d <= 1023 ->
  exists w', run_ops fd_op ops w = Ok w'
    /\ FD_ISSET d w' = Ok (set_after (fun k => Z.testbit (w (k / 64)) (k mod 64)) ops d).
Proof.
  intros ops w d Ho Hf Hd. destruct (fd_run ops w (fun k => Z.testbit (w (k / 64)) (k mod 64))) as (w' & H1 & H2); auto.
  { intros k Hk. reflexivity. }
  exists w'. split; auto. apply fd_member; auto. lia.
Qed.
Print Assumptions C55_fdset.
(* the macros access memory outside the set for every other descriptor *)
Theorem C55_fdset_outside : forall d (s : fdset), INT_MIN <= d <= INT_MAX ->
  (FD_SET d s = Fault <-> d < 0 \/ 1023 < d) /\ (FD_CLR d s = Fault <-> d < 0 \/ 1023 < d) /\ (FD_ISSET d s = Fault <-> d < 0 \/ 1023 < d).
Proof.
  intros d s Hd. assert (E : fd_in d = true <-> 0 <= d <= 1023).
  { unfold fd_in, fd_word, u64, INT_MIN, INT_MAX in *. rewrite Z.ltb_lt.
    pose proof (Z.div_mod d 18446744073709551616). pose proof (Z.mod_pos_bound d 18446744073709551616).
    pose proof (Z.div_mod (d mod 18446744073709551616) 64). pose proof (Z.mod_pos_bound (d mod 18446744073709551616) 64). lia. }
  assert (N : fd_in d = false <-> d < 0 \/ 1023 < d) by (rewrite <- Bool.not_true_iff_false, E; lia).
  unfold FD_SET, FD_CLR, FD_ISSET. rewrite <- N. destruct (fd_in d); repeat split; intros H; try discriminate H; reflexivity.
Qed.
Print Assumptions C55_fdset_outside.
(* starting from FD_ZERO on any (uninitialised) contents the set is empty *)
Theorem C55_fdzero : forall ops (w : fdset) d, Forall (op_in 0 1023) ops -> ~ In SFill ops -> 0 <= d <= 1023 ->
  exists w', run_ops fd_op (SEmpty :: ops) w = Ok w' /\ FD_ISSET d w' = Ok (set_after (fun _ => false) ops d).
Proof.
  intros ops w d Ho Hf Hd. destruct (C55_fdset (SEmpty :: ops) w d) as (w' & H1 & H2); auto.
  - constructor; cbn; auto.
  - intros [K|K]; [discriminate|contradiction].
  - exists w'. split; auto.
Qed.
Print Assumptions C55_fdzero.
Example C55_case : Forall (op_in 0 1023) [SAdd 63; SAdd 64; SAdd 1023; SDel 63]
  /\ ~ In SFill [SAdd 63; SAdd 64; SAdd 1023; SDel 63]
  /\ map (set_after (fun _ => false) [SAdd 63; SAdd 64; SAdd 1023; SDel 63]) [62; 63; 64; 1023] = [false; false; true; true].
Proof.
  split; [|split; [|reflexivity]].
  - repeat constructor; cbn; discriminate.
  - cbn. intros [K|[K|[K|[K|[]]]]]; discriminate.
Qed.

(* ---- C56: ctype ---- *)
(* for every int, not only characters *)
Theorem C56_classes : forall c, INT_MIN <= c <= INT_MAX ->
  isdigit c = is_digit c /\ isupper c = is_upper c /\ islower c = is_lower c /\ isalpha c = is_alpha c
  /\ isalnum c = is_alnum c /\ isprint c = is_print c /\ isgraph c = is_graph c /\ isspace c = is_space c
  /\ isblank c = is_blank c /\ isxdigit c = is_xdigit c /\ isascii c = in_ 0 127 c.
Proof.
  intros c Hc. pose proof (letters c Hc 26 ltac:(lia)) as L26. pose proof (letters c Hc 6 ltac:(lia)) as L6.
  pose proof (u32_sub c 0 128 Hc) as A. rewrite !Z.sub_0_r in A.
  unfold isalnum, isdigit, isupper, islower, isprint, isgraph, isxdigit, isdigit, isalpha.
  rewrite !u32_sub by (auto; lia). rewrite L26, L6. unfold isspace, isblank, isascii.
  assert (u32 (u32 c) = u32 c) as U by (unfold u32; apply Z.mod_mod; lia). rewrite U in A. rewrite A by lia.
  unfold is_alnum, is_alpha, is_digit, is_upper, is_lower, is_print, is_graph, is_space, is_blank, is_xdigit, is_digit, in_.
  repeat split; lia.
Qed.
Print Assumptions C56_classes.
Theorem C56_cntrl : forall c, 0 <= c <= INT_MAX -> iscntrl c = is_cntrl c.
Proof. intros. unfold iscntrl, is_cntrl, in_. lia. Qed.
Print Assumptions C56_cntrl.
(* missing: every other character, see the refutation *)
Theorem C56_case_letters_partial : forall c, (is_alpha c = true -> tolower c = to_lower c /\ toupper c = to_upper c).
Proof.
  intros c H. assert (0 <= c < 128) by (unfold is_alpha, is_upper, is_lower, in_ in H; lia).
  assert (E : forallb (fun c => negb (is_alpha c) || ((tolower c =? to_lower c) && (toupper c =? to_upper c))) all128 = true) by reflexivity.
  rewrite forallb_forall in E. specialize (E c (all128_in c H0)). rewrite H in E. cbn in E. lia.
Qed.
Print Assumptions C56_case_letters_partial.
Theorem C56_tolower_refuted : exists c, 0 <= c <= 127 /\ is_alpha c = false /\ tolower c <> c.
Proof. exists 64. repeat split; discriminate. Qed.
Print Assumptions C56_tolower_refuted.
(* a digit is turned into a control character *)
Theorem C56_toupper_refuted : exists c, 0 <= c <= 127 /\ is_digit c = true /\ toupper c <> c.
Proof. exists 48. repeat split; discriminate. Qed.
Print Assumptions C56_toupper_refuted.
(* ispunct is true of every letter and digit: it is isgraph *)
Theorem C56_ispunct_refuted : (exists c, 0 <= c <= 127 /\ ispunct c = true /\ is_punct c = false)
  /\ forall c, INT_MIN <= c <= INT_MAX -> ispunct c = is_graph c.
Proof.
  split; [exists 97; repeat split; discriminate|]. intros c Hc. destruct (C56_classes c Hc) as (_ & _ & _ & _ & H1 & _ & H2 & _).
  unfold ispunct. rewrite H1, H2. unfold is_graph, is_alnum, is_alpha, is_upper, is_lower, is_digit, in_. lia.
Qed.
Print Assumptions C56_ispunct_refuted.
Example C56_case : isalpha 90 = true /\ isalpha 91 = false /\ isalpha (-1) = false /\ isxdigit 102 = true /\ isxdigit 103 = false
  /\ tolower 65 = 97 /\ toupper 122 = 90.
Proof. repeat split. Qed.

(* ---- C57: div, ldiv, abs, labs ---- *)
Theorem C57_div : forall n d, INT_MIN <= n <= INT_MAX -> INT_MIN <= d <= INT_MAX -> d <> 0 -> ~ (n = INT_MIN /\ d = -1) ->
  exists q r, div n d = Ok (q, r) /\ q * d + r = n /\ Z.abs r < Z.abs d /\ (0 <= n -> 0 <= r) /\ (n <= 0 -> r <= 0).
Proof.
  intros n d Hn Hd H0 Hx. rewrite div_ok by auto. destruct (quot_facts n d H0) as (H1 & H2 & H3 & H4).
  exists (Z.quot n d), (Z.rem n d). repeat split; lia.
Qed.
Print Assumptions C57_div.
Theorem C57_ldiv : forall n d, LONG_MIN <= n <= LONG_MAX -> LONG_MIN <= d <= LONG_MAX -> d <> 0 -> ~ (n = LONG_MIN /\ d = -1) ->
  exists q r, ldiv n d = Ok (q, r) /\ q * d + r = n /\ Z.abs r < Z.abs d /\ (0 <= n -> 0 <= r) /\ (n <= 0 -> r <= 0).
Proof.
  intros n d Hn Hd H0 Hx. rewrite ldiv_ok by auto. destruct (quot_facts n d H0) as (H1 & H2 & H3 & H4).
  exists (Z.quot n d), (Z.rem n d). repeat split; lia.
Qed.
Print Assumptions C57_ldiv.
Theorem C57_abs : forall strict i, INT_MIN < i <= INT_MAX -> abs strict i = Ok (Z.abs i).
Proof.
  intros strict i Hi. unfold abs. destruct (Z.leb_spec 0 i); [f_equal; lia|].
  rewrite s32_small, iop_ok by (unfold INT_MIN, INT_MAX in *; lia).
  destruct strict; f_equal; lia.
Qed.
Print Assumptions C57_abs.
Theorem C57_labs : forall strict i, LONG_MIN < i <= LONG_MAX -> labs strict i = Ok (Z.abs i).
Proof.
  intros strict i Hi. unfold labs. destruct (Z.leb_spec 0 i); [f_equal; lia|].
  rewrite s64_small, lop_ok by (unfold LONG_MIN, LONG_MAX in *; lia).
  destruct strict; f_equal; lia.
Qed.
Print Assumptions C57_labs.
Example C57_case : div (-7) 2 = Ok (-3, -1) /\ div 7 (-2) = Ok (-3, 1) /\ ldiv LONG_MIN 10 = Ok (-922337203685477580, -8)
  /\ abs true (-5) = Ok 5 /\ abs false INT_MIN = Ok INT_MIN /\ div INT_MIN (-1) = Fault /\ div 1 0 = Fault.
Proof. repeat split. Qed.

(* ---- C58: ALIGN_2 .. ALIGN_256 (k = 1..8; the code's __ALIGN for every shift) ---- *)
Theorem C58_align : forall k p, 0 <= k < 64 -> 0 <= p <= 2 ^ 64 - 2 ^ k -> least_multiple (2 ^ k) p (ALIGN_pow2 k p).
Proof. exact align_ok. Qed.
Print Assumptions C58_align.
(* ALIGN_P, documented to align to 8, moves an aligned pointer backwards *)
Theorem C73_align_p_refuted : exists p, 0 <= p <= 2 ^ 64 - 8 /\ (8 | p) /\ ALIGN_P p < p.
Proof. exists 256. split; [split; discriminate|]. split; [exists 32; reflexivity|reflexivity]. Qed.
Print Assumptions C73_align_p_refuted.
(* Partial: it is right for 8 of 256 addresses, the first ones behind every multiple of 256 *)
Theorem C73_align_p_partial : forall p, 0 <= p <= 2 ^ 64 - 8 -> (least_multiple 8 p (ALIGN_P p) <-> 1 <= p mod 256 <= 8).
Proof.
  intros p Hp. change (2 ^ 64) with 18446744073709551616 in Hp. destruct (Z.eq_dec p 0) as [->|].
  - split; [|intros H; change (0 mod 256) with 0 in H; lia]. intros (_ & _ & H). specialize (H 0 (Z.divide_0_r 8) ltac:(lia)).
    change (ALIGN_P 0) with 18446744073709551368 in H. lia.
  - assert (E : ALIGN_P p = (p - 1) / 256 * 256 + 8).
    { unfold ALIGN_P, ALIGN_raw, u64. rewrite Z.shiftl_mul_pow2, Z.shiftr_div_pow2 by lia. change (2 ^ 8) with 256. change (2 ^ 64) with 18446744073709551616.
      rewrite (Z.mod_small (p - 1)), (Z.mod_small ((p - 1) / 256 * 256)), (Z.mod_small ((p - 1) / 256 * 256 + 8)); lia. }
    rewrite E. split.
    + intros (_ & H1 & H2). lia.
    + intros H. split; [exists ((p - 1) / 256 * 32 + 1); lia|]. split; [lia|]. intros z (k & ->) Hz. lia.
Qed.
Print Assumptions C73_align_p_partial.
Example C58_case : ALIGN_pow2 3 17 = 24 /\ ALIGN_pow2 3 24 = 24 /\ ALIGN_pow2 8 1 = 256 /\ ALIGN_pow2 4 0 = 0 /\ 17 <= 2 ^ 64 - 2 ^ 3.
Proof. repeat split; discriminate. Qed.

(* ---- C59: usleep, sleep ---- *)
Theorem C59_usleep : forall ns us, 0 <= us < 2 ^ 32 -> exists s n r, usleep ns us = Ok ((s, n), r)
  /\ s * 10 ^ 9 + n = us * 1000 /\ 0 <= n < 10 ^ 9 /\ 0 <= s /\ r = u32 (fst (ns (s, n))).
Proof.
  intros ns us Hu. unfold usleep. rewrite lop_ok by (unfold LONG_MIN, LONG_MAX; lia). cbn [bind].
  set (s := if 1000000 <=? us then Z.quot us 1000000 else 0). set (n := Z.rem (us * 1000) 1000000000).
  exists s, n, (u32 (fst (ns (s, n)))). split; [reflexivity|].
  assert (Hs : s = us / 1000000).
  { unfold s. destruct (Z.leb_spec 1000000 us); [apply Z.quot_div_nonneg; lia|]. symmetry. apply Z.div_small. lia. }
  assert (Hn : n = (us * 1000) mod 1000000000) by (apply Z.rem_mod_nonneg; lia).
  rewrite Hs, Hn. clear Hs Hn s n. Ltac Zify.zify_post_hook ::= Z.div_mod_to_equations. change (10 ^ 9) with 1000000000. repeat split; lia.
Qed.
Print Assumptions C59_usleep.
(* sleep requests the seconds; 0 when completed, else the remaining time rounded to seconds *)
Theorem C59_sleep : forall ns sec r rs rn, 0 <= sec < 2 ^ 32 -> ns (sec, 0) = (r, (rs, rn)) ->
  0 <= rs <= sec -> 0 <= rn < 10 ^ 9 -> rs * 10 ^ 9 + rn <= sec * 10 ^ 9 ->
  (r = 0 -> sleep ns sec = Ok ((sec, 0), 0)) /\
  (r = -1 -> exists left, sleep ns sec = Ok ((sec, 0), left) /\ 0 <= left <= sec
     /\ 2 * Z.abs (left * 10 ^ 9 - (rs * 10 ^ 9 + rn)) <= 10 ^ 9).
Proof.
  intros ns sec r rs rn Hs E Hrs Hrn Hle. unfold sleep. rewrite E. split; intros ->.
  - reflexivity.
  - replace (u32 (-1) =? 0) with false by reflexivity.
    change (10 ^ 9) with 1000000000 in *. exists (u32 (u32 rs + (if 500000000 <=? rn then 1 else 0))).
    cbn [fst snd]. split; [reflexivity|]. rewrite (u32_small rs) by lia.
    destruct (Z.leb_spec 500000000 rn); rewrite u32_small by lia; lia.
Qed.
Print Assumptions C59_sleep.
Example C59_case : usleep (fun _ => (0, (0, 0))) 2500001 = Ok ((2, 500001000), 0)
  /\ usleep (fun _ => (0, (0, 0))) 4294967295 = Ok ((4294, 967295000), 0)
  /\ sleep (fun _ => (-1, (3, 600000000))) 10 = Ok ((10, 0), 4).
Proof. repeat split. Qed.

(* ---- C65: system call results ---- *)
(* k is the kernel's result; -4095..-1 are the error codes.  Missing: results that do
   not fit into an int (file offsets, addresses, large counts). *)
Theorem C65_wrapper_partial : forall k e, -4095 <= k <= INT_MAX ->
  syscall_wrapper k e = if k <? 0 then (-1, - k) else (k, e).
Proof.
  intros k e Hk. unfold syscall_wrapper. rewrite s32_small by (unfold INT_MIN, INT_MAX in *; lia).
  destruct (k <? 0) eqn:E; [|reflexivity]. rewrite s32_small by (unfold INT_MIN, INT_MAX in *; lia). reflexivity.
Qed.
Print Assumptions C65_wrapper_partial.
(* an lseek to 2^31 or a mmap/brk above it: success is reported as an error *)
Theorem C65_wrapper_refuted : exists k, 0 <= k <= LONG_MAX /\ forall e, fst (syscall_wrapper k e) = -1 /\ snd (syscall_wrapper k e) <> 0.
Proof. exists 2147483649. split; [split; discriminate|]. intros e. split; [reflexivity|discriminate]. Qed.
Print Assumptions C65_wrapper_refuted.
(* open and creat set errno but return the negated error code *)
Theorem C65_open_partial : forall k e, -4095 <= k <= INT_MAX ->
  snd (open_result k e) = (if k <? 0 then - k else e) /\ (0 <= k -> fst (open_result k e) = k) /\ (k < 0 -> fst (open_result k e) < 0).
Proof.
  intros k e Hk. unfold open_result. rewrite s32_small by (unfold INT_MIN, INT_MAX in *; lia).
  destruct (k <? 0) eqn:E; cbn [fst snd]; try rewrite s32_small by (unfold INT_MIN, INT_MAX in *; lia); repeat split; lia.
Qed.
Print Assumptions C65_open_partial.
Theorem C65_open_refuted : exists k e, -4095 <= k < 0 /\ fst (open_result k e) <> -1.
Proof. exists (-2), 0. repeat split; discriminate. Qed.
Print Assumptions C65_open_refuted.
Example C65_case : syscall_wrapper (-2) 7 = (-1, 2) /\ syscall_wrapper 0 7 = (0, 7) /\ syscall_wrapper INT_MAX 7 = (INT_MAX, 7)
  /\ open_result (-13) 0 = (-13, 13).
Proof. repeat split. Qed.

(* ---- C66: wait statuses (wrapping int product in WIFSTOPPED) ---- *)
Theorem C66_wait : forall w, wstat_ok w ->
  match w with
  | Exited c => WIFEXITED (encode w) = true /\ WEXITSTATUS (encode w) = c mod 256
      /\ WIFSIGNALED (encode w) = false /\ WIFSTOPPED false (encode w) = Ok false /\ WIFCONTINUED (encode w) = false
  | Signaled s core => WIFSIGNALED (encode w) = true /\ WTERMSIG (encode w) = s /\ WCOREDUMP (encode w) = core
      /\ WIFEXITED (encode w) = false /\ WIFSTOPPED false (encode w) = Ok false /\ WIFCONTINUED (encode w) = false
  | Stopped s => WIFSTOPPED false (encode w) = Ok true /\ WSTOPSIG (encode w) = s
      /\ WIFEXITED (encode w) = false /\ WIFSIGNALED (encode w) = false /\ WIFCONTINUED (encode w) = false
  | Continued => WIFCONTINUED (encode w) = true
      /\ WIFEXITED (encode w) = false /\ WIFSIGNALED (encode w) = false /\ WIFSTOPPED false (encode w) = Ok false
  end.
Proof.
  intros w Hw. pose proof (wdecode_all w Hw) as E. unfold wdecode_ok in E.
  destruct w; destruct (WIFSTOPPED false _) as [[]| |]; try discriminate E;
    rewrite ?andb_true_iff, ?negb_true_iff, ?Z.eqb_eq in E; intuition (try congruence).
  now apply Bool.eqb_prop.
Qed.
Print Assumptions C66_wait.
(* stops reported to a tracer carry an event number e above the signal *)
Theorem C66_event_stop : forall e g, 0 <= e < 2 ^ 15 -> 1 <= g <= 64 -> let s := e * 65536 + encode (Stopped g) in
  WIFSTOPPED false s = Ok true /\ WSTOPSIG s = g /\ WIFEXITED s = false /\ WIFSIGNALED s = false /\ WIFCONTINUED s = false.
Proof.
  intros e g He Hg s. destruct (C66_wait (Stopped g) Hg) as (A1 & A2 & A3 & A4 & A5).
  assert (B : 0 <= encode (Stopped g) < 65536) by (cbn [encode]; lia).
  assert (L : Z.land s 0xffff = Z.land (encode (Stopped g)) 0xffff).
  { change 0xffff with (Z.ones 16). rewrite !Z.land_ones by lia. unfold s. change (2 ^ 16) with 65536. rewrite Z.add_comm, Z.mod_add by lia. reflexivity. }
  assert (M : forall k, Z.land 0xffff k = k -> Z.land s k = Z.land (encode (Stopped g)) k).
  { intros k Hk. rewrite <- Hk, !Z.land_assoc, L. reflexivity. }
  unfold WIFSTOPPED, WSTOPSIG, WEXITSTATUS, WIFEXITED, WTERMSIG, WIFSIGNALED in *. rewrite L, !(M _ eq_refl).
  repeat (split; [assumption|]). unfold WIFCONTINUED. unfold s. cbn [encode] in *. lia.
Qed.
Print Assumptions C66_event_stop.
(* with undefined signed overflow WIFSTOPPED is defined only up to status 0x7fff *)
Theorem C66_stopped_strict_partial : forall s, 0 <= s < 2 ^ 15 -> WIFSTOPPED true s = WIFSTOPPED false s.
Proof.
  intros s Hs. unfold WIFSTOPPED. replace (Z.land s 0xffff) with s.
  2:{ change 0xffff with (Z.ones 16). rewrite Z.land_ones by lia. symmetry. apply Z.mod_small. lia. }
  rewrite iop_ok, s32_small by (unfold INT_MIN, INT_MAX; lia). reflexivity.
Qed.
Print Assumptions C66_stopped_strict_partial.
(* exit code 128 (a shell reporting a signal): the macro's product overflows *)
Theorem C66_stopped_strict_refuted : exists c, wstat_ok (Exited c) /\ WIFSTOPPED true (encode (Exited c)) = Fault.
Proof. exists 128. split; [split; discriminate|reflexivity]. Qed.
Print Assumptions C66_stopped_strict_refuted.
Example C66_case : wstat_ok (Exited 255) /\ wstat_ok (Signaled 11 true) /\ wstat_ok (Stopped 19)
  /\ encode (Signaled 11 true) = 139 /\ WTERMSIG 139 = 11 /\ WEXITSTATUS 65280 = 255
  /\ WSTOPSIG (4 * 65536 + 5 * 256 + 127) = 5.
Proof. repeat split; discriminate. Qed.

(* ---- C72: errno_str ---- *)
(* the text is the number, with at least two digits *)
Theorem C72_errno_str : forall e, -199 <= e <= 199 ->
  exists t, errno_str e = Ok t /\ Forall (fun c => 48 <= c <= 57) t
    /\ fold_left (fun a c => 10 * a + (c - 48)) t 0 = Z.abs e
    /\ zlen t = (if Z.abs e <? 100 then 2 else 3).
Proof.
  intros e He. unfold errno_str.
  replace (if e <? 0 then iop (- e) else Ok e) with (Ok (Z.abs e)).
  2:{ destruct (Z.ltb_spec e 0); [rewrite iop_ok by (unfold INT_MIN, INT_MAX; lia)|]; f_equal; lia. }
  cbn [bind]. assert (A : 0 <= Z.abs e <= 199) by lia. generalize dependent (Z.abs e). clear He e. intros e He.
  eexists. split; [reflexivity|].
  rewrite Z.quot_div_nonneg, Z.rem_mod_nonneg by (destruct (99 <? e) eqn:E; lia). unfold ubyte.
  destruct (Z.ltb_spec 99 e).
  - replace (e <? 100) with false by lia.
    rewrite !Z.mod_small by lia. split; [repeat constructor; lia|]. split; [|reflexivity]. cbn [fold_left]. lia.
  - replace (e <? 100) with true by lia.
    rewrite !(Z.mod_small (_ + 48)) by lia. split; [repeat constructor; lia|]. split; [|reflexivity]. cbn [fold_left]. lia.
Qed.
Print Assumptions C72_errno_str.
Example C72_case : errno_str (-113) = Ok [49; 49; 51] /\ errno_str 2 = Ok [48; 50].
Proof. repeat split. Qed.
