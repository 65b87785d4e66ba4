(* C119-C125: execl, execvpe, system, vexec, exit_errno, signal, abort. *)
From Coq Require Import String.
From Verif Require Import Base BaseLemmas PathModel PathSpec PathProofs3 SysModel SysSpec SysProofs SysProps ProcModel ProcSpec ProcProofs.
Ltac Zify.zify_post_hook ::= idtac.
Local Open Scope list_scope.

(* ---- C119: execl ---- *)
(* Missing: a null pointer as the first argument (an empty argument list). *)
Theorem C119_execl_partial : forall fuel environ path arg0 args rest,
  arg0 <> 0 -> Forall (fun x => x <> 0) args -> (length args < fuel)%nat ->
  execl fuel environ path arg0 (args ++ 0 :: rest) = Ok (path, arg0 :: args, environ).
Proof. exact execl_ok. Qed.
Print Assumptions C119_execl_partial.
(* execl(path, NULL): reads arguments that were not passed *)
Theorem C119_no_arguments_refuted : exists environ path, forall fuel, execl (S fuel) environ path 0 [] = Fault.
Proof. exists 7, 8. reflexivity. Qed.
Print Assumptions C119_no_arguments_refuted.
Example C119_case : execl 9 900 100 200 [300; 400; 0; 1; 2] = Ok (100, [200; 300; 400], 900).
Proof. reflexivity. Qed.

(* ---- C120: execvp ---- *)
(* Missing: names with a slash that don't start with '.' or '/', and names without a slash
   that start with '.'. *)
Theorem C120_execvpe_partial : forall fuel access m default path file argv envp buf dirs f,
  dirs <> [] -> Forall entry dirs -> str_at m (if path =? 0 then default else path) (joined dirs) -> str_at m file f ->
  apart (if path =? 0 then default else path) (zlen (joined dirs) + 1) buf 4096 -> apart file (zlen f + 1) buf 4096 -> room m buf 4096 ->
  Forall (fun d => zlen d + zlen f + 2 <= 4096) dirs -> (2 * length (joined dirs) + length f + 1 <= fuel)%nat ->
  (In slash f /\ (nth 0 f 0 = 46 \/ nth 0 f 0 = slash)) \/ (~ In slash f /\ nth 0 f 0 <> 46) ->
  exists m', same_outside m m' buf 4096 /\
    execvpe fuel access m default path file argv envp buf =
      Ok (m', match resolved access dirs f with Some s => Some (s, argv, envp) | None => None end).
Proof.
  intros fuel access m default path file argv envp buf dirs f D E P F A1 A2 R L Fu H. unfold resolved.
  assert (J : (0 < length (joined dirs))%nat).
  { destruct dirs as [|d r]; [contradiction|]. inversion E as [|? ? [Ed _] _]; subst.
    destruct d; [contradiction|]. destruct r; cbn; lia. }
  destruct (in_dec Z.eq_dec slash f) as [I|I].
  - destruct H as [[_ H]|[H _]]; [|contradiction]. exists m. split; [intros x Hx; reflexivity|].
    apply execvpe_path; auto; [lia|]. destruct f; [exact Logic.I|]. exact H.
  - destruct H as [[H _]|[_ H]]; [contradiction|]. destruct f as [|c f].
    + exists m. split; [intros x Hx; reflexivity|]. apply execvpe_path; auto. cbn. lia.
    + apply (execvpe_search fuel access m default path file argv envp buf 4096 dirs (c :: f)); auto.
      cbn [nth] in H. split; [exact H|]. intros ->. apply I. now left.
Qed.
Print Assumptions C120_execvpe_partial.
(* "b/x", and /a/b/x is executable: the file of PATH is executed, not the one below the
   current directory *)
Theorem C120_inner_slash_refuted : exists access m file f,
  str_at m 100 (joined [txt "/a"]) /\ str_at m file f /\ room m 5000 4096 /\
  resolved access [txt "/a"] f = Some (txt "b/x") /\
  match execvpe 99 access m 0 100 file 7 8 5000 with Ok (_, r) => r = Some (txt "/a/b/x", 7, 8) | _ => False end.
Proof.
  exists (fun _ => true), (with_block 5000 4096 (mem_of [(100, txt "/a" ++ [0]); (200, txt "b/x" ++ [0])])), 200, (txt "b/x").
  split; [vm_compute; repeat split; discriminate|]. split; [vm_compute; repeat split; discriminate|].
  split; [apply with_block_room|]. split; [reflexivity|]. vm_compute. reflexivity.
Qed.
Print Assumptions C120_inner_slash_refuted.
(* ".x" in /a: not looked up *)
Theorem C120_dot_refuted : exists access m file f,
  str_at m 100 (joined [txt "/a"]) /\ str_at m file f /\ room m 5000 4096 /\
  resolved access [txt "/a"] f = Some (txt "/a/.x") /\
  execvpe 99 access m 0 100 file 7 8 5000 = Ok (m, Some (txt ".x", 7, 8)).
Proof.
  exists (fun _ => true), (with_block 5000 4096 (mem_of [(100, txt "/a" ++ [0]); (200, txt ".x" ++ [0])])), 200, (txt ".x").
  split; [vm_compute; repeat split; discriminate|]. split; [vm_compute; repeat split; discriminate|].
  split; [apply with_block_room|]. split; reflexivity.
Qed.
Print Assumptions C120_dot_refuted.
(* a directory of PATH and the name with more than PATH_MAX bytes: writes behind the array *)
Definition m120 : mem := fun x => if x =? 100 then Some 47 else if x =? 101 then Some 97 else if x =? 102 then Some 0
  else if (200 <=? x) && (x <? 4300) then Some 120 else if x =? 4300 then Some 0 else if (9000 <=? x) && (x <? 13096) then Some 0 else None.
Theorem C120_long_refuted : exists m file f, str_at m 100 (joined [txt "/a"]) /\ str_at m file f /\ room m 9000 4096 /\
  forall access, execvpe (Z.to_nat 4200) access m 0 100 file 7 8 9000 = Fault.
Proof.
  assert (S : str_at m120 200 (repeat 120 4100)).
  { apply str_at_intro; [| |unfold zlen; rewrite repeat_length; reflexivity].
    - apply bytes_at_intro. intros i b Hb. pose proof (nth_error_In _ _ Hb) as I. apply repeat_spec in I as ->.
      assert (Hi : (i < 4100)%nat) by (rewrite <- (repeat_length 120 4100); apply nth_error_Some; congruence). unfold m120.
      do 3 (rewrite (proj2 (Z.eqb_neq _ _)) by lia). replace ((200 <=? 200 + Z.of_nat i) && (200 + Z.of_nat i <? 4300)) with true by lia. reflexivity.
    - apply Forall_forall. intros x Hx. apply repeat_spec in Hx. lia. }
  assert (R : room m120 9000 4096) by (intros x Hx; unfold m120; do 3 (rewrite (proj2 (Z.eqb_neq _ _)) by lia);
    replace ((200 <=? x) && (x <? 4300)) with false by lia; rewrite (proj2 (Z.eqb_neq _ _)) by lia; replace ((9000 <=? x) && (x <? 13096)) with true by lia; discriminate).
  exists m120, 200, (repeat 120 4100). split; [vm_compute; repeat split; discriminate|]. split; [exact S|]. split; [exact R|]. intro access.
  assert (L : length (repeat 120 4099) = Z.to_nat 4099) by (rewrite repeat_length; reflexivity).
  assert (ZL : zlen (repeat 120 4099) = 4099) by (unfold zlen; rewrite L; reflexivity).
  apply (execvpe_long _ access m120 47 97 100 200 7 8 9000 (repeat 120 4099)).
  - discriminate.
  - vm_compute. repeat split; discriminate.
  - exact S.
  - discriminate.
  - discriminate.
  - exact R.
  - reflexivity.
  - unfold apart. lia.
  - unfold apart. rewrite ZL. lia.
  - rewrite ZL. lia.
  - rewrite L. lia.
Qed.
Print Assumptions C120_long_refuted.
Example C120_case : let m := with_block 5000 4096 (mem_of [(100, txt "/a:/b" ++ [0]); (200, txt "x" ++ [0]); (300, txt "./x" ++ [0])]) in
  let access := fun s => if list_eq_dec Z.eq_dec s (txt "/b/x") then true else false in
  str_at m 100 (joined [txt "/a"; txt "/b"]) /\ Forall entry [txt "/a"; txt "/b"] /\ str_at m 200 (txt "x") /\ str_at m 300 (txt "./x") /\
  resolved access [txt "/a"; txt "/b"] (txt "x") = Some (txt "/b/x") /\ resolved access [txt "/a"; txt "/b"] (txt "./x") = Some (txt "./x").
Proof.
  split; [vm_compute; repeat split; discriminate|]. split; [repeat constructor; try discriminate; cbn; intuition discriminate|].
  split; [vm_compute; repeat split; discriminate|]. split; [vm_compute; repeat split; discriminate|]. split; reflexivity.
Qed.

(* ---- C121: system ---- *)
(* Missing: a shell that is killed, a waitpid that is interrupted, a failing vfork. *)
Theorem C121_system_partial : forall fuel k environ command before c,
  0 < k_vfork k -> child_ends k (k_vfork k) before (Exited c) -> INT_MIN <= c <= INT_MAX ->
  (forall r, In r before -> exists w, r = State w) -> (length before < fuel)%nat ->
  system fuel k environ command =
    Ok (Exec (Lit (txt "/bin/sh")) (VLit [Lit (txt "sh"); Lit (txt "-c"); Ptr command]) environ ::
        match k_exec k with
        | None => []
        | Some _ => [Write 2 (txt "Error. Couldn't exec sh in system()" ++ [10]); Exit (-1)]
        end, c mod 256).
Proof.
  intros fuel k env cmd before c Hp (H1 & H2 & H3 & _) Hc Hs Hf. unfold system.
  rewrite (system_wait_ok k (k_vfork k) before 0 None fuel c) by auto. cbn [bind].
  replace (0 <? k_vfork k) with true by lia. reflexivity.
Qed.
Print Assumptions C121_system_partial.
(* the shell is killed by any signal: system never returns *)
Theorem C121_killed_refuted : (forall k environ command sig core, 0 < k_vfork k -> 1 <= sig <= 64 ->
    child_ends k (k_vfork k) [] (Signaled sig core) -> forall fuel, system fuel k environ command = NoFuel)
  /\ exists k, 0 < k_vfork k /\ child_ends k (k_vfork k) [] (Signaled 9 false).
Proof.
  split.
  - intros k env cmd sig core Hp Hs (_ & _ & H3 & H4) fuel. unfold system.
    destruct fuel as [|fuel]; [reflexivity|]. cbn [system_wait]. cbn [List.length] in H3. rewrite H3. cbn [answer].
    rewrite status_exited by exact Hs. cbn [negb]. rewrite system_wait_killed; [reflexivity|now apply (status_exited (Signaled sig core))|].
    intros j Hj. destruct (H4 j) as (r & _ & _ & E); [cbn; lia|]. eauto.
  - exists {| k_vfork := 5; k_exec := None; k_wait := fun i _ => match i with O => (5, Some 9) | _ => (-1, None) end |}.
    split; [reflexivity|]. split; [constructor|]. split; [intros i r H; destruct i; discriminate|]. split; [reflexivity|].
    intros i Hi. exists (-1). split; [lia|]. split; [discriminate|]. destruct i; [cbn in Hi; lia|reflexivity].
Qed.
Print Assumptions C121_killed_refuted.
(* the first waitpid is interrupted by a signal handler: the status is read uninitialised *)
Theorem C121_interrupted_refuted : exists k, 0 < k_vfork k /\ child_ends k (k_vfork k) [Interrupted (-1)] (Exited 3) /\
  forall fuel environ command, system (S fuel) k environ command = Fault.
Proof.
  exists {| k_vfork := 5; k_exec := None; k_wait := fun i _ => match i with S O => (5, Some 768) | _ => (-1, None) end |}.
  split; [reflexivity|]. split; [|reflexivity]. split; [repeat constructor|].
  split; [intros i r H; destruct i as [|[|i]]; try discriminate; injection H as <-; reflexivity|]. split; [reflexivity|].
  intros i Hi. exists (-1). split; [lia|]. split; [discriminate|]. destruct i as [|[|i]]; cbn in Hi; try lia. reflexivity.
Qed.
Print Assumptions C121_interrupted_refuted.
(* vfork fails and there is no child: the same *)
Theorem C121_vfork_refuted : forall k environ command r fuel, k_vfork k = -1 -> k_wait k 0 (-1) = (r, None) ->
  system (S fuel) k environ command = Fault.
Proof. intros k env cmd r fuel H E. unfold system. rewrite H. cbn [system_wait]. rewrite E. reflexivity. Qed.
Print Assumptions C121_vfork_refuted.
Example C121_case : exists k, 0 < k_vfork k /\ child_ends k (k_vfork k) [State (Stopped 19); State Continued] (Exited 300) /\
  system 9 k 700 800 = Ok ([Exec (Lit (txt "/bin/sh")) (VLit [Lit (txt "sh"); Lit (txt "-c"); Ptr 800]) 700], 44).
Proof.
  exists {| k_vfork := 5; k_exec := None;
    k_wait := fun i _ => match i with O => (5, Some (encode (Stopped 19))) | 1%nat => (5, Some 65535) | 2%nat => (5, Some (encode (Exited 300))) | _ => (-1, None) end |}.
  split; [reflexivity|]. split; [|reflexivity]. split; [repeat constructor; discriminate|].
  split; [intros i r H; destruct i as [|[|[|i]]]; try discriminate; injection H as <-; reflexivity|]. split; [reflexivity|].
  intros i Hi. exists (-1). split; [lia|]. split; [discriminate|]. destruct i as [|[|[|i]]]; cbn in Hi; try lia. reflexivity.
Qed.

(* ---- C122: vexec and vexec_q ---- *)
(* Missing: a child that is killed, a failing execve, a failing vfork. *)
Theorem C122_vexec_partial : forall quiet mini_errno fuel k path argv envp errno before c,
  0 < k_vfork k -> child_ends k (k_vfork k) before (Exited c) -> INT_MIN <= c <= INT_MAX -> (length before < fuel)%nat ->
  k_exec k = None ->
  vexec quiet mini_errno fuel k path argv envp errno =
    Ok ((if quiet then [Close 1] else []) ++ [Exec (Ptr path) (VPtr argv) envp], c mod 256, errno).
Proof.
  intros quiet me fuel k path argv envp errno before c Hp (H1 & H2 & H3 & _) Hc Hf He. unfold vexec.
  rewrite (vexec_wait_ok k (k_vfork k) before 0 None fuel (Exited c)) by auto. rewrite status_code by auto.
  replace (0 <? k_vfork k) with true by lia. unfold vexec_child. rewrite He. reflexivity.
Qed.
Print Assumptions C122_vexec_partial.
(* execve fails with e and the child's exit is what the parent sees: with errno the caller
   gets 255 (and errno 1, see below), without it 256 - e; never 0 *)
Theorem C122_failed_exec : forall (quiet mini_errno : bool) fuel k path argv envp errno before e,
  0 < k_vfork k -> 1 <= e <= 255 -> k_exec k = Some e ->
  child_ends k (k_vfork k) before (Exited (if mini_errno then -1 else - e)) -> (length before < fuel)%nat ->
  exists errno', vexec quiet mini_errno fuel k path argv envp errno =
    Ok ((if quiet then [Close 1] else []) ++ [Exec (Ptr path) (VPtr argv) envp; Exit (if mini_errno then -1 else - e)],
        if mini_errno then 255 else 256 - e, errno').
Proof.
  intros quiet me fuel k path argv envp errno before e Hp He Hx (H1 & H2 & H3 & _) Hf. unfold vexec.
  assert (C : INT_MIN <= (if me then -1 else - e) <= INT_MAX) by (unfold INT_MIN, INT_MAX; destruct me; lia).
  rewrite (vexec_wait_ok k (k_vfork k) before 0 None fuel (Exited (if me then -1 else - e))) by auto. rewrite status_code by auto.
  replace (0 <? k_vfork k) with true by lia. unfold vexec_child. rewrite Hx. unfold sys_fail.
  destruct me; cbn [bind]; eexists; f_equal; f_equal; f_equal.
  replace (- e) with (256 - e + -1 * 256) by lia. rewrite Z.mod_add by lia. now rewrite Z.mod_small by lia.
Qed.
Print Assumptions C122_failed_exec.
(* vexec "sets errno on error": it is 1 whatever the error was *)
Theorem C122_errno_refuted : exists k, k_exec k = Some 2 /\ forall quiet path argv envp errno,
  snd (vexec_child quiet true k path argv envp errno) = 1.
Proof. exists {| k_vfork := 5; k_exec := Some 2; k_wait := fun _ _ => (-1, None) |}. split; reflexivity. Qed.
Print Assumptions C122_errno_refuted.
(* the child is killed by any signal: 0 is returned, as after success *)
Theorem C122_killed_refuted : (forall quiet mini_errno fuel k path argv envp errno before sig core,
    0 < k_vfork k -> child_ends k (k_vfork k) before (Signaled sig core) -> 1 <= sig <= 64 -> (length before < fuel)%nat ->
    exists child errno', vexec quiet mini_errno fuel k path argv envp errno = Ok (child, 0, errno'))
  /\ exists k, 0 < k_vfork k /\ child_ends k (k_vfork k) [] (Signaled 11 true).
Proof.
  split.
  - intros quiet me fuel k path argv envp errno before sig core Hp (H1 & H2 & H3 & _) Hs Hf. unfold vexec.
    rewrite (vexec_wait_ok k (k_vfork k) before 0 None fuel (Signaled sig core)) by auto. rewrite status_killed_code by auto.
    destruct (0 <? k_vfork k); [destruct (vexec_child quiet me k path argv envp errno) as [ch er]|]; eexists; eexists; reflexivity.
  - exists {| k_vfork := 5; k_exec := None; k_wait := fun i _ => match i with O => (5, Some 139) | _ => (-1, None) end |}.
    split; [reflexivity|]. split; [constructor|]. split; [intros i r H; destruct i; discriminate|]. split; [reflexivity|].
    intros i Hi. exists (-1). split; [lia|]. split; [discriminate|]. destruct i; [cbn in Hi; lia|reflexivity].
Qed.
Print Assumptions C122_killed_refuted.
(* vfork fails, no child: waitpid(-1) fails with -1, which is taken for the child *)
Theorem C122_vfork_refuted : forall quiet fuel k path argv envp errno, k_vfork k = -1 -> k_wait k 0 (-1) = (-1, None) ->
  vexec quiet true (S fuel) k path argv envp errno = Fault.
Proof. intros quiet fuel k path argv envp errno H E. unfold vexec. rewrite H. cbn [vexec_wait Z.ltb Z.compare]. rewrite E. reflexivity. Qed.
Print Assumptions C122_vfork_refuted.
Example C122_case : exists k, 0 < k_vfork k /\ child_ends k (k_vfork k) [Interrupted (-1); State (Stopped 20)] (Exited 7) /\
  vexec true true 9 k 100 200 300 11 = Ok ([Close 1; Exec (Ptr 100) (VPtr 200) 300], 7, 11).
Proof.
  exists {| k_vfork := 5; k_exec := None;
    k_wait := fun i _ => match i with O => (-1, None) | 1%nat => (5, Some (encode (Stopped 20))) | 2%nat => (5, Some (encode (Exited 7))) | _ => (-1, None) end |}.
  split; [reflexivity|]. split; [|reflexivity]. split; [repeat constructor; discriminate|].
  split; [intros i r H; destruct i as [|[|[|i]]]; try discriminate; injection H as <-; reflexivity|]. split; [reflexivity|].
  intros i Hi. exists (-1). split; [lia|]. split; [discriminate|]. destruct i as [|[|[|i]]]; cbn in Hi; try lia. reflexivity.
Qed.

(* ---- C123: exit_errno and die ---- *)
(* Missing: numbers above 199. *)
Theorem C123_exec_partial : forall e, -199 <= e <= 199 -> exists t, decimal (Z.abs e) t /\
  exit_errno false e = Ok [Exec (Lit (txt "/bin/errno")) (VLit [Lit (txt "errno"); Lit t]) 0].
Proof.
  intros e He. unfold exit_errno.
  replace (if e <? 0 then iop (- e) else Ok e) with (Ok (Z.abs e)).
  2:{ destruct (Z.ltb_spec e 0); [rewrite iop_ok by (unfold INT_MIN, INT_MAX; lia)|]; f_equal; lia. }
  cbn [bind]. destruct (C72_errno_str (Z.abs e)) as (t & E & D & V & _); [lia|]. exists t. rewrite E. cbn [bind].
  split; [split; auto; rewrite V; lia|]. reflexivity.
Qed.
Print Assumptions C123_exec_partial.
(* Missing: numbers below 100 (a zero byte is written behind the digits) and above 199. *)
Theorem C123_message_partial : forall e, 100 <= Z.abs e <= 199 -> exists t x, decimal (Z.abs e) t /\
  exit_errno true e = Ok (x ++ [Exit (Z.abs e)]) /\ written 2 x = txt "Error, errno: " ++ t ++ [10].
Proof.
  intros e He. unfold exit_errno.
  replace (if e <? 0 then iop (- e) else Ok e) with (Ok (Z.abs e)).
  2:{ destruct (Z.ltb_spec e 0); [rewrite iop_ok by (unfold INT_MIN, INT_MAX; lia)|]; f_equal; lia. }
  cbn [bind]. destruct (C72_errno_str (Z.abs e)) as (t & E & D & V & L); [lia|].
  replace (Z.abs (Z.abs e) <? 100) with false in L by lia. rewrite E. cbn [bind].
  assert (F : firstn 3 (t ++ [0; 0]) = t).
  { destruct t as [|a [|b [|c [|d t]]]]; repeat rewrite zlen_cons in L; change (zlen (@nil Z)) with 0 in L; try lia; [reflexivity|]. nneg t. lia. }
  rewrite F. exists t.
  exists [Exec (Lit bin_errno) (VLit [Lit errno_name; Lit t]) 0; Write 2 errno_msg; Write 2 t; Write 2 [10]].
  split; [split; auto; rewrite V; lia|]. split; [reflexivity|]. cbn [written flat_map Z.eqb Pos.eqb]. reflexivity.
Qed.
Print Assumptions C123_message_partial.
(* every number below 100: a zero byte in the message *)
Theorem C123_zero_byte_refuted : forall e, Z.abs e < 100 -> exists x, exit_errno true e = Ok x /\ In 0 (written 2 x).
Proof.
  intros e He. unfold exit_errno.
  replace (if e <? 0 then iop (- e) else Ok e) with (Ok (Z.abs e)).
  2:{ destruct (Z.ltb_spec e 0); [rewrite iop_ok by (unfold INT_MIN, INT_MAX; lia)|]; f_equal; lia. }
  cbn [bind]. destruct (C72_errno_str (Z.abs e)) as (t & E & D & V & L); [lia|].
  replace (Z.abs (Z.abs e) <? 100) with true in L by lia. rewrite E. cbn [bind].
  destruct t as [|a [|b [|c t]]]; repeat rewrite zlen_cons in L; change (zlen (@nil Z)) with 0 in L; try lia.
  2:{ nneg t. lia. }
  eexists. split; [reflexivity|]. cbn [firstn app]. unfold written. cbn [flat_map Z.eqb Pos.eqb app].
  apply in_or_app. right. cbn. tauto.
Qed.
Print Assumptions C123_zero_byte_refuted.
(* 512: not a number *)
Theorem C123_large_refuted : exists e t, 199 < e /\ exit_errno false e = Ok [Exec (Lit (txt "/bin/errno")) (VLit [Lit (txt "errno"); Lit t]) 0] /\ ~ decimal e t.
Proof. exists 512, [49; 89; 50]. split; [reflexivity|]. split; [reflexivity|]. intros [H _]. inversion H; subst. inversion H3; subst. lia. Qed.
Print Assumptions C123_large_refuted.
(* die "exits with failure": the message, then the number as above; with 0 it exits with 0 *)
Theorem C123_die_partial : forall e msg, -199 <= e <= 199 -> exists t, decimal (Z.abs e) t /\
  die false e msg = Ok [Write 2 (msg ++ [10]); Exec (Lit (txt "/bin/errno")) (VLit [Lit (txt "errno"); Lit t]) 0].
Proof. intros e msg He. destruct (C123_exec_partial e He) as (t & D & E). exists t. split; [exact D|]. unfold die. now rewrite E. Qed.
Print Assumptions C123_die_partial.
Theorem C123_die_zero_refuted : exists e, forall msg, exists x, die true e msg = Ok (x ++ [Exit 0]).
Proof. exists 0. intros msg. eexists (_ :: [_; _; _; _]). reflexivity. Qed.
Print Assumptions C123_die_zero_refuted.
(* _die: errno if it is set, otherwise a plain failure *)
Theorem C123_die_errno_partial : forall failed errno,
  (-199 <= errno <= 199 -> errno <> 0 -> exists t, decimal (Z.abs errno) t /\
     die_ true false errno = Ok [Exec (Lit (txt "/bin/errno")) (VLit [Lit (txt "errno"); Lit t]) 0]) /\
  die_ true failed 0 = Ok [Exit (-1)] /\ die_ false failed errno = Ok [Exit (-1)].
Proof.
  intros failed errno. split; [|split; reflexivity]. intros R H. destruct (C123_exec_partial errno R) as (t & D & E).
  exists t. split; [exact D|]. unfold die_. replace (errno =? 0) with false by lia. exact E.
Qed.
Print Assumptions C123_die_errno_partial.
Example C123_case : exit_errno true (-104) = Ok [Exec (Lit (txt "/bin/errno")) (VLit [Lit (txt "errno"); Lit (txt "104")]) 0;
  Write 2 (txt "Error, errno: "); Write 2 (txt "104"); Write 2 [10]; Exit 104].
Proof. reflexivity. Qed.

(* ---- C124: sigaction and signal ---- *)
(* Missing: a null pointer for act (asking for the current action only). *)
Theorem C124_sigaction_partial : forall mini_errno restore t sig act,
  exists t' old r, sigaction mini_errno restore t sig (Some act) = Ok (t', old, r) /\
  (settable sig -> r = 0 /\ old = Some (t sig) /\ sa_handler (t' sig) = sa_handler act /\ sa_mask (t' sig) = sa_mask act /\
     sa_flags (t' sig) = Z.lor (sa_flags act) 0x04000000 /\ sa_restorer (t' sig) = restore) /\
  (~ settable sig -> r < 0 /\ old = None /\ t' sig = t sig) /\
  (forall s, s <> sig -> t' s = t s).
Proof.
  intros me restore t sig act. unfold sigaction, rt_sigaction, settable.
  destruct ((1 <=? sig) && (sig <=? 64) && negb (sig =? 9) && negb (sig =? 19)) eqn:E.
  - eexists. eexists. eexists. split; [reflexivity|]. split; [|split].
    + intros _. cbv beta. rewrite Z.eqb_refl. repeat split; reflexivity.
    + intros N. exfalso. lia.
    + intros s Hs. cbv beta. now replace (s =? sig) with false by lia.
  - eexists. eexists. eexists. split; [reflexivity|]. split; [|split].
    + intros N. exfalso. lia.
    + intros _. destruct me; repeat split; lia.
    + reflexivity.
Qed.
Print Assumptions C124_sigaction_partial.
Theorem C124_query_refuted : forall mini_errno restore t sig, sigaction mini_errno restore t sig None = Fault.
Proof. reflexivity. Qed.
Print Assumptions C124_query_refuted.
(* signal: the handler is installed, system calls are restarted, nothing else is blocked,
   the handler before is returned; otherwise SIG_ERR and nothing changes *)
Theorem C124_signal : forall mini_errno restore t sig func,
  exists t' err r, signal mini_errno restore t sig func = Ok (t', err, r) /\
  (settable sig -> r = sa_handler (t sig) /\ err = [] /\ sa_handler (t' sig) = func /\ sa_mask (t' sig) = 0 /\
     sa_flags (t' sig) = 0x14000000 /\ sa_restorer (t' sig) = restore) /\
  (~ settable sig -> r = -1 /\ err = txt "SIGNAL - ERR" ++ [10] /\ t' sig = t sig) /\
  (forall s, s <> sig -> t' s = t s).
Proof.
  intros me restore t sig func. unfold signal.
  destruct (C124_sigaction_partial me restore t sig {| sa_handler := func; sa_flags := SA_RESTART; sa_restorer := 0; sa_mask := 0 |})
    as (t' & old & r & E & H1 & H2 & H3). rewrite E. cbn [bind].
  assert (D : settable sig \/ ~ settable sig) by (unfold settable; lia). destruct D as [D|D].
  - destruct (H1 D) as (-> & -> & A & B & C & F). cbn [Z.ltb Z.compare]. eexists. eexists. eexists. split; [reflexivity|].
    split; [intros _; repeat split; auto|]. split; [contradiction|exact H3].
  - destruct (H2 D) as (L & -> & A). replace (r <? 0) with true by lia. eexists. eexists. eexists. split; [reflexivity|].
    split; [contradiction|]. split; [intros _; repeat split; auto|exact H3].
Qed.
Print Assumptions C124_signal.
Example C124_case : settable 2 /\ settable 64 /\ ~ settable 9 /\ ~ settable 0.
Proof. unfold settable. lia. Qed.

(* ---- C125: abort ---- *)
(* Missing: SIGABRT blocked, by the caller or by the handler. *)
Theorem C125_abort_partial : forall mini_errno restore run p,
  p_blocked p 6 = false -> (forall h p', run h p = Some p' -> p_blocked p' 6 = false) ->
  let h := sa_handler (p_disp p 6) in
  abort mini_errno restore run p =
    Ok (if (h =? 0) || (h =? 1) then (Killed 6, [])
        else match run h p with
             | Some _ => (Killed 6, [h])      (* the handler returned *)
             | None => (Left h, [h])
             end).
Proof.
  intros me restore run p B R h. unfold abort, raise. rewrite B. fold h.
  destruct (Z.eqb_spec h 0) as [E0|E0]; [reflexivity|].
  assert (S : forall t, exists t' err r, signal me restore t 6 0 = Ok (t', err, r) /\ sa_handler (t' 6) = 0).
  { intros t. destruct (C124_signal me restore t 6 0) as (t' & err & r & E & H & _). exists t', err, r. split; [exact E|]. apply H. unfold settable. lia. }
  destruct (Z.eqb_spec h 1) as [E1|E1].
  - cbn [orb]. destruct (S (p_disp p)) as (t' & err & r & E & Z). rewrite E. cbn [bind p_blocked p_disp]. rewrite B, Z. reflexivity.
  - cbn [orb]. destruct (run h p) as [p'|] eqn:Er; [|reflexivity].
    destruct (S (p_disp p')) as (t' & err & r & E & Z). rewrite E. cbn [bind p_blocked p_disp]. rewrite (R h p' Er), Z. reflexivity.
Qed.
Print Assumptions C125_abort_partial.
(* SIGABRT is blocked: exit(125) instead *)
Theorem C125_blocked_refuted : forall mini_errno restore run p, p_blocked p 6 = true -> abort mini_errno restore run p = Ok (Ended 125, []).
Proof.
  intros me restore run p B. unfold abort, raise. rewrite B.
  destruct (C124_signal me restore (p_disp p) 6 0) as (t' & err & r & E & _). rewrite E. cbn [bind p_blocked]. now rewrite B.
Qed.
Print Assumptions C125_blocked_refuted.
Example C125_case : let p := {| p_disp := fun _ => {| sa_handler := 77; sa_flags := 0; sa_restorer := 0; sa_mask := 0 |}; p_blocked := fun _ => false |} in
  p_blocked p 6 = false /\ abort true 9 (fun _ q => Some q) p = Ok (Killed 6, [77]) /\ abort true 9 (fun _ _ => None) p = Ok (Left 77, [77]).
Proof. repeat split. Qed.
