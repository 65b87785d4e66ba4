(* Model of src/exec/{execl,execvp,system,vexec,vexec_q}.c, src/process/{exit_errno,die,
   sigaction,signal,abort,wait}.c and include/seterrno.h. *)
From Verif Require Import Base PathModel SysModel.

(* ---- src/exec/execl.c ---- *)
(* va_arg on the arguments behind arg0 that are still unread; reading more than were
   passed is undefined (ISO C 7.16.1.1); for src/exec/execl.c:10-12 *)
Definition va_arg (ap : list Z) : res (Z * list Z) :=
  match ap with x :: r => Ok (x, r) | [] => Fault end.
(* the array argv of the block, src/exec/execl.c:17: [n] pointers, not initialised *)
Definition slots := list (option Z).
(* src/exec/execl.c:17 *)
Fixpoint slot_set (a : slots) (i : nat) (v : Z) : res slots :=
  match a, i with
  | [], _ => Fault
  | _ :: r, O => Ok (Some v :: r)
  | x :: r, S k => let* r := slot_set r k v in Ok (x :: r)
  end.
(* src/exec/execl.c:10-12: count the arguments; argc an int, no overflow as the arguments are on
   the stack (simplified to a nat) *)
Fixpoint execl_count (fuel argc : nat) (ap : list Z) : res nat :=
  match fuel with
  | O => NoFuel
  | S k =>
      let* (x, ap) := va_arg ap in
      if x =? 0 then Ok argc else execl_count k (S argc) ap
  end.
(* src/exec/execl.c:20-21: [n] more turns, the next index [i] *)
Fixpoint execl_fill (n i : nat) (ap : list Z) (a : slots) : res (nat * slots) :=
  match n with
  | O => Ok (i, a)
  | S k =>
      let* (x, ap) := va_arg ap in
      let* a := slot_set a i x in
      execl_fill k (S i) ap a
  end.
(* the kernel reads argv up to the null pointer; for src/exec/execl.c:7-27 *)
Fixpoint read_argv (a : slots) : res (list Z) :=
  match a with
  | Some x :: r => if x =? 0 then Ok [] else let* r := read_argv r in Ok (x :: r)
  | _ => Fault
  end.
(* src/exec/execl.c:7-27; the arguments of the execve that is called (path, argv up to its
   null pointer, envp), whose result is returned *)
Definition execl (fuel : nat) (environ pathname arg0 : Z) (args : list Z) : res (Z * list Z * Z) :=
  let* argc := execl_count fuel 1 args in
  let argv := repeat None (argc + 1) in
  let* argv := slot_set argv 0 arg0 in
  let* (i, argv) := execl_fill (argc - 1) 1 args argv in
  let* argv := slot_set argv i 0 in
  let* l := read_argv argv in
  Ok (pathname, l, environ).

(* ---- src/exec/execvp.c:11-20 ----
   [access], [default], [path] as for where; [buf] is the address of the local array of
   PATH_MAX bytes.  Result: the memory and the path name that execve is called with
   (its result is returned), None when -1 is returned without a call; argv and envp are
   passed on. *)
Definition execvpe (fuel : nat) (access : list Z -> bool) (m : mem) (default path file argv envp buf : Z)
  : res (mem * option (list Z * Z * Z)) :=
  let* c := load m file in
  if (c =? 0) || (c =? 46) || (c =? 47) then
    let* s := read_str fuel m file in Ok (m, Some (s, argv, envp))
  else
    let* (m, r) := where_ fuel access m default path file buf in
    if negb (r =? 0) then let* s := read_str fuel m buf in Ok (m, Some (s, argv, envp))
    else Ok (m, None).

(* ---- the actions of a process that are seen outside ---- *)
(* an element of argv: a string of the library, or a pointer of the caller;
   for src/exec/system.c:8-14 *)
Inductive arg := Lit (s : list Z) | Ptr (p : Z).
Inductive vec := VLit (l : list arg) | VPtr (p : Z). (* for src/exec/system.c:8-14 *)
(* for src/exec/system.c:8-14 *)
Inductive act :=
| Exec (path : arg) (argv : vec) (envp : Z)
| Write (fd : Z) (s : list Z)
| Close (fd : Z)
| Exit (code : Z).

(* The kernel, seen by the process that forks.
   k_vfork: the result of vfork in the parent.  k_exec: what execve returns in the child,
   None when it succeeds and does not return, the errno otherwise.  k_wait i pid: the
   i-th waitpid with this pid and options 0: its result and the status it stores, None
   if nothing is stored.  for src/exec/system.c:8-14 *)
Record kernel := { k_vfork : Z; k_exec : option Z; k_wait : nat -> Z -> Z * option Z }.

(* src/exec/system.c:11-12: "Error. Couldn't exec sh in system()\n" and "/bin/sh" *)
Definition system_msg : list Z :=
  [69; 114; 114; 111; 114; 46; 32; 67; 111; 117; 108; 100; 110; 39; 116; 32; 101; 120; 101; 99; 32; 115; 104; 32; 105; 110; 32;
   115; 121; 115; 116; 101; 109; 40; 41; 10].
Definition bin_sh : list Z := [47; 98; 105; 110; 47; 115; 104]. (* src/exec/system.c:11-12 *)
(* src/exec/system.c:8-14, the child *)
Definition system_child (k : kernel) (environ command : Z) : list act :=
  Exec (Lit bin_sh) (VLit [Lit [115; 104]; Lit [45; 99]; Ptr command]) environ ::
  match k_exec k with
  | None => []
  | Some _ => [Write 2 system_msg; Exit (-1)]
  end.
(* src/exec/system.c:15-20; [ws] is None as long as it is uninitialised, [i] counts the
   calls *)
Fixpoint system_wait (fuel : nat) (k : kernel) (i : nat) (pid : Z) (ws : option Z) : res Z :=
  match fuel with
  | O => NoFuel
  | S f =>
      let '(_, st) := k_wait k i pid in
      let ws := match st with Some s => Some s | None => ws end in
      match ws with
      | None => Fault
      | Some s => if negb (WIFEXITED s) then system_wait f k (S i) pid ws else Ok (WEXITSTATUS s)
      end
  end.
(* src/exec/system.c:4-21: the result, and the actions of the child if there is one *)
Definition system (fuel : nat) (k : kernel) (environ command : Z) : res (list act * Z) :=
  let pid := k_vfork k in
  let child := if 0 <? pid then system_child k environ command else [] in
  let* r := system_wait fuel k 0 pid None in
  Ok (child, r).

(* include/syscall.h:197-231: what a failing system call returns, and errno; without
   mini_errno there is no errno *)
Definition sys_fail (mini_errno : bool) (e errno : Z) : Z * Z := if mini_errno then (-1, e) else (- e, errno).
(* include/seterrno.h:3-7 *)
Definition seterrno (mini_errno : bool) (e errno : Z) : Z := if mini_errno then (if 0 <? e then e else - e) else errno.

(* src/exec/vexec.c:9-13, src/exec/vexec_q.c:9-14 (quiet): the child, and errno
   afterwards, which is the parent's as well (vfork) *)
Definition vexec_child (quiet mini_errno : bool) (k : kernel) (path argv envp errno : Z) : list act * Z :=
  let first := if quiet then [Close 1] else [] in
  match k_exec k with
  | None => (first ++ [Exec (Ptr path) (VPtr argv) envp], errno)
  | Some e =>
      let '(ret, errno) := sys_fail mini_errno e errno in
      (first ++ [Exec (Ptr path) (VPtr argv) envp; Exit ret], seterrno mini_errno ret errno)
  end.
(* src/exec/vexec.c:15-21, src/exec/vexec_q.c:16-22 *)
Fixpoint vexec_wait (fuel : nat) (k : kernel) (i : nat) (pid : Z) (ws : option Z) : res Z :=
  match fuel with
  | O => NoFuel
  | S f =>
      let '(wpid, st) := k_wait k i pid in
      let ws := match st with Some s => Some s | None => ws end in
      if wpid =? pid then
        match ws with
        | None => Fault
        | Some s =>
            if WIFEXITED s || WIFSIGNALED s then Ok (WEXITSTATUS s) else vexec_wait f k (S i) pid ws
        end
      else vexec_wait f k (S i) pid ws
  end.
(* src/exec/vexec.c:6-22 and src/exec/vexec_q.c:6-23: the result, errno and the child's
   actions *)
Definition vexec (quiet mini_errno : bool) (fuel : nat) (k : kernel) (path argv envp errno : Z) : res (list act * Z * Z) :=
  let pid := k_vfork k in
  let '(child, errno) := if 0 <? pid then vexec_child quiet mini_errno k path argv envp errno else ([], errno) in
  let* r := vexec_wait fuel k 0 pid None in
  Ok (child, r, errno).

(* ---- src/process/exit_errno.c ---- *)
(* "/bin/errno", "errno", "Error, errno: ";
   for src/process/exit_errno.c:17-32, src/process/errno_str.c:22-23 *)
Definition bin_errno : list Z := [47; 98; 105; 110; 47; 101; 114; 114; 110; 111].
(* for src/process/exit_errno.c:17-32, src/process/errno_str.c:22-23 *)
Definition errno_name : list Z := [101; 114; 114; 110; 111].
(* for src/process/exit_errno.c:17-32, src/process/errno_str.c:22-23 *)
Definition errno_msg : list Z := [69; 114; 114; 111; 114; 44; 32; 101; 114; 114; 110; 111; 58; 32].
(* src/process/exit_errno.c:17-32: the actions; [failed]: execve returns.  The text of errno_str is
   followed by its two zero bytes, src/process/errno_str.c:22-23. *)
Definition exit_errno (failed : bool) (errnum : Z) : res (list act) :=
  let* errnum := (if errnum <? 0 then iop (- errnum) else Ok errnum) in
  let* text := errno_str errnum in
  let ex := Exec (Lit bin_errno) (VLit [Lit errno_name; Lit text]) 0 in
  if failed then Ok [ex; Write 2 errno_msg; Write 2 (firstn 3 (text ++ [0; 0])); Write 2 [10]; Exit errnum]
  else Ok [ex].
(* src/process/die.c:36-50; without mini_errno errno is not looked at *)
Definition die_ (mini_errno failed : bool) (errno : Z) : res (list act) :=
  let errnum := if mini_errno then errno else 0 in
  if negb (errnum =? 0) then exit_errno failed errnum
  else Ok [Exit (-1)].
(* the macro die, src/process/die.c:11: ewritesl writes the text and a newline (C105) *)
Definition die (failed : bool) (errnum : Z) (msg : list Z) : res (list act) :=
  let* l := exit_errno failed errnum in Ok (Write 2 (msg ++ [10]) :: l).

(* ---- src/process/sigaction.c:117-134 ---- *)
(* struct sigaction, headers/linux_x64/sys/signal.h:59-64 *)
Record sact := { sa_handler : Z; sa_flags : Z; sa_restorer : Z; sa_mask : Z }.
Definition SA_RESTORER := 0x04000000. (* headers/linux_x64/sys/signal.h:59-64 *)
Definition SA_RESTART := 0x10000000. (* headers/linux_x64/sys/signal.h:59-64 *)
Definition dispositions := Z -> sact. (* headers/linux_x64/sys/signal.h:59-64 *)
(* the kernel's rt_sigaction with sigsetsize 8 (not minilib code): EINVAL for signals that
   don't exist, and for SIGKILL and SIGSTOP; for src/process/sigaction.c:117-134 *)
Definition rt_sigaction (mini_errno : bool) (t : dispositions) (sig : Z) (act : sact) : dispositions * option sact * Z :=
  if (1 <=? sig) && (sig <=? 64) && negb (sig =? 9) && negb (sig =? 19) then
    (fun s => if s =? sig then act else t s, Some (t sig), 0)
  else (t, None, if mini_errno then -1 else -22).
(* src/process/sigaction.c:117-134; [act] is None for a null pointer; the second result is what is
   stored into *oact; [restore] the address of _sigrestore *)
Definition sigaction (mini_errno : bool) (restore : Z) (t : dispositions) (sig : Z) (act : option sact)
  : res (dispositions * option sact * Z) :=
  match act with
  | None => Fault
  | Some a =>
      let sa := {| sa_mask := sa_mask a; sa_handler := sa_handler a; sa_flags := Z.lor (sa_flags a) SA_RESTORER; sa_restorer := restore |} in
      Ok (rt_sigaction mini_errno t sig sa)
  end.
(* "SIGNAL - ERR\n"; for src/process/signal.c:5-13 *)
Definition signal_msg : list Z := [83; 73; 71; 78; 65; 76; 32; 45; 32; 69; 82; 82; 10].
(* src/process/signal.c:5-13: the table, what is written to stderr, the result; the
   members of sa that are not named are zero *)
Definition signal (mini_errno : bool) (restore : Z) (t : dispositions) (sig func : Z) : res (dispositions * list Z * Z) :=
  let sa := {| sa_handler := func; sa_flags := SA_RESTART; sa_restorer := 0; sa_mask := 0 |} in
  let* (t, old, r) := sigaction mini_errno restore t sig (Some sa) in
  if r <? 0 then Ok (t, signal_msg, -1)
  else match old with
       | Some o => Ok (t, [], sa_handler o)
       | None => Ok (t, [], 0)          (* sa_old stays as initialised, src/process/signal.c:6 *)
       end.

(* ---- src/process/abort.c ---- *)
(* the process: its dispositions and blocked signals; for src/process/sigaction.c:145-147 *)
Record proc := { p_disp : dispositions; p_blocked : Z -> bool }.
(* a handler that runs to its end, with the process state it leaves, or that does not
   return (exit, longjmp); for src/process/sigaction.c:145-147 *)
Definition handlers := Z -> proc -> option proc.
(* for src/process/sigaction.c:145-147 *)
Inductive fate :=
| Killed (sig : Z)        (* terminated by the default action of sig *)
| Left (handler : Z)      (* this handler didn't return *)
| Ended (code : Z).       (* exit(code) *)
(* raise, src/process/sigaction.c:145-147, on the kernel (not minilib code): a blocked signal stays
   pending, otherwise it is delivered before kill returns; [calls] are the handlers called *)
Definition raise (run : handlers) (p : proc) (calls : list Z) (sig : Z) : (proc + fate) * list Z :=
  if p_blocked p sig then (inl p, calls)
  else
    let h := sa_handler (p_disp p sig) in
    if h =? 0 then (inr (Killed sig), calls)
    else if h =? 1 then (inl p, calls)
    else match run h p with
         | Some p' => (inl p', calls ++ [h])
         | None => (inr (Left h), calls ++ [h])
         end.
(* src/process/abort.c:3-11; what ends the process, and the handlers called before *)
Definition abort (mini_errno : bool) (restore : Z) (run : handlers) (p : proc) : res (fate * list Z) :=
  match raise run p [] 6 with
  | (inr e, calls) => Ok (e, calls)
  | (inl p, calls) =>
      let* (t, _, _) := signal mini_errno restore (p_disp p) 6 0 in
      match raise run {| p_disp := t; p_blocked := p_blocked p |} calls 6 with
      | (inr e, calls) => Ok (e, calls)
      | (inl _, calls) => Ok (Ended 125, calls)
      end
  end.
