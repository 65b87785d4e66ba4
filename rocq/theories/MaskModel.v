(* Model of sigprocmask, src/process/sigaction.c. *)
From Verif Require Import Base SysModel.

(* include/globaldefs.h:63-65 *)
Definition SIG_BLOCK := 0.
Definition SIG_UNBLOCK := 1. (* include/globaldefs.h:64 *)
Definition SIG_SETMASK := 2. (* include/globaldefs.h:65 *)
(* headers/linux_x64/sys/signal.h:56 *)
Definition SIZEOF_SIGSET := 8.
(* not minilib code: the kernel's rt_sigprocmask on the mask of the process (bit n-1: signal n).  The new
   mask, what is stored into *oset (None: nothing), the result.  SIGKILL and SIGSTOP are taken out of
   the set.  for src/process/sigaction.c:61-63 *)
Definition kill_stop : Z := 2 ^ 8 + 2 ^ 18.
(* for src/process/sigaction.c:61-63 *)
Definition rt_sigprocmask (mini_errno : bool) (mask how : Z) (nset : option Z) (want : bool) (size : Z) : Z * option Z * Z :=
  let bad := (mask, None, if mini_errno then -1 else -22) in
  let fine m := (m, if want then Some mask else None, 0) in
  if negb (size =? 8) then bad
  else match nset with
       | None => fine mask
       | Some s =>
           let s := Z.ldiff s kill_stop in
           if how =? 0 then fine (Z.lor mask s) else if how =? 1 then fine (Z.ldiff mask s) else if how =? 2 then fine s else bad
       end.
(* src/process/sigaction.c:61-63; want: oldset is not null *)
Definition sigprocmask (mini_errno : bool) (mask how : Z) (set : option Z) (want : bool) : Z * option Z * Z :=
  rt_sigprocmask mini_errno mask how set want SIZEOF_SIGSET.
