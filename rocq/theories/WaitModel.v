(* Model of src/process/wait.c, src/process/killpg.c and raise of src/process/sigaction.c on a model of the
   kernel's wait4 and kill. *)
From Verif Require Import Base SysModel.

(* not minilib code: a child of the caller; its status as the kernel encodes it, if it has ended;
   for src/process/wait.c:8-10, 16-18 *)
Record child := mkc { c_pid : Z; c_grp : Z; c_end : option Z }.
(* include/globaldefs.h:243 *)
Definition WNOHANG := 1.
(* not minilib code: which children wait4 asks for; own: the process group of the caller;
   for src/process/wait.c:8-10, 16-18 *)
Definition wanted (own upid : Z) (c : child) : bool :=
  if upid =? -1 then true else if upid =? 0 then c_grp c =? own else if 0 <? upid then c_pid c =? upid else c_grp c =? - upid.
(* for src/process/wait.c:8-10, 16-18 *)
Fixpoint take (own upid : Z) (l : list child) : option (Z * Z * list child) :=
  match l with
  | [] => None
  | c :: l =>
      match (if wanted own upid c then c_end c else None) with
      | Some st => Some (c_pid c, st, l)
      | None => match take own upid l with Some (p, st, r) => Some (p, st, c :: r) | None => None end
      end
  end.
(* for src/process/wait.c:8-10, 16-18 *)
Definition end_child (p st : Z) (l : list child) : list child :=
  map (fun c => if c_pid c =? p then mkc p (c_grp c) (match c_end c with None => Some st | Some s => Some s end) else c) l.
(* not minilib code: the kernel's wait4 without rusage, stopped children are not asked for.  later: the children that
   will end, in this order, with their status.  A child that has ended is taken; if there is none, but one
   that still runs, the call returns 0 (WNOHANG) or waits for the next end of a child; NoFuel: it waits for ever.
   The result: children, what is yet to come, return value, the status stored.
   for src/process/wait.c:8-10, 16-18 *)
Fixpoint wait4 (own upid options : Z) (later : list (Z * Z)) (l : list child) : res (list child * list (Z * Z) * Z * option Z) :=
  match take own upid l with
  | Some (p, st, r) => Ok (r, later, p, Some st)
  | None =>
      if existsb (wanted own upid) l then
        if Z.odd options then Ok (l, later, 0, None)
        else match later with
             | [] => NoFuel
             | (p, st) :: later => wait4 own upid options later (end_child p st l)
             end
      else Ok (l, later, -10, None)
  end.
(* the wrapper of wait4, include/syscall_stubs.h:770; errno *)
Definition wait4_w own upid options later l errno : res (list child * list (Z * Z) * Z * option Z * Z) :=
  let* (x, st) := wait4 own upid options later l in
  let '(l, later, k) := x in
  let '(r, errno) := syscall_wrapper k errno in
  Ok (l, later, r, st, errno).
(* src/process/wait.c:8-10 *)
Definition wait own later l errno := wait4_w own (-1) 0 later l errno.
(* src/process/wait.c:16-18 *)
Definition waitpid own pid options later l errno := wait4_w own pid options later l errno.

(* not minilib code: kill on a list of processes (pid, process group): those that get the signal.  ESRCH if there is
   none; permissions are not modelled.  The caller is (self, own); -1 is every process but 1 and the caller.
   for src/process/killpg.c:2-4, src/process/sigaction.c:145-147 *)
Definition kill_targets (self own : Z) (ps : list (Z * Z)) (pid : Z) : list (Z * Z) :=
  filter (fun q => if 0 <? pid then fst q =? pid else if pid =? 0 then snd q =? own
                   else if pid =? -1 then negb (fst q =? 1) && negb (fst q =? self) else snd q =? - pid) ps.
(* for src/process/killpg.c:2-4, src/process/sigaction.c:145-147 *)
Definition kill (self own : Z) (ps : list (Z * Z)) (pid errno : Z) : list (Z * Z) * (Z * Z) :=
  let t := kill_targets self own ps pid in
  (t, syscall_wrapper (match t with [] => -3 | _ => 0 end) errno).
(* src/process/killpg.c:2-4 *)
Definition killpg (self own : Z) (ps : list (Z * Z)) (pid errno : Z) : res (list (Z * Z) * (Z * Z)) :=
  let* n := iop (- pid) in Ok (kill self own ps n errno).
(* src/process/sigaction.c:145-147; getpid gives self *)
Definition raise (self own : Z) (ps : list (Z * Z)) (errno : Z) : list (Z * Z) * (Z * Z) := kill self own ps self errno.
