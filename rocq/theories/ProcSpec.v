(* Specifications for ProcProps.v. *)
From Coq Require Import String Ascii.
From Verif Require Import Base PathModel PathSpec SysModel SysSpec ProcModel.

(* the bytes of a text *)
Fixpoint txt (s : string) : list Z :=
  match s with EmptyString => [] | String c r => Z.of_nat (nat_of_ascii c) :: txt r end.

(* execvp of POSIX: a name with a slash is the path itself, any other name is looked up
   in the directories of PATH.  (The empty name is handed to execve, which rejects it.) *)
Definition resolved (access : list Z -> bool) (dirs : list (list Z)) (file : list Z) : option (list Z) :=
  if in_dec Z.eq_dec slash file then Some file
  else match file with [] => Some [] | _ => first_hit access dirs file end.

(* what the kernel reports for one waitpid of the parent before the child has ended *)
Inductive report :=
| Interrupted (r : Z)     (* r < 0: the call failed (EINTR), no status is stored *)
| State (w : wstat).      (* the child was stopped or continued *)
Definition report_ok (r : report) : Prop :=
  match r with
  | Interrupted n => n < 0
  | State (Stopped s) => 1 <= s <= 64
  | State Continued => True
  | State _ => False
  end.
Definition answer (pid : Z) (r : report) : Z * option Z :=
  match r with
  | Interrupted n => (n, None)
  | State w => (pid, Some (encode w))
  end.
(* The calls of waitpid(pid) give these reports, then the end of the child; every later
   call fails (ECHILD). *)
Definition child_ends (k : kernel) (pid : Z) (before : list report) (w : wstat) : Prop :=
  Forall report_ok before /\
  (forall i r, nth_error before i = Some r -> k_wait k i pid = answer pid r) /\
  k_wait k (length before) pid = answer pid (State w) /\
  (forall i, (length before < i)%nat -> exists r, r < 0 /\ r <> pid /\ k_wait k i pid = (r, None)).

(* what a process writes to a file descriptor *)
Definition written (fd : Z) (l : list act) : list Z :=
  flat_map (fun a => match a with Write d s => if d =? fd then s else [] | _ => [] end) l.
(* the number as decimal digits *)
Definition decimal (e : Z) (t : list Z) : Prop :=
  Forall (fun c => 48 <= c <= 57) t /\ fold_left (fun a c => 10 * a + (c - 48)) t 0 = e.

(* signals whose disposition can be set *)
Definition settable (sig : Z) : Prop := 1 <= sig <= 64 /\ sig <> 9 /\ sig <> 19.
