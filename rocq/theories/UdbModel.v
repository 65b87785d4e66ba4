(* Model of the resources that src/userdb takes: pages and file descriptors.  The content of the
   databases is in UserModel.v. *)
From Verif Require Import Base PageModel.

(* the process: its pages, its open descriptors, the fields file and size of a userdb
   (include/pwent.h:29-34) *)
Record proc := mkproc { p_pages : pages; p_fds : list Z; p_file : Z; p_size : Z }.
(* the answer of the kernel to open, fstat and mmap: the descriptor, the size of the file and the address
   of the mapping, or the error of mmap; for src/userdb/userdb_open.c:3-31 *)
Record answer := { r_fd : Z; r_size : Z; r_addr : Z + Z }.

(* src/userdb/userdb_open.c:3-31; None: open fails.  The message is left out.  An error of mmap is stored
   as address (with mini_errno it is -1). *)
Definition userdb_open (mini_errno : bool) (r : option answer) (p : proc) : bool * proc :=
  if negb (p_file p =? 0) then (true, p)
  else match r with
       | None => (false, p)
       | Some r =>
           let p := mkproc (p_pages p) (r_fd r :: p_fds p) (p_file p) (p_size p) in
           if r_fd r <=? 0 then (false, p)
           else
             let '(pg, a) := mmap mini_errno (fun _ => r_addr r) (p_pages p) (r_size r * 2) PROT_RW in
             (true, mkproc pg (remove Z.eq_dec (r_fd r) (p_fds p)) a (s32 (r_size r)))
       end.
(* src/userdb/endpwent.c:4-7 *)
Definition endpwent (mini_errno : bool) (p : proc) : res proc :=
  Ok (mkproc (fst (munmap mini_errno (p_pages p) (p_file p) (p_size p))) (p_fds p) 0 (p_size p)).
(* src/userdb/endgrent.c:4-7; int arithmetic *)
Definition endgrent (mini_errno : bool) (p : proc) : res proc :=
  let* n := iop (p_size p * 2) in
  Ok (mkproc (fst (munmap mini_errno (p_pages p) (p_file p) n)) (p_fds p) 0 (p_size p)).

(* a program: calls that need the database (getpwent, getpwnam, getpwuid, getgrent, getgrnam, getgrgid,
   getusergroups call userdb_open if file is 0: e.g. src/userdb/getpwent.c:5-8), and endpwent or
   endgrent *)
Inductive call := Get (r : option answer) | End.
(* src/userdb/getpwent.c:5-8 *)
Fixpoint calls (e : bool) (close : bool -> proc -> res proc) (l : list call) (p : proc) : res proc :=
  match l with
  | [] => Ok p
  | Get r :: l => calls e close l (snd (userdb_open e r p))
  | End :: l => let* p := close e p in calls e close l p
  end.
