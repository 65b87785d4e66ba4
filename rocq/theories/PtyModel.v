(* Model of src/termios/pty.c: posix_openpt, unlockpt and grantpt (ptsname is in TermModel.v). *)
From Verif Require Import Base PathModel ConvSpec StripModel TmplModel AbiModel TermModel.
From Coq Require Import String.
Local Open Scope list_scope.

(* The kernel (manual pages pts(4), ptmx(4)): the permission bits of /dev/ptmx, the slaves with their
   permission bits and their lock, the open descriptors, each of them a master or a slave;
   for src/termios/pty.c:8-10 *)
Inductive side := Master (n : Z) | Slave (n : Z).
(* for src/termios/pty.c:8-10 *)
Record ptys := mkp { ptmx : Z; slaves : Z -> option (Z * bool); open_fds : Z -> option side }.
(* for src/termios/pty.c:8-10 *)
Definition set_slave (n : Z) (v : Z * bool) (k : ptys) : ptys :=
  mkp (ptmx k) (fun x => if x =? n then Some v else slaves k x) (open_fds k).
(* for src/termios/pty.c:8-10 *)
Definition set_fd (fd : Z) (s : side) (k : ptys) : ptys :=
  mkp (ptmx k) (slaves k) (fun x => if x =? fd then Some s else open_fds k x).
(* the number of the slave with this path: /dev/pts/ and a decimal number without leading zeros;
   for src/termios/pty.c:8-10 *)
Definition pts_of (path : list Z) : option Z :=
  match after (chars "/dev/pts/") path with
  | Some l =>
      if begins (chars "/dev/pts/") path && forallb (fun b => (48 <=? b) && (b <=? 57)) l && negb (eqs l []) && (negb (begins (chars "0") l) || eqs l (chars "0"))
      then Some (value 10 l) else None
  | None => None
  end.
(* open (kernel) for these paths: /dev/ptmx makes a new pair, its slave is locked and has the rights
   crw--w---- of the mount option mode=620; a slave that is locked cannot be opened.  [fd], [n]: the
   descriptor and the number of the pair that the kernel chooses; e: an error;
   for src/termios/pty.c:8-10 *)
Definition k_open (e fd n : Z) (path : list Z) (k : ptys) : Z * ptys :=
  if eqs path (chars "/dev/ptmx") then (fd, set_fd fd (Master n) (set_slave n (400, true) k))
  else
    match pts_of path with
    | Some i =>
        match slaves k i with
        | Some (_, false) => (fd, set_fd fd (Slave i) k)
        | _ => (e, k)
        end
    | None => (e, k)
    end.
(* src/termios/pty.c:8-10.  The flags have no effect on what is modelled here. *)
Definition posix_openpt (e fd n flags : Z) (k : ptys) : Z * ptys := k_open e fd n (chars "/dev/ptmx") k.
(* ioctl TIOCSPTLCK (kernel): locks the slave if the number is not 0; for src/termios/pty.c:14-17 *)
Definition k_lock (e fd v : Z) (k : ptys) : Z * ptys :=
  match open_fds k fd with
  | Some (Master n) =>
      match slaves k n with Some (m, _) => (0, set_slave n (m, negb (v =? 0)) k) | None => (e, k) end
  | _ => (e, k)
  end.
(* src/termios/pty.c:14-17 *)
Definition unlockpt (e fd : Z) (k : ptys) : Z * ptys := k_lock e fd 0 k.
(* ioctl TIOCGPTN (kernel): the result and the number; for src/termios/pty.c:49-55 *)
Definition k_number (e fd pty : Z) (k : ptys) : Z * Z :=
  match open_fds k fd with Some (Master n) => (0, n) | _ => (e, pty) end.
(* fstat (kernel): the mode of the inode behind the descriptor: for a master that of /dev/ptmx;
   for src/termios/pty.c:49-55 *)
Definition k_fstat (e fd : Z) (k : ptys) : Z * Z :=
  match open_fds k fd with
  | Some (Master _) => (0, Z.lor S_IFCHR (ptmx k))
  | Some (Slave n) => match slaves k n with Some (m, _) => (0, Z.lor S_IFCHR m) | None => (e, 0) end
  | None => (e, 0)
  end.
(* chmod (kernel): the permission bits of the mode; a null pointer is an error;
   for src/termios/pty.c:49-55 *)
Definition k_chmod (e : Z) (path : option (list Z)) (mode : Z) (k : ptys) : Z * ptys :=
  match path with
  | Some p =>
      match pts_of p with
      | Some n => match slaves k n with Some (_, l) => (0, set_slave n (Z.land mode 4095, l) k) | None => (e, k) end
      | None => (e, k)
      end
  | None => (e, k)
  end.
(* headers/common/bits/stat.h:38,39,43 *)
Definition S_IRUSR := 256.
Definition S_IWUSR := 128. (* headers/common/bits/stat.h:39 *)
Definition S_IWGRP := 16. (* headers/common/bits/stat.h:43 *)
(* src/termios/pty.c:49-55; fmt, buf: the format and the static buffer of ptsname, e: the error the kernel
   returns, pty: what was in the variable of ptsname_r.  None: the process ended in vsnprintf. *)
Definition grantpt (fuel : nat) (mini_buf : Z) (tmp0 : Z -> Z) (fmt buf e fd pty : Z) (m : mem) (k : ptys)
  : res (option (mem * Z * ptys)) :=
  let '(r, st_mode) := k_fstat e fd k in
  if r <? 0 then Ok (Some (m, -1, k))
  else
    let '(r, n) := k_number e fd pty k in
    let* o := ptsname fuel mini_buf tmp0 m fmt buf r n in
    match o with
    | PtsSegv _ => Ok None
    | PtsRet m p =>
        let* path := if p =? 0 then Ok None else let* s := read_str fuel m p in Ok (Some s) in
        let '(r, k) := k_chmod e path (Z.lor (Z.lor (Z.lor st_mode S_IRUSR) S_IWUSR) S_IWGRP) k in
        Ok (Some (m, if r <? 0 then -1 else 0, k))
    end.
