(* Model of src/userdb/getgroups.c and src/userdb/initgroups.c on top of the user database. *)
From Verif Require Import Base UserModel.

(* the calling process, as far as the kernel knows it; for src/userdb/getgroups.c:8-14 *)
Record proc := { p_uid : Z; p_gid : Z; p_groups : list Z; p_privileged : bool }.
(* both databases share the memory; the state of the group database is db, gr *)
(* src/userdb/getgroups.c:8-14.  The list stored and the result. *)
Definition getgroups (fuel : nat) (fsp fsg : fsys) (sp : pws) (db : udb) (gr : grent) (me : proc) (maxgroups : Z) : res (list Z * Z) :=
  let* (sp, ok) := getpwuid fuel fsp sp (p_uid me) in
  if negb ok then Ok ([], -1)
  else let* r := getusergroups fuel fsg (mkgrs (s_m sp) db gr) (pw_name (s_pw sp)) maxgroups in
       let '(_, l, n) := r in Ok (l, n).

(* include/config.h:23 *)
Definition MAXGROUPS : Z := 128.
(* the system calls setgroups and setgid, as in Linux: EPERM, EINVAL for a negative number or
   more than 65536 groups; for src/userdb/initgroups.c:2-18 *)
Definition sys_setgroups (me : proc) (c : Z) (l : list Z) : proc * Z :=
  if negb (p_privileged me) then (me, -1)
  else if (c <? 0) || (65536 <? c) then (me, -22)
  else ({| p_uid := p_uid me; p_gid := p_gid me; p_groups := firstn (Z.to_nat c) l; p_privileged := true |}, 0).
(* for src/userdb/initgroups.c:2-18 *)
Definition sys_setgid (me : proc) (g : Z) : proc * Z :=
  if p_privileged me then ({| p_uid := p_uid me; p_gid := g; p_groups := p_groups me; p_privileged := true |}, 0)
  else if g =? p_gid me then (me, 0) else (me, -1).
(* src/userdb/initgroups.c:2-18.  (With mini_errno the wrappers return -1 instead of -22:
   the sign is all that counts.) *)
Definition initgroups (fuel : nat) (fsp fsg : fsys) (sp : pws) (db : udb) (gr : grent) (me : proc) (user group : Z) : res (proc * Z) :=
  let* (sp, ok) := getpwnam fuel fsp sp user in
  if negb ok then Ok (me, -1)
  else
    let* r := getusergroups fuel fsg (mkgrs (s_m sp) db gr) user MAXGROUPS in
    let '(_, grl, c) := r in
    let (me, ret) := sys_setgroups me c grl in
    if ret <? 0 then Ok (me, -1)
    else let (me, ret) := sys_setgid me (pw_gid (s_pw sp)) in
         if ret <? 0 then Ok (me, -1) else Ok (me, 0).
