(* Model of src/userdb: the tokenizer and the passwd and group database functions. *)
From Verif Require Import Base StrModel.

(* include/pwent.h:29-34 (userdb) *)
Record udb := mkudb { u_file : Z; u_p : Z; u_p2 : Z; u_size : Z }.
(* include/pwent.h:8-16 (struct passwd) *)
Record pwent := mkpw { pw_name : Z; pw_passwd : Z; pw_uid : Z; pw_gid : Z; pw_gecos : Z; pw_dir : Z; pw_shell : Z }.
(* include/pwent.h:19-25 (struct group); simplified: gr_mem is the list of the pointers in
   front of the terminating 0 *)
Record grent := mkgr { gr_name : Z; gr_passwd : Z; gr_gid : Z; gr_mem : list Z }.

(* The system calls of userdb_open: the file is opened, its size taken, and it is mapped
   privately.  [None]: open fails; [Some (a, data)]: the content is data and the kernel maps
   it at a.  The mapping has twice the size of the file, but only the rest of the last page
   of the file is accessible behind its content (zero bytes); an access to later pages is a
   SIGBUS.  Simplified: fstat and mmap do not fail.  for src/userdb/userdb_open.c:3-31 *)
Definition fsys := option (Z * list Z).
Definition page_end (n : Z) : Z := (n + 4095) / 4096 * 4096. (* for src/userdb/endpwent.c:4-7 *)
(* for src/userdb/userdb_open.c:3-31 *)
Definition map_file (m : mem) (a : Z) (data : list Z) : mem := fun x =>
  if (a <=? x) && (x <? a + zlen data) then nth_error data (Z.to_nat (x - a))
  else if (a + zlen data <=? x) && (x <? a + page_end (zlen data)) then Some 0 else m x.

(* src/userdb/userdb_open.c:3-31; the message to stderr is left out *)
Definition userdb_open (fs : fsys) (m : mem) (u : udb) : bool * mem * udb :=
  if negb (u_file u =? 0) then (true, m, u)
  else match fs with
       | None => (false, m, u)
       | Some (a, data) => (true, map_file m a data, mkudb a a (a + zlen data) (s32 (zlen data)))
       end.

(* src/userdb/userdb.c:19-30; fe is udb->file+udb->size *)
Fixpoint token_loop (fuel : nat) (m : mem) (fe p : Z) : res (mem * Z) :=
  match fuel with
  | O => NoFuel
  | S k =>
      if p <? fe then
        let* c := load m p in
        if c =? 0 then Ok (m, p)
        else if (c =? 58) || (c =? 10) then let* m := store m p 0 in token_loop k m fe p
        else token_loop k m fe (p + 1)
      else Ok (m, p)
  end.
(* src/userdb/userdb.c:19-30: memory, the token, the new *p *)
Definition token_s (fuel : nat) (m : mem) (fe p : Z) : res (mem * Z * Z) :=
  let* r := token_loop fuel m fe p in
  let '(m, q) := r in Ok (m, p, q + 1).
(* src/userdb/userdb.c:36-40 *)
Fixpoint tokeni_loop (fuel : nat) (m : mem) (fe p i : Z) : res (Z * Z) :=
  match fuel with
  | O => NoFuel
  | S k =>
      if p <? fe then
        let* c := load m p in
        if (48 <=? c) && (c <=? 57) then
          let* a := iop (8 * i) in
          let* a := iop (i + a) in
          let* a := iop (a + (c - 48)) in
          let* i := iop (i + a) in
          tokeni_loop k m fe (p + 1) i
        else Ok (p, i)
      else Ok (p, i)
  end.
(* src/userdb/userdb.c:33-43: the value, the new *p *)
Definition token_i (fuel : nat) (m : mem) (fe p : Z) : res (Z * Z) :=
  let* r := tokeni_loop fuel m fe p 0 in
  let '(q, i) := r in Ok (i, q + 1).

(* ---- passwd ---- *)
(* the part of mlgl the passwd functions use, include/minilib_global.h:99-100, and memory *)
Record pws := mkpws { s_m : mem; s_db : udb; s_pw : pwent }.
(* a user database that has not been used: mlgl is zeroed; include/minilib_global.h:99-100 *)
Definition pws0 (m : mem) : pws := mkpws m (mkudb 0 0 0 0) (mkpw 0 0 0 0 0 0 0).

(* src/userdb/setpwent.c:3-5 *)
Definition setpwent (s : pws) : pws :=
  let u := s_db s in mkpws (s_m s) (mkudb (u_file u) (u_file u) (u_p2 u) (u_size u)) (s_pw s).
(* src/userdb/endpwent.c:4-7; the munmap of the size bytes unmaps whole pages *)
Definition endpwent (s : pws) : pws :=
  let u := s_db s in
  mkpws (fun x => if (u_file u <=? x) && (x <? u_file u + page_end (u_size u)) then None else s_m s x)
    (mkudb 0 (u_p u) (u_p2 u) (u_size u)) (s_pw s).

(* the fields behind the name and before the gid: src/userdb/getpwent.c:20-22,
   src/userdb/getpwnam.c:28-30, src/userdb/getpwuid.c:31-33 *)
Definition tail_fields (fuel : nat) (m : mem) (fe p : Z) : res (mem * (Z * Z * Z) * Z) :=
  let* r := token_s fuel m fe p in let '(m, gecos, p) := r in
  let* r := token_s fuel m fe p in let '(m, dir, p) := r in
  let* r := token_s fuel m fe p in let '(m, shell, p) := r in
  Ok (m, (gecos, dir, shell), p).

(* src/userdb/getpwent.c:4-25: true = &mlgl->pwent is returned, false = 0 *)
Definition getpwent (fuel : nat) (fs : fsys) (s : pws) : res (pws * bool) :=
  let '(ok, m, u) := if u_file (s_db s) =? 0 then userdb_open fs (s_m s) (s_db s) else (true, s_m s, s_db s) in
  let s := mkpws m u (s_pw s) in
  if negb ok then Ok (s, false)
  else
    let fe := u_file u + u_size u in
    let setp p := mkudb (u_file u) p (u_p2 u) (u_size u) in
    if fe <=? u_p u then Ok (s, false)
    else
      let* r := token_s fuel m fe (u_p u) in let '(m, name, p) := r in
      let* c := load m name in
      if c =? 0 then Ok (mkpws m (setp p) (s_pw s), false)
      else
        let* r := token_s fuel m fe p in let '(m, passwd, p) := r in
        let* r := token_i fuel m fe p in let '(uid, p) := r in
        let* r := token_i fuel m fe p in let '(gid, p) := r in
        let* r := tail_fields fuel m fe p in let '(m, (gecos, dir, shell), p) := r in
        Ok (mkpws m (setp p) (mkpw name passwd (u32 uid) (u32 gid) gecos dir shell), true).

(* skip k tokens: src/userdb/getpwnam.c:34-35, src/userdb/getpwuid.c:37-38 *)
Fixpoint skip_tokens (k : nat) (fuel : nat) (m : mem) (fe p : Z) : res (mem * Z) :=
  match k with
  | O => Ok (m, p)
  | S k => let* r := token_s fuel m fe p in let '(m, _, p) := r in skip_tokens k fuel m fe p
  end.

(* src/userdb/getpwnam.c:19-37 *)
Fixpoint nam_loop (lines fuel : nat) (m : mem) (fe p name : Z) (old : pwent) : res (mem * pwent * bool) :=
  match lines with
  | O => NoFuel
  | S k =>
      let* r := token_s fuel m fe p in let '(m, pname, p) := r in
      let* c := strcmp fuel m name pname in
      if c =? 0 then
        let* r := token_s fuel m fe p in let '(m, passwd, p) := r in
        let* r := token_i fuel m fe p in let '(uid, p) := r in
        let* r := token_i fuel m fe p in let '(gid, p) := r in
        let* r := tail_fields fuel m fe p in let '(m, (gecos, dir, shell), p) := r in
        Ok (m, mkpw pname passwd (u32 uid) (u32 gid) gecos dir shell, true)
      else
        let* r := skip_tokens 6 fuel m fe p in let '(m, p) := r in
        if p <? fe then nam_loop k fuel m fe p name old else Ok (m, old, false)
  end.
(* src/userdb/getpwnam.c:7-40 *)
Definition getpwnam (fuel : nat) (fs : fsys) (s : pws) (name : Z) : res (pws * bool) :=
  let search m u :=
    let* r := nam_loop fuel fuel m (u_file u + u_size u) (u_file u) name (s_pw s) in
    let '(m, pw, b) := r in Ok (mkpws m u pw, b) in
  if u_file (s_db s) =? 0 then
    let '(ok, m, u) := userdb_open fs (s_m s) (s_db s) in
    if negb ok then Ok (mkpws m u (s_pw s), false) else search m u
  else
    let* c := strcmp fuel (s_m s) (pw_name (s_pw s)) name in
    if c =? 0 then Ok (s, true) else search (s_m s) (s_db s).

(* src/userdb/getpwuid.c:19-40 *)
Fixpoint uid_loop (lines fuel : nat) (m : mem) (fe p uid : Z) (old : pwent) : res (mem * pwent * bool) :=
  match lines with
  | O => NoFuel
  | S k =>
      let* r := token_s fuel m fe p in let '(m, pname, p) := r in
      let* r := token_s fuel m fe p in let '(m, passwd, p) := r in
      let* r := token_i fuel m fe p in let '(euid, p) := r in
      if u32 euid =? uid then
        let* r := token_i fuel m fe p in let '(gid, p) := r in
        let* r := tail_fields fuel m fe p in let '(m, (gecos, dir, shell), p) := r in
        Ok (m, mkpw pname passwd (u32 euid) (u32 gid) gecos dir shell, true)
      else
        let* r := skip_tokens 4 fuel m fe p in let '(m, p) := r in
        if p <? fe then uid_loop k fuel m fe p uid old else Ok (m, old, false)
  end.
(* src/userdb/getpwuid.c:7-43 *)
Definition getpwuid (fuel : nat) (fs : fsys) (s : pws) (uid : Z) : res (pws * bool) :=
  let search m u :=
    let* r := uid_loop fuel fuel m (u_file u + u_size u) (u_file u) uid (s_pw s) in
    let '(m, pw, b) := r in Ok (mkpws m u pw, b) in
  if u_file (s_db s) =? 0 then
    let '(ok, m, u) := userdb_open fs (s_m s) (s_db s) in
    if negb ok then Ok (mkpws m u (s_pw s), false) else search m u
  else if negb (pw_name (s_pw s) =? 0) && (uid =? pw_uid (s_pw s)) then Ok (s, true)
  else search (s_m s) (s_db s).

(* A sequence of calls of a program: getpwnam(p), getpwuid(u), getpwent(), setpwent().  The
   result is the state and the returned pointer (true: &mlgl->pwent) after each call.
   src/userdb/getpwnam.c:7, src/userdb/getpwuid.c:7, src/userdb/getpwent.c:4, src/userdb/setpwent.c:3 *)
Inductive pwcall := CNam (p : Z) | CUid (u : Z) | CEnt | CSet.
(* not library code: one call of src/userdb/getpwnam.c:7, src/userdb/getpwuid.c:7, src/userdb/getpwent.c:4, src/userdb/setpwent.c:3 *)
Definition pwdo (fuel : nat) (fs : fsys) (s : pws) (c : pwcall) : res (pws * bool) :=
  match c with
  | CNam p => getpwnam fuel fs s p
  | CUid u => getpwuid fuel fs s u
  | CEnt => getpwent fuel fs s
  | CSet => Ok (setpwent s, false)
  end.
(* not library code: a program calling src/userdb/getpwnam.c:7, src/userdb/getpwuid.c:7, src/userdb/getpwent.c:4, src/userdb/setpwent.c:3 *)
Fixpoint pwrun (fuel : nat) (fs : fsys) (s : pws) (cs : list pwcall) : res (list (pws * bool)) :=
  match cs with
  | [] => Ok []
  | c :: cs => let* r := pwdo fuel fs s c in let* l := pwrun fuel fs (fst r) cs in Ok (r :: l)
  end.

(* ---- group ---- *)
(* an 8 byte pointer in memory (little endian), *mlgl->groupfile.p2; for src/userdb/getgrent.c:9-62 *)
Fixpoint rdn (n : nat) (m : mem) (a : Z) : res Z :=
  match n with
  | O => Ok 0
  | S k => let* b := load m a in let* r := rdn k m (a + 1) in Ok (b + 256 * r)
  end.
(* for src/userdb/getgrent.c:9-62 *)
Fixpoint wrn (n : nat) (m : mem) (a v : Z) : res mem :=
  match n with
  | O => Ok m
  | S k => let* m := store m a (v mod 256) in wrn k m (a + 1) (v / 256)
  end.
Definition rd64 := rdn 8. (* for src/userdb/getgrent.c:9-62 *)
Definition wr64 := wrn 8. (* for src/userdb/getgrent.c:9-62 *)

(* include/minilib_global.h:106-109 and memory *)
Record grs := mkgrs { g_m : mem; g_db : udb; g_gr : grent }.
Definition grs0 (m : mem) : grs := mkgrs m (mkudb 0 0 0 0) (mkgr 0 0 0 []). (* include/minilib_global.h:106-109 *)
Definition MAX_GROUPMEMBERS := 64. (* include/globaldefs.h:102-113, the default *)

(* src/userdb/setgrent.c:3-6 *)
Definition setgrent (s : grs) : grs :=
  let u := g_db s in mkgrs (g_m s) (mkudb (u_file u) (u_file u) (u_file u + u_size u) (u_size u)) (g_gr s).

(* src/userdb/getgrent.c:28-42: the members found in front, None: too many *)
Fixpoint members1 (fuel : nat) (m : mem) (p q mbr : Z) (acc : list Z) : res (mem * option (list Z)) :=
  match fuel with
  | O => NoFuel
  | S k =>
      if p <? q then
        let* c := load m p in
        let* m := if c =? 44 then store m p 0 else Ok m in
        if (c =? 44) || (c =? 0) then
          let acc := acc ++ [mbr] in
          if MAX_GROUPMEMBERS <=? zlen acc then Ok (m, None)
          else members1 k m (p + 1) q (p + 1) acc
        else members1 k m (p + 1) q mbr acc
      else Ok (m, Some acc)
  end.
(* src/userdb/getgrent.c:47-56 *)
Fixpoint members2 (lines fuel : nat) (m : mem) (fe p q : Z) (acc : list Z) : res (mem * Z * option (list Z)) :=
  match lines with
  | O => NoFuel
  | S k =>
      let* r := token_s fuel m fe p in let '(m, t, p) := r in
      let acc := acc ++ [t] in
      if MAX_GROUPMEMBERS <=? zlen acc then Ok (m, p, None)
      else if p <? q then members2 k fuel m fe p q acc
      else Ok (m, p, Some acc)
  end.

(* src/userdb/getgrent.c:9-62, the database being open; after "too many groupmembers" the
   struct keeps the new name, password and gid.  Simplified: its gr_mem, which is then partly
   overwritten, is kept *)
Definition next_group (fuel : nat) (s : grs) : res (grs * bool) :=
  let m := g_m s in let u := g_db s in
  let fe := u_file u + u_size u in
  let setp p p2 := mkudb (u_file u) p p2 (u_size u) in
  if fe <=? u_p u then Ok (s, false)
  else
    let* r := token_s fuel m fe (u_p u) in let '(m, name, p) := r in
    let* c := load m name in
    if c =? 0 then Ok (mkgrs m (setp p (u_p2 u)) (g_gr s), false)
    else
      let* r := token_s fuel m fe p in let '(m, passwd, p) := r in
      let* r := token_i fuel m fe p in let '(gid, p) := r in
      let* e := rd64 m (u_p2 u) in
      if e =? 0 then
        let* r := token_s fuel m fe p in let '(m, members, p) := r in
        let* r := members1 fuel m members p members [] in let '(m, l) := r in
        match l with
        | None => Ok (mkgrs m (setp p (u_p2 u)) (mkgr name passwd (u32 gid) (gr_mem (g_gr s))), false)
        | Some l =>
            let* m := wr64 m (u_p2 u) p in
            Ok (mkgrs m (setp p (u_p2 u + 8)) (mkgr name passwd (u32 gid) l), true)
        end
      else
        let* r := members2 fuel fuel m fe p e [] in let '(m, p, l) := r in
        match l with
        | None => Ok (mkgrs m (setp p (u_p2 u)) (mkgr name passwd (u32 gid) (gr_mem (g_gr s))), false)
        | Some l => Ok (mkgrs m (setp p (u_p2 u + 8)) (mkgr name passwd (u32 gid) l), true)
        end.
(* src/userdb/getgrent.c:4-62 *)
Definition getgrent (fuel : nat) (fs : fsys) (s : grs) : res (grs * bool) :=
  let '(ok, m, u) := if u_file (g_db s) =? 0 then userdb_open fs (g_m s) (g_db s) else (true, g_m s, g_db s) in
  let s := mkgrs m u (g_gr s) in
  if negb ok then Ok (s, false) else next_group fuel s.

(* src/userdb/getgrnam.c:21-25 and src/userdb/getgrgid.c:21-26: getgrent until test holds *)
Fixpoint gr_search (lines fuel : nat) (fs : fsys) (test : grs -> res bool) (s : grs) : res (grs * bool) :=
  match lines with
  | O => NoFuel
  | S k =>
      let* r := getgrent fuel fs s in let '(s, ok) := r in
      if negb ok then Ok (s, false)
      else let* b := test s in if b then Ok (s, true) else gr_search k fuel fs test s
  end.
(* src/userdb/getgrnam.c:7-26 *)
Definition getgrnam (fuel : nat) (fs : fsys) (s : grs) (name : Z) : res (grs * bool) :=
  let test s := let* c := strcmp fuel (g_m s) name (gr_name (g_gr s)) in Ok (c =? 0) in
  if u_file (g_db s) =? 0 then
    let '(ok, m, u) := userdb_open fs (g_m s) (g_db s) in
    let s := mkgrs m u (g_gr s) in
    if negb ok then Ok (s, false) else gr_search fuel fuel fs test (setgrent s)
  else
    let* c := strcmp fuel (g_m s) (gr_name (g_gr s)) name in
    if c =? 0 then Ok (s, true) else gr_search fuel fuel fs test (setgrent s).
(* src/userdb/getgrgid.c:7-27 *)
Definition getgrgid (fuel : nat) (fs : fsys) (s : grs) (gid : Z) : res (grs * bool) :=
  let test s := Ok (gr_gid (g_gr s) =? gid) in
  if u_file (g_db s) =? 0 then
    let '(ok, m, u) := userdb_open fs (g_m s) (g_db s) in
    let s := mkgrs m u (g_gr s) in
    if negb ok then Ok (s, false) else gr_search fuel fuel fs test (setgrent s)
  else if gr_gid (g_gr s) =? gid then Ok (s, true)
  else gr_search fuel fuel fs test (setgrent s).

(* src/userdb/getusergroups.c:19-27: is user one of the members *)
Fixpoint is_member (fuel : nat) (m : mem) (user : Z) (l : list Z) : res bool :=
  match l with
  | [] => Ok false
  | u :: l =>
      if u =? 0 then Ok false
      else let* c := strcmp fuel m u user in if c =? 0 then Ok true else is_member fuel m user l
  end.
(* src/userdb/getusergroups.c:14-33: the gids stored in list, and the return value *)
Fixpoint ug_loop (lines fuel : nat) (fs : fsys) (s : grs) (user maxgroups : Z) (acc : list Z) : res (grs * list Z * Z) :=
  match lines with
  | O => NoFuel
  | S k =>
      if zlen acc <? maxgroups then
        let* r := getgrent fuel fs s in let '(s, ok) := r in
        if negb ok then Ok (s, acc, zlen acc)
        else
          let* b := is_member fuel (g_m s) user (gr_mem (g_gr s)) in
          ug_loop k fuel fs s user maxgroups (if b then acc ++ [gr_gid (g_gr s)] else acc)
      else Ok (s, acc, -1)
  end.
(* src/userdb/getusergroups.c:8-34.  Simplified: the array list is the list of the values
   stored; the loop stores at most maxgroups of them *)
Definition getusergroups (fuel : nat) (fs : fsys) (s : grs) (user maxgroups : Z) : res (grs * list Z * Z) :=
  ug_loop fuel fuel fs (setgrent s) user maxgroups [].

(* src/userdb/getgrouplist.c:5-19; the list is groups[0..gr); a negative index is outside of
   the array *)
Definition getgrouplist (fuel : nat) (fs : fsys) (s : grs) (user group ngroups : Z) : res (grs * list Z * Z) :=
  let* r := getusergroups fuel fs s user ngroups in let '(s, l, gr) := r in
  if (0 <=? gr) && existsb (Z.eqb group) l then Ok (s, l, gr)
  else if ngroups - 1 <=? gr then Ok (s, l, -1)
  else if gr <? 0 then Fault
  else Ok (s, l ++ [group], gr + 1).

(* A sequence of calls: getgrnam(p), getgrgid(g), getgrent(), setgrent(), with the state and
   the returned pointer (true: &mlgl->groupent) after each call.
   src/userdb/getgrnam.c:7, src/userdb/getgrgid.c:7, src/userdb/getgrent.c:4 *)
Inductive grcall := GNam (p : Z) | GGidc (g : Z) | GEnt | GSet.
(* not library code: one call of src/userdb/getgrnam.c:7, src/userdb/getgrgid.c:7, src/userdb/getgrent.c:4 *)
Definition grdo (fuel : nat) (fs : fsys) (s : grs) (c : grcall) : res (grs * bool) :=
  match c with
  | GNam p => getgrnam fuel fs s p
  | GGidc g => getgrgid fuel fs s g
  | GEnt => getgrent fuel fs s
  | GSet => Ok (setgrent s, false)
  end.
(* not library code: a program calling src/userdb/getgrnam.c:7, src/userdb/getgrgid.c:7, src/userdb/getgrent.c:4 *)
Fixpoint grrun (fuel : nat) (fs : fsys) (s : grs) (cs : list grcall) : res (list (grs * bool)) :=
  match cs with
  | [] => Ok []
  | c :: cs => let* r := grdo fuel fs s c in let* l := grrun fuel fs (fst r) cs in Ok (r :: l)
  end.
