(* Model of src/system/{getenv,putenv,setenv,unsetenv}.c.
   The array [environ] is a second memory [env] indexed by slot number whose cells hold
   pointers (0 is the terminator); a slot that does not exist cannot be read or written.
   It is taken not to overlap the strings.  int counters that overflow are a Fault. *)
From Verif Require Import Base StrModel.

(* src/system/getenv.c:8 and src/system/unsetenv.c:15: the first index where the strings
   differ, and the two characters there *)
Fixpoint mismatch (fuel : nat) (m : mem) (p q b : Z) : res (Z * Z * Z) :=
  match fuel with
  | O => NoFuel
  | S k =>
      let* x := load m (p + b) in
      let* y := load m (q + b) in
      if x =? y then let* b' := iop (b + 1) in mismatch k m p q b' else Ok (b, x, y)
  end.
(* src/system/getenv.c:7-13, the loop; [efuel] bounds the number of entries *)
Fixpoint getenv_loop (efuel fuel : nat) (m env : mem) (name a : Z) : res Z :=
  match efuel with
  | O => NoFuel
  | S k =>
      let* p := load env a in
      if p =? 0 then Ok 0
      else
        let* r := mismatch fuel m p name 0 in
        let '(b, x, y) := r in
        if (x =? 61) && (y =? 0) then Ok (p + (b + 1))
        else let* a' := iop (a + 1) in getenv_loop k fuel m env name a'
  end.
(* src/system/getenv.c:5-14 *)
Definition getenv (efuel fuel : nat) (m env : mem) (name : Z) : res Z :=
  getenv_loop efuel fuel m env name 0.

(* src/system/putenv.c:15 *)
Fixpoint putenv_pos (fuel : nat) (m : mem) (s pos : Z) : res Z :=
  match fuel with
  | O => NoFuel
  | S k =>
      let* c := load m (s + pos) in
      if negb (c =? 0) && negb (c =? 61) then let* pos' := iop (pos + 1) in putenv_pos k m s pos'
      else Ok pos
  end.
(* src/system/putenv.c:20-25 and src/system/setenv.c:20-21: the first slot whose string
   agrees with s in the first len characters, or the slot of the terminator; second
   component: found.  envp is a pointer, its index here. *)
Fixpoint find_slot (efuel fuel : nat) (m env : mem) (s len a : Z) : res (Z * bool) :=
  match efuel with
  | O => NoFuel
  | S k =>
      let* p := load env a in
      if p =? 0 then Ok (a, false)
      else
        let* c := strncmp fuel m p s len in
        if c =? 0 then Ok (a, true) else find_slot k fuel m env s len (a + 1)
  end.
(* src/system/putenv.c:10-32; ret_errno(EINVAL) returns -1 (include/ret_errno.h:6, with
   mini_errno).  Result: environ, return value. *)
Definition putenv (efuel fuel : nat) (m env : mem) (string : Z) : res (mem * Z) :=
  let* pos := putenv_pos fuel m string 0 in
  let* c := load m (string + pos) in
  if (pos =? 0) || (c =? 0) then Ok (env, -1)
  else
    let* (a, found) := find_slot efuel fuel m env string pos 0 in
    let* env := store env a string in
    if found then Ok (env, 0)
    else let* env := store env (a + 1) 0 in Ok (env, 0).

(* src/system/setenv.c:28-31 and 39-42: build name=value at block d *)
Definition setenv_fill (fuel : nat) (m : mem) (d name value : Z) : res mem :=
  let* (m, c) := stpcpy fuel m d name in
  let* m := store m c 61 in
  let* (m, _) := strcpy fuel m (c + 1) value in
  Ok m.
(* src/system/setenv.c:15-48; malloc is an argument: memory and block returned for the
   requested size (int arithmetic: len is an int, strlen a long).  Result: memory,
   environ, return value. *)
Definition setenv (efuel fuel : nat) (malloc : mem -> Z -> mem * Z) (m env : mem) (name value overwrite : Z)
  : res (mem * mem * Z) :=
  let* l := strlen fuel m name in
  let len := s32 l in
  let* (a, found) := find_slot efuel fuel m env name len 0 in
  if found && (overwrite =? 0) then Ok (m, env, 0)
  else
    let* vl := strlen fuel m value in
    let (m, d) := malloc m (len + 1 + vl) in
    let* env := store env a d in
    if d =? 0 then Ok (m, env, -1)
    else
      let* m := setenv_fill fuel m d name value in
      if found then Ok (m, env, 0)
      else let* env := store env (a + 1) 0 in Ok (m, env, 0).

(* src/system/unsetenv.c:17: copy the slots down; result: environ and the final envp *)
Fixpoint shift_down (efuel : nat) (env : mem) (a e : Z) : res (mem * Z) :=
  match efuel with
  | O => NoFuel
  | S k =>
      let* v := load env e in
      let* env := store env a v in
      if v =? 0 then Ok (env, a) else shift_down k env (a + 1) (e + 1)
  end.
(* src/system/unsetenv.c:14-19, the loop *)
Fixpoint unsetenv_loop (efuel fuel : nat) (m env : mem) (name a : Z) : res mem :=
  match efuel with
  | O => NoFuel
  | S k =>
      let* p := load env a in
      if p =? 0 then Ok env
      else
        let* r := mismatch fuel m p name 0 in
        let '(_, x, _) := r in
        if x =? 61 then
          let* (env, a) := shift_down (S k) env a (a + 1) in
          unsetenv_loop k fuel m env name (a + 1)
        else unsetenv_loop k fuel m env name (a + 1)
  end.
(* src/system/unsetenv.c:10-21 *)
Definition unsetenv (efuel fuel : nat) (m env : mem) (name : Z) : res (mem * Z) :=
  let* env := unsetenv_loop efuel fuel m env name 0 in Ok (env, 0).
