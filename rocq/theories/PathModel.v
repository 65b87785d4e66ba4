(* Model of src/directories/{dirname,basename}.c and src/exec/where.c. *)
From Verif Require Import Base StrModel.

(* a returned path: the literal "." or "/", or a pointer; for src/directories/dirname.c:8-17 *)
Inductive pathres := Dot | Slash | At (p : Z).

(* src/directories/dirname.c:12-14: the loop
   for (; (s[i]=='/') == slash; i--) if (!i) return; None is the return.  i is a long that
   stays in the string. *)
Fixpoint back (fuel : nat) (m : mem) (s i : Z) (slash : bool) : res (option Z) :=
  match fuel with
  | O => NoFuel
  | S k =>
      let* c := load m (s + i) in
      if Bool.eqb (c =? 47) slash then
        if i =? 0 then Ok None else back k m s (i - 1) slash
      else Ok (Some i)
  end.
(* src/directories/dirname.c:8-17; strlen is src/string/strlen.c *)
Definition dirname (fuel : nat) (m : mem) (s : Z) : res (mem * pathres) :=
  if s =? 0 then Ok (m, Dot)
  else
    let* c := load m s in
    if c =? 0 then Ok (m, Dot)
    else
      let* l := strlen fuel m s in
      let* i := back fuel m s (l - 1) true in
      match i with
      | None => Ok (m, Slash)
      | Some i =>
          let* i := back fuel m s i false in
          match i with
          | None => Ok (m, Dot)
          | Some i =>
              let* i := back fuel m s i true in
              match i with
              | None => Ok (m, Slash)
              | Some i => let* m := store m (s + (i + 1)) 0 in Ok (m, At s)
              end
          end
      end.

(* src/directories/basename.c:9-16: the final p, pos1, pos2 *)
Fixpoint base_loop (fuel : nat) (m : mem) (p pos1 pos2 : Z) : res (Z * Z * Z) :=
  match fuel with
  | O => NoFuel
  | S k =>
      let* c := load m p in
      if c =? 0 then Ok (p, pos1, pos2)
      else if c =? 47 then
        base_loop k m (p + 1) (if pos2 + 1 <? p then pos2 else pos1) p
      else base_loop k m (p + 1) pos1 pos2
  end.
(* src/directories/basename.c:2-33 *)
Definition basename (fuel : nat) (m : mem) (path : Z) : res (mem * pathres) :=
  if path =? 0 then Ok (m, Dot)
  else
    let* c := load m path in
    if c =? 0 then Ok (m, Dot)
    else
      let* r := base_loop fuel m path (path - 1) (path - 1) in
      let '(p, pos1, pos2) := r in
      if 1 <? p - pos2 then Ok (m, At (pos2 + 1))
      else if pos2 =? path - 1 then Ok (m, At path)
      else if pos1 =? path - 1 then Ok (m, At pos2)
      else
        let* c := load m (pos2 - 1) in
        let* m := (if c =? 47 then store m (pos2 - 1) 0 else Ok m) in
        let* m := store m pos2 0 in
        Ok (m, At (pos1 + 1)).

(* the string at p, as the kernel reads it; for src/exec/where.c:11-28 *)
Fixpoint read_str (fuel : nat) (m : mem) (p : Z) : res (list Z) :=
  match fuel with
  | O => NoFuel
  | S k =>
      let* c := load m p in
      if c =? 0 then Ok [] else let* r := read_str k m (p + 1) in Ok (c :: r)
  end.
(* src/exec/where.c:16: copy the file name with its NUL *)
Fixpoint copy_name (fuel : nat) (m : mem) (p c : Z) : res mem :=
  match fuel with
  | O => NoFuel
  | S k =>
      let* x := load m c in
      let* m := store m p x in
      if x =? 0 then Ok m else copy_name k m (p + 1) (c + 1)
  end.
(* src/exec/where.c:11-28.  [access] answers access(buf, R_OK|X_OK) == 0 for the string
   in buf. *)
Fixpoint where_loop (fuel : nat) (access : list Z -> bool) (m : mem) (file buf p path : Z) : res (mem * Z) :=
  match fuel with
  | O => NoFuel
  | S k =>
      let* c := load m path in
      let* m := store m p c in
      let p := p + 1 in
      let path := path + 1 in
      let* c := load m path in
      if (c =? 58) || (c =? 0) then
        let* m := store m p 47 in
        let* m := copy_name fuel m (p + 1) file in
        let* name := read_str fuel m buf in
        if access name then Ok (m, 1)
        else
          let* c := load m path in
          if c =? 0 then Ok (m, 0)
          else where_loop k access m file buf buf (path + 1)
      else where_loop k access m file buf p path
  end.
(* src/exec/where.c:4-29; [path] is what getenv("PATH") returned, [default] the address of
   the literal in line 7 *)
Definition where_ (fuel : nat) (access : list Z -> bool) (m : mem) (default path file buf : Z) : res (mem * Z) :=
  where_loop fuel access m file buf buf (if path =? 0 then default else path).
