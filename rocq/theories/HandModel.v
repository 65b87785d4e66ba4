(* Model of src/streams/{fdopen,freopen}.c and src/directories/{opendir,opendirp,closedir,dirfd}.c. *)
From Verif Require Import Base StreamModel.

(* ---- fdopen, freopen (src/streams/_fopen.c:11-73) ---- *)
(* src/streams/fdopen.c:6-8: _fopen(fd, 0, mode, 0): a slot is taken as for fopen, and holds fd *)
Definition fdopen (t : streams) (fd : Z) (mode : list Z) : res (streams * option Z) :=
  match fopen_flags mode with None => Ok (t, None) | Some _ => fopen_slot t fd end.
(* what the kernel sees; for src/streams/freopen.c:7-9 *)
Inductive event := Close (fd : Z) | Open (name flags : Z).
(* src/streams/freopen.c:7-9: _fopen(0, filename, mode, F) for F the stream in slot f.  filename is
   a pointer; r is what open(2) returns, if it is called.  The result: the table, the system calls,
   and the slot of the stream that is returned, None for a null pointer. *)
Definition freopen (t : streams) (filename : Z) (mode : list Z) (f r : Z) : res (streams * list event * option Z) :=
  match fopen_flags mode with
  | None => Ok (t, [], None)
  | Some fl =>
      let* v := sget t f in
      let ev := [Close (fileno v)] in
      let '(w, ev) := if negb (filename =? 0) then (r, ev ++ [Open filename fl]) else (0, ev) in
      let* t := sset t f w in
      if w <? 0 then Ok (t, ev, None) else Ok (t, ev, Some f)
  end.

(* ---- opendir, closedir ---- *)
(* the resources of a process: open descriptors, allocated blocks, and the fd, buf_pos, buf_end of
   the DIR in a block; for src/directories/opendirp.c:5-14 *)
Record world := { w_fd : Z -> bool; w_block : Z -> bool; w_dir : Z -> Z * Z * Z }.
(* for src/directories/opendir.c:10-25 *)
Definition set_b (f : Z -> bool) (x : Z) (v : bool) : Z -> bool := fun y => if y =? x then v else f y.
(* for src/directories/opendir.c:10-25 *)
Definition w_malloc (w : world) (p : Z) : world :=
  if p =? 0 then w else {| w_fd := w_fd w; w_block := set_b (w_block w) p true; w_dir := w_dir w |}.
(* free of a block that is not allocated is undefined; for src/directories/opendir.c:10-25 *)
Definition w_free (w : world) (p : Z) : res world :=
  if w_block w p then Ok {| w_fd := w_fd w; w_block := set_b (w_block w) p false; w_dir := w_dir w |} else Fault.
(* for src/directories/opendirp.c:5-14 *)
Definition w_open (w : world) (r : Z) : world :=
  if r <? 0 then w else {| w_fd := set_b (w_fd w) r true; w_block := w_block w; w_dir := w_dir w |}.
(* close(2): EBADF for a descriptor that is not open; for src/directories/closedir.c:6-10 *)
Definition w_close (w : world) (fd : Z) : world * Z :=
  if w_fd w fd then ({| w_fd := set_b (w_fd w) fd false; w_block := w_block w; w_dir := w_dir w |}, 0) else (w, -9).
(* src/directories/opendirp.c:5-14; r: the result of open *)
Definition opendirp (w : world) (dir r : Z) : world * Z :=
  let w := w_open w r in
  if r <? 0 then (w, 0)
  else ({| w_fd := w_fd w; w_block := w_block w; w_dir := fun x => if x =? dir then (r, 0, 0) else w_dir w x |}, dir).
(* src/directories/opendir.c:10-25; p: the result of malloc, r: the result of open.  The message
   on stderr if p is 0 is left out. *)
Definition opendir (w : world) (p r : Z) : res (world * Z) :=
  let w := w_malloc w p in
  let dir := p in
  if dir =? 0 then Ok (w, 0)
  else
    let (w, ret) := opendirp w dir r in
    if ret =? 0 then let* w := w_free w dir in Ok (w, 0) else Ok (w, dir).
(* src/directories/dirfd.c:2-4 *)
Definition dirfd (w : world) (dir : Z) : Z := fst (fst (w_dir w dir)).
(* src/directories/closedir.c:6-10 *)
Definition closedir (w : world) (dir : Z) : res (world * Z) :=
  let (w, ret) := w_close w (dirfd w dir) in
  let* w := w_free w dir in Ok (w, ret).
