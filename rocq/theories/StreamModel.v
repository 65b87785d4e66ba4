(* Model of src/streams/{_fopen,fopen,fgetc,ungetc,fgets,fgetsn,fgetsp,fgetud,fgetul}.c
   and of fclose, fread, fwrite, feof, ferror, clearerr in include/mini_fstream.h. *)
From Verif Require Import Base.

(* ---- reading characters ---- *)
(* A stream for reading: the FILE word (an int: descriptor, flags, pushed back
   character) and the bytes the descriptor still delivers.  A read error is not
   distinguished from the end of the file.  for src/streams/fgetc.c:5-16 *)
Record stream := { word : Z; input : list Z }.
(* read(fd, &b, 1) with b = 0 before: src/streams/fgetc.c:6,14 *)
Definition read1 (inp : list Z) : Z * list Z :=
  match inp with [] => (0, []) | b :: r => (b, r) end.
(* src/streams/fgetc.c:5-16 with mini_ungetc; *F & ~UNGETC_MASK is computed unsigned
   and stored into an int *)
Definition fgetc (s : stream) : Z * stream :=
  let h := Z.shiftr (word s) 24 in
  if negb (h =? 0) then (h, {| word := s32 (Z.land (u32 (word s)) 0x00ffffff); input := input s |})
  else let (b, r) := read1 (input s) in (b, {| word := word s; input := r |}).
(* src/streams/ungetc.c:5-8.  c<<24: strict = true is ISO C (undefined if negative or not
   representable), strict = false wraps. *)
Definition ungetc (strict : bool) (c : Z) (s : stream) : res (Z * stream) :=
  let* sh := (if strict then (if (0 <=? c) then iop (c * 16777216) else Fault) else Ok (s32 (c * 16777216))) in
  Ok (c, {| word := s32 (Z.lor (Z.land (u32 (word s)) 0x00ffffff) (u32 sh)); input := input s |}).

(* src/streams/fgets.c:13-20 (the loop) and src/streams/fgetsn.c:13-20; result: memory, stream, final
   buf, and whether a 0 was read (early return).  The character is stored as a byte. *)
Fixpoint fgets_loop (fuel : nat) (m : mem) (s : stream) (buf size : Z) : res (mem * stream * Z * bool) :=
  match fuel with
  | O => NoFuel
  | S k =>
      let* size := iop (size - 1) in
      if 0 <? size then
        let buf := buf + 1 in
        let (c, s) := fgetc s in
        let c := ubyte c in
        let* m := store m buf c in
        if c =? 0 then Ok (m, s, buf, true)
        else fgets_loop k m s buf (if c =? 10 then 0 else size)
      else Ok (m, s, buf, false)
  end.
(* src/streams/fgets.c:4-24; result: memory, stream, returned pointer and the final buf *)
Definition fgets_raw (fuel : nat) (m : mem) (s : stream) (buf size : Z) : res (mem * stream * Z * Z) :=
  let (c, s) := fgetc s in
  let c := ubyte c in
  let* m := store m buf c in
  if c =? 0 then Ok (m, s, 0, buf)
  else
    let* r := fgets_loop fuel m s buf (if c =? 10 then 0 else size) in
    let '(m, s, b, z) := r in
    if z then Ok (m, s, buf, b)
    else
      let* m := store m (b + 1) 0 in
      Ok (m, s, buf, b + 1).
(* src/streams/fgets.c:4-24 *)
Definition fgets (fuel : nat) (m : mem) (s : stream) (buf size : Z) : res (mem * stream * Z) :=
  let* r := fgets_raw fuel m s buf size in
  let '(m, s, p, _) := r in Ok (m, s, p).
(* src/streams/fgetsn.c:4-24: the same statements, the length is returned *)
Definition fgetsn (fuel : nat) (m : mem) (s : stream) (buf size : Z) : res (mem * stream * Z) :=
  let* r := fgets_raw fuel m s buf size in
  let '(m, s, _, b) := r in Ok (m, s, b - buf).
(* src/streams/fgetsp.c:7-21 *)
Fixpoint fgetsp (fuel : nat) (m : mem) (s : stream) (buf size : Z) : res (mem * stream * Z) :=
  match fuel with
  | O => NoFuel
  | S k =>
      let* size := iop (size - 1) in
      if 0 <? size then
        let (c, s) := fgetc s in
        let c := ubyte c in
        let* m := store m buf c in
        if c =? 10 then let* m := store m buf 0 in Ok (m, s, buf)
        else if c =? 0 then Ok (m, s, buf)
        else fgetsp k m s (buf + 1) size
      else let* m := store m buf 0 in Ok (m, s, buf)
  end.
(* src/streams/fgetud.c:5-14; isdigit is the macro of include/ctype.h:5 on a char *)
Definition c_isdigit (c : Z) : bool := u32 (u32 (schar c) - 48) <? 10.
(* src/streams/fgetud.c:5-14, include/ctype.h:5 *)
Fixpoint fgetud_loop (wrap : Z -> Z) (fuel : nat) (s : stream) (ret : Z) : res (Z * stream) :=
  match fuel with
  | O => NoFuel
  | S k =>
      let (c, s) := fgetc s in
      let c := ubyte c in
      if negb (c =? 0) && c_isdigit c then fgetud_loop wrap k s (wrap (wrap (ret * 10) + (c - 48)))
      else Ok (ret, s)
  end.
(* src/streams/fgetud.c:5-14, include/ctype.h:5 *)
Definition fgetud (fuel : nat) (s : stream) : res (Z * stream) := fgetud_loop u32 fuel s 0.
(* src/streams/fgetul.c:5-14 *)
Definition fgetul (fuel : nat) (s : stream) : res (Z * stream) := fgetud_loop u64 fuel s 0.

(* ---- blocks ---- *)
(* read(fd, p, size) of a regular file: as much as there is, up to size (a pushed back
   character is not seen); for include/mini_fstream.h:152-163 *)
Fixpoint put_bytes (m : mem) (p : Z) (l : list Z) : res mem :=
  match l with [] => Ok m | b :: r => let* m := store m p b in put_bytes m (p + 1) r end.
(* for include/mini_fstream.h:152-163 *)
Definition sys_read (m : mem) (s : stream) (p size : Z) : res (mem * stream * Z) :=
  let l := firstn (Z.to_nat size) (input s) in
  let* m := put_bytes m p l in
  Ok (m, {| word := word s; input := skipn (Z.to_nat size) (input s) |}, zlen l).
(* include/mini_fstream.h:152-163; size and nmemb are size_t (long); n counts the
   remaining items, a the finished ones *)
Fixpoint fread_loop (n : nat) (m : mem) (s : stream) (p size a : Z) : res (mem * stream * Z) :=
  match n with
  | O => Ok (m, s, a)
  | S k =>
      let* r := sys_read m s p size in
      let '(m, s, got) := r in
      if negb (got =? size) then Ok (m, {| word := Z.lor (word s) 0x800000; input := input s |}, a)
      else let* a := iop (a + 1) in fread_loop k m s (p + size) size a
  end.
(* include/mini_fstream.h:152-163 *)
Definition fread (m : mem) (s : stream) (p size nmemb : Z) : res (mem * stream * Z) :=
  fread_loop (Z.to_nat nmemb) m s p size 0.
(* include/mini_fstream.h:175-179 and 182-186 *)
Definition feof (s : stream) : Z := if negb (Z.land (word s) 0xc00000 =? 0) then 1 else 0.
(* include/mini_fstream.h:182-186 *)
Definition ferror (s : stream) : Z := if negb (Z.land (word s) 0xc00000 =? 0) then 1 else 0.
(* include/mini_fstream.h:189-191 *)
Definition clearerr (s : stream) : stream := {| word := Z.land (word s) 0x3fffff; input := input s |}.

(* ---- the table of streams ---- *)
(* mlgl->stream, include/minilib_global.h:97, 16 ints (mini_FOPEN_MAX), and
   mlgl->pstream.  Access outside the array is a Fault. *)
Record streams := { slot : Z -> Z; pstream : Z }.
(* include/minilib_global.h:97, 16 *)
Definition sget (t : streams) (a : Z) : res Z :=
  if (0 <=? a) && (a <? 16) then Ok (slot t a) else Fault.
(* include/minilib_global.h:97, 16 *)
Definition sset (t : streams) (a v : Z) : res streams :=
  if (0 <=? a) && (a <? 16)
  then Ok {| slot := fun x => if x =? a then v else slot t x; pstream := pstream t |} else Fault.
(* src/intern/startup.c:51-54; the rest of the globals is zero (.bss) *)
Definition streams_init : streams := {| slot := fun a => if (0 <=? a) && (a <? 3) then a else 0; pstream := 3 |}.
(* src/streams/_fopen.c:50-52, the loop; None is the return of 0 *)
Fixpoint fopen_search (fuel : nat) (t : streams) (a : Z) : res (option Z) :=
  match fuel with
  | O => NoFuel
  | S k =>
      let* v := sget t a in
      if 0 <=? v then (if 16 <=? a then Ok None else fopen_search k t (a + 1)) else Ok (Some a)
  end.
(* src/streams/_fopen.c:47-72 with f = 0; [r] is what open(2) returns (src/file/open.c:
   the descriptor or a negative error number).  Result: table and slot (None is 0). *)
Definition fopen_slot (t : streams) (r : Z) : res (streams * option Z) :=
  let* c := (if 16 <=? pstream t then
               let* o := fopen_search 20 t 3 in Ok (t, o)
             else Ok ({| slot := slot t; pstream := pstream t + 1 |}, Some (pstream t))) in
  let (t, o) := c in
  match o with
  | None => Ok (t, None)
  | Some a =>
      let* t := sset t a r in
      if r <? 0 then Ok (t, None) else Ok (t, Some a)
  end.
(* include/mini_fstream.h:71, the loop *)
Fixpoint fclose_pop (fuel : nat) (t : streams) (p : Z) : res Z :=
  match fuel with
  | O => NoFuel
  | S k =>
      let* v := sget t (p - 1) in
      if v =? -1 then fclose_pop k t (p - 1) else Ok p
  end.
(* include/mini_fstream.h:56-58 *)
Definition fileno (v : Z) : Z := Z.land (u32 v) 0x3fffff.
(* include/mini_fstream.h:66-74 for the stream in slot f; the result carries the
   descriptor given to close(2) *)
Definition fclose (t : streams) (f : Z) : res (streams * Z) :=
  let* v := sget t f in
  let* t := sset t f (-1) in
  let* x := sget t (f + 1) in
  let* y := sget t (pstream t) in
  if x =? y then
    let* p := fclose_pop 20 t (pstream t - 1) in
    Ok ({| slot := slot t; pstream := p |}, fileno v)
  else Ok (t, fileno v).

(* ---- open flags, src/streams/_fopen.c:12-45 ---- *)
(* values of include/filemodes.h:42-49; mode is the string; the loop looks at
   mode[1..5] only.  None is the return of 0. *)
Definition O_WRONLY := 1. Definition O_RDWR := 2. Definition O_CREAT := 0x40.
Definition O_TRUNC := 0x200. Definition O_APPEND := 0x400. (* include/filemodes.h:24 *)
(* include/filemodes.h:42-49 *)
Fixpoint fopen_plus (n : nat) (mode : list Z) (imode : Z) : Z :=
  match n, mode with
  | S k, c :: r =>
      fopen_plus k r (if c =? 43 then Z.land (Z.lor imode O_RDWR) (Z.lnot (Z.lor O_WRONLY 0)) else imode)
  | _, _ => imode
  end.
(* include/filemodes.h:42-49 *)
Definition fopen_flags (mode : list Z) : option Z :=
  match mode with
  | [] => None
  | c :: r =>
      if c =? 114 then Some (fopen_plus 5 r 0)
      else if c =? 119 then Some (fopen_plus 5 r (Z.lor (Z.lor O_WRONLY O_TRUNC) O_CREAT))
      else if c =? 97 then Some (fopen_plus 5 r (Z.lor O_APPEND O_RDWR))
      else None
  end.
