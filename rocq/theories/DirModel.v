(* Model of src/memory/{sbrk,getbrk,brk,sys_brk,malloc_brk,freebrk}.c, the malloc_brk
   parts of realloc and free (src/memory/malloc.c), and src/directories: scandir,
   alphasort, readdir, opendirp, rewinddir, seekdir, telldir.

   A directory entry is the list of its bytes; d_off is at 8, d_reclen at 16 and
   d_name at 18 (include/dirent.h:69-76). *)
From Verif Require Import Base SortModel MemModel StrModel.
From Verif Require Import ShrinkModel.

(* ---- the data segment ---------------------------------------------------- *)
(* memory and program break; mlgl->brk always holds the break of the kernel
   (nothing else in the library changes it), the model keeps one number; for src/memory/sys_brk.c:4-8 *)
Record seg := mkseg { sm : mem; sbk : Z }.

(* the system call brk (src/memory/sys_brk.c:4-8, kernel): the break moves unless
   the address is below lo (the initial break) or above hi (the limit); the result
   is the current break in both cases.  Memory is accessible up to the break
   exactly; the kernel rounds up to pages. *)
Definition sys_brk (lo hi : Z) (s : seg) (addr : Z) : seg * Z :=
  if (lo <=? addr) && (addr <=? hi) then
    (mkseg (fun x => if (sbk s <=? x) && (x <? addr) then Some 0
                     else if (addr <=? x) && (x <? sbk s) then None else sm s x) addr, addr)
  else (s, sbk s).

(* src/memory/sbrk.c:9-31, with mini_globals and mini_errno; errno is not modelled *)
Definition sbrk (lo hi : Z) (s : seg) (incr : Z) : res (seg * Z) :=
  let ret := sbk s in
  let* addr := lop (ret + incr) in
  let '(s1, newbrk) := sys_brk lo hi s addr in
  if 0 <? newbrk then Ok (s1, ret) else Ok (s1, 0).

(* src/memory/brk.c:8-25 *)
Definition brk (lo hi : Z) (s : seg) (addr : Z) : seg * Z :=
  let '(s1, newbrk) := sys_brk lo hi s addr in
  if 0 <? newbrk then (s1, 0) else (s1, -1).

(* src/memory/malloc.c:37-42 *)
Definition MALLOC_BRK := 268435456.
Definition MALLOC_SIZE := 268435455. (* src/memory/malloc.c:42 *)
Definition MALLOC_FREE := 2147483648. (* src/memory/malloc.c:23 *)

(* int and short objects: src/memory/malloc_brk.c:31-33, include/dirent.h:72 *)
Definition get_le (n : nat) (m : mem) (a : Z) : res Z :=
  let* l := loads n m a in Ok (le_get n l).
(* src/memory/malloc_brk.c:31-33, include/dirent.h:72 *)
Definition put_le (n : nat) (m : mem) (a v : Z) : res mem := stores m a (le_bytes n v).

(* the size with header, a multiple of 4: src/memory/malloc_brk.c:20-23,
   src/memory/malloc.c:258 *)
Definition brk_size (size : Z) : res Z :=
  let* a := iop (size - 1) in iop ((Z.shiftr a 2 + 2) * 4).

(* src/memory/malloc_brk.c:16-39; mlgl->malloc_start is [start], 0 when unset *)
Definition malloc_brk (lo hi : Z) (s : seg) (start size : Z) : res (seg * Z * Z) :=
  if size <? 0 then Ok (s, start, 0)
  else
    let* size := (if size =? 0 then Ok 4 else brk_size size) in
    let* (s, mm) := sbrk lo hi s size in
    if mm <=? 0 then Ok (s, start, 0)
    else
      let start := if start =? 0 then mm else start in
      let* m := put_le 4 (sm s) mm (Z.lor MALLOC_BRK size) in
      Ok (mkseg m (sbk s), start, mm + 4).

(* realloc of a block of malloc_brk, src/memory/malloc.c:240-277 and 279-291.
   Enlarging a block that is not the last one continues with malloc and free of
   mini_buf, src/memory/malloc.c:294-311: not modelled, the result is NoFuel, and
   so is the call for a block that malloc_brk did not return. *)
Definition realloc_brk (lo hi : Z) (s : seg) (p size : Z) : res (seg * Z) :=
  if size =? 0 then NoFuel
  else if p =? 0 then NoFuel
  else
    let i := p - 4 in
    let* h := get_le 4 (sm s) i in
    let oldsize := Z.land h MALLOC_SIZE in
    let* size := brk_size size in
    if oldsize =? size then Ok (s, p)
    else if Z.land h MALLOC_BRK =? 0 then NoFuel
    else if sbk s <=? p + oldsize then
      let '(s, ret) := brk lo hi s (i + size) in
      if negb (ret =? 0) then Ok (s, 0)
      else
        let* m := put_le 4 (sm s) i (Z.lor MALLOC_BRK size) in
        Ok (mkseg m (sbk s), p)
    else if size <? oldsize then Ok (s, p)
    else NoFuel.

(* free of a block of malloc_brk, src/memory/malloc.c:168-192 *)
Definition free_blk (lo hi : Z) (s : seg) (p : Z) : res seg :=
  if p =? 0 then Ok s
  else
    let i := p - 4 in
    let* h := get_le 4 (sm s) i in
    if Z.land h MALLOC_BRK =? 0 then NoFuel
    else if sbk s <=? p + Z.land h MALLOC_SIZE then
      let '(s, _) := brk lo hi s i in Ok s
    else
      let* m := put_le 4 (sm s) i (Z.lor h MALLOC_FREE) in
      Ok (mkseg m (sbk s)).

(* src/memory/freebrk.c:9-15 *)
Definition free_brk (lo hi : Z) (s : seg) (start : Z) : seg * Z :=
  if negb (start =? 0) && (start <? sbk s) then brk lo hi s start else (s, 1).

(* a program that uses the data segment: its pointers are kept in a list, the last
   one first.  This is no code of the library, it calls malloc_brk, realloc and free
   (src/memory/malloc_brk.c:16, src/memory/malloc.c:168 and 240) and writes bytes. *)
Inductive bop := BMalloc (n : Z) | BRealloc (n : Z) | BFree (i : nat) | BWrite (i : nat) (off v : Z).
(* src/memory/malloc_brk.c:16, src/memory/malloc.c:168 *)
Definition drop {A} (i : nat) (l : list A) : list A :=
  match i, l with O, _ :: r => r | _, _ => l end.
(* src/memory/malloc_brk.c:16, src/memory/malloc.c:168 *)
Definition heap_step (lo hi : Z) (st : seg * Z * list Z) (o : bop) : res (seg * Z * list Z) :=
  let '(s, start, ps) := st in
  match o with
  | BMalloc n => let* (s, start, p) := malloc_brk lo hi s start n in Ok (s, start, p :: ps)
  | BRealloc n =>
      match ps with
      | [] => Fault
      | p :: ps' => let* (s, p) := realloc_brk lo hi s p n in Ok (s, start, p :: ps')
      end
  | BFree i =>
      match nth_error ps i with
      | None => Fault
      | Some p => let* s := free_blk lo hi s p in Ok (s, start, drop i ps)
      end
  | BWrite i off v =>
      match nth_error ps i with
      | None => Fault
      | Some p => let* m := store (sm s) (p + off) v in Ok (mkseg m (sbk s), start, ps)
      end
  end.
(* src/memory/malloc_brk.c:16, src/memory/malloc.c:168 *)
Fixpoint heap_run (lo hi : Z) (st : seg * Z * list Z) (os : list bop) : res (seg * Z * list Z) :=
  match os with
  | [] => Ok st
  | o :: r => let* st := heap_step lo hi st o in heap_run lo hi st r
  end.

(* ---- scandir, src/directories/scandir.c ---------------------------------- *)
Section scandir.
Variables lo hi : Z.
Variable sel : option (list Z -> Z).          (* fp_select, as a function of the entry *)
Variable cmp : option (list Z -> list Z -> Z). (* cmp, as a function of the entries *)
Variable fuel : nat.
Definition SBUF := 4096.                       (* src/directories/scandir.c:33-37 *)

Definition d_reclen (m : mem) (de : Z) : res Z := get_le 2 m (de + 16). (* for src/directories/scandir.c:63-78 *)

(* src/directories/scandir.c:63-78 *)
Fixpoint scan_batch (k : nat) (m : mem) (buf lim : Z) (pos cp oldcp oldpos cnt : Z)
    : res (mem * Z * Z * Z * Z * Z) :=
  match k with
  | O => NoFuel
  | S k' =>
      if pos <? lim then
        let de := buf + pos in
        let* rl := d_reclen m de in
        let* pos := iop (pos + rl) in
        let* chosen := (match sel with
                        | None => Ok true
                        | Some f => let* e := loads (Z.to_nat rl) m de in Ok (negb (f e =? 0))
                        end) in
        let* (cnt, cp) := (if chosen : bool then
                             let* cnt := iop (cnt + 1) in
                             let* cp := iop (cp + rl) in Ok (cnt, cp)
                           else Ok (cnt, cp)) in
        let* m := (if oldcp <? oldpos then
                     let* (m, _) := memcpy (S (Z.to_nat rl)) m (buf + oldcp) (buf + oldpos) rl in Ok m
                   else Ok m) in
        scan_batch k' m buf lim pos cp cp pos cnt
      else Ok (m, pos, cp, oldcp, oldpos, cnt)
  end.

(* src/directories/scandir.c:61-88.  The results of getdents are given: the batches of entries
   that the kernel delivers, and the result [fin] of the last call (0 or a negative
   error number).  None: realloc failed. *)
Fixpoint scan_loop (bs : list (list (list Z))) (s : seg) (buf bufpos : Z)
    (pos cp oldcp oldpos cnt : Z) : res (option (seg * Z * Z * Z * Z)) :=
  match bs with
  | [] => Ok (Some (s, buf, pos, cp, cnt))
  | b :: bs' =>
      let bytes := concat b in
      let* m := stores (sm s) (buf + bufpos) bytes in
      let* lim := iop (zlen bytes + bufpos) in
      let* (m, pos, cp, oldcp, oldpos, cnt) :=
        scan_batch fuel m buf lim pos cp oldcp oldpos cnt in
      let* want := iop (pos + SBUF) in
      let* (s, buf) := realloc_brk lo hi (mkseg m (sbk s)) buf want in
      if buf =? 0 then Ok None
      else scan_loop bs' s buf pos pos cp oldcp oldpos cnt
  end.

(* src/directories/scandir.c:112-117 *)
Fixpoint build_list (n : nat) (m : mem) (list de : Z) : res mem :=
  match n with
  | O => Ok m
  | S n' =>
      let* m := put_le 8 m list de in
      let* rl := d_reclen m de in
      build_list n' m (list + 8) (de + rl)
  end.

(* the entry that a pointer points to, for the comparison; for src/directories/scandir.c:30-128 *)
Definition entry_at (m : mem) (de : Z) : list Z :=
  match (let* rl := d_reclen m de in loads (Z.to_nat rl) m de) with Ok e => e | _ => [] end.

(* src/directories/scandir.c:30-128; fd is the result of open.  Results: data segment, return
   value, *listing (None: not set).  The comparison sees the entries as they are
   before the sort, which changes the list of pointers only. *)
Definition scandir (s : seg) (start fd : Z) (bs : list (list (list Z))) (fin : Z)
    : res (seg * Z * option Z) :=
  if fd <? 0 then Ok (s, fd, None)
  else
    let* (s, start, buf) := malloc_brk lo hi s start SBUF in
    if buf =? 0 then Ok (s, -12, None)
    else
      let* o := scan_loop bs s buf 0 0 0 0 0 0 in
      match o with
      | None => Ok (s, -12, None)
      | Some (s, buf, pos, cp, cnt) =>
          if fin <? 0 then Ok (s, fin, None)
          else
            let* s :=
              (if SBUF + (pos - cp) <? cnt * 8 then
                 let* want := iop (cp + cnt * 8) in
                 let* (s, _) := realloc_brk lo hi s buf want in Ok s     (* 100 *)
               else Ok s) in
            let* m := build_list (Z.to_nat cnt) (sm s) (buf + cp) buf in
            let* m :=
              (match cmp with
               | None => Ok m
               | Some c => qsort (fun a b => c (entry_at m (le_get 8 a)) (entry_at m (le_get 8 b)))
                             fuel m (buf + cp) cnt 8
               end) in
            Ok (mkseg m (sbk s), cnt, Some (buf + cp))
      end.
End scandir.

(* ---- directory streams ---------------------------------------------------- *)
(* struct __dirstream, include/dirent.h:53-65, with mini_dirbufsize 2048; fd stands
   for the kernel's file description, see [kpos] *)
Record dir := mkdir { d_tell : Z; d_pos : Z; d_end : Z; d_buf : list Z; kpos : nat }.
Definition DBUF := 2048. (* include/dirent.h:53-65 *)

Section stream.
Variable es : list (list Z).   (* the entries of the directory *)
Variable many : nat -> nat.    (* how many entries getdents delivers at a position *)

Definition e_doff (e : list Z) : Z := fld e 8 8. (* for src/directories/rewinddir.c:2-8 *)
(* getdents (kernel): the entries from kpos on, as many as [many] says;
   for src/directories/readdir.c:10-32 *)
Definition getdents (k : nat) : list (list Z) := firstn (many k) (skipn k es).
(* the file position behind the first k entries: d_off of the entry before it;
   for src/directories/rewinddir.c:2-8 *)
Definition cookie (k : nat) : Z :=
  match k with O => 0 | S j => e_doff (nth j es []) end.
(* lseek(fd,off,SEEK_SET) (kernel): to the entry with this position; other offsets
   are outside the model and leave the position; for src/directories/rewinddir.c:2-8 *)
Fixpoint seek_to (n : nat) (off : Z) (cur : nat) : nat :=
  match n with
  | O => if cookie 0 =? off then O else cur
  | S n' => if cookie n =? off then n else seek_to n' off cur
  end.

(* src/directories/opendirp.c:5-14; tell keeps whatever the memory of malloc
   contained *)
Definition opendirp (tell : Z) (buf : list Z) : dir := mkdir tell 0 0 buf 0.

(* src/directories/readdir.c:28-31: the entry at buf_pos *)
Definition take_entry (d : dir) : res (dir * option (list Z)) :=
  let rl := fld (d_buf d) (d_pos d + 16) 2 in
  let* pos := iop (d_pos d + rl) in
  Ok (mkdir (fld (d_buf d) (d_pos d + 8) 8) pos (d_end d) (d_buf d) (kpos d),
      Some (read_at (d_buf d) (d_pos d) rl)).
(* src/directories/readdir.c:10-32: the new state and the entry returned (the bytes
   at the pointer returned), None for 0.  The error results of getdents are not
   modelled. *)
Definition readdir (d : dir) : res (dir * option (list Z)) :=
  if d_end d <=? d_pos d then
    let b := concat (getdents (kpos d)) in
    if zlen b <=? 0 then Ok (d, None)
    else take_entry (mkdir (d_tell d) 0 (zlen b) (splice (d_buf d) 0 b)
                       (kpos d + length (getdents (kpos d))))
  else take_entry d.
(* src/directories/rewinddir.c:2-8 *)
Definition rewinddir (d : dir) : dir :=
  mkdir 0 0 0 (d_buf d) (seek_to (length es) 0 (kpos d)).
(* src/directories/seekdir.c:2-7; lseek returns its argument *)
Definition seekdir (d : dir) (off : Z) : dir :=
  mkdir off 0 0 (d_buf d) (seek_to (length es) off (kpos d)).
(* src/directories/telldir.c:2-4 *)
Definition telldir (d : dir) : Z := d_tell d.

(* one call of a program, and its result: an entry or the end, a position, or none;
   not library code: src/directories/readdir.c:10, src/directories/rewinddir.c:2, src/directories/telldir.c:2, src/directories/seekdir.c:2 *)
Inductive dop := ORead | ORewind | OTell | OSeek (off : Z).
(* not library code: what src/directories/readdir.c:10-32 and src/directories/telldir.c:2-4 return *)
Inductive dres := REntry (e : option (list Z)) | RPos (t : Z) | RNone.
(* not library code: one call of src/directories/readdir.c:10, src/directories/rewinddir.c:2, src/directories/telldir.c:2, src/directories/seekdir.c:2 *)
Definition dir_step (d : dir) (o : dop) : res (dir * dres) :=
  match o with
  | ORead => let* (d, e) := readdir d in Ok (d, REntry e)
  | ORewind => Ok (rewinddir d, RNone)
  | OTell => Ok (d, RPos (telldir d))
  | OSeek off => Ok (seekdir d off, RNone)
  end.
(* not library code: a program calling src/directories/readdir.c:10, src/directories/rewinddir.c:2, src/directories/telldir.c:2, src/directories/seekdir.c:2 *)
Fixpoint dir_run (d : dir) (os : list dop) : res (list dres) :=
  match os with
  | [] => Ok []
  | o :: r => let* (d, x) := dir_step d o in let* xs := dir_run d r in Ok (x :: xs)
  end.
End stream.

(* src/directories/alphasort.c:7-9, as a function of the two entries; strcmp is the
   model of src/string/strcmp.c, run on memory that holds the names *)
Definition alphasort (fuel : nat) (m : mem) (de1 de2 : Z) : res Z :=
  strcmp fuel m (de1 + 18) (de2 + 18).
