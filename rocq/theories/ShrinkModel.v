(* Model of the ELF shrinker tools/shrinkelf.c.
   Simplifications that hold for the whole file.
   - A file is the list of its bytes.  read() of a regular file returns
     min(count, bytes left) and never fails; write() writes everything.
   - malloc succeeds; the linked list of regions is a Gallina list in list
     order.
   - err() prints a message and ends the process: [Ok None].
   - Messages, the temporary name, rename and unlink are left out: the result is
     the content of the file that replaces the input. *)
From Verif Require Import Base.

(* ---- little endian structure fields ------------------------------------- *)
(* a structure is the list of its bytes (tools/shrinkelf.c:162-205, x86-64
   layout: little endian, natural alignment, no padding in both structures) *)

(* value of the first n bytes of l; for src/memory/malloc_brk.c:31-33, include/dirent.h:72 *)
Fixpoint le_get (n : nat) (l : list Z) : Z :=
  match n, l with
  | S n', b :: r => b + 256 * le_get n' r
  | _, _ => 0
  end.
(* the n bytes of v; for tools/shrinkelf.c:452-465 *)
Fixpoint le_bytes (n : nat) (v : Z) : list Z :=
  match n with
  | O => []
  | S n' => v mod 256 :: le_bytes n' (v / 256)
  end.
(* reading / assigning the field of n bytes at position pos; for src/directories/readdir.c:28-31 *)
Definition fld (l : list Z) (pos : Z) (n : nat) : Z := le_get n (skipn (Z.to_nat pos) l).
(* for tools/shrinkelf.c:452-465 *)
Definition setfld (l : list Z) (pos : Z) (n : nat) (v : Z) : list Z :=
  firstn (Z.to_nat pos) l ++ le_bytes n v ++ skipn (Z.to_nat pos + n) l.

(* Elf64_Ehdr, tools/shrinkelf.c:162-177 *)
Definition EHDR_SIZE := 64.
Definition e_class (e : list Z) : Z := fld e 4 1. (* tools/shrinkelf.c:162-177 *)
Definition e_vers (e : list Z) : Z := fld e 6 1. (* tools/shrinkelf.c:162-177 *)
Definition e_type (e : list Z) : Z := fld e 16 2. (* tools/shrinkelf.c:162-177 *)
Definition e_version (e : list Z) : Z := fld e 20 4. (* tools/shrinkelf.c:162-177 *)
Definition e_phoff (e : list Z) : Z := fld e 32 8. (* tools/shrinkelf.c:162-177 *)
Definition e_phentsize (e : list Z) : Z := fld e 54 2. (* tools/shrinkelf.c:162-177 *)
Definition e_phnum (e : list Z) : Z := fld e 56 2. (* tools/shrinkelf.c:162-177 *)

(* Elf64_Phdr, tools/shrinkelf.c:196-205; phdr[i] *)
Definition PHDR_SIZE := 56.
Definition p_type (ph : list Z) (i : Z) : Z := fld ph (PHDR_SIZE * i) 4. (* tools/shrinkelf.c:196-205 *)
Definition p_offset (ph : list Z) (i : Z) : Z := fld ph (PHDR_SIZE * i + 8) 8. (* tools/shrinkelf.c:196-205 *)
Definition p_filesz (ph : list Z) (i : Z) : Z := fld ph (PHDR_SIZE * i + 32) 8. (* tools/shrinkelf.c:196-205 *)

(* ---- files --------------------------------------------------------------- *)

(* lseek(fd,off) and read(fd,_,n): the bytes read.  Linux refuses offsets
   beyond LONG_MAX; there is no file that long, the model reads nothing.
   for tools/shrinkelf.c:507-538 *)
Definition read_at (f : list Z) (off n : Z) : list Z :=
  firstn (Z.to_nat n) (skipn (Z.to_nat off) f).
(* lseek(fd,off) and write(fd,d): a gap is filled with zeros; for tools/shrinkelf.c:468-550 *)
Definition write_at (f : list Z) (off : Z) (d : list Z) : list Z :=
  firstn (Z.to_nat off) f ++ repeat 0 (Z.to_nat off - length f) ++ d
  ++ skipn (Z.to_nat off + length d) f.
(* memcpy(buf + pos, d, len) of the first len bytes of d into buf; for tools/shrinkelf.c:507-538 *)
Definition splice (buf : list Z) (pos : Z) (d : list Z) : list Z :=
  firstn (Z.to_nat pos) buf ++ d ++ skipn (Z.to_nat pos + length d) buf.

(* ---- read_hdrs, tools/shrinkelf.c:280-332 -------------------------------- *)
(* the ELF header and the program header table, or None: err; for tools/shrinkelf.c:565-595 *)
Definition read_hdrs (f : list Z) : option (list Z * list Z) :=
  let e := read_at f 0 EHDR_SIZE in
  if zlen e <? EHDR_SIZE then None                            (* 283-284 *)
  else if negb (e_class e =? 2) then None                     (* 291-293 *)
  else if negb (e_vers e =? 1) then None                      (* 306-308 *)
  else if negb (e_type e =? 2) then None                      (* 310-311 *)
  else if negb (e_version e =? 1) then None                   (* 312-313 *)
  else if e_phoff e =? 0 then None                            (* 315-316 *)
  else if negb (e_phentsize e =? PHDR_SIZE) then None         (* 317-318 *)
  else if e_phnum e =? 0 then None                            (* 319-320 *)
  else
    let ph := read_at f (e_phoff e) (e_phnum e * PHDR_SIZE) in
    if zlen ph <? e_phnum e * PHDR_SIZE then None             (* 326-329 *)
    else Some (e, ph).

(* ---- struct region_s, tools/shrinkelf.c:337-344 -------------------------- *)
(* disp and toffset are set by compute_disps; the model starts them with 0;
   for tools/shrinkelf.c:388-392 *)
Record region := Region { r_off : Z; r_sz : Z; r_disp : Z; r_toff : Z }.

(* p->offset + p->filesz: uint64 + uint32; for tools/shrinkelf.c:410-418 *)
Definition r_end (r : region) : Z := u64 (r_off r + r_sz r).
(* p->filesz = v: the value is converted to uint32; for tools/shrinkelf.c:410-418 *)
Definition set_sz (r : region) (v : Z) : region :=
  Region (r_off r) (u32 v) (r_disp r) (r_toff r).

(* the search of the place, tools/shrinkelf.c:388-392; [bef] are the regions
   already passed, last one first: p is its head *)
Fixpoint find_place (bef q : list region) (s : Z) : list region * list region :=
  match q with
  | [] => (bef, q)
  | r :: q' => if r_off r <? s then find_place (r :: bef) q' s else (bef, q)
  end.

(* merging with the following regions, tools/shrinkelf.c:410-418 *)
Fixpoint merge_next (p : region) (q : list region) : list region :=
  match q with
  | [] => [p]
  | r :: q' =>
      if r_off r <=? r_end p
      then merge_next (if r_end p <? r_end r
                       then set_sz p (u64 (r_off r - r_off p + r_sz r)) else p) q'
      else p :: q
  end.

(* one important part of the file, tools/shrinkelf.c:388-418 *)
Definition add_region (rs : list region) (s n : Z) : list region :=
  let '(bef, q) := find_place [] rs s in
  match bef with
  | p :: bef' =>
      if s <=? r_end p                                        (* 393 *)
      then
        let p' := if r_end p <? u64 (s + n)                   (* 396-397 *)
                  then set_sz p (u64 (s - r_off p + n)) else p in
        rev bef' ++ merge_next p' q
      else rev bef ++ merge_next (Region s n 0 0) q           (* 399-409 *)
  | [] => merge_next (Region s n 0 0) q
  end.

(* the part treated in iteration i, tools/shrinkelf.c:364-382: None = continue *)
Definition part_of (phoff phsz : Z) (ph : list Z) (i : Z) : option (Z * Z) :=
  if i =? -2 then Some (0, EHDR_SIZE)
  else if i =? -1 then (if phsz =? 0 then None else Some (phoff, phsz))
  else if p_type ph i =? 0 then None
  else
    let n := u32 (p_filesz ph i) in
    if n =? 0 then None else Some (p_offset ph i, n).

(* tools/shrinkelf.c:358-419, n iterations from i on *)
Fixpoint regions_loop (n : nat) (i : Z) (phoff phsz : Z) (ph : list Z)
    (rs : list region) : list region :=
  match n with
  | O => rs
  | S n' =>
      regions_loop n' (i + 1) phoff phsz ph
        (match part_of phoff phsz ph i with
         | None => rs
         | Some (s, k) => add_region rs s k
         end)
  end.

(* compute_regions, tools/shrinkelf.c:348-420 *)
Definition compute_regions (phoff phsz phnum : Z) (ph : list Z) : list region :=
  regions_loop (Z.to_nat (phnum + 2)) (-2) phoff phsz ph [].

(* compute_disps, tools/shrinkelf.c:422-440 *)
Definition PAGE := 4096.
(* tools/shrinkelf.c:422-440 *)
Fixpoint compute_disps (curoff : Z) (rs : list region) : list region :=
  match rs with
  | [] => []
  | p :: r =>
      let d := u32 (u64 (u64 (r_off p - curoff) / PAGE * PAGE)) in
      let t := u64 (r_off p - d) in
      Region (r_off p) (r_sz p) d t :: compute_disps (u64 (t + r_sz p)) r
  end.

(* the region that contains [off, off+n), tools/shrinkelf.c:457-459 *)
Fixpoint region_of (rs : list region) (off n : Z) : option region :=
  match rs with
  | [] => None
  | p :: r =>
      if (r_off p <=? off) && (u64 (off + n) <=? r_end p) then Some p
      else region_of r off n
  end.

(* tools/shrinkelf.c:452-465 for i >= 0: the program header table *)
Fixpoint modify_loop (n : nat) (i : Z) (rs : list region) (ph : list Z)
    : option (list Z) :=
  match n with
  | O => Some ph
  | S n' =>
      if (p_type ph i =? 0) || (p_filesz ph i =? 0) then modify_loop n' (i + 1) rs ph
      else
        match region_of rs (p_offset ph i) (p_filesz ph i) with
        | None => None
        | Some p =>
            modify_loop n' (i + 1) rs
              (setfld ph (PHDR_SIZE * i + 8) 8 (u64 (p_offset ph i - r_disp p)))
        end
  end.

(* modify_hdrs, tools/shrinkelf.c:441-466 *)
Definition modify_hdrs (rs : list region) (phoff phsz : Z) (e ph : list Z)
    : option (list Z * list Z) :=
  let e1 := setfld e 40 8 0 in                               (* e_shoff *)
  let e2 := setfld e1 58 2 0 in                              (* e_shentsize *)
  let e3 := setfld e2 60 2 0 in                              (* e_shnum *)
  let e4 := setfld e3 62 2 0 in                              (* e_shstrndx *)
  match region_of rs phoff phsz with
  | None => None
  | Some p =>
      let e5 := setfld e4 32 8 (u64 (e_phoff e4 - r_disp p)) in
      match modify_loop (Z.to_nat (e_phnum e5)) 0 rs ph with
      | None => None
      | Some ph' => Some (e5, ph')
      end
  end.

(* the replacements in one block, tools/shrinkelf.c:507-538: the block buf was
   read from thisoff; all values are unsigned longs that do not wrap because
   the block is a part of the file *)
Definition patch_block (e ph : list Z) (phoff phsz : Z) (thisoff : Z) (buf : list Z)
    : list Z :=
  let thisread := zlen buf in
  let buf1 :=
    if thisoff <? EHDR_SIZE then
      let posa := thisoff in
      let len := EHDR_SIZE - posa in
      let len' := if thisread - 0 <? len then thisread - 0 else len in
      splice buf 0 (read_at e posa len')
    else buf in
  if (thisoff <? phoff + phsz) && (phoff <? thisoff + thisread) then
    let posa := if thisoff <? phoff then 0 else thisoff - phoff in
    let posb := if thisoff <? phoff then phoff - thisoff else 0 in
    let len := phsz - posa in
    let len' := if thisread - posb <? len then thisread - posb else len in
    splice buf1 posb (read_at ph posa len')
  else buf1.

(* the blocks of one region, tools/shrinkelf.c:494-547; woff is the position in
   the output *)
Definition BUFSIZE := 8192.
(* tools/shrinkelf.c:494-547 *)
Fixpoint copy_blocks (fuel : nat) (f e ph : list Z) (phoff phsz : Z)
    (thisoff toread woff : Z) (out : list Z) : res (option (list Z)) :=
  if 0 <? toread then
    match fuel with
    | O => NoFuel
    | S fuel' =>
        let thisread := if BUFSIZE <? toread then BUFSIZE else toread in
        let buf := read_at f thisoff thisread in
        if zlen buf <? thisread then Ok None
        else
          copy_blocks fuel' f e ph phoff phsz (thisoff + thisread) (toread - thisread)
            (woff + thisread)
            (write_at out woff (patch_block e ph phoff phsz thisoff buf))
    end
  else Ok (Some out).

(* process_file, tools/shrinkelf.c:468-550 *)
Fixpoint process_file (f e ph : list Z) (phoff phsz : Z) (rs : list region)
    (out : list Z) : res (option (list Z)) :=
  match rs with
  | [] => Ok (Some out)
  | p :: r =>
      let* o := copy_blocks (S (Z.to_nat (r_sz p))) f e ph phoff phsz
                  (r_off p) (r_sz p) (r_toff p) out in
      match o with
      | None => Ok None
      | Some out' => process_file f e ph phoff phsz r out'
      end
  end.

(* main, tools/shrinkelf.c:565-595: from the content of the input file to the
   content of the output file *)
Definition shrinkelf (f : list Z) : res (option (list Z)) :=
  match read_hdrs f with
  | None => Ok None
  | Some (e, ph) =>
      let phoff := e_phoff e in                               (* 330 *)
      let phsz := u32 (e_phentsize e * e_phnum e) in          (* 331 *)
      let rs := compute_disps 0 (compute_regions phoff phsz (e_phnum e) ph) in
      match modify_hdrs rs phoff phsz e ph with
      | None => Ok None
      | Some (e', ph') => process_file f e' ph' phoff phsz rs []
      end
  end.
