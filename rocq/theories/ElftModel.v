(* Model of old/tools/elftrunc.c, which cuts a static ELF file behind its last loadable
   segment.  Simplifications that hold for the whole file:
   - a file is the list of its bytes (0..255), the directory a map from names to files; two
     different names are different files, rename succeeds;
   - messages are left out; die is the exit code. *)
From Verif Require Import Base ShrinkModel.
Local Open Scope list_scope.

(* what the kernel may do: the i-th read fails; the j-th write takes only some of the n bytes (0 also
   for an error); the output file can be created; for old/tools/elftrunc.c:55-69, 109-123 *)
Record behaviour := { read_fails : nat -> bool; takes : nat -> Z -> Z; creates : bool }.
(* the i-th read, at the position pos; None: -1; for old/tools/elftrunc.c:55-69, 109-123 *)
Definition rd (K : behaviour) (f : list Z) (i : nat) (pos n : Z) : option (list Z) :=
  if read_fails K i then None else Some (read_at f pos n).
(* the j-th write of b to the end of out; for old/tools/elftrunc.c:136-143 *)
Definition wr (K : behaviour) (j : nat) (b out : list Z) : list Z := out ++ firstn (Z.to_nat (takes K j (zlen b))) b.

(* Elf64_Ehdr, Elf64_Phdr, Elf32_Ehdr, Elf32_Phdr, headers/common/elf.h:34-66, 563-583: sizes of the
   structures and of an address, offsets of e_phoff, e_shoff, e_phnum, e_shnum, e_shstrndx, p_offset,
   p_filesz; p_type is at 0 *)
Record lay := { eh_size : Z; ph_size : Z; addr : nat; o_phoff : Z; o_shoff : Z; o_phnum : Z; o_shnum : Z; o_shstrndx : Z; o_offset : Z; o_filesz : Z }.
(* headers/common/elf.h:34-66, 563-583 *)
Definition lay64 : lay := {| eh_size := 64; ph_size := 56; addr := 8; o_phoff := 32; o_shoff := 40; o_phnum := 56; o_shnum := 60; o_shstrndx := 62; o_offset := 8; o_filesz := 32 |}.
(* headers/common/elf.h:34-66, 563-583 *)
Definition lay32 : lay := {| eh_size := 52; ph_size := 32; addr := 4; o_phoff := 28; o_shoff := 32; o_phnum := 44; o_shnum := 48; o_shstrndx := 50; o_offset := 4; o_filesz := 16 |}.
(* a field of a structure of which only the bytes of l have been set;
   for old/tools/elftrunc.c:55-69, 109-123 *)
Definition field (l : list Z) (pos : Z) (n : nat) : res Z := if pos + Z.of_nat n <=? zlen l then Ok (fld l pos n) else Fault.
(* unsigned arithmetic of Elf64_Addr, Elf32_Addr; for old/tools/elftrunc.c:55-69, 109-123 *)
Definition uaddr (L : lay) (v : Z) : Z := v mod 2 ^ (8 * Z.of_nat (addr L)).
(* lseek(in,off,SEEK_SET): the wrapper takes an int (include/syscall_stubs.h:665; the upper half of
   the register is taken as its sign); a negative offset is refused *)
Definition seek (pos off : Z) : Z := if s32 off <? 0 then pos else s32 off.

(* old/tools/elftrunc.c:55-69, 109-123; k = e_phnum - i.  A short read leaves the rest of the structure
   as it was.  None: die(3); else len and the number of reads *)
Fixpoint scan (L : lay) (K : behaviour) (f : list Z) (k i : nat) (pos len : Z) (ph : list Z) : res (option (Z * nat)) :=
  match k with
  | O => Ok (Some (len, i))
  | S k =>
      match rd K f i pos (ph_size L) with
      | None | Some [] => Ok (Some (len, S i))
      | Some b =>
          let ph := b ++ skipn (length b) ph in
          let* t := field ph 0 4 in
          if (t =? 2) || (t =? 3) then Ok None
          else if t =? 1 then
            let* o := field ph (o_offset L) (addr L) in
            let* s := field ph (o_filesz L) (addr L) in
            scan L K f k (S i) (pos + zlen b) (if len <? uaddr L (o + s) then uaddr L (o + s) else len) ph
          else scan L K f k (S i) (pos + zlen b) len ph
      end
  end.
(* old/tools/elftrunc.c:74-76, 128-130 *)
Definition clear (L : lay) (eh : list Z) : list Z := setfld (setfld (setfld eh (o_shoff L) (addr L) 0) (o_shnum L) 2 0) (o_shstrndx L) 2 0.

(* old/tools/elftrunc.c:136-143: exit code and the file; n > 0 holds at every test *)
Fixpoint copy64 (fuel : nat) (K : behaviour) (f : list Z) (i j : nat) (pos len : Z) (out : list Z) : res (Z * list Z) :=
  match fuel with
  | O => NoFuel
  | S k =>
      if len =? 0 then Ok (0, out)
      else match rd K f i pos 4096 with
           | None | Some [] => Ok (2, out)
           | Some b => let c := Z.min len (zlen b) in
               copy64 k K f (S i) (S j) (pos + zlen b) (len - c) (wr K j (firstn (Z.to_nat c) b) out)
           end
  end.
(* old/tools/elftrunc.c:82-89.  n is unsigned: after an error it is 2^32-1, and len bytes of the buffer,
   with what was read before, are written *)
Fixpoint copy32 (fuel : nat) (K : behaviour) (f : list Z) (i j : nat) (pos len : Z) (buf out : list Z) : res (Z * list Z) :=
  match fuel with
  | O => NoFuel
  | S k =>
      if len =? 0 then Ok (0, out)
      else match rd K f i pos 4096 with
           | None => if len <=? zlen buf then Ok (0, wr K j (firstn (Z.to_nat len) buf) out) else Fault
           | Some [] => Ok (0, out)
           | Some b => let c := Z.min len (zlen b) in
               copy32 k K f (S i) (S j) (pos + zlen b) (len - c) (b ++ skipn (length b) buf) (wr K j (firstn (Z.to_nat c) b) out)
           end
  end.

(* old/tools/elftrunc.c:40-92 (trunc32), 95-146 (trunc64): exit code, 0 if the function returns, and the
   file if it was created; i: the reads so far *)
Definition trunc (is64 : bool) (fuel : nat) (K : behaviour) (f : list Z) (buf : list Z) (i : nat) : res (Z * option (list Z)) :=
  let L := if is64 then lay64 else lay32 in
  match rd K f i 0 (eh_size L) with
  | None => if is64 then Ok (3, None) else Fault
  | Some [] => Ok (3, None)
  | Some eh =>
      let n := zlen eh in
      let* phoff := field eh (o_phoff L) (addr L) in
      let* phnum := field eh (o_phnum L) 2 in
      let* r := scan L K f (Z.to_nat phnum) (S i) (seek n phoff) 0 [] in
      match r with
      | None => Ok (3, None)
      | Some (len, i) =>
          let len := uaddr L (len - n) in
          if creates K then
            let out := wr K 0 (firstn (Z.to_nat n) (clear L eh)) [] in
            let* r := if is64 then copy64 fuel K f i 1 n len out else copy32 fuel K f i 1 n len buf out in
            let '(c, out) := r in Ok (c, Some out)
          else Ok (2, None)
      end
  end.

Definition dir := list Z -> option (list Z). (* for old/tools/elftrunc.c:148-175 *)
(* for old/tools/elftrunc.c:148-175 *)
Definition set_file (d : dir) (name : list Z) (c : option (list Z)) : dir := fun x => if list_eq_dec Z.eq_dec x name then c else d x.
(* old/tools/elftrunc.c:163-164: strncpy of 1014 bytes, strcat *)
Definition out_name (name : list Z) : list Z := firstn 1014 name ++ [46; 116; 114; 117; 110; 99].
(* old/tools/elftrunc.c:148-175; args are the strings behind argv[0].  The exit code and the
   directory. *)
Definition elftrunc (fuel : nat) (K : behaviour) (d : dir) (args : list (list Z)) : res (Z * dir) :=
  match args with
  | name :: rest =>
      if (1 <? zlen rest) then Ok (0, d)
      else match d name with
      | None => Ok (1, d)
      | Some f =>
          match rd K f 0 0 16 with
          | None | Some [] => Ok (2, d)
          | Some b =>
              let buf := b ++ repeat 0 (Z.to_nat (4096 - zlen b)) in
              if list_eq_dec Z.eq_dec (firstn 4 buf) [127; 69; 76; 70] then
                let* r := trunc (nth 4 buf 0 =? 2) fuel K f buf 1 in
                let '(c, o) := r in
                let d1 := match o with Some out => set_file d (out_name name) (Some out) | None => d end in
                match c, rest with
                | 0, [dst] => if list_eq_dec Z.eq_dec dst (out_name name) then Ok (0, d1)
                              else Ok (0, set_file (set_file d1 dst (d1 (out_name name))) (out_name name) None)
                | _, _ => Ok (c, d1)
                end
              else Ok (2, d)
          end
      end
  | [] => Ok (0, d)
  end.
