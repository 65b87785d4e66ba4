(* What elftrunc is to do, in terms of the bytes of ELF files. *)
From Verif Require Import Base ElftModel.
Local Open Scope list_scope.

(* the number that n bytes of a file, from pos on, stand for *)
Definition number (l : list Z) : Z := fold_right (fun b v => b + 256 * v) 0 l.
Definition part (f : list Z) (pos n : Z) : list Z := firstn (Z.to_nat n) (skipn (Z.to_nat pos) f).
Definition num (f : list Z) (pos n : Z) : Z := number (part f pos n).

(* the ELF format: width of addresses, size of header and program header, places of the fields *)
Record format := { width : Z; header : Z; phdr : Z; at_phoff : Z; at_phnum : Z; at_offset : Z; at_filesz : Z }.
Definition elf64 : format := {| width := 8; header := 64; phdr := 56; at_phoff := 32; at_phnum := 56; at_offset := 8; at_filesz := 32 |}.
Definition elf32 : format := {| width := 4; header := 52; phdr := 32; at_phoff := 28; at_phnum := 44; at_offset := 4; at_filesz := 16 |}.
Definition phoff F f := num f (at_phoff F) (width F).
Definition phnum F f := num f (at_phnum F) 2.
(* the i-th program header: its type, and the end in the file of what it describes *)
Definition ptype F f i := num f (phoff F f + phdr F * i) 4.
Definition pend F f i := num f (phoff F f + phdr F * i + at_offset F) (width F) + num f (phoff F f + phdr F * i + at_filesz F) (width F).

(* an ELF file of this format, whose program headers lie in the file *)
Record elf (F : format) (class : Z) (f : list Z) : Prop := {
  bytes : Forall (fun b => 0 <= b < 256) f;
  magic : part f 0 5 = [127; 69; 76; 70; class];
  complete : header F <= zlen f;
  table : phoff F f + phdr F * phnum F f <= zlen f;
  near : phoff F f < 2 ^ 31;
  small : zlen f < 2 ^ (8 * width F) }.
Definition dynamic F f := exists i, 0 <= i < phnum F f /\ (ptype F f i = 2 \/ ptype F f i = 3).
(* n is the end of the last loadable segment *)
Definition last_load F f n := (forall i, 0 <= i < phnum F f -> ptype F f i = 1 -> pend F f i <= n) /\
  (exists i, 0 <= i < phnum F f /\ ptype F f i = 1 /\ pend F f i = n).

(* the first n bytes of f; the place, the number and the string index of the section headers in the
   header are 0 *)
Definition truncated64 (f : list Z) (n : Z) : list Z := part f 0 40 ++ repeat 0 8 ++ part f 48 12 ++ repeat 0 4 ++ part f 64 (n - 64).
Definition truncated32 (f : list Z) (n : Z) : list Z := part f 0 32 ++ repeat 0 4 ++ part f 36 12 ++ repeat 0 4 ++ part f 52 (n - 52).

(* a kernel without errors and with room on the disk *)
Definition good (K : behaviour) := (forall i, read_fails K i = false) /\ (forall j n, takes K j n = n) /\ creates K = true.
(* name.trunc *)
Definition trunc_name (name : list Z) : list Z := name ++ [46; 116; 114; 117; 110; 99].
(* the directory d' is d with the content c under the name *)
Definition with_file (d d' : dir) (name c : list Z) := d' name = Some c /\ forall x, x <> name -> d' x = d x.
