(* Vocabulary for the properties of shrinkelf: bytes and fields of a file, the
   parts of an ELF file that have to survive. *)
From Verif Require Import Base.

(* byte x of a file; None: outside the file *)
Definition byte (f : list Z) (x : Z) : option Z :=
  if x <? 0 then None else nth_error f (Z.to_nat x).

(* the unsigned little endian number of n bytes at position x *)
Fixpoint number (f : list Z) (x : Z) (n : nat) : Z :=
  match n with
  | O => 0
  | S n' => (match byte f x with Some b => b | None => 0 end) + 256 * number f (x + 1) n'
  end.

(* The System V ABI for ELF64: e_phoff is at 32 in the ELF header, e_phentsize at
   54, e_phnum at 56; an entry of the program header table has 56 bytes with
   p_type at 0, p_offset at 8 and p_filesz at 32. *)
Definition ph_off (f : list Z) : Z := number f 32 8.
Definition ph_num (f : list Z) : Z := number f 56 2.
Definition seg_type (f : list Z) (i : Z) : Z := number f (ph_off f + 56 * i) 4.
Definition seg_off (f : list Z) (i : Z) : Z := number f (ph_off f + 56 * i + 8) 8.
Definition seg_size (f : list Z) (i : Z) : Z := number f (ph_off f + 56 * i + 32) 8.
(* entry i describes bytes of the file *)
Definition has_bytes (f : list Z) (i : Z) : Prop := seg_type f i <> 0 /\ seg_size f i <> 0.

Definition in_ehdr (x : Z) : Prop := 0 <= x < 64.
Definition in_phdr (f : list Z) (x : Z) : Prop :=
  ph_off f <= x < ph_off f + 56 * ph_num f.
Definition in_seg (f : list Z) (x : Z) : Prop :=
  exists i, 0 <= i < ph_num f /\ seg_type f i <> 0 /\
            seg_off f i <= x < seg_off f i + seg_size f i.
(* the bytes that shrinkelf has to keep *)
Definition needed (f : list Z) (x : Z) : Prop := in_ehdr x \/ in_phdr f x \/ in_seg f x.

(* a complete ELF64 executable: header fields as the ABI wants them, the
   program header table behind the ELF header and inside the file, the segments
   inside the file *)
Definition elf_exec (f : list Z) : Prop :=
  Forall (fun b => 0 <= b <= 255) f /\ 64 <= zlen f <= LONG_MAX /\
  number f 4 1 = 2 /\ number f 6 1 = 1 /\ number f 16 2 = 2 /\ number f 20 4 = 1 /\
  number f 54 2 = 56 /\ 0 < ph_num f /\
  64 <= ph_off f /\ ph_off f + 56 * ph_num f <= zlen f /\
  forall i, 0 <= i < ph_num f -> has_bytes f i -> seg_off f i + seg_size f i <= zlen f.

(* among any 2^32 bytes in a row there is one that is not in P *)
Definition no_long_run (P : Z -> Prop) : Prop :=
  forall a, exists x, a <= x < a + 4294967296 /\ ~ P x.

(* out is a shrunk version of f: the header without its references to sections,
   the same program header table up to the offsets, and every segment addresses
   in out what it addressed in f.  Where a segment contains the headers
   themselves it addresses the new headers. *)
Definition relocated (f out : list Z) : Prop :=
  (forall x, in_ehdr x -> ~ 32 <= x < 48 -> ~ 58 <= x < 64 -> byte out x = byte f x) /\
  (forall x, 40 <= x < 48 \/ 58 <= x < 64 -> byte out x = Some 0) /\
  (forall i x, 0 <= i < ph_num f -> 0 <= x < 56 -> ~ 8 <= x < 16 ->
     byte out (ph_off out + 56 * i + x) = byte f (ph_off f + 56 * i + x)) /\
  (forall i, 0 <= i < ph_num f -> ~ has_bytes f i -> seg_off out i = seg_off f i) /\
  (forall i, 0 <= i < ph_num f -> has_bytes f i ->
     seg_off out i mod 4096 = seg_off f i mod 4096 /\
     0 <= seg_off out i <= seg_off f i /\
     forall x, seg_off f i <= x < seg_off f i + seg_size f i ->
       let y := seg_off out i + (x - seg_off f i) in
       (in_ehdr x -> byte out y = byte out x) /\
       (in_phdr f x -> byte out y = byte out (ph_off out + (x - ph_off f))) /\
       (~ in_ehdr x -> ~ in_phdr f x -> byte out y = byte f x /\ byte f x <> None)).
