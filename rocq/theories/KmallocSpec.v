(* What a program relies on when it uses an allocator: a list of blocks, each with
   the bytes it holds (None: not written yet), the newest first. *)
From Verif Require Import Base DirSpec.

Inductive aop := AMalloc (n : Z) | ACalloc (a b : Z) | ARealloc (i : nat) (n : Z)
  | AFree (i : nat) | AWrite (i : nat) (off v : Z).

Definition fresh (n : Z) : cells := repeat None (Z.to_nat n).
Definition zeroed (n : Z) : cells := repeat (Some 0) (Z.to_nat n).

Fixpoint drop_nth {A} (i : nat) (l : list A) : list A :=
  match i, l with
  | _, [] => []
  | O, _ :: r => r
  | S j, a :: r => a :: drop_nth j r
  end.
Fixpoint put_nth {A} (i : nat) (x : A) (l : list A) : list A :=
  match i, l with
  | _, [] => []
  | O, _ :: r => x :: r
  | S j, a :: r => a :: put_nth j x r
  end.

(* the largest block: 2^30 + 4088 bytes *)
Definition LARGEST := 1073745912.

(* the memory a request may take from the system *)
Definition price (o : aop) : Z :=
  match o with
  | AMalloc n => 2 * Z.max 0 n + 8192
  | ACalloc a b => 2 * (a * b) + 8192
  | ARealloc _ n => 2 * n + 8192
  | _ => 0
  end.
(* the bytes it clears or copies *)
Definition moves (o : aop) : Z :=
  match o with ACalloc a b => a * b | ARealloc _ n => n | _ => 0 end.
Fixpoint bill (os : list aop) : Z :=
  match os with [] => 0 | o :: r => price o + bill r end.

(* None: the program makes a mistake (an argument of malloc that is no int, a block
   that does not exist, a byte outside of a block), or it asks calloc or realloc for
   more than the largest block.  A resized block becomes the newest one. *)
Definition astep (st : list cells) (o : aop) : option (list cells) :=
  match o with
  | AMalloc n =>
      if (n <? INT_MIN) || (INT_MAX <? n) then None
      else if LARGEST <? n then Some st else Some (fresh n :: st)
  | ACalloc a b =>
      if (0 <=? a) && (0 <=? b) && (a * b <=? LARGEST) then Some (zeroed (a * b) :: st) else None
  | ARealloc i n =>
      match nth_error st i with
      | None => None
      | Some c =>
          if n =? 0 then Some (drop_nth i st)
          else if (0 <? n) && (n <=? LARGEST) then Some (resize c n :: drop_nth i st)
          else None
      end
  | AFree i => match nth_error st i with None => None | Some _ => Some (drop_nth i st) end
  | AWrite i off v =>
      match nth_error st i with
      | None => None
      | Some c =>
          if (0 <=? off) && (off <? zlen c) && (0 <=? v) && (v <=? 255)
          then Some (put_nth i (set_cell c off v) st) else None
      end
  end.
Fixpoint arun (st : list cells) (os : list aop) : option (list cells) :=
  match os with
  | [] => Some st
  | o :: r => match astep st o with None => None | Some st => arun st r end
  end.

(* the block at p: its bytes are accessible and those that were written are there *)
Definition stored (m : mem) (p : Z) (c : cells) : Prop :=
  room m p (zlen c) /\
  forall i v, nth_error c i = Some (Some v) -> m (p + Z.of_nat i) = Some v.
(* no two of the blocks share a byte, not even of the 8 bytes before each block *)
Definition separate (ps : list Z) (st : list cells) : Prop :=
  forall i j p q c d, nth_error ps i = Some p -> nth_error ps j = Some q ->
    nth_error st i = Some c -> nth_error st j = Some d -> i <> j ->
    apart (p - 8) (zlen c + 8) (q - 8) (zlen d + 8).

(* the sizes of blocks: 2^k - 8 up to 2040, then 2^k + 4088 *)
Definition block_size (k : Z) : Z := if k <? 12 then 2 ^ k - 8 else 2 ^ k + 4088.
(* n and n' bytes need blocks of the same size *)
Definition same_size (n n' : Z) : Prop :=
  forall k, 3 <= k <= 30 -> (n <= block_size k <-> n' <= block_size k).
