(* Vocabulary for directories: entries as the kernel delivers them, lists of
   pointers, the stream position as an index. *)
From Verif Require Import Base SortSpec.

(* a directory entry (struct dirent): at least one byte of name, d_reclen (bytes 16
   and 17) is its length *)
Definition dirent (e : list Z) : Prop :=
  Forall (fun b => 0 <= b <= 255) e /\ 19 <= zlen e /\
  zlen e = nth 16 e 0 + 256 * nth 17 e 0.

(* what a sequence of getdents calls with a buffer of n bytes delivers *)
Definition batches (n : Z) (bs : list (list (list Z))) : Prop :=
  Forall (fun b => b <> [] /\ zlen (concat b) <= n /\ Forall dirent b) bs.

(* the entries a selector accepts, in order *)
Definition accepted (sel : option (list Z -> Z)) (es : list (list Z)) : list (list Z) :=
  match sel with
  | None => es
  | Some f => filter (fun e => negb (f e =? 0)) es
  end.

(* the 8 byte pointers ps are stored from address a on *)
Definition pointers_at (m : mem) (a : Z) (ps : list Z) : Prop :=
  forall i p j, nth_error ps i = Some p -> 0 <= j < 8 ->
    m (a + 8 * Z.of_nat i + j) = Some (p / 256 ^ j mod 256).

(* ---- a directory stream: the position is an index into the entries ---- *)
Definition d_off (e : list Z) : Z :=
  nth 8 e 0 + 256 * (nth 9 e 0 + 256 * (nth 10 e 0 + 256 * (nth 11 e 0 + 256 *
  (nth 12 e 0 + 256 * (nth 13 e 0 + 256 * (nth 14 e 0 + 256 * nth 15 e 0)))))).
(* the number that stands for index k: d_off of the entry before it *)
Definition place (es : list (list Z)) (k : nat) : Z :=
  match k with O => 0 | S j => d_off (nth j es []) end.

(* what a program does with a stream: read the next entry, start again, ask for the
   position, go to the position of index j *)
Inductive act := Read | Rewind | Tell | Seek (j : nat).
(* and what it gets: an entry or the end, a position, nothing *)
Inductive got := Entry (e : list Z) | End | At (t : Z) | Nothing.

Definition machine (es : list (list Z)) (k : nat) (a : act) : nat * got :=
  match a with
  | Read => match nth_error es k with Some e => (S k, Entry e) | None => (k, End) end
  | Rewind => (O, Nothing)
  | Tell => (k, At (place es k))
  | Seek j => (j, Nothing)
  end.
Fixpoint machine_run (es : list (list Z)) (k : nat) (os : list act) : list got :=
  match os with
  | [] => []
  | a :: r => snd (machine es k a) :: machine_run es (fst (machine es k a)) r
  end.
(* the program only goes to positions that exist *)
Definition seeks_inside (es : list (list Z)) (os : list act) : Prop :=
  forall j, In (Seek j) os -> (j <= length es)%nat.

(* ---- the data segment as a stack of blocks, the last one first ------------- *)
(* a byte of a block: None when the program did not write it *)
Definition cells := list (option Z).
(* a block with its bytes; false: it was freed under other blocks *)
Definition block := (cells * bool)%type.
Inductive hop := Malloc (n : Z) | Realloc (n : Z) | Free (i : nat) | Write (i : nat) (off v : Z).

Definition resize (c : cells) (n : Z) : cells :=
  firstn (Z.to_nat n) c ++ repeat None (Z.to_nat n - length c).
Definition set_cell (c : cells) (off v : Z) : cells :=
  firstn (Z.to_nat off) c ++ Some v :: skipn (S (Z.to_nat off)) c.
Fixpoint change (i : nat) (b : block) (st : list block) : list block :=
  match i, st with
  | _, [] => []
  | O, _ :: r => b :: r
  | S j, a :: r => a :: change j b r
  end.
(* the bytes that the blocks take: up to 8 more for each *)
Fixpoint used (st : list block) : Z :=
  match st with [] => 0 | (c, _) :: r => zlen c + 8 + used r end.

(* None: the program makes a mistake or runs out of the given space *)
Definition stack_step (space : Z) (st : list block) (o : hop) : option (list block) :=
  let fits st := if used st <=? space then Some st else None in
  let size_ok n := (1 <=? n) && (n <=? 268435440) in
  match o with
  | Malloc n => if size_ok n then fits ((repeat None (Z.to_nat n), true) :: st) else None
  | Realloc n =>
      match st with
      | (c, true) :: r => if size_ok n then fits ((resize c n, true) :: r) else None
      | _ => None
      end
  | Free i =>
      match nth_error st i with
      | Some (c, true) => Some (match i with O => tl st | _ => change i (c, false) st end)
      | _ => None
      end
  | Write i off v =>
      match nth_error st i with
      | Some (c, true) =>
          if (0 <=? off) && (off <? zlen c) then Some (change i (set_cell c off v, true) st) else None
      | _ => None
      end
  end.
Fixpoint stack_run (space : Z) (st : list block) (os : list hop) : option (list block) :=
  match os with
  | [] => Some st
  | o :: r => match stack_step space st o with Some st' => stack_run space st' r | None => None end
  end.

(* memory holds a block at p: all its bytes are there, and those that the program
   wrote have the value it wrote *)
Definition holds (m : mem) (p : Z) (b : block) : Prop :=
  snd b = true ->
  room m p (zlen (fst b)) /\
  forall i v, nth_error (fst b) i = Some (Some v) -> m (p + Z.of_nat i) = Some v.
(* the blocks do not overlap: later ones are above *)
Fixpoint stacked (ps : list Z) (st : list block) (top : Z) : Prop :=
  match ps, st with
  | [], [] => True
  | p :: ps', b :: st' => p + zlen (fst b) <= top /\ stacked ps' st' (p - 4)
  | _, _ => False
  end.

(* ---- names: d_name is at 18 and ends with the first zero byte --------------- *)
Definition named (e name : list Z) : Prop :=
  Forall (fun b => 1 <= b <= 255) name /\
  exists head pad, e = head ++ name ++ 0 :: pad /\ zlen head = 18.
