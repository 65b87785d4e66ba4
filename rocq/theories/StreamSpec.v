(* What the stream functions are to do, without reference to how they do it. *)
From Verif Require Import Base StreamModel.

(* The part of a text one line read takes: at most n bytes, up to and including the
   first newline. *)
Fixpoint line (n : nat) (l : list Z) : list Z :=
  match n, l with
  | S k, c :: r => if c =? 10 then [10] else c :: line k r
  | _, _ => []
  end.
(* the same without the newline *)
Fixpoint chomp (l : list Z) : list Z :=
  match l with [] => [] | c :: r => if c =? 10 then [] else c :: chomp r end.
Definition text (l : list Z) : Prop := Forall (fun c => 0 < c < 256) l.
Definition is_digit (c : Z) : Prop := 48 <= c <= 57.
(* the number a list of decimal digits denotes *)
Fixpoint decimal (acc : Z) (l : list Z) : Z :=
  match l with [] => acc | c :: r => decimal (acc * 10 + (c - 48)) r end.
(* [l] does not go on with a digit *)
Definition no_digit (l : list Z) : Prop := match l with [] => True | c :: _ => ~ is_digit c end.

(* open(2) flags of the modes, POSIX fopen: bit 0 write only, bit 1 read and write,
   0x40 create, 0x200 truncate, 0x400 append *)
Definition posix_flags (first : Z) (plus : bool) : option Z :=
  if first =? 114 then Some (if plus then 2 else 0)
  else if first =? 119 then Some (if plus then 0x242 else 0x241)
  else if first =? 97 then Some (if plus then 0x442 else 0x441)
  else None.
(* What a stream delivers next: the pushed back character, kept in the top byte of the
   FILE word (0: none), then the rest of the input. *)
Definition pushed (word : Z) : list Z :=
  if word / 16777216 =? 0 then [] else [(word / 16777216) mod 256].
Definition content (word : Z) (input : list Z) : list Z := pushed word ++ input.

(* ---- histories of fopen and fclose from the start of the program ----
   n counts the calls of fopen, l lists the open streams: slot and descriptor.  [may l a]
   says when a program may close the stream in slot a.  Descriptors of streams are
   positive and below 0x400000 (the word keeps flags above). *)
Inductive history (may : list (Z * Z) -> Z -> Prop) : nat -> streams -> list (Z * Z) -> Prop :=
| h_init : history may 0 streams_init []
| h_open n t l r t' a : history may n t l -> 0 < r < 4194304 -> fopen_slot t r = Ok (t', Some a) ->
    history may (S n) t' ((a, r) :: l)
| h_fail n t l r t' : history may n t l -> r < 0 -> fopen_slot t r = Ok (t', None) -> history may (S n) t' l
| h_close n t l a fd l1 l2 t' d : history may n t l -> l = l1 ++ (a, fd) :: l2 -> may l a ->
    fclose t a = Ok (t', d) -> history may n t' (l1 ++ l2).

(* ---- successive calls of fgets: texts delivered, stream before and after ---- *)
Inductive fgets_calls : stream -> list (list Z) -> stream -> Prop :=
| fc_nil s : fgets_calls s [] s
| fc_cons fuel m s buf size m' s1 t ts s2 :
    1 <= size <= INT_MAX -> (Z.to_nat size <= fuel)%nat -> room m buf (size + 1) ->
    fgets fuel m s buf size = Ok (m', s1, buf) -> buf <> 0 -> str_at m' buf t ->
    fgets_calls s1 ts s2 -> fgets_calls s (t :: ts) s2.
