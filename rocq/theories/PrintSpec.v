(* Formats as lists of items. *)
From Verif Require Import Base ConvSpec DtoModel PrintModel.

(* A literal character, or a conversion: '%', modifiers each behind a (possibly empty)
   run of digits, a run of digits, and the conversion character. *)
Inductive item := Lit (c : Z) | Conv (mods : list (list Z * Z)) (width : list Z) (c : Z).
Definition mods_text (mods : list (list Z * Z)) : list Z := flat_map (fun wf => fst wf ++ [snd wf]) mods.
Definition item_text (i : item) : list Z :=
  match i with
  | Lit c => [c]
  | Conv mods width c => 37 :: mods_text mods ++ width ++ [c]
  end.
Definition format_text (l : list item) : list Z := flat_map item_text l.

Definition digit (c : Z) : Prop := 48 <= c <= 57.
(* characters with a meaning of their own behind '%': % u d f x X o b ( s c *)
Definition conversions : list Z := [37; 117; 100; 102; 120; 88; 111; 98; 40; 115; 99].
Definition well_formed (i : item) : Prop :=
  match i with
  | Lit c => 0 < c < 256 /\ c <> 37
  | Conv mods width c =>
      Forall (fun wf => Forall digit (fst wf) /\ 0 < snd wf < 256 /\ ~ digit (snd wf) /\ ~ In (snd wf) conversions) mods /\
      Forall digit width /\ (length (flat_map fst mods ++ width) <= 9)%nat
  end.
Definition long_mod (mods : list (list Z * Z)) : bool := existsb (Z.eqb 108) (map snd mods).
Definition group_mod (mods : list (list Z * Z)) : bool := existsb (Z.eqb 39) (map snd mods).

(* ---- the plain formats: literals, %%, %s, %c, %d, %u, %x, %X; arguments and output.
   [iok], [uok] restrict the values for %d and %u (no restriction: fun _ => True); the strings
   for %s are not in the buffer. ---- *)
Inductive formats (iok uok : Z -> Prop) (m : mem) (buf size : Z) : list item -> list Z -> list Z -> Prop :=
| f_nil args : formats iok uok m buf size [] args []
| f_lit c r args out : 0 < c < 256 -> c <> 37 -> formats iok uok m buf size r args out ->
    formats iok uok m buf size (Lit c :: r) args (c :: out)
| f_percent r args out : formats iok uok m buf size r args out ->
    formats iok uok m buf size (Conv [] [] 37 :: r) args (37 :: out)
| f_string p s r args out : str_at m p s -> apart p (zlen s + 1) buf size -> formats iok uok m buf size r args out ->
    formats iok uok m buf size (Conv [] [] 115 :: r) (p :: args) (s ++ out)
| f_char v r args out : formats iok uok m buf size r args out ->
    formats iok uok m buf size (Conv [] [] 99 :: r) (v :: args) (ubyte v :: out)
| f_int v l r args out : INT_MIN <= v <= INT_MAX -> iok v -> signed_numeral 10 v l -> formats iok uok m buf size r args out ->
    formats iok uok m buf size (Conv [] [] 100 :: r) (v :: args) (l ++ out)
| f_unsigned v l r args out : 0 <= v < 4294967296 -> uok v -> numeral 10 v l -> formats iok uok m buf size r args out ->
    formats iok uok m buf size (Conv [] [] 117 :: r) (v :: args) (l ++ out)
| f_hex v l r args out : 0 <= v < 4294967296 -> numeral 16 v l -> (forall b, In b l -> ~ (65 <= b <= 90)) ->
    formats iok uok m buf size r args out -> formats iok uok m buf size (Conv [] [] 120 :: r) (v :: args) (l ++ out)
| f_hexcap v l r args out : 0 <= v < 4294967296 -> numeral 16 v l -> (forall b, In b l -> b < 97) ->
    formats iok uok m buf size r args out -> formats iok uok m buf size (Conv [] [] 88 :: r) (v :: args) (l ++ out).

(* ---- number conversions with a width or the modifier l: modifiers, width, conversion,
   argument and output.  A width that starts with 0 asks for zeros. ---- *)
Inductive number (strict : bool) : list (list Z * Z) -> list Z -> Z -> Z -> list Z -> Prop :=
| num_blanks c w v l : c = 117 \/ c = 100 -> Forall digit w -> hd 0 w <> 48 -> 1 <= value 10 w <= 9 ->
    0 < v <= (if c =? 117 then 4294967295 else INT_MAX) -> numeral 10 v l ->
    number strict [] w c v (repeat 32 (Z.to_nat (value 10 w - zlen l)) ++ l)
| num_zeros c w v l : c = 117 \/ c = 100 -> Forall digit w -> hd 0 w = 48 -> (length w <= 9)%nat -> 1 <= value 10 w <= 9 ->
    0 <= v <= (if c =? 117 then 4294967295 else INT_MAX) -> padded_numeral 10 v (value 10 w) l -> number strict [] w c v l
| num_hex c w v l : c = 120 \/ c = 88 -> Forall digit w -> hd 0 w = 48 -> (length w <= 9)%nat -> value 10 w <= 8 ->
    0 <= v < 4294967296 -> padded_numeral 16 v (Z.max 1 (value 10 w)) l ->
    (forall b, In b l -> if c =? 88 then b < 97 else ~ (65 <= b <= 90)) -> number strict [] w c v l
| num_ulong w v l : Forall digit w -> w = [] \/ hd 0 w = 48 -> (length w <= 9)%nat -> value 10 w <= 20 ->
    0 <= v < 18446744073709551616 -> padded_numeral 10 v (Z.max 1 (value 10 w)) l -> number strict [(w, 108)] [] 117 v l
| num_long v l : LONG_MIN <= v <= LONG_MAX -> (strict = true -> v <> LONG_MIN) -> signed_numeral 10 v l ->
    number strict [([], 108)] [] 100 v l.
(* literals and such conversions *)
Inductive numbers (strict : bool) : list item -> list Z -> list Z -> Prop :=
| ns_nil args : numbers strict [] args []
| ns_lit c r args out : 0 < c < 256 -> c <> 37 -> numbers strict r args out -> numbers strict (Lit c :: r) args (c :: out)
| ns_conv mods w c v o r args out : number strict mods w c v o -> numbers strict r args out ->
    numbers strict (Conv mods w c :: r) (v :: args) (o ++ out).

(* ---- arguments for a safe call (C48): modifiers that make vsnprintf overrun are
   excluded.  [strict]: signed overflow is undefined; every string
   argument has less than [N] characters. ---- *)
Inductive safe_args (strict : bool) (N : nat) (m : mem) (buf size : Z) : list item -> list Z -> Prop :=
| s_nil args : safe_args strict N m buf size [] args
| s_lit c r args : safe_args strict N m buf size r args -> safe_args strict N m buf size (Lit c :: r) args
| s_percent mods w r args : safe_args strict N m buf size r args -> safe_args strict N m buf size (Conv mods w 37 :: r) args
| s_string mods w p s r args : flat_map fst mods ++ w = [] -> str_at m p s -> (length s < N)%nat -> apart p (zlen s + 1) buf size ->
    safe_args strict N m buf size r args -> safe_args strict N m buf size (Conv mods w 115 :: r) (p :: args)
| s_char mods w v r args : safe_args strict N m buf size r args -> safe_args strict N m buf size (Conv mods w 99 :: r) (v :: args)
| s_unsigned mods w v r args : safe_args strict N m buf size r args -> safe_args strict N m buf size (Conv mods w 117 :: r) (v :: args)
| s_hex mods w c v r args : c = 120 \/ c = 88 -> safe_args strict N m buf size r args ->
    safe_args strict N m buf size (Conv mods w c :: r) (v :: args)
| s_int mods w v r args :
    (long_mod mods = false -> group_mod mods = false /\ (strict = true -> s32 v <> INT_MIN)) ->
    (long_mod mods = true -> strict = true -> s64 v <> LONG_MIN) ->
    safe_args strict N m buf size r args -> safe_args strict N m buf size (Conv mods w 100 :: r) (v :: args)
| s_octal mods w v r args : s32 v <> INT_MIN -> (16 <= N)%nat ->
    safe_args strict N m buf size r args -> safe_args strict N m buf size (Conv mods w 111 :: r) (v :: args)
| s_binary mods w v r args : 0 <= s32 v < 32768 -> (length (flat_map fst mods ++ w) <= 1)%nat ->
    safe_args strict N m buf size r args -> safe_args strict N m buf size (Conv mods w 98 :: r) (v :: args)
| s_double mods w v i i2 r args : (* the double and its billionths are in the range of int *)
    to_int (double_bits (u64 v)) = Ok i -> i <> INT_MIN -> fraction (double_bits (u64 v)) i = Ok i2 ->
    (length (flat_map fst mods ++ w) <= 1)%nat ->
    safe_args strict N m buf size r args -> safe_args strict N m buf size (Conv mods w 102 :: r) (v :: args).

(* ---- exactly when the size is enough ---- *)
(* The reserve in front of a conversion: "%d" and "%u" ask for more than 13 further bytes and "%x" and
   "%X" for more than 8, however short the number is. *)
Definition asks (i : item) : Z :=
  match i with
  | Conv _ _ c => if (c =? 100) || (c =? 117) then 13 else if (c =? 120) || (c =? 88) then 8 else 0
  | Lit _ => 0
  end.
(* b bytes are written already: the output and its 0 fit, and in front of each item its reserve is left *)
Definition enough (iok uok : Z -> Prop) (m : mem) (buf rs size b : Z) (items : list item) (args out : list Z) : Prop :=
  b + zlen out < size /\
  forall pre i post o, items = pre ++ i :: post -> formats iok uok m buf rs pre args o -> b + zlen o + asks i < size.
