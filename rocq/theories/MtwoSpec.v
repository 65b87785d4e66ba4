(* Patterns of match_ext2, as its documentation describes them (src/match/match_ext2.c:74-113). *)
From Verif Require Import Base.

(* what a single character is tested for *)
Inductive test :=
| Lit (c : Z) | Esc (c : Z) | Any | Cls (cs : list Z)
| Digit | NonDigit | Space | NonSpace | Word | NonWord | Hex | Newline | Tab
| Hash | Dollar | At.
Inductive kind :=
| One (neg : bool) (t : test)                 (* "X", "!X" *)
| Amp (n : option Z)                          (* "&", "&1" *)
| Star | Plus | Take (n : option Z)           (* "*", "+", "%", "%1" *)
| Count (d : Z) (sep : bool) (t : test)       (* "{3X}", "{3,X}" *)
| Open | Close.                               (* "(", ")" *)
(* an item, with or without a comma in front *)
Record item := It { comma : bool; what : kind }.

(* ---- how it is written ---- *)
Definition wtest (t : test) : list Z :=
  match t with
  | Lit c => [c]
  | Esc c => [92; c]
  | Any => [63]
  | Cls cs => 91 :: cs ++ [93]
  | Digit => [92; 100] | NonDigit => [92; 68] | Space => [92; 115] | NonSpace => [92; 83]
  | Word => [92; 119] | NonWord => [92; 87] | Hex => [92; 120] | Newline => [92; 110] | Tab => [92; 116]
  | Hash => [35] | Dollar => [36] | At => [64]
  end.
Definition wcomma (b : bool) : list Z := if b then [44] else [].
Definition number (n : option Z) : list Z := match n with Some d => [48 + d] | None => [] end.
Definition wkind (k : kind) : list Z :=
  match k with
  | One neg t => (if neg then [33] else []) ++ wtest t
  | Amp n => 38 :: number n
  | Star => [42]
  | Plus => [43]
  | Take n => 37 :: number n
  | Count d sep t => [123; 48 + d] ++ wcomma sep ++ wtest t ++ [125]
  | Open => [40]
  | Close => [41]
  end.
Definition write (i : item) : list Z := wcomma (comma i) ++ wkind (what i).
Definition pattern (p : list item) : list Z := flat_map write p.

(* ---- what it means ---- *)
Definition digit (c : Z) : bool := (48 <=? c) && (c <=? 57).
(* blank, tab, newline, vertical tab, form feed, carriage return *)
Definition space (c : Z) : bool := (c =? 32) || ((9 <=? c) && (c <=? 13)).
Definition word (c : Z) : bool := ((32 <=? c) && (c <=? 126)) || (160 <=? c).
Definition hex (c : Z) : bool := digit c || ((97 <=? c) && (c <=? 102)) || ((65 <=? c) && (c <=? 70)).
Definition sat (t : test) (c : Z) : bool :=
  match t with
  | Lit x | Esc x => x =? c
  | Any => true
  | Cls cs => existsb (Z.eqb c) cs
  | Digit => digit c | NonDigit => negb (digit c)
  | Space => space c | NonSpace => negb (space c)
  | Word => word c | NonWord => negb (word c)
  | Hex => hex c
  | Newline => c =? 10 | Tab => c =? 9
  | Hash => space c
  | Dollar => c =? 10
  | At => c =? 10
  end.
(* [matches b p s]: p matches the text s; b tells that s begins where the text begins.
   '&' is meant without callback. *)
Inductive matches : bool -> list item -> list Z -> Prop :=
| m_nil b : matches b [] []
| m_one b k neg t c p s : xorb neg (sat t c) = true -> matches false p s -> matches b (It k (One neg t) :: p) (c :: s)
| m_amp b k n c p s : matches false p s -> matches b (It k (Amp n) :: p) (c :: s)
| m_star b k p s : matches b p s -> matches b (It k Star :: p) s
| m_star_more b k c p s : matches false (It k Star :: p) s -> matches b (It k Star :: p) (c :: s)
| m_plus b k p a s : a <> [] -> matches false p s -> matches b (It k Plus :: p) (a ++ s)
| m_take b k n p a s : a <> [] -> matches false p s -> matches b (It k (Take n) :: p) (a ++ s)
| m_count b k d sep t p a s : zlen a = d -> Forall (fun c => sat t c = true) a -> matches false p s -> matches b (It k (Count d sep t) :: p) (a ++ s)
| m_open b k p s : matches b p s -> matches b (It k Open :: p) s
| m_close b k p s : matches b p s -> matches b (It k Close :: p) s
(* the end of the text *)
| m_hash b k p : matches false p [] -> matches b (It k (One false Hash) :: p) []
| m_dollar b k p : matches false p [] -> matches b (It k (One false Dollar) :: p) []
(* the beginning of the text *)
| m_at k p s : matches true p s -> matches true (It k (One false At) :: p) s.

(* ---- patterns that say what they mean ---- *)
(* characters without a meaning of their own: not one of ! # $ % & ( ) * + , ? @ [ \ { } *)
Definition plain (c : Z) : Prop := 1 <= c <= 255 /\ ~ In c [33; 35; 36; 37; 38; 40; 41; 42; 43; 44; 63; 64; 91; 92; 123; 125].
Definition test_ok (t : test) : Prop :=
  match t with
  | Lit c => plain c
  (* not one of the letters of the classes *)
  | Esc c => 1 <= c <= 255 /\ ~ In c [100; 68; 115; 83; 119; 87; 120; 110; 116]
  | Cls cs => Forall (fun c => 1 <= c <= 255 /\ c <> 93) cs
  | _ => True
  end.
(* a number stands where one is meant *)
Definition number_ok (n : option Z) (rest : list Z) : Prop :=
  match n with Some d => 0 <= d <= 9 | None => digit (hd 0 rest) = false end.
Fixpoint well_written (p : list item) : Prop :=
  match p with
  | [] => True
  | i :: q =>
      match what i with
      | One neg t => test_ok t /\ (comma i = true -> neg = false)
      | Amp n | Take n => number_ok n (pattern q)
      | Count d sep t => test_ok t /\ 1 <= d <= 9 /\ (sep = false -> digit (hd 0 (wtest t)) = false)
      | Star | Plus | Open | Close => True
      end /\ well_written q
  end.

(* ---- patterns and texts for which the documentation is followed ---- *)
(* matches at least one character *)
Definition consumes (i : item) : bool :=
  match what i with
  | One false (Hash | Dollar) => false
  | One _ _ | Amp _ | Plus | Take _ | Count _ _ _ => true
  | Star | Open | Close => false
  end.
Definition eats (p : list item) : Prop := exists i, In i p /\ consumes i = true.
Definition ending (i : item) : bool := match what i with One false (Hash | Dollar) => true | _ => false end.
Fixpoint fits (p : list item) : Prop :=
  match p with
  | [] => True
  | i :: q =>
      match what i with
      (* '#' and '$' at the end; classes not negated *)
      | One neg t => (ending i = true -> q = []) /\ (neg = true -> forall cs, t <> Cls cs)
      | Amp _ => True
      (* "**" not at the end; '#' and '$' not behind '*' *)
      | Star => match q with [] => True | j :: r => ending j = false /\ (what j = Star -> r <> []) end
      (* something that matches a character follows *)
      | Plus | Take _ | Close => eats q
      | Open => eats q /\ exists j, In j q /\ what j = Close
      | Count d sep t => eats q /\ t <> Hash /\ t <> Dollar /\ ~ In 125 (wtest t)
      end /\ fits q
  end.
(* the first item that is no '*' and no bracket *)
Fixpoint first_real (p : list item) : option kind :=
  match p with
  | [] => None
  | i :: q => match what i with Star | Open | Close => first_real q | k => Some k end
  end.
(* '@' for the beginning of the text: in front, or as "*@" in front *)
Definition start_ok (p : list item) : Prop :=
  match p with
  | It false (One false At) :: q | It false Star :: It false (One false At) :: q => first_real q <> Some (One false At)
  | _ => first_real p <> Some (One false At)
  end.
Definition test_of (k : kind) : option test := match k with One _ t | Count _ _ t => Some t | _ => None end.
(* no ']' in the text if there is a class; \w and \W with characters below 160 only *)
Definition text_ok (p : list item) (s : list Z) : Prop :=
  forall i c, In i p -> In c s ->
    match test_of (what i) with
    | Some (Cls _) => c <> 93
    | Some (Word | NonWord) => c < 160
    | _ => True
    end.
Definition supported (p : list item) (s : list Z) : Prop := well_written p /\ fits p /\ text_ok p s.

(* ---- what is reported of '%' ---- *)
(* [post] matches b, and of all ways to split x ++ b such that it matches the second part
   this is the one with the shortest nonempty first part *)
Definition taken (post : list item) (x b : list Z) : Prop :=
  x <> [] /\ matches false post b /\ forall x' b', x ++ b = x' ++ b' -> x' <> [] -> matches false post b' -> zlen x <= zlen x'.
Definition no_take (p : list item) : Prop := forall i n, In i p -> what i <> Take n.
(* for a text s at pos, from left to right *)
Inductive reported : list item -> Z -> list Z -> list (Z * Z * Z) -> Prop :=
| r_none p pos s : no_take p -> reported p pos s []
| r_take pre k n post pos a x b l : no_take pre -> matches false pre a -> taken post x b ->
    reported post (pos + zlen a + zlen x) b l ->
    reported (pre ++ It k (Take n) :: post) pos (a ++ x ++ b) ((match n with Some d => d | None => 0 end, pos + zlen a, zlen x) :: l).
(* what is left of p when an '@' or "*@" in front of it stands for the beginning of the text *)
Definition begun (p : list item) : option (list item) :=
  match p with
  | It false (One false At) :: q | It false Star :: It false (One false At) :: q => Some q
  | _ => None
  end.

(* ---- messages ---- *)
(* patterns for which nothing is written: without ( } # $ and not ending in *, +, % or
   a % with number *)
Definition silent (p : list Z) : Prop :=
  ~ In 40 p /\ ~ In 125 p /\ ~ In 35 p /\ ~ In 36 p /\ forall x d, p <> x ++ [42] /\ p <> x ++ [43] /\ p <> x ++ [37] /\ p <> x ++ [37; d].
