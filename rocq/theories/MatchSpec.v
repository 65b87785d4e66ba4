(* Patterns of match. *)
From Verif Require Import Base.

(* ---- glob patterns, as strings ---- *)
(* '?' is 63, '*' is 42 *)
Inductive glob : list Z -> list Z -> Prop :=
| glob_nil : glob [] []
| glob_any c p s : glob p s -> glob (63 :: p) (c :: s)
| glob_star a p s : glob p s -> glob (42 :: p) (a ++ s)
| glob_lit c p s : c <> 63 -> c <> 42 -> glob p s -> glob (c :: p) (c :: s).
(* characters without a meaning of their own: not one of ! ? [ # @ % + * \ $ *)
Definition plain (c : Z) : Prop := 1 <= c <= 255 /\ ~ In c [33; 63; 91; 35; 64; 37; 43; 42; 92; 36].

(* ---- the documented patterns ---- *)
Inductive single := SLit (c : Z) | SEsc (c : Z) | SDigit | SNonDigit | SSpace | SNonSpace | SWord | SNonWord.
Inductive item := One (neg : bool) (s : single) | Any | Class (cs : list Z) | Star | Plus | Take | Hash | Dollar | At.

Definition digit (c : Z) : bool := (48 <=? c) && (c <=? 57).
(* blank, tab, newline, vertical tab, form feed, carriage return *)
Definition space (c : Z) : bool := (c =? 32) || ((9 <=? c) && (c <=? 13)).
Definition word (c : Z) : bool := ((32 <=? c) && (c <=? 126)) || (160 <=? c).
Definition sat1 (s : single) (c : Z) : bool :=
  match s with
  | SLit x | SEsc x => x =? c
  | SDigit => digit c
  | SNonDigit => negb (digit c)
  | SSpace => space c
  | SNonSpace => negb (space c)
  | SWord => word c
  | SNonWord => negb (word c)
  end.
(* the characters an item matches *)
Definition sat (i : item) (c : Z) : bool :=
  match i with
  | One neg s => xorb neg (sat1 s c)
  | Any => true
  | Class cs => existsb (Z.eqb c) cs
  | Hash => space c
  | At => c =? 10
  | Star | Plus | Take | Dollar => false
  end.
(* how an item is written *)
Definition write1 (s : single) : list Z :=
  match s with
  | SLit c => [c]
  | SEsc c => [92; c]
  | SDigit => [92; 100]
  | SNonDigit => [92; 68]
  | SSpace => [92; 115]
  | SNonSpace => [92; 83]
  | SWord => [92; 119]
  | SNonWord => [92; 87]
  end.
Definition write (i : item) : list Z :=
  match i with
  | One neg s => (if neg then [33] else []) ++ write1 s
  | Any => [63]
  | Class cs => 91 :: cs ++ [93]
  | Star => [42]
  | Plus => [43]
  | Take => [37]
  | Hash => [35]
  | Dollar => [36]
  | At => [64]
  end.
Definition pattern (p : list item) : list Z := flat_map write p.
Definition item_ok (i : item) : Prop :=
  match i with
  | One _ (SLit c) => plain c
  | One _ (SEsc c) => 1 <= c <= 255 /\ ~ In c [100; 68; 115; 83; 119; 87]
  | Class cs => Forall (fun c => 1 <= c <= 255 /\ c <> 93) cs
  | _ => True
  end.

(* [matches b p s]: p matches the text s; b tells that s begins where the text begins *)
Inductive matches : bool -> list item -> list Z -> Prop :=
| m_nil b : matches b [] []
| m_one b i c p s : sat i c = true -> matches false p s -> matches b (i :: p) (c :: s)
| m_star b p s : matches b p s -> matches b (Star :: p) s
| m_star_more b c p s : matches false (Star :: p) s -> matches b (Star :: p) (c :: s)
| m_plus b i p a s : i = Plus \/ i = Take -> a <> [] -> matches false p s -> matches b (i :: p) (a ++ s)
| m_end b i p : i = Hash \/ i = Dollar -> matches false p [] -> matches b (i :: p) []
| m_start p s : matches true p s -> matches true (At :: p) s.

(* items that match at least one character wherever they stand behind another character *)
Definition consumes (i : item) : bool := match i with Star | Hash | Dollar => false | _ => true end.
Fixpoint first_real (p : list item) : option item := match p with Star :: q => first_real q | i :: _ => Some i | [] => None end.
(* patterns and texts for which the documentation is followed *)
Definition supported (p : list item) (s : list Z) : Prop :=
  Forall item_ok p /\
  (* "**" not at the end *)
  (forall q, p <> q ++ [Star; Star]) /\
  (* '#' and '$' only at the end and not behind '*' *)
  (forall q i r, p = q ++ i :: r -> i = Hash \/ i = Dollar -> r = [] /\ forall q', q <> q' ++ [Star]) /\
  (* '+' and '%' are followed by an item that matches a character *)
  (forall q i r, p = q ++ i :: r -> i = Plus \/ i = Take -> exists j, In j r /\ consumes j = true) /\
  (* '@' only in front, or as "*@" in front *)
  match p with
  | At :: q | Star :: At :: q => first_real q <> Some At
  | _ => first_real p <> Some At
  end /\
  (* no ']' in the text if there is a class, no '$' if there is one in the pattern; \w and
     \W not negated, and with characters below 160 only *)
  (forall i c, In i p -> In c s ->
     match i with
     | Class _ => c <> 93
     | Dollar => c <> 36
     | One n SWord | One n SNonWord => n = false /\ c < 160
     | _ => True
     end).

(* [post] matches b, and of all ways to split x ++ b such that it matches the second part
   this is the one with the shortest nonempty first part *)
Definition taken (post : list item) (x b : list Z) : Prop :=
  x <> [] /\ matches false post b /\ forall x' b', x ++ b = x' ++ b' -> x' <> [] -> matches false post b' -> zlen x <= zlen x'.
