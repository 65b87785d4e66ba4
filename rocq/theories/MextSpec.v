(* Patterns of match_ext. *)
From Verif Require Import Base MatchSpec.

(* sep: a comma in front, as separator.  Items of MatchSpec, '%' and '&' with or without a
   number, and "{dX}" *)
Inductive xitem := XI (sep : bool) (i : item) | XTake (sep : bool) (n : option Z) | XAmp (sep : bool) (n : option Z) | XCount (d : Z) (sep : bool) (i : item).

(* how they are written *)
Definition comma (sep : bool) : list Z := if sep then [44] else [].
Definition number (n : option Z) : list Z := match n with Some d => [48 + d] | None => [] end.
Definition xwrite (x : xitem) : list Z :=
  match x with
  | XI sep i => comma sep ++ write i
  | XTake sep n => comma sep ++ 37 :: number n
  | XAmp sep n => comma sep ++ 38 :: number n
  | XCount d sep i => [123; 48 + d] ++ comma sep ++ write i ++ [125]
  end.
Definition xpattern (p : list xitem) : list Z := flat_map xwrite p.

(* what they mean, in terms of the items of MatchSpec: '&' without callback is any
   character, "{dX}" is d times X *)
Definition meaning (x : xitem) : list item :=
  match x with
  | XI _ i => [i]
  | XTake _ _ => [Take]
  | XAmp _ _ => [Any]
  | XCount d _ i => repeat i (Z.to_nat d)
  end.
Definition xmeaning (p : list xitem) : list item := flat_map meaning p.

(* characters without a meaning of their own: not one of ! ? [ # % + * \ $ & { } , *)
Definition xplain (c : Z) : Prop := 1 <= c <= 255 /\ ~ In c [33; 63; 91; 35; 37; 43; 42; 92; 36; 38; 123; 125; 44].
Definition xitem_ok (i : item) : Prop :=
  match i with
  | One _ (SLit c) => xplain c
  | One _ (SEsc c) => 1 <= c <= 255 /\ ~ In c [100; 68; 115; 83; 119; 87]
  | Class cs => Forall (fun c => 1 <= c <= 255 /\ c <> 93) cs
  | Take | At => False
  | _ => True
  end.
Definition is_digit (c : Z) : bool := (48 <=? c) && (c <=? 57).
Definition number_ok (n : option Z) : Prop := match n with Some d => 0 <= d <= 9 | None => True end.
(* a pattern that says what it means: commas stand in front of items that match a character;
   where a number could follow but does not, no digit follows *)
Fixpoint well_written (p : list xitem) : Prop :=
  match p with
  | [] => True
  | x :: q =>
      match x with
      | XI sep i => xitem_ok i /\ (sep = true -> consumes i = true /\ forall s, i <> One true s)
      | XTake _ n | XAmp _ n => number_ok n /\ (n = None -> is_digit (hd 0 (xpattern q)) = false)
      | XCount d sep i => xitem_ok i /\ 1 <= d <= 9 /\ (sep = false -> is_digit (hd 0 (write i)) = false)
      end /\ well_written q
  end.

(* patterns and texts for which the documentation is followed *)
Definition countable (i : item) : bool :=
  match i with One false (SLit _ | SEsc _ | SDigit | SSpace | SWord) | Class _ => true | _ => false end.
Definition xsupported (p : list xitem) (s : list Z) : Prop :=
  well_written p /\
  (let q := xmeaning p in
   (* as for match: "**" not at the end; '#' and '$' only at the end and not behind '*'; '+'
      and '%' are followed by an item that matches a character; no ']' in the text if there
      is a class, no '$' if there is one in the pattern; \w and \W not negated, and with
      characters below 160 only *)
   (forall a, q <> a ++ [Star; Star]) /\
   (forall a i b, q = a ++ i :: b -> i = Hash \/ i = Dollar -> b = [] /\ forall a', a <> a' ++ [Star]) /\
   (forall a i b, q = a ++ i :: b -> i = Plus \/ i = Take -> exists j, In j b /\ consumes j = true) /\
   (forall i c, In i q -> In c s ->
      match i with
      | Class _ => c <> 93
      | Dollar => c <> 36
      | One n SWord | One n SNonWord => n = false /\ c < 160
      | _ => True
      end)) /\
  (* counted are characters and classes that do not match the end of the text, and
     something that matches a character follows, not negated *)
  (forall a d sep i b, p = a ++ XCount d sep i :: b -> countable i = true /\ (exists j, In j (xmeaning b) /\ consumes j = true) /\
     forall sep' s b', b <> XI sep' (One true s) :: b').

(* the calls p_match is supposed to get for a text s at pos, from left to right: each '%'
   takes as little as possible *)
Definition no_take (p : list xitem) : Prop := Forall (fun x => match x with XTake _ _ => False | _ => True end) p.
Inductive reported : list xitem -> Z -> list Z -> list (Z * Z * Z) -> Prop :=
| r_none p pos s : no_take p -> reported p pos s []
| r_take pre sep n post pos a x b l : no_take pre -> matches false (xmeaning pre) a -> taken (xmeaning post) x b ->
    reported post (pos + zlen a + zlen x) b l ->
    reported (pre ++ XTake sep n :: post) pos (a ++ x ++ b) ((match n with Some d => d | None => 0 end, pos + zlen a, zlen x) :: l).
