(* What output functions are supposed to do. *)
From Verif Require Import Base StreamModel OutModel.

(* content w fd: the bytes written to fd so far.  l has been written to fd, nothing else *)
Definition wrote {W} (content : W -> Z -> list Z) (fd : Z) (l : list Z) (w w' : W) : Prop :=
  forall x, content w' x = content w x ++ (if x =? fd then l else []).
(* every write takes all bytes *)
Definition takes_all {W} (k : kernel W) (content : W -> Z -> list Z) : Prop :=
  forall fd l w, fst (k fd l w) = zlen l /\ wrote content fd l w (snd (k fd l w)).
(* a write takes some bytes from the front, or fails (-1) without taking any *)
Definition takes_some {W} (k : kernel W) (content : W -> Z -> list Z) : Prop :=
  forall fd l w, fst (k fd l w) = -1 /\ wrote content fd [] w (snd (k fd l w)) \/
                 0 <= fst (k fd l w) <= zlen l /\ wrote content fd (firstn (Z.to_nat (fst (k fd l w))) l) w (snd (k fd l w)).

(* formats: literal characters, %s, %c, and % with another character *)
Inductive fitem := FLit (c : Z) | FStr (s : list Z) | FChr (c : Z) | FOth (c : Z).
Definition good_item (i : fitem) : Prop :=
  match i with
  | FLit c => 1 <= c < 256 /\ c <> 37
  | FOth c => 1 <= c < 256 /\ c <> 115 /\ c <> 99
  | FStr _ | FChr _ => True
  end.
Definition item_fmt (i : fitem) : list Z :=
  match i with FLit c => [c] | FStr _ => [37; 115] | FChr _ => [37; 99] | FOth c => [37; c] end.
(* only %s and %c are conversions, everything else is copied *)
Definition item_out (i : fitem) : list Z :=
  match i with FLit c => [c] | FStr s => s | FChr c => [ubyte c] | FOth c => [37; c] end.
Definition fmt_of (is : list fitem) : list Z := flat_map item_fmt is.
Definition out_of (is : list fitem) : list Z := flat_map item_out is.
(* the arguments: pointers to the strings, where ok relates pointer and string, and ints *)
Fixpoint args_of (ok : Z -> list Z -> Prop) (is : list fitem) (args : list Z) : Prop :=
  match is with
  | [] => True
  | FStr s :: r => exists p args', args = p :: args' /\ ok p s /\ args_of ok r args'
  | FChr c :: r => exists args', args = c :: args' /\ args_of ok r args'
  | _ :: r => args_of ok r args
  end.
Definition string_at (m : mem) (p : Z) (s : list Z) : Prop := p <> 0 /\ str_at m p s.
(* the text without the % sequences that are no conversions *)
Definition item_kept (i : fitem) : list Z := match i with FOth _ => [] | _ => item_out i end.
Definition kept_of (is : list fitem) : list Z := flat_map item_kept is.

(* numerals of three digits *)
Definition digits3 (n : Z) : list Z := [48 + n / 100; 48 + n / 10 mod 10; 48 + n mod 10].
