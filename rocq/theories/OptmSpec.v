(* Option letters on a command line. *)
From Verif Require Import Base.

Definition small_letter (c : Z) : Prop := 97 <= c <= 122.
(* a set of options, each named once *)
Definition option_set (l : list Z) : Prop := Forall small_letter l /\ NoDup l.
(* the argument begins with '-' *)
Definition dashed (a : list Z) : bool := match a with c :: _ => c =? 45 | [] => false end.
(* all characters behind the '-' of the arguments that begin with '-' *)
Definition option_chars (args : list (list Z)) : list Z := concat (map (@tl Z) (filter dashed args)).
(* the flag of letter c in the bit field *)
Definition flag (opts c : Z) : bool := Z.testbit opts (c - 97).
(* is c in l *)
Definition isin (c : Z) (l : list Z) : bool := existsb (Z.eqb c) l.
