(* What stripblanks and stripblanklines are to do. *)
From Verif Require Import Base.

(* the lines of a text, each with its newline; the last one may have none *)
Fixpoint lines (l : list Z) : list (list Z) :=
  match l with
  | [] => []
  | c :: r => if c =? 10 then [10] :: lines r
              else match lines r with [] => [[c]] | x :: xs => (c :: x) :: xs end
  end.
Definition blank (c : Z) : bool := existsb (Z.eqb c) [32; 9; 10; 11; 12; 13].
(* without the blanks in front *)
Fixpoint unindent (l : list Z) : list Z :=
  match l with [] => [] | c :: r => if blank c then unindent r else c :: r end.
Definition strip_blanks (l : list Z) : list Z := concat (map unindent (lines l)).
Definition strip_blank_lines (l : list Z) : list Z := concat (filter (fun x => negb (forallb blank x)) (lines l)).
