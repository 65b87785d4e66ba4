(* Specification for tools/removeccomments.c: lines of a text, pieces of lines, comments. *)
From Verif Require Import Base.

(* the lines of a text; a line ends with a newline, a carriage return or both, the last one
   possibly with the text *)
Fixpoint lines_of (t : list Z) : list (list Z) :=
  match t with
  | [] => []
  | 10 :: r => [] :: lines_of r
  | 13 :: 10 :: r => [] :: lines_of r
  | 13 :: r => [] :: lines_of r
  | c :: r => match lines_of r with [] => [[c]] | l :: ls => (c :: l) :: ls end
  end.
(* o is a piece of l *)
Definition piece (o l : list Z) : Prop := exists a b, l = a ++ o ++ b.
(* what puts shows of a line: everything in front of a zero byte *)
Fixpoint shown (l : list Z) : list Z :=
  match l with [] => [] | c :: r => if c =? 0 then [] else c :: shown r end.
(* lines as a text *)
Definition text_of (ls : list (list Z)) : list Z := concat (map (fun l => l ++ [10]) ls).

(* without white space and control characters at the end *)
Fixpoint rstrip (l : list Z) : list Z :=
  match l with
  | [] => []
  | c :: r => match rstrip r with [] => if c <=? 32 then [] else [c] | s => c :: s end
  end.
Definition blanks (l : list Z) : Prop := Forall (fun c => c = 32 \/ c = 9) l.
(* the end of a comment does not occur *)
Definition no_end (l : list Z) : Prop := ~ exists a b, l = a ++ 42 :: 47 :: b.
(* Lines with comments that stand on lines of their own, and the lines without them, each
   comment line replaced by an empty one *)
Inductive without_comments : list (list Z) -> list (list Z) -> Prop :=
| wc_nil : without_comments [] []
(* no comment and no string *)
| wc_code l ls os : Forall (fun c => c <> 47 /\ c <> 34) l ->
    without_comments ls os -> without_comments (l :: ls) (rstrip l :: os)
(* a comment with two slashes, not continued on the next line *)
| wc_line b x ls os : blanks b -> last x 0 <> 92 ->
    without_comments ls os -> without_comments ((b ++ 47 :: 47 :: x) :: ls) ([] :: os)
(* a comment within one line *)
| wc_block1 b x b' ls os : blanks b -> no_end (x ++ [42]) -> blanks b' ->
    without_comments ls os -> without_comments ((b ++ 47 :: 42 :: x ++ 42 :: 47 :: b') :: ls) ([] :: os)
(* a comment over two or more lines *)
| wc_block b x mid y b' ls os : blanks b -> no_end x -> Forall no_end mid -> no_end (y ++ [42]) -> blanks b' ->
    without_comments ls os ->
    without_comments ((b ++ 47 :: 42 :: x) :: mid ++ (y ++ 42 :: 47 :: b') :: ls) ([] :: map (fun _ => []) mid ++ [] :: os).
