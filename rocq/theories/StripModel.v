(* Model of the Perl scripts scripts/stripundefs.pl and scripts/ifdefs.pl.  A file is the list of its
   lines, each with its newline (the last one may have none), as <> delivers them. *)
From Coq Require Import String Ascii.
From Verif Require Import Base.
Local Open Scope list_scope.

(* the bytes of a text of the script; for scripts/combinesources.pl:72 *)
Fixpoint chars (s : string) : list Z :=
  match s with EmptyString => [] | String c s => Z.of_nat (nat_of_ascii c) :: chars s end.
(* $l =~ /^p/ for a text p without special characters; for scripts/combinesources.pl:72 *)
Fixpoint begins (p l : list Z) : bool :=
  match p, l with
  | [], _ => true
  | a :: p, b :: l => (a =? b) && begins p l
  | _, [] => false
  end.
Definition is_if0 := begins (chars "#if 0"). (* for scripts/stripundefs.pl:6-20 *)
Definition is_if := begins (chars "#if"). (* for scripts/stripundefs.pl:6-20 *)
Definition is_endif := begins (chars "#endif"). (* for scripts/stripundefs.pl:6-20 *)
Definition is_else := begins (chars "#else"). (* for scripts/ifdefs.pl:11-32 *)

(* scripts/stripundefs.pl:6-20: the lines printed.  c is the $c of line 8, 0 outside the do loop of
   lines 9-16.  At the end of the input $l=<> gives undef in line 10, which matches nothing, so that
   $c keeps its value and the loop never ends: None.  (With -w Perl warns there; not modelled.) *)
Fixpoint stripundefs (c : Z) (lines : list (list Z)) : option (list (list Z)) :=
  match lines with
  | [] => if c =? 0 then Some [] else None
  | l :: rest =>
      if c =? 0 then
        if is_if0 l then stripundefs 1 rest
        else match stripundefs 0 rest with Some o => Some (l :: o) | None => None end
      else
        let c := if is_endif l then c - 1 else if is_if l then c + 1 else c in
        if 0 <? c then stripundefs c rest else stripundefs 0 rest
  end.

(* scripts/ifdefs.pl:11-32: the lines shown, each with $ifs and $ln.  Simplified: the text
   "$ifs: $ln : $l" is the triple. *)
Fixpoint ifdefs (ifs ln : Z) (lines : list (list Z)) : list (Z * Z * list Z) :=
  match lines with
  | [] => []
  | l :: rest =>
      let ln := ln + 1 in
      if is_if l then (ifs + 1, ln, l) :: ifdefs (ifs + 1) ln rest
      else if is_endif l then (ifs, ln, l) :: ifdefs (ifs - 1) ln rest
      else if is_else l then (ifs, ln, l) :: ifdefs ifs ln rest
      else ifdefs ifs ln rest
  end.
