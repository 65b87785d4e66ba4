(* Model of scripts/template.pm and scripts/template.pl. *)
From Coq Require Import String.
From Verif Require Import Base StripModel.
Local Open Scope list_scope.

(* <FH> in a loop: the lines, each with its newline; the last one may have none (Perl);
   for scripts/template.pl:57-64, scripts/template.pm:47-50 *)
Fixpoint readlines (b : list Z) : list (list Z) :=
  match b with
  | [] => []
  | c :: r =>
      if c =? 10 then [10] :: readlines r
      else match readlines r with [] => [[c]] | l :: ls => (c :: l) :: ls end
  end.
(* what follows the first place where p occurs in l.  Simplified: the praefix is a text without characters
   that are special in a regular expression; for scripts/template.pm:20-46, scripts/template.pl:48-53 *)
Fixpoint after (p l : list Z) : option (list Z) :=
  if begins p l then Some (skipn (length p) l)
  else match l with [] => None | _ :: r => after p r end.
(* \s of Perl for bytes; for scripts/template.pm:20-46, scripts/template.pl:48-53 *)
Definition space (c : Z) : bool := (9 <=? c) && (c <=? 13) || (c =? 32).
(* (\S* ) as far as it goes; for scripts/template.pm:20-46, scripts/template.pl:48-53 *)
Fixpoint word (l : list Z) : list Z :=
  match l with [] => [] | c :: r => if space c then [] else c :: word r end.
(* \s*; for scripts/template.pm:20-46, scripts/template.pl:48-53 *)
Fixpoint unspace (l : list Z) : list Z :=
  match l with [] => [] | c :: r => if space c then unspace r else l end.
(* a string that is false in a condition: empty or "0";
   for scripts/template.pm:20-46, scripts/template.pl:48-53 *)
Definition truth (l : list Z) : bool :=
  match l with [] => false | [c] => negb (c =? 48) | _ => true end.
(* for scripts/template.pm:20-46, scripts/template.pl:48-53 *)
Fixpoint eqs (a b : list Z) : bool :=
  match a, b with [], [] => true | x :: a, y :: b => (x =? y) && eqs a b | _, _ => false end.

Section TMPL.
Variables (p : list Z) (insert : bool).   (* $tmplpraefix, $insert *)
Definition smark := p ++ chars "-start: ". (* for scripts/template.pm:20-46, scripts/template.pl:48-53 *)
Definition emark := p ++ chars "-end: ". (* for scripts/template.pm:20-46, scripts/template.pl:48-53 *)
Definition emark0 := p ++ chars "-end:". (* for scripts/template.pm:20-46, scripts/template.pl:48-53 *)
(* scripts/template.pm:20-46 with the handler of scripts/template.pl:48-53, for the name TMPL: what is
   printed into TMP, None if the function returns 0 (line 30 or 42), and $success.  [m]: None in the
   outer loop, Some $m in the inner loop of lines 33-37.  [input]: what is left of INPUTFH.
   If the lines end in the inner loop, or with a line "0" without newline, the match of line 38 fails and
   $1 is still what line 22 found, so that $e is $m (Perl). *)
Fixpoint tmpl (m : option (list Z)) (input : list Z) (lines : list (list Z)) : option (list Z) * bool :=
  match lines with
  | [] => (Some [], false)
  | l :: rest =>
      match m with
      | None =>
          match after smark l with
          | None => let '(o, s) := tmpl None input rest in (option_map (app l) o, s)
          | Some t =>
              if eqs (word t) (chars "TMPL") then
                let '(o, _) := tmpl (Some (word t)) [] rest in (option_map (app (l ++ input)) o, true)
              else (None, false)
          end
      | Some n =>
          if truth l && negb (match after emark l with Some _ => true | None => false end) then
            let '(o, s) := tmpl m input rest in (option_map (app (if insert then l else [])) o, s)
          else
            let e := match after emark0 l with Some t => word (unspace t) | None => n end in
            if eqs n e then let '(o, s) := tmpl None input rest in (option_map (app l) o, s)
            else (None, false)
      end
  end.
(* scripts/template.pl:57-64: the contents of the file afterwards (scripts/template.pm:47-50) and the exit
   status.  Left out: messages, the file $fn.tmp, errors of open. *)
Definition template (input file : list Z) : list Z * Z :=
  let '(o, s) := tmpl None input (readlines file) in
  (match o with Some o => o | None => file end, if s then 0 else 1).
End TMPL.
