(* Model of scripts/combinesources.pl. *)
From Coq Require Import String.
From Verif Require Import Base StripModel TmplModel.
Local Open Scope list_scope.

(* l cut at the last place of the character c: what is in front and behind;
   for scripts/combinesources.pl:72 *)
Fixpoint cut_last (c : Z) (l : list Z) : option (list Z * list Z) :=
  match l with
  | [] => None
  | x :: r =>
      match cut_last c r with
      | Some (a, b) => Some (x :: a, b)
      | None => if x =? c then Some ([], r) else None
      end
  end.
(* scripts/combinesources.pl:72: $1 of the two regular expressions there.  Their stars are greedy: the
   name lies between the last two quotes, or else between the last > and the last < in front of it. *)
Definition include_name (l : list Z) : option (list Z) :=
  if begins (chars "#include") l then
    let between a b :=
      match cut_last b (skipn 8 l) with
      | Some (x, _) => match cut_last a x with Some (_, n) => Some n | None => None end
      | None => None
      end in
    match between 34 34 with Some n => Some n | None => between 60 62 end
  else None.
(* scripts/combinesources.pl:49: the names listed there *)
Definition once : list (list Z) :=
  map chars ["minilib.h"; "syscall_stubs.h"; "syscall.h"; "timeval.h"; "msprintf.c"; "mfprintf.c"; "exit.h"]%string.
(* /$f/ against a name: the name contains f, where a . of f stands for any character.  Simplified: the
   other special characters of regular expressions stand for themselves.
   for scripts/combinesources.pl:22-86 *)
Fixpoint rbegins (f l : list Z) : bool :=
  match f, l with
  | [], _ => true
  | a :: f, b :: l => ((a =? 46) || (a =? b)) && rbegins f l
  | _, [] => false
  end.
(* for scripts/combinesources.pl:22-86 *)
Fixpoint rmatch (f l : list Z) : bool :=
  rbegins f l || match l with [] => false | _ :: r => rmatch f r end.
Definition listed (f : list Z) : bool := existsb (rmatch f) once. (* for scripts/combinesources.pl:22-86 *)
(* scripts/combinesources.pl:60 and the empty path of line 61 *)
Definition paths : list (list Z) :=
  map chars [""; "include/"; "src/"; "asm/"; "macros/"; "headers/common/"; "headers/linux_x64/"]%string.
(* a file system: names with their lines; for scripts/combinesources.pl:63-67 *)
Definition files := list (list Z * list (list Z)).
(* for scripts/combinesources.pl:63-67 *)
Fixpoint lookup (fs : files) (n : list Z) : option (list (list Z)) :=
  match fs with [] => None | (a, ls) :: fs => if eqs a n then Some ls else lookup fs n end.
(* scripts/combinesources.pl:63-67: the first file that can be opened *)
Fixpoint opened (fs : files) (pa : list (list Z)) (f : list Z) : option (list (list Z)) :=
  match pa with
  | [] => None
  | d :: pa => match lookup fs (d ++ f) with Some ls => Some ls | None => opened fs pa f end
  end.
(* the keys of %included; for scripts/combinesources.pl:22-86 *)
Definition mem_name (f : list Z) (inc : list (list Z)) : bool := existsb (eqs f) inc.

(* scripts/combinesources.pl:70-83 for the file with the name f; [slurp] is the call of line 76.
   %included and $recursion are global.  The result: both of them and the lines printed, each with the
   name given to slurpfile for the file it is from (the name is not printed, it is for the statements). *)
Definition state := (list (list Z) * Z * list (list Z * list Z))%type.
(* scripts/combinesources.pl:70-83 *)
Fixpoint slurp_lines (slurp : list (list Z) -> Z -> list Z -> res state) (f : list Z) (ls : list (list Z))
  (inc : list (list Z)) (rec : Z) : res state :=
  match ls with
  | [] => Ok (inc, rec, [])
  | l :: ls =>
      match include_name l with
      | Some m =>
          let* (inc, rec, o1) := if truth m then slurp inc rec m else Ok (inc, rec, []) in
          let* (inc, rec, o2) := slurp_lines slurp f ls inc rec in
          Ok (inc, rec, o1 ++ o2)
      | None =>
          let* (inc, rec, o2) := slurp_lines slurp f ls inc rec in
          Ok (inc, rec, (f, l) :: o2)
      end
  end.
(* scripts/combinesources.pl:22-86.  Left out: what goes to STDERR.  [fuel]: calls in each other. *)
Fixpoint slurpfile (fuel : nat) (fs : files) (inc : list (list Z)) (rec : Z) (f : list Z) : res state :=
  match fuel with
  | O => NoFuel
  | S k =>
      let rec := rec + 1 in
      if mem_name f inc then Ok (inc, rec, [])          (* line 32, $recursion stays *)
      else if (2 <? rec) && listed f then Ok (inc, rec - 1, [])
      else
        let inc := f :: inc in
        match opened fs paths f with
        | None => Ok (inc, rec, [])                     (* line 65 *)
        | Some ls =>
            let* (inc, rec, out) := slurp_lines (slurpfile k fs) f ls inc rec in
            Ok (inc, rec - 1, out)
        end
  end.
(* scripts/combinesources.pl:13,137: the lines printed *)
Definition combine (fuel : nat) (fs : files) (f : list Z) : res (list (list Z)) :=
  let* (inc, rec, out) := slurpfile fuel fs [] 0 f in Ok (map snd out).
