(* The GNU meaning of a command line: short and long options in any place, operands. *)
From Verif Require Import Base GetoptSpec RegetModel.

Definition str := list Z.

(* ---- names of long options and their abbreviations --------------------------- *)
Fixpoint prefix (a b : str) : bool :=
  match a, b with
  | [], _ => true
  | _, [] => false
  | x :: r, y :: q => (x =? y) && prefix r q
  end.
Definition same (a b : str) : bool := if list_eq_dec Z.eq_dec a b then true else false.
(* the first index with the name w, and all indices of names that begin with w *)
Fixpoint exact (ns : list str) (w : str) (i : Z) : option Z :=
  match ns with [] => None | n :: r => if same n w then Some i else exact r w (i + 1) end.
Fixpoint candidates (ns : list str) (w : str) (i : Z) : list Z :=
  match ns with
  | [] => []
  | n :: r => if prefix w n then i :: candidates r w (i + 1) else candidates r w (i + 1)
  end.
(* the option that w stands for: the one with this name, or the only one whose name
   begins with w *)
Definition resolve (ns : list str) (w : str) : option Z :=
  match exact ns w 0 with
  | Some i => Some i
  | None => match candidates ns w 0 with [i] => Some i | _ => None end
  end.
(* the names before the first w; and: at most one of them begins with w *)
Fixpoint early (ns : list str) (w : str) : list str :=
  match ns with [] => [] | n :: r => if same n w then [] else n :: early r w end.
Definition orderly (ns : list str) : Prop :=
  forall w, In w ns -> (length (filter (prefix w) (early ns w)) <= 1)%nat.

(* ---- command lines ------------------------------------------------------------ *)
Inductive shape := SOperand | SEnd | SLong (w : str) | SShort (cs : str).
Definition shape_of (a : str) : shape :=
  match a with
  | x :: y :: w =>
      if x =? 45 then
        if y =? 45 then match w with [] => SEnd | _ => SLong w end
        else SShort (y :: w)
      else SOperand
  | _ => SOperand
  end.
(* name[=value] *)
Fixpoint split_eq (w : str) : str * option str :=
  match w with
  | [] => ([], None)
  | c :: r => if c =? 61 then ([], Some r) else let (n, v) := split_eq r in (c :: n, v)
  end.

Inductive event :=
| EShort (c : Z) (a : option str) | ELong (k : Z) (a : option str)
| EUnknown (c : Z) | EMissing (c : Z)
| ELongUnknown | ELongMissing (k : Z) | ELongSurplus (k : Z).
Definition is_error (e : event) : Prop := match e with EShort _ _ | ELong _ _ => False | _ => True end.

(* the options up to the first error, the words they consist of, the operands in front of
   "--" and, if there is one, those behind it *)
Record parsed := mkpar { evs : list event; words : list str; opers : list str; after : option (list str) }.
Definition opt1 (e : event) (p : parsed) : parsed := mkpar (e :: evs p) (words p) (opers p) (after p).
Definition word (a : str) (p : parsed) : parsed := mkpar (evs p) (a :: words p) (opers p) (after p).
Definition oper (a : str) (p : parsed) : parsed := mkpar (evs p) (words p) (a :: opers p) (after p).
Definition stop (e : event) : parsed := mkpar [e] [] [] None.

(* os: the short options, each with whether it takes an argument; ns, ks: the names of the
   long options and whether they take an argument (0: no, 1: yes, 2: only after =) *)
Fixpoint parse (os : list (Z * bool)) (ns : list str) (ks : Z -> Z) (args : list str) : parsed :=
  match args with
  | [] => mkpar [] [] [] None
  | a :: rest =>
      match shape_of a with
      | SOperand => oper a (parse os ns ks rest)
      | SEnd => mkpar [] [] [] (Some rest)
      | SLong w =>
          let (name, value) := split_eq w in
          match resolve ns name with
          | None => stop ELongUnknown
          | Some k =>
              if ks k =? 1 then
                match value with
                | Some v => opt1 (ELong k (Some v)) (word a (parse os ns ks rest))
                | None =>
                    match rest with
                    | x :: rest' => opt1 (ELong k (Some x)) (word a (word x (parse os ns ks rest')))
                    | [] => stop (ELongMissing k)
                    end
                end
              else if ks k =? 2 then opt1 (ELong k value) (word a (parse os ns ks rest))
              else match value with
                   | None => opt1 (ELong k None) (word a (parse os ns ks rest))
                   | Some _ => stop (ELongSurplus k)
                   end
          end
      | SShort cs =>
          (fix cluster l :=
             match l with
             | [] => word a (parse os ns ks rest)
             | c :: l' =>
                 match kind os c with
                 | None => stop (EUnknown c)
                 | Some false => opt1 (EShort c None) (cluster l')
                 | Some true =>
                     match l' with
                     | _ :: _ => opt1 (EShort c (Some l')) (word a (parse os ns ks rest))
                     | [] =>
                         match rest with
                         | x :: rest' => opt1 (EShort c (Some x)) (word a (word x (parse os ns ks rest')))
                         | [] => stop (EMissing c)
                         end
                     end
                 end
             end) cs
      end
  end.

(* ---- what is in memory, and what a call returns --------------------------------- *)
Definition string_at (m : mem) (p : Z) (a : str) : Prop := 0 < p /\ str_at m p a /\ zlen a < INT_MAX.
(* the elements of longopts have these names, and has_arg is 0, 1 or 2 *)
Definition table (m : mem) (ls : list lopt) (ns : list str) : Prop :=
  Forall2 (fun o n => string_at m (lname o) n /\ 0 <= lhas o <= 2) ls ns.
Definition kinds (ls : list lopt) (k : Z) : Z :=
  match nth_error ls (Z.to_nat k) with Some o => lhas o | None => 0 end.

(* the call r, a result and the state behind it, tells the program about e *)
Definition reports (m : mem) (colon : bool) (ls : list lopt) (li : bool) (r : Z * rst) (e : event) : Prop :=
  match e with
  | EShort c a => fst r = c /\ match a with Some l => str_at m (roarg (snd r)) l | None => True end
  | ELong k a =>
      exists o, nth_error ls (Z.to_nat k) = Some o /\
        (if lflag o =? 0 then fst r = lval o else fst r = 1 /\ roflag (snd r) (lflag o) = lval o) /\
        (li = true -> rolong (snd r) = k) /\
        match a with
        | Some l => str_at m (roarg (snd r)) l
        | None => lhas o = 2 -> roarg (snd r) = 0
        end
  | EUnknown c => fst r = 63 /\ roopt (snd r) = c
  | EMissing c => fst r = (if colon then 58 else 63) /\ roopt (snd r) = c
  | ELongUnknown | ELongMissing _ | ELongSurplus _ => fst r = 63
  end.

(* the tables handed over to regetopt: an option string for the short options os, a table
   for the long options ns *)
Definition tables (m : mem) (fuel : nat) (q : Z) (os : list (Z * bool)) (colon : bool) (ls : list lopt) (ns : list str) : Prop :=
  Forall (fun o => alnum (fst o)) os /\ q <> 0 /\ str_at m q (optstring_of colon os) /\
  zlen (optstring_of colon os) <= INT_MAX /\ (length (optstring_of colon os) < fuel)%nat /\
  table m ls ns /\ zlen ls <= INT_MAX /\ Forall (fun n => (length n < fuel)%nat) ns.
(* argv: the name of the program, strings args, NULL *)
Definition argv_is (m : mem) (fuel : nat) (argv : list Z) (args : list str) : Prop :=
  zlen args < INT_MAX - 3 /\ (length args + 1 < fuel)%nat /\
  exists p0 ptrs, argv = p0 :: ptrs ++ [0] /\ Forall2 (fun p a => string_at m p a /\ (length a < fuel)%nat) ptrs args.
(* the state in front of the first call *)
Definition fresh (st : rst) : Prop := roind st = 1 /\ rocix st = 1 /\ rocnt st < 0.
(* all operands, and all words in front of them *)
Definition operands (P : parsed) : list str := opers P ++ match after P with Some r => r | None => [] end.
Definition front (P : parsed) : list str := words P ++ match after P with Some _ => [[45; 45]] | None => [] end.
(* argv begins with the program and the words, the operands start at re_optind *)
Definition permuted (m : mem) (fuel : nat) (P : parsed) (st : rst) : Prop :=
  argv_is m fuel (roargv st) (front P ++ operands P) /\ roind st = 1 + zlen (front P).
(* the first call behind a "--" word of this name (without =) selects element k, or fails *)
Definition only_candidate (ns : list str) (w : str) (k : Z) : Prop :=
  exists n, nth_error ns (Z.to_nat k) = Some n /\ 0 <= k /\ prefix w n = true /\
    forall j n', nth_error ns j = Some n' -> prefix w n' = true -> j = Z.to_nat k.
Definition first_named (ns : list str) (w : str) (k : Z) : Prop :=
  nth_error ns (Z.to_nat k) = Some w /\ 0 <= k /\ forall j, nth_error ns j = Some w -> (Z.to_nat k <= j)%nat.
(* the assignment re_optind = 1, with another argv *)
Definition restart (st : rst) (argv : list Z) : rst :=
  mkrst 1 (roopt st) (roarg st) (rocix st) (rocnt st) argv (rolong st) (roflag st).
