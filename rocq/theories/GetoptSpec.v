(* The POSIX meaning of a command line. *)
From Verif Require Import Base GetoptModel.

Definition alnum (c : Z) : Prop := 48 <= c <= 57 \/ 65 <= c <= 90 \/ 97 <= c <= 122.

(* An option string: the option characters, each with whether it takes an argument; a
   leading colon asks for ':' as the result for a missing argument. *)
Definition optstring_of (colon : bool) (os : list (Z * bool)) : list Z :=
  (if colon then [58] else []) ++ flat_map (fun o : Z * bool => let (c, b) := o in c :: if b then [58] else []) os.
(* None: not an option, Some true: takes an argument *)
Definition kind (os : list (Z * bool)) (c : Z) : option bool := option_map snd (find (fun o => fst o =? c) os).

Inductive event := Opt (c : Z) (arg : option (list Z)) | Unknown (c : Z) | Missing (c : Z).

(* The options in the arguments args, the first of which is argv[i], and the index of the
   first operand. *)
Definition add (e : event) (p : list event * Z) : list event * Z := (e :: fst p, snd p).
Fixpoint parse (os : list (Z * bool)) (args : list (list Z)) (i : Z) : list event * Z :=
  match args with
  | [] => ([], i)
  | a :: rest =>
      match a with
      | 45 :: cs =>
          match cs with
          | [] => ([], i)
          | [45] => ([], i + 1)
          | _ =>
              (fix cluster l :=
                 match l with
                 | [] => parse os rest (i + 1)
                 | c :: l' =>
                     match kind os c with
                     | None => add (Unknown c) (cluster l')
                     | Some false => add (Opt c None) (cluster l')
                     | Some true =>
                         match l' with
                         | _ :: _ => add (Opt c (Some l')) (parse os rest (i + 1))
                         | [] =>
                             match rest with
                             | x :: rest' => add (Opt c (Some x)) (parse os rest' (i + 2))
                             | [] => ([Missing c], i + 1)
                             end
                         end
                     end
                 end) cs
          end
      | _ => ([], i)
      end
  end.

(* argv[i], argv[i+1], ... are the strings args, and then NULL *)
Fixpoint args_at (m argv : mem) (i : Z) (args : list (list Z)) : Prop :=
  match args with
  | [] => argv i = Some 0
  | a :: r => exists p, argv i = Some p /\ p <> 0 /\ str_at m p a /\ zlen a < INT_MAX /\ args_at m argv (i + 1) r
  end.

(* what a call that meets the event e returns *)
Definition reports (m : mem) (colon : bool) (r : Z * gost) (e : event) : Prop :=
  match e with
  | Opt c a => fst r = c /\ match a with Some l => str_at m (optarg (snd r)) l | None => True end
  | Unknown c => fst r = 63 /\ optopt (snd r) = c
  | Missing c => fst r = (if colon then 58 else 63) /\ optopt (snd r) = c
  end.
Definition error (e : event) : Prop := match e with Opt _ _ => False | _ => True end.
