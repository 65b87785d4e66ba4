(* Paths. *)
From Verif Require Import Base PathModel.

Definition slash := 47.
(* a file name: not empty, without '/' *)
Definition component (c : list Z) : Prop := c <> [] /\ ~ In slash c.
Definition slashes (n : nat) : list Z := repeat slash n.

(* POSIX dirname and basename of a path *)
Inductive path_split : list Z -> list Z -> list Z -> Prop :=
| ps_empty : path_split [] [46] [46]
| ps_root n : path_split (slashes (S n)) [slash] [slash]
| ps_plain c n : component c -> path_split (c ++ slashes n) [46] c
| ps_top k c n : component c -> path_split (slashes (S k) ++ c ++ slashes n) [slash] c
| ps_dir d k c n : d <> [] -> last d 0 <> slash -> component c ->
    path_split (d ++ slashes (S k) ++ c ++ slashes n) d c.

(* the string that was returned *)
Definition gives (m : mem) (r : pathres) (s : list Z) : Prop :=
  match r with
  | Dot => s = [46]
  | Slash => s = [slash]
  | At p => str_at m p s
  end.

(* the value of PATH for a list of directories *)
Fixpoint joined (dirs : list (list Z)) : list Z :=
  match dirs with
  | [] => []
  | [d] => d
  | d :: r => d ++ 58 :: joined r
  end.
Definition entry (d : list Z) : Prop := d <> [] /\ ~ In 58 d.
(* the first directory in which the file is executable *)
Fixpoint first_hit (access : list Z -> bool) (dirs : list (list Z)) (file : list Z) : option (list Z) :=
  match dirs with
  | [] => None
  | d :: r => if access (d ++ slash :: file) then Some (d ++ slash :: file) else first_hit access r file
  end.
