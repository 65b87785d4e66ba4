(* Environments as lists of (name, value). *)
From Verif Require Import Base EnvModel.

Definition str := list Z.
Definition var := (str * str)%type.
(* names and values consist of non-zero bytes, a name has no '=' (61) and is not empty *)
Definition bytes_ok (s : str) : Prop := Forall (fun c => 1 <= c <= 255) s.
Definition name_ok (n : str) : Prop := bytes_ok n /\ ~ In 61 n /\ n <> [].
Definition var_ok (v : var) : Prop :=
  name_ok (fst v) /\ bytes_ok (snd v) /\ zlen (fst v) + zlen (snd v) < INT_MAX - 1.
Definition text (v : var) : str := fst v ++ 61 :: snd v.

Definition str_eqb (a b : str) : bool := if list_eq_dec Z.eq_dec a b then true else false.
(* the value of the first variable called n *)
Fixpoint lookup (n : str) (vs : list var) : option str :=
  match vs with
  | [] => None
  | v :: r => if str_eqb (fst v) n then Some (snd v) else lookup n r
  end.
(* environ is the array of the pointers ps, terminated by 0, with room for cap slots;
   the i-th pointer points to the text of the i-th variable *)
Definition env_at (m env : mem) (cap : Z) (ps : list Z) (vs : list var) : Prop :=
  Forall2 (fun p v => p <> 0 /\ str_at m p (text v) /\ var_ok v) ps vs
  /\ bytes_at env 0 (ps ++ [0]) /\ room env 0 cap /\ zlen ps < INT_MAX.

Definition prefix (a b : str) : Prop := exists t, b = a ++ t.

(* a program's operations; the pointers are those of the argument strings, [d] is the
   block malloc returns to this call of setenv *)
Inductive eop :=
  | Put (p : Z) (n v : str)                            (* putenv("n=v") *)
  | SetE (np : Z) (n : str) (vp : Z) (v : str) (ow d : Z) (* setenv(n,v,ow) *)
  | Unset (np : Z) (n : str).                          (* unsetenv(n) *)
(* a malloc that returns block d with one byte more than requested *)
Definition malloc_at (d : Z) (m : mem) (k : Z) : mem * Z :=
  (fun x => if (d <=? x) && (x <? d + k + 1) then Some 0 else m x, d).
(* a malloc that returns block d with exactly the requested size *)
Definition malloc_exact (d : Z) (m : mem) (k : Z) : mem * Z :=
  (fun x => if (d <=? x) && (x <? d + k) then Some 0 else m x, d).
Fixpoint run_env (efuel fuel : nat) (ops : list eop) (m env : mem) : res (mem * mem) :=
  match ops with
  | [] => Ok (m, env)
  | Put p n v :: r =>
      let* (env, c) := putenv efuel fuel m env p in
      if c =? 0 then run_env efuel fuel r m env else Fault
  | SetE np n vp v ow d :: r =>
      let* s := setenv efuel fuel (malloc_at d) m env np vp ow in
      let '(m, env, c) := s in
      if c =? 0 then run_env efuel fuel r m env else Fault
  | Unset np n :: r =>
      let* (env, c) := unsetenv efuel fuel m env np in
      if c =? 0 then run_env efuel fuel r m env else Fault
  end.
(* what the operations mean for the map from names to values *)
Definition map_op (f : str -> option str) (o : eop) : str -> option str :=
  match o with
  | Put _ n v => fun x => if str_eqb x n then Some v else f x
  | SetE _ n _ v ow _ => fun x =>
      if str_eqb x n then (match f n with Some w => Some (if ow =? 0 then w else v) | None => Some v end)
      else f x
  | Unset _ n => fun x => if str_eqb x n then None else f x
  end.
Definition map_after (f : str -> option str) (ops : list eop) : str -> option str := fold_left map_op ops f.
Definition op_name (o : eop) : str := match o with Put _ n _ | SetE _ n _ _ _ _ | Unset _ n => n end.
(* the arguments are where the pointers say *)
Definition op_args (m : mem) (o : eop) : Prop :=
  match o with
  | Put p n v => p <> 0 /\ str_at m p (text (n, v)) /\ var_ok (n, v)
  | SetE np n vp v _ _ => np <> 0 /\ vp <> 0 /\ str_at m np n /\ str_at m vp v /\ var_ok (n, v)
  | Unset np n => str_at m np n /\ name_ok n
  end.
Definition op_size (o : eop) : nat :=
  match o with Put _ n v | SetE _ n _ v _ _ => length (text (n, v)) | Unset _ n => length n end.
(* the blocks malloc returns do not overlap anything accessible, nor each other *)
Fixpoint fresh (m : mem) (ops : list eop) : Prop :=
  match ops with
  | [] => True
  | SetE _ n _ v _ d :: r =>
      d <> 0 /\ (forall x, d <= x < d + (zlen n + zlen v + 2) -> m x = None)
      /\ fresh (fst (malloc_at d m (zlen n + 1 + zlen v))) r
  | _ :: r => fresh m r
  end.
(* none of the names is a proper prefix of another *)
Definition prefix_free (ns : list str) : Prop := forall a b, In a ns -> In b ns -> prefix a b -> a = b.
