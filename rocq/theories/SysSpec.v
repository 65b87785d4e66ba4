(* Specifications for SysProps.v: sets, ASCII classes, wait statuses. *)
From Verif Require Import Base SysModel.

(* a history of operations on a set of numbers *)
Inductive setop := SAdd (n : Z) | SDel (n : Z) | SEmpty | SFill.
Definition set_op (s : Z -> bool) (o : setop) : Z -> bool :=
  match o with
  | SAdd n => fun x => (x =? n) || s x
  | SDel n => fun x => negb (x =? n) && s x
  | SEmpty => fun _ => false
  | SFill => fun _ => true
  end.
Definition set_after (s : Z -> bool) (l : list setop) : Z -> bool := fold_left set_op l s.
(* the numbers an operation mentions *)
Definition op_in (lo hi : Z) (o : setop) : Prop :=
  match o with SAdd n | SDel n => lo <= n <= hi | _ => True end.
(* running operations that return a new state and a result code that must be 0 *)
Fixpoint run_ops {S : Type} (f : setop -> S -> res (S * Z)) (l : list setop) (s : S) : res S :=
  match l with
  | [] => Ok s
  | o :: r => let* (s', c) := f o s in if c =? 0 then run_ops f r s' else Fault
  end.

(* the library calls for these operations (there is no macro that fills an fd_set) *)
Definition sig_op (o : setop) (w : Z) : res (Z * Z) :=
  match o with
  | SAdd n => sigaddset w n | SDel n => sigdelset w n
  | SEmpty => sigemptyset w | SFill => sigfillset w
  end.
Definition fd_op (o : setop) (s : fdset) : res (fdset * Z) :=
  match o with
  | SAdd n => let* s := FD_SET n s in Ok (s, 0) | SDel n => let* s := FD_CLR n s in Ok (s, 0)
  | SEmpty => let* s := FD_ZERO s in Ok (s, 0) | SFill => Fault
  end.

(* ASCII / the C locale *)
Definition in_ (lo hi c : Z) : bool := (lo <=? c) && (c <=? hi).
Definition is_digit (c : Z) : bool := in_ 48 57 c.
Definition is_upper (c : Z) : bool := in_ 65 90 c.
Definition is_lower (c : Z) : bool := in_ 97 122 c.
Definition is_alpha (c : Z) : bool := is_upper c || is_lower c.
Definition is_alnum (c : Z) : bool := is_alpha c || is_digit c.
Definition is_graph (c : Z) : bool := in_ 33 126 c.
Definition is_print (c : Z) : bool := in_ 32 126 c.
Definition is_space (c : Z) : bool := (c =? 32) || in_ 9 13 c.
Definition is_blank (c : Z) : bool := (c =? 32) || (c =? 9).
Definition is_cntrl (c : Z) : bool := in_ 0 31 c || (c =? 127).
Definition is_punct (c : Z) : bool := is_graph c && negb (is_alnum c).
Definition is_xdigit (c : Z) : bool := is_digit c || in_ 65 70 c || in_ 97 102 c.
Definition to_lower (c : Z) : Z := if is_upper c then c + 32 else c.
Definition to_upper (c : Z) : Z := if is_lower c then c - 32 else c.

(* wait statuses as the Linux kernel encodes them *)
Inductive wstat :=
  | Exited (code : Z)               (* exit(code): the low 8 bits *)
  | Signaled (sig : Z) (core : bool)
  | Stopped (sig : Z)
  | Continued.
Definition encode (w : wstat) : Z :=
  match w with
  | Exited c => 256 * (c mod 256)
  | Signaled s core => s + (if core then 128 else 0)
  | Stopped s => 256 * s + 127
  | Continued => 65535
  end.
(* signal numbers are 1..64, 127 in the low bits means stopped *)
Definition wstat_ok (w : wstat) : Prop :=
  match w with
  | Exited c => INT_MIN <= c <= INT_MAX
  | Signaled s _ | Stopped s => 1 <= s <= 64
  | Continued => True
  end.

(* y is the least multiple of a that is >= x *)
Definition least_multiple (a x y : Z) : Prop :=
  (a | y) /\ x <= y /\ forall z, (a | z) -> x <= z -> y <= z.
