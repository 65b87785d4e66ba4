(* Outcomes, machine integers and byte memory shared by all models. *)
From Coq Require Export ZArith List Lia Bool.
From Coq Require Export ZifyBool ZifyNat.
Export ListNotations.
Global Open Scope Z_scope.

(* Outcome of a modelled C call.  [Fault] is undefined behaviour (access to an
   inaccessible byte, signed overflow, bad shift); [NoFuel] means that the loop
   budget of the model was exhausted. *)
Inductive res (A : Type) : Type :=
| Ok (a : A)
| Fault
| NoFuel.
Arguments Ok {A} a.
Arguments Fault {A}.
Arguments NoFuel {A}.

Definition bind {A B : Type} (r : res A) (f : A -> res B) : res B :=
  match r with Ok a => f a | Fault => Fault | NoFuel => NoFuel end.

Notation "'let*' p ':=' e 'in' f" := (bind e (fun p => f))
  (at level 200, p pattern, e at level 200, f at level 200, right associativity).

(* int and long of x86-64 gcc *)
Definition INT_MAX := 2147483647.
Definition INT_MIN := -2147483648.
Definition LONG_MAX := 9223372036854775807.
Definition LONG_MIN := -9223372036854775808.

(* value of an unsigned expression of the given width *)
Definition u32 (z : Z) : Z := z mod 4294967296.
Definition u64 (z : Z) : Z := z mod 18446744073709551616.
(* conversion to int / long: gcc reduces modulo the width *)
Definition s32 (z : Z) : Z := (z + 2147483648) mod 4294967296 - 2147483648.
Definition s64 (z : Z) : Z :=
  (z + 9223372036854775808) mod 18446744073709551616 - 9223372036854775808.

(* result of a signed int / long operation: overflow is undefined *)
Definition int_ok (z : Z) : bool := (INT_MIN <=? z) && (z <=? INT_MAX).
Definition long_ok (z : Z) : bool := (LONG_MIN <=? z) && (z <=? LONG_MAX).
Definition iop (z : Z) : res Z := if int_ok z then Ok z else Fault.
Definition lop (z : Z) : res Z := if long_ok z then Ok z else Fault.

(* a byte 0..255 read through a (signed) char lvalue *)
Definition schar (b : Z) : Z := if b <? 128 then b else b - 256.
(* a value stored through a char lvalue, as a byte *)
Definition ubyte (z : Z) : Z := z mod 256.

(* Memory: [None] = inaccessible, [Some b] = byte 0..255. *)
Definition mem := Z -> option Z.
Definition load (m : mem) (a : Z) : res Z :=
  match m a with Some b => Ok b | None => Fault end.
Definition upd (m : mem) (a v : Z) : mem := fun x => if x =? a then Some v else m x.
Definition store (m : mem) (a v : Z) : res mem :=
  match m a with Some _ => Ok (upd m a v) | None => Fault end.

Definition zlen {A : Type} (l : list A) : Z := Z.of_nat (length l).

(* ---- vocabulary for specifications -------------------------------------- *)

(* the bytes [l] are stored from address p on *)
Fixpoint bytes_at (m : mem) (p : Z) (l : list Z) : Prop :=
  match l with
  | [] => True
  | b :: r => m p = Some b /\ bytes_at m (p + 1) r
  end.

(* a C string: non-zero bytes, then NUL *)
Fixpoint str_at (m : mem) (p : Z) (l : list Z) : Prop :=
  match l with
  | [] => m p = Some 0
  | b :: r => m p = Some b /\ 1 <= b <= 255 /\ str_at m (p + 1) r
  end.

(* the n bytes from p on are accessible *)
Definition room (m : mem) (p n : Z) : Prop := forall x, p <= x < p + n -> m x <> None.
(* [p,p+n) and [q,q+k) do not overlap *)
Definition apart (p n q k : Z) : Prop := p + n <= q \/ q + k <= p.
(* m' differs from m at most in [p,p+n) *)
Definition same_outside (m m' : mem) (p n : Z) : Prop :=
  forall x, ~ (p <= x < p + n) -> m' x = m x.

(* a memory made of given regions only, for examples *)
Fixpoint mem_of (rs : list (Z * list Z)) : mem :=
  match rs with
  | [] => fun _ => None
  | (p, l) :: r =>
      fun x => if (p <=? x) && (x <? p + zlen l)
               then nth_error l (Z.to_nat (x - p)) else mem_of r x
  end.

Global Arguments Z.of_nat : simpl never.
Global Arguments Z.to_nat : simpl never.
Global Arguments Z.add : simpl never.
Global Arguments Z.sub : simpl never.
Global Arguments Z.mul : simpl never.
Global Arguments Z.div : simpl never.
Global Arguments Z.modulo : simpl never.
Global Arguments zlen : simpl never.
