(* Terminal settings. *)
From Coq Require Import String.
From Verif Require Import Base ConvSpec ProcSpec TermModel.
Local Open Scope list_scope.

(* sane values *)
Definition is_byte (b : Z) : Prop := 0 <= b < 256.
Definition is_flags (f : Z) : Prop := 0 <= f < 4294967296.
Definition tty_ok (t : tty) : Prop :=
  is_flags (k_iflag t) /\ is_flags (k_oflag t) /\ is_flags (k_cflag t) /\ is_flags (k_lflag t) /\ is_byte (k_line t) /\ forall i, is_byte (k_cc t i).
Definition struct_ok (s : bytes) : Prop := forall x, is_byte (s x).

(* the fields of the struct are the settings *)
Definition shows (t : tty) (s : bytes) : Prop :=
  get32 s 0 = k_iflag t /\ get32 s 4 = k_oflag t /\ get32 s 8 = k_cflag t /\ get32 s 12 = k_lflag t /\
  s 16 = k_line t /\ forall i, 0 <= i < 19 -> s (17 + i) = k_cc t i.
(* equal settings *)
Definition same_tty (t t' : tty) : Prop :=
  k_iflag t' = k_iflag t /\ k_oflag t' = k_oflag t /\ k_cflag t' = k_cflag t /\ k_lflag t' = k_lflag t /\
  k_line t' = k_line t /\ (forall i, k_cc t' i = k_cc t i) /\ k_pgrp t' = k_pgrp t.

(* v is u with the bits in off cleared and those in on set *)
Definition changes (u v : Z) (off on : list Z) : Prop :=
  (forall k, In k off -> Z.testbit v k = false) /\ (forall k, In k on -> Z.testbit v k = true) /\
  (forall k, 0 <= k -> ~ In k off -> ~ In k on -> Z.testbit v k = Z.testbit u k).
(* the bits that are off in raw mode: no break, parity, strip, newline and flow control
   processing; no output processing; no signals, canonical mode, echo, newline echo and
   extensions; no parity *)
Definition raw_iflag : list Z := [0; 1; 3; 5; 6; 7; 8; 10].
Definition raw_oflag : list Z := [0].
Definition raw_lflag : list Z := [0; 1; 3; 6; 15].
Definition raw_cflag_off : list Z := [8].
Definition raw_cflag_on : list Z := [4; 5].   (* 8 bits *)

(* the name of a pseudo terminal *)
Definition pts_name (n : Z) (s : list Z) : Prop := exists l, numeral 10 n l /\ s = txt "/dev/pts/" ++ l.
