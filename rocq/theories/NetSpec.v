(* Network byte order, dotted decimal, hex pairs. *)
From Verif Require Import Base ConvSpec.

(* the k bytes of a word in memory order (least significant first), and back *)
Fixpoint le_bytes (k : nat) (w : Z) : list Z :=
  match k with O => [] | S k => w mod 256 :: le_bytes k (w / 256) end.
Fixpoint le_word (l : list Z) : Z :=
  match l with [] => 0 | b :: r => b + 256 * le_word r end.

(* l is a.b.c.d with the numerals of the four bytes bs *)
Definition dotted_quad (bs : list Z) (l : list Z) : Prop :=
  exists a b c d, l = a ++ [46] ++ b ++ [46] ++ c ++ [46] ++ d
    /\ Forall2 (numeral 10) bs [a; b; c; d].

(* lower case hex digit *)
Definition hexdig (d : Z) : Z := if d <? 10 then 48 + d else 87 + d.
Definition hex2 (b : Z) : list Z := [hexdig (b / 16); hexdig (b mod 16)].
(* xx:xx:... *)
Fixpoint colon_hex (bs : list Z) : list Z :=
  match bs with [] => [] | [b] => hex2 b | b :: r => hex2 b ++ [58] ++ colon_hex r end.
(* the byte with its two hex digits exchanged *)
Definition nibble_swap (b : Z) : Z := 16 * (b mod 16) + b / 16.
