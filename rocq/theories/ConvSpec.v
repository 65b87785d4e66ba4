(* Numerals. *)
From Verif Require Import Base.

(* value of a digit character 0-9 A-Z a-z, -1 for other characters *)
Definition digval (b : Z) : Z :=
  if (48 <=? b) && (b <=? 57) then b - 48
  else if (65 <=? b) && (b <=? 90) then b - 55
  else if (97 <=? b) && (b <=? 122) then b - 87
  else -1.
Definition digits (base : Z) (l : list Z) : Prop := Forall (fun b => 0 <= digval b < base) l.
(* value of a digit string *)
Definition value (base : Z) (l : list Z) : Z := fold_left (fun v b => base * v + digval b) l 0.

(* l spells v without superfluous zeros *)
Definition numeral (base v : Z) (l : list Z) : Prop :=
  digits base l /\ value base l = v /\ l <> [] /\ (hd 0 l = 48 -> l = [48]).
(* l spells v with at least w digits; leading zeros only to reach that width *)
Definition padded_numeral (base v w : Z) (l : list Z) : Prop :=
  digits base l /\ value base l = v /\ w <= zlen l /\ (hd 0 l = 48 -> zlen l = w).
(* an optional minus sign and the numeral of the magnitude *)
Definition signed_numeral (base v : Z) (l : list Z) : Prop :=
  if v <? 0 then exists r, l = 45 :: r /\ numeral base (- v) r else numeral base v l.

(* the character c between groups of three, counted from the right *)
Fixpoint group (c : Z) (l : list Z) : list Z :=
  match l with
  | [] => []
  | d :: r => d :: (if (0 <? length r)%nat && (length r mod 3 =? 0)%nat then c :: group c r
                    else group c r)
  end.

(* an optional minus sign: characters, and the sign of the value *)
Definition minus (neg : bool) : list Z := if neg then [45] else [].
Definition signed (neg : bool) (v : Z) : Z := if neg then - v else v.

Definition is_space (b : Z) : Prop := b = 32 \/ (9 <= b <= 13).

(* m' holds the string l at buf and is otherwise as m *)
Definition wrote (m m' : mem) (buf : Z) (l : list Z) : Prop :=
  str_at m' buf l /\ same_outside m m' buf (zlen l + 1).
