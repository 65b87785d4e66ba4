(* Textbook hash and checksum recurrences. *)
From Verif Require Import Base.

(* djb2: h <- 33 h + c, sdbm: h <- 65599 h + c, modulo 2^w *)
Definition poly (w a h : Z) (l : list Z) : Z := fold_left (fun h c => (a * h + c) mod 2 ^ w) l h.

(* BSD checksum of bytes: rotate the 16 bit word right, add the byte *)
Definition ror16 (h : Z) : Z := h / 2 + 32768 * (h mod 2).
Definition bsd_sum (h : Z) (l : list Z) : Z := fold_left (fun h c => (ror16 h + c) mod 65536) l h.

(* feeding the blocks [bs], stored one after the other from p on, to a block function *)
Fixpoint feed (f : Z -> Z -> Z -> res Z) (h p : Z) (bs : list (list Z)) : res Z :=
  match bs with
  | [] => Ok h
  | b :: r => let* h' := f h p (zlen b) in feed f h' (p + zlen b) r
  end.
