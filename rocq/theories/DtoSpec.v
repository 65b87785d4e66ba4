(* The rational number a double stands for. *)
From Coq Require Import Floats.SpecFloat QArith Qpower.

(* plus or minus m times 2 to the e; 0 for infinities and NaN *)
Definition rat (d : spec_float) : Q :=
  match d with
  | S754_finite s m e => (inject_Z (if s then Z.neg m else Z.pos m) * (2 # 1) ^ e)%Q
  | _ => 0%Q
  end.
