(* Model of src/conversions/dtodec.c. *)
From Coq Require Import Floats.SpecFloat.
From Verif Require Import Base ConvModel.

(* double: IEEE 754 binary64, round to nearest even, as specified in Coq's SpecFloat;
   for src/conversions/dtodec.c:12-16 *)
Definition fadd := SFadd 53 1024.
Definition fsub := SFsub 53 1024. (* for src/conversions/dtodec.c:12-16 *)
Definition fmul := SFmul 53 1024. (* for src/conversions/dtodec.c:12-16 *)
(* for src/conversions/dtodec.c:12-16 *)
Definition of_int (z : Z) : spec_float := binary_normalize 53 1024 z 0 false.
(* the constant 0.1; for src/conversions/dtodec.c:12-16 *)
Definition tenth : spec_float := S754_finite false 7205759403792794 (-56).
(* conversion to an integer type cuts off the fraction; a value out of range is undefined;
   for src/conversions/dtodec.c:10-32 *)
Definition trunc (d : spec_float) : option Z :=
  match d with
  | S754_zero _ => Some 0
  | S754_finite s f e => let v := if 0 <=? e then Z.pos f * 2 ^ e else Z.pos f / 2 ^ (- e) in Some (if s then - v else v)
  | _ => None
  end.
(* for src/conversions/dtodec.c:10-32 *)
Definition to_int (d : spec_float) : res Z :=
  match trunc d with Some v => if (INT_MIN <=? v) && (v <=? INT_MAX) then Ok v else Fault | None => Fault end.
(* for src/conversions/dtodec.c:12-16 *)
Definition to_uint (d : spec_float) : res Z :=
  match trunc d with Some v => if (0 <=? v) && (v <? 4294967296) then Ok v else Fault | None => Fault end.
(* for src/conversions/dtodec.c:12-16 *)
Definition fle (a b : spec_float) : bool := match SFcompare a b with Some Lt | Some Eq => true | _ => false end.
(* for src/conversions/dtodec.c:19-26 *)
Definition flt (a b : spec_float) : bool := match SFcompare a b with Some Lt => true | _ => false end.
(* src/conversions/dtodec.c:12-16 *)
Definition fraction (d : spec_float) (i : Z) : res Z :=
  let billion := of_int 1000000000 in
  if fle (S754_zero false) d then to_uint (fadd (fmul (fsub d (of_int i)) billion) tenth)
  else to_uint (fadd (fmul (fadd (SFopp d) (of_int i)) billion) tenth).
(* src/conversions/dtodec.c:19-26 *)
Definition dto_int (strict : bool) (m : mem) (d : spec_float) (i buf : Z) : res (mem * Z) :=
  if fle d (of_int (-1)) || flt (S754_zero false) d then itodec strict m i buf 0 0 0
  else let* m := put m buf 0 45 in let* m := put m buf 1 48 in Ok (m, 1).
(* src/conversions/dtodec.c:10-32 *)
Definition dtodec (strict : bool) (m : mem) (d : spec_float) (buf precision : Z) : res (mem * Z) :=
  let* i := to_int d in
  let* i2 := fraction d i in
  let* (m, p) := dto_int strict m d i buf in
  let* m := put m buf (p + 1) 46 in
  let* (m, p2) := uitodec m i2 (buf + (p + 2)) 9 0 0 in
  let* r := iop (p + p2 + 2 - 9 + precision) in
  Ok (m, r).
