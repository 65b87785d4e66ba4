(* Model of src/string/strtoimax.c and src/termios/term_width.c. *)
From Verif Require Import Base ConvModel.

(* src/string/strtoimax.c:36-60; result: value, the pointer last stored in *endp, and
   whether errno was set to ERANGE.  The digits are computed as in strtol. *)
Fixpoint imax_loop (strict : bool) (fuel : nat) (m : mem) (c base : Z) (sign : bool) (ret : Z)
  : res (Z * Z * bool) :=
  match fuel with
  | O => NoFuel
  | S f =>
      let* b := ldc m c in
      let add := strtol_digit b in
      if (base <? add) || (add =? -1) then
        let* r := if sign then iar strict (- ret) else Ok ret in Ok (r, c, false)
      else
        let* r1 := iar strict (ret * base) in
        let* r2 := iar strict (r1 + add) in
        if r2 <? 0 then Ok (if sign then INT_MIN else INT_MAX, c, true)
        else imax_loop strict f m (c + 1) base sign r2
  end.
(* src/string/strtoimax.c:4-61; line 6 (skip_space) is that of strtol.  A NULL argument
   faults there, so that the branch to strtoimax_err at line 10 is not reachable. *)
Definition strtoimax (strict : bool) (fuel : nat) (m : mem) (s base : Z) : res (Z * Z * bool) :=
  let* c := skip_space fuel m s in
  let* b := ldc m c in
  let sign := b =? 45 in
  let c1 := if sign then c + 1 else c in
  let* (c2, base2) :=
    if base =? 0 then
      let* b1 := ldc m c1 in
      if b1 =? 48 then
        let* b2 := ldc m (c1 + 1) in
        if b2 =? 120 then Ok (c1 + 2, 16) else Ok (c1 + 1, 8)
      else Ok (c1, 10)
    else Ok (c1, base) in
  imax_loop strict fuel m c2 base2 sign 0.

(* src/termios/term_width.c:10-14 *)
Fixpoint width_loop (strict : bool) (fuel : nat) (m : mem) (p ret : Z) : res Z :=
  match fuel with
  | O => NoFuel
  | S f =>
      let* c := ldc m p in
      if c =? 0 then Ok ret
      else
        let* r := iar strict (ret * 10) in
        let* r := iar strict (r + c) in
        let* r := iar strict (r - 48) in
        width_loop strict f m (p + 1) r
  end.
(* src/termios/term_width.c:7-16; [p] is what getenv("COLUMNS") returned *)
Definition term_width (strict : bool) (fuel : nat) (m : mem) (p : Z) : res Z :=
  if p =? 0 then Ok 80 else width_loop strict fuel m p 0.
