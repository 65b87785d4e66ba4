(* Model of src/output/vsnprintf.c:18-207 with all conversions compiled in. *)
From Coq Require Import Floats.SpecFloat.
From Verif Require Import Base ConvModel DtoModel.

(* How a call ends: with the return of b, or with raise(SIGSEGV) at OVERFLOW.  The
   counters a and b are ints; they are not bounded here.  src/output/vsnprintf.c:199-207 *)
Inductive outcome := Done (m : mem) (b : Z) | Segv (m : mem) (b : Z).

(* The variables of one conversion: padding, sep, groups, mod, pad (src/output/vsnprintf.c:33-38) *)
Record cst := { padding : Z; sep : Z; groups : Z; modl : Z; pad : Z }.
(* src/output/vsnprintf.c:33-38 *)
Definition cst0 : cst := {| padding := 0; sep := 0; groups := 0; modl := 0; pad := 32 |}.
(* what the switch leaves: goto OVERFLOW, or go on with these values;
   for src/output/vsnprintf.c:51-187 *)
Inductive swres :=
| SwSegv (m : mem) (b : Z)
| SwGo (m : mem) (a b : Z) (args : list Z) (stop : bool) (st : cst).

(* src/output/vsnprintf.c:46-50 *)
Fixpoint width_loop (strict : bool) (fuel : nat) (m : mem) (fmt a w : Z) : res (Z * Z) :=
  match fuel with
  | O => NoFuel
  | S k =>
      let* c := ldc m (fmt + a) in
      if (47 <? c) && (c <? 58) then
        let* w := iar strict (w * 10) in
        let* w := iar strict (w + (c - 48)) in
        width_loop strict k m fmt (a + 1) w
      else Ok (a, w)
  end.
(* src/output/vsnprintf.c:150-155: the digits of "(n"; tmp has 16 chars, the last for the NUL *)
Fixpoint group_loop (fuel : nat) (m : mem) (fmt a : Z) (tmp : list Z) : res (Z * list Z) :=
  match fuel with
  | O => NoFuel
  | S k =>
      let* c := ldc m (fmt + a) in
      if (47 <? c) && (c <? 58) then
        if zlen tmp <? 15 then group_loop k m fmt (a + 1) (tmp ++ [c]) else Fault
      else Ok (a, tmp)
  end.
(* src/output/vsnprintf.c:166-169 *)
Fixpoint pad_loop (fuel : nat) (m : mem) (buf b padding l : Z) : res (mem * Z) :=
  match fuel with
  | O => NoFuel
  | S k =>
      if l <? padding then
        let* m := put m buf b 32 in pad_loop k m buf (b + 1) padding (l + 1)
      else Ok (m, b)
  end.
(* src/output/vsnprintf.c:172-177 *)
Fixpoint str_loop (fuel : nat) (m : mem) (buf size b s : Z) : res outcome :=
  match fuel with
  | O => NoFuel
  | S k =>
      let* c := load m s in
      if c =? 0 then Ok (Done m b)
      else
        let* m := put m buf b c in
        if size <=? b + 1 then Ok (Segv m (b + 1)) else str_loop k m buf size (b + 1) (s + 1)
  end.
(* strlen, src/string/strlen.c:9-14 *)
Fixpoint len_loop (fuel : nat) (m : mem) (s i : Z) : res Z :=
  match fuel with
  | O => NoFuel
  | S k => let* c := load m (s + i) in if c =? 0 then Ok i else len_loop k m s (i + 1)
  end.

(* va_arg; the arguments are given as 64 bit values, in the order they are asked for (a double
   comes in another register: not modelled, only its bits); for src/output/vsnprintf.c:51-187 *)
Definition va_arg (args : list Z) : res (Z * list Z) :=
  match args with [] => Fault | v :: r => Ok (v, r) end.

(* the double with these 64 bits: va_arg(args,double), src/output/vsnprintf.c:103 (IEEE 754 binary64) *)
Definition double_bits (v : Z) : spec_float :=
  let s := 0 <? Z.land (Z.shiftr v 63) 1 in
  let e := Z.land (Z.shiftr v 52) 2047 in
  let f := Z.land v 4503599627370495 in
  if e =? 2047 then if f =? 0 then S754_infinity s else S754_nan
  else match (if e =? 0 then f else f + 4503599627370496) with
       | Zpos p => S754_finite s p (if e =? 0 then -1074 else e - 1075)
       | _ => S754_zero s
       end.

(* src/output/vsnprintf.c:51-187; c is fmt[a]; tmp0 the uninitialised array in itooct *)
Definition switch (strict : bool) (fuel : nat) (tmp0 : Z -> Z) (m : mem) (buf size fmt a b c : Z) (args : list Z) (st : cst)
  : res swres :=
  let number (need : Z) (conv : Z -> res (mem * Z)) : res swres :=
    if size <=? b + need then Ok (SwSegv m b)
    else
      let* v := va_arg args in
      let (v, args) := v in
      let* r := conv v in
      let (m, n) := r in
      Ok (SwGo m a (b + n) args true st) in
  let width1 := if padding st =? 0 then 1 else padding st in
  if c =? 37 then (* '%', 52-57 *)
    let* m := put m buf b 37 in
    if size <=? b + 1 then Ok (SwSegv m (b + 1)) else Ok (SwGo m a (b + 1) args true st)
  else if c =? 117 then (* 'u', 59-78 *)
    if modl st =? 0 then number 13 (fun v => uitodec m (u32 v) (buf + b) width1 (sep st) (pad st))
    else number 27 (fun v => ultodec m (u64 v) (buf + b) width1 (sep st))
  else if c =? 100 then (* 'd', 79-96 *)
    if modl st =? 0 then number 13 (fun v => itodec strict m (s32 v) (buf + b) (padding st) (sep st) (pad st))
    else number 27 (fun v => ltodec strict m (s64 v) (buf + b) width1 (sep st))
  else if c =? 102 then (* 'f', 98-107; padding, if 0, becomes 9 *)
    let st := if padding st =? 0 then {| padding := 9; sep := sep st; groups := groups st; modl := modl st; pad := pad st |} else st in
    if size <=? b + 27 then Ok (SwSegv m b)
    else
      let* v := va_arg args in
      let (v, args) := v in
      let* r := dtodec strict m (double_bits (u64 v)) (buf + b) (padding st) in
      let (m, n) := r in
      Ok (SwGo m a (b + n) args true st)
  else if c =? 108 then (* 'l', 108-110 *)
    Ok (SwGo m a b args false {| padding := padding st; sep := sep st; groups := groups st; modl := 1; pad := pad st |})
  else if c =? 39 then (* 112-114 *)
    Ok (SwGo m a b args false {| padding := padding st; sep := 46; groups := groups st; modl := modl st; pad := pad st |})
  else if c =? 120 then number 8 (fun v => _itohex m (s32 v) (buf + b) (padding st) 0) (* 'x', 115-121 *)
  else if c =? 88 then number 8 (fun v => _itohex m (s32 v) (buf + b) (padding st) 1) (* 'X', 122-128 *)
  else if c =? 111 then number 16 (fun v => itooct strict fuel tmp0 m (s32 v) (buf + b)) (* 'o', 130-136 *)
  else if c =? 98 then (* 'b', 138-145 *)
    number 32 (fun v => _itobin m (s32 v) (buf + b) width1 (groups st))
  else if c =? 40 then (* '(', 146-161 *)
    let* r := group_loop fuel m fmt (a + 1) [] in
    let (a', tmp) := r in
    match tmp with
    | [] => Ok (SwGo m (a + 1) b args false st)
    | _ =>
        let* g := atoi strict fuel (mem_of [(0, tmp ++ [0])]) 0 in
        Ok (SwGo m (a' - 1) b args false {| padding := padding st; sep := sep st; groups := g; modl := modl st; pad := pad st |})
    end
  else if c =? 115 then (* 's', 162-179 *)
    let* v := va_arg args in
    let (s, args) := v in
    let* r := (if padding st =? 0 then Ok (m, b)
               else let* l := len_loop fuel m s 0 in pad_loop fuel m buf b (padding st) l) in
    let (m, b) := r in
    let* o := str_loop fuel m buf size b s in
    match o with
    | Segv m b => Ok (SwSegv m b)
    | Done m b => Ok (SwGo m a b args true st)
    end
  else if c =? 99 then (* 'c', 180-185 *)
    let* v := va_arg args in
    let (v, args) := v in
    let* m := put m buf b v in
    if size <=? b + 1 then Ok (SwSegv m (b + 1)) else Ok (SwGo m a (b + 1) args true st)
  else Ok (SwGo m a b args false st).

(* src/output/vsnprintf.c:39-189: the do loop *)
Fixpoint conv_loop (strict : bool) (fuel : nat) (tmp0 : Z -> Z) (m : mem) (buf size fmt a b : Z) (args : list Z) (st : cst)
  : res swres :=
  match fuel with
  | O => NoFuel
  | S k =>
      let a := a + 1 in
      let* c := ldc m (fmt + a) in
      let '(a, pd) := if c =? 48 then (a + 1, 48) else (a, pad st) in
      let* w := width_loop strict fuel m fmt a (padding st) in
      let (a, w) := w in
      let st := {| padding := w; sep := sep st; groups := groups st; modl := modl st; pad := pd |} in
      let* c := ldc m (fmt + a) in
      let* r := switch strict fuel tmp0 m buf size fmt a b c args st in
      match r with
      | SwSegv m b => Ok (SwSegv m b)
      | SwGo m a b args stop st =>
          if stop then Ok (SwGo m a b args true st)
          else
            let* n := ldc m (fmt + (a + 1)) in
            if n =? 0 then Ok (SwGo m a b args false st)
            else conv_loop strict k tmp0 m buf size fmt a b args st
      end
  end.

(* src/output/vsnprintf.c:31-201 *)
Fixpoint print_loop (strict : bool) (fuel : nat) (tmp0 : Z -> Z) (m : mem) (buf size fmt a b : Z) (args : list Z) : res outcome :=
  match fuel with
  | O => NoFuel
  | S k =>
      let* c := ldc m (fmt + a) in
      if c =? 0 then let* m := put m buf b 0 in Ok (Done m b)
      else if c =? 37 then
        let* r := conv_loop strict k tmp0 m buf size fmt a b args cst0 in
        match r with
        | SwSegv m b => Ok (Segv m b)
        | SwGo m a b args _ _ => print_loop strict k tmp0 m buf size fmt (a + 1) b args
        end
      else
        let* m := put m buf b c in
        if size <=? b + 1 then Ok (Segv m (b + 1))
        else print_loop strict k tmp0 m buf size fmt (a + 1) (b + 1) args
  end.
(* src/output/vsnprintf.c:18-207 *)
Definition vsnprintf (strict : bool) (fuel : nat) (tmp0 : Z -> Z) (m : mem) (buf size fmt : Z) (args : list Z) : res outcome :=
  print_loop strict fuel tmp0 m buf size fmt 0 0 args.
