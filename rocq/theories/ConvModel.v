(* Models of src/conversions and of strtol.

   [strict = true]: signed + - * overflow is undefined ([Fault]); [strict = false]:
   it wraps, as in code compiled with -fwrapv.  Left shifts of negative or large
   ints always wrap (gcc defines them so). *)
From Verif Require Import Base.

(* for src/conversions/atoi.c:13-29 *)
Definition iar (strict : bool) (z : Z) : res Z := if strict then iop z else Ok (s32 z).
(* for src/conversions/atol.c:12-16 *)
Definition lar (strict : bool) (z : Z) : res Z := if strict then lop z else Ok (s64 z).
(* buf[p] = c; for src/conversions/itodec.c:64-110 *)
Definition put (m : mem) (buf p c : Z) : res mem := store m (buf + p) (ubyte c).
(* *c read as char; for src/conversions/atoi.c:8-10 *)
Definition ldc (m : mem) (a : Z) : res Z := let* b := load m a in Ok (schar b).

(* src/conversions/atoi.c:8-10 *)
Fixpoint atoi_end (fuel : nat) (m : mem) (c a : Z) : res Z :=
  match fuel with
  | O => NoFuel
  | S f => let* b := ldc m (c + a) in
           if b =? 0 then Ok a else let* a1 := iop (a + 1) in atoi_end f m c a1
  end.

(* src/conversions/atoi.c:13-29, for the character b: new ret and dez *)
Definition atoi_char (strict : bool) (b ret dez : Z) : res (Z * Z) :=
  let* (ret4, dez4) :=
    if (48 <? b) && (b <? 58) then
      let t := b - 48 in
      let* ret1 := if Z.land t 1 =? 0 then Ok ret else iar strict (ret + dez) in
      let dez1 := s32 (dez * 2) in
      let* ret2 := if Z.land t 2 =? 0 then Ok ret1 else iar strict (ret1 + dez1) in
      let dez2 := s32 (dez1 * 2) in
      let* ret3 := if Z.land t 4 =? 0 then Ok ret2 else iar strict (ret2 + dez2) in
      let dez3 := s32 (dez2 * 2) in
      let* ret4 := if Z.land t 8 =? 0 then Ok ret3 else iar strict (ret3 + dez3) in
      Ok (ret4, dez3)
    else Ok (ret, s32 (dez * 8)) in
  let* dez5 := iar strict (dez4 + Z.shiftr dez4 2) in
  Ok (ret4, dez5).

(* src/conversions/atoi.c:11-30 *)
Fixpoint atoi_loop (strict : bool) (a : nat) (m : mem) (c ret dez : Z) : res Z :=
  match a with
  | O => Ok ret
  | S a' =>
      let* b := ldc m (c + Z.of_nat a') in
      let* (ret1, dez1) := atoi_char strict b ret dez in
      atoi_loop strict a' m c ret1 dez1
  end.

(* src/conversions/atoi.c:3-34 *)
Definition atoi (strict : bool) (fuel : nat) (m : mem) (c : Z) : res Z :=
  let* a := atoi_end fuel m c 0 in
  let* ret := atoi_loop strict (Z.to_nat a) m c 0 1 in
  let* b := ldc m c in
  if b =? 45 then iar strict (- ret) else Ok ret.

(* src/conversions/atol.c:12-16 *)
Fixpoint atol_loop (strict : bool) (fuel : nat) (m : mem) (c ret : Z) : res Z :=
  match fuel with
  | O => NoFuel
  | S f =>
      let* b := ldc m c in
      if (48 <=? b) && (b <=? 57) then
        let* r1 := lar strict (ret * 10) in
        let* r2 := lar strict (r1 + (b - 48)) in
        atol_loop strict f m (c + 1) r2
      else Ok ret
  end.
(* src/conversions/atol.c:3-20 *)
Definition atol (strict : bool) (fuel : nat) (m : mem) (c : Z) : res Z :=
  let* b := ldc m c in
  if b =? 45 then
    let* ret := atol_loop strict fuel m (c + 1) 0 in lar strict (- ret)
  else atol_loop strict fuel m c 0.

(* src/conversions/itodec.c:73-96: digit character (as offset from '0') and rest for
   the divisor d; None = the value is below d *)
Definition uit_digit (i d : Z) : option (Z * Z) :=
  let t1 := s32 (u32 (i - d)) in
  if t1 <? 0 then None
  else
    let dec := d * 4 in
    let t2 := t1 - dec in
    if (0 <=? t2) && (0 <=? t2 - dec) then Some (9, t2 - dec)
    else
      let '(n, t1) := if 0 <=? t2 then (5, t2) else (1, t1) in
      let '(n, t1) := if 0 <=? t1 - d * 2 then (n + 2, t1 - d * 2) else (n, t1) in
      let '(n, t1) := if 0 <=? t1 - d then (n + 1, t1 - d) else (n, t1) in
      Some (n, t1).

(* src/conversions/itodec.c:64-110; ds: the rest of the array div *)
Fixpoint uit_loop (ds : list Z) (m : mem) (buf i p prec : Z) (trailing : bool)
    (limiter trail : Z) : res (mem * Z) :=
  match ds with
  | [] => Ok (m, p)
  | d :: r =>
      if d =? 0 then
        if negb (limiter =? 0) && (prec =? 0) then
          let* m1 := put m buf p limiter in
          uit_loop r m1 buf i (p + 1) prec trailing limiter trail
        else uit_loop r m buf i p prec trailing limiter trail
      else
        let '(n, i1, prec1, trailing1) :=
          match uit_digit i d with
          | None => (48, i, prec, trailing)
          | Some (k, i') => (48 + k, i', 0, false)
          end in
        if prec1 =? 0 then
          let* m1 := put m buf p (if trailing1 then trail else n) in
          uit_loop r m1 buf i1 (p + 1) prec1 trailing1 limiter trail
        else uit_loop r m buf i1 p (prec1 + 1) trailing1 limiter trail
  end.

(* src/conversions/itodec.c:30 (the twelve entries that the loop reads) *)
Definition uit_div : list Z :=
  [0; 100000000; 10000000; 1000000; 0; 100000; 10000; 1000; 0; 100; 10; 1].

(* src/conversions/itodec.c:9-118 *)
Definition uitodec (m : mem) (i buf prec limiter pad : Z) : res (mem * Z) :=
  let trail := if pad =? 0 then 32 else pad in
  let* prec1 := iop (prec - 10) in
  let* m1 := if i =? 0 then put m buf 0 48 else Ok m in
  let* (m2, i2, p2, prec2, trailing2) :=
    if 1000000000 <=? i then
      if 2000000000 <=? i then
        let i1 := i - 2000000000 in
        if 1000000000 <=? i1 then
          if 2000000000 <=? i1 then
            let* m2 := put m1 buf 0 52 in Ok (m2, i1 - 2000000000, 1, 0, false)
          else
            let* m2 := put m1 buf 0 51 in Ok (m2, i1 - 1000000000, 1, 0, false)
        else let* m2 := put m1 buf 0 50 in Ok (m2, i1, 1, 0, false)
      else let* m2 := put m1 buf 0 49 in Ok (m2, i - 1000000000, 1, 0, false)
    else if prec1 =? 0 then
      let* m2 := put m1 buf 0 32 in Ok (m2, i, 1, prec1, true)
    else Ok (m1, i, 0, prec1 + 1, true) in
  let* (m3, p3) := uit_loop uit_div m2 buf i2 p2 prec2 trailing2 limiter trail in
  let* (m4, p4) := if p3 =? 0 then let* m4 := put m3 buf 0 48 in Ok (m4, 1) else Ok (m3, p3) in
  let* m5 := put m4 buf p4 0 in
  Ok (m5, p4).

(* src/conversions/itodec.c:123-130 *)
Definition itodec (strict : bool) (m : mem) (i buf prec limiter pad : Z) : res (mem * Z) :=
  if i <? 0 then
    let* m1 := put m buf 0 45 in
    let* j := iar strict (- i) in
    let* (m2, r) := uitodec m1 (u32 j) (buf + 1) prec limiter pad in
    Ok (m2, r + 1)
  else uitodec m (u32 i) buf prec limiter pad.

(* src/conversions/ultodec.c:30-33 *)
Fixpoint ult_digit (fuel : nat) (ui l b : Z) : res (Z * Z) :=
  match fuel with
  | O => NoFuel
  | S f => if l <=? ui then ult_digit f (ui - l) l (b + 1) else Ok (ui, b)
  end.
(* src/conversions/ultodec.c:24-48; p is the loop variable *)
Fixpoint ult_loop (p : nat) (m : mem) (buf ui l : Z) (a : bool) (c prec limiter : Z)
  : res (mem * Z * Z) :=
  match p with
  | O => Ok (m, buf, c)
  | S p' =>
      let a1 := if Z.of_nat p <=? prec then true else a in
      if a1 || (0 <=? s64 (u64 (ui - l))) then
        let* (ui1, b) := ult_digit 20 ui l 0 in
        let* (m1, buf1, c1) :=
          if negb (limiter =? 0) && (Z.of_nat p mod 3 =? 0)
          then let* m1 := put m buf 0 limiter in Ok (m1, buf + 1, c + 1)
          else Ok (m, buf, c) in
        let* m2 := put m1 buf1 0 (48 + b) in
        ult_loop p' m2 (buf1 + 1) ui1 (l / 10) true (c1 + 1) prec limiter
      else ult_loop p' m buf ui (l / 10) a1 c prec limiter
  end.
(* src/conversions/ultodec.c:2-51 *)
Definition ultodec (m : mem) (ui buf prec limiter : Z) : res (mem * Z) :=
  let l := 1000000000000000000 in
  let* (m1, buf1, ui1, a1, c1) :=
    if 10000000000000000000 <=? ui then
      let* m1 := put m buf 0 49 in Ok (m1, buf + 1, ui - 10000000000000000000, true, 1)
    else if 20 <=? prec then
      let* m1 := put m buf 0 48 in Ok (m1, buf + 1, ui, true, 1)
    else Ok (m, buf, ui, false, 0) in
  let* (m2, buf2, c2) := ult_loop 19 m1 buf1 ui1 l a1 c1 prec limiter in
  let* m3 := put m2 buf2 0 0 in
  Ok (m3, c2).

(* src/conversions/ltodec.c:3-10 *)
Definition ltodec (strict : bool) (m : mem) (i buf prec limiter : Z) : res (mem * Z) :=
  if i <? 0 then
    let* m1 := put m buf 0 45 in
    let* j := lar strict (- i) in
    let* (m2, r) := ultodec m1 (u64 j) (buf + 1) prec limiter in
    Ok (m2, r + 1)
  else ultodec m (u64 i) buf prec limiter.

(* src/conversions/itohex.c:17-19: conv[b].c[a] for the int i *)
Definition nibble (i b a : Z) : Z :=
  let n := if b =? 0 then Z.land (u32 i) 4042322160 / 16 else Z.land (u32 i) 252645135 in
  n / 256 ^ a mod 256.
(* src/conversions/itohex.c:23-41; ns: the nibbles in loop order *)
Fixpoint hex_loop (ns : list Z) (m : mem) (buf p padding capitals : Z) : res (mem * Z) :=
  match ns with
  | [] => Ok (m, p)
  | n :: r =>
      let padding1 := if negb (padding =? 0) && negb (n =? 0) then 0 else padding in
      if padding1 =? 0 then
        let* m1 := put m buf p (if n <? 10 then n + 48 else n + capitals) in
        hex_loop r m1 buf (p + 1) padding1 capitals
      else hex_loop r m buf p (padding1 + 1) capitals
  end.
(* src/conversions/itohex.c:6-44 *)
Definition _itohex (m : mem) (i buf padding capitals : Z) : res (mem * Z) :=
  let caps := if 0 <? capitals then 55 else 87 in
  let* p0 := iop (padding - 8) in
  let pad := if p0 <? -7 then -7 else p0 in
  let ns := [nibble i 0 3; nibble i 1 3; nibble i 0 2; nibble i 1 2;
             nibble i 0 1; nibble i 1 1; nibble i 0 0; nibble i 1 0] in
  let* (m1, p) := hex_loop ns m buf 0 pad caps in
  let* m2 := put m1 buf p 0 in
  Ok (m2, p).

(* src/conversions/itobin.c:12-31; k: iterations left *)
Fixpoint bin_loop (k : nat) (m : mem) (i buf p prec g groups : Z) : res (mem * Z) :=
  match k with
  | O => Ok (m, p)
  | S k' =>
      let* (m1, p1, prec1) :=
        if negb (Z.land (u32 i) 2147483648 =? 0) then
          let* m1 := put m buf p 49 in Ok (m1, p + 1, 0)
        else if prec =? 0 then
          let* m1 := put m buf p 48 in Ok (m1, p + 1, prec)
        else Ok (m, p, prec + 1) in
      let i1 := s32 (i * 2) in
      let g1 := g + 1 in
      if (prec1 =? 0) && (groups <=? g1) then
        let* m2 := put m1 buf p1 32 in
        bin_loop k' m2 i1 buf (p1 + 1) prec1 0 groups
      else bin_loop k' m1 i1 buf p1 prec1 g1 groups
  end.
(* src/conversions/itobin.c:8-38 *)
Definition _itobin (m : mem) (i buf prec groups : Z) : res (mem * Z) :=
  let* pr := iop (prec - 32) in
  let* (m1, p1) := bin_loop 32 m i buf 0 pr 0 groups in
  let* (m2, p2) := if p1 =? 0 then let* m2 := put m1 buf 0 48 in Ok (m2, 1) else Ok (m1, p1) in
  let* m3 := put m2 buf p2 0 in
  Ok (m3, p2).

(* src/conversions/itooct.c:20-24; tmp is an array of 16 chars *)
Fixpoint oct_digits (fuel : nat) (i : Z) (tmp : Z -> Z) (p : Z) : res ((Z -> Z) * Z) :=
  match fuel with
  | O => NoFuel
  | S f =>
      if i =? 0 then Ok (tmp, p)
      else if p <? 16 then
        oct_digits f (Z.shiftr i 3) (fun x => if x =? p then Z.land i 7 + 48 else tmp x) (p + 1)
      else Fault
  end.
(* src/conversions/itooct.c:26-30; k = p+1 iterations left *)
Fixpoint oct_copy (k : nat) (m : mem) (buf : Z) (tmp : Z -> Z) : res (mem * Z) :=
  match k with
  | O => Ok (m, buf)
  | S k' => let* m1 := if Z.of_nat k' <? 16 then put m buf 0 (tmp (Z.of_nat k')) else Fault in
            oct_copy k' m1 (buf + 1) tmp
  end.
(* src/conversions/itooct.c:4-34; tmp0: the uninitialised contents of tmp *)
Definition itooct (strict : bool) (fuel : nat) (tmp0 : Z -> Z) (m : mem) (i buf : Z) : res (mem * Z) :=
  let* (m1, buf1, c1) := if i =? 0 then let* m1 := put m buf 0 48 in Ok (m1, buf + 1, 1)
                         else Ok (m, buf, 0) in
  let* (m2, buf2, c2, i2) :=
    if i <? 0 then
      let* j := iar strict (- i) in
      let* m2 := put m1 buf1 0 45 in Ok (m2, buf1 + 1, c1 + 1, j)
    else Ok (m1, buf1, c1, i) in
  let* (tmp, p) := oct_digits fuel i2 tmp0 0 in
  let c3 := c2 + p in
  let* (m3, buf3) := oct_copy (S (Z.to_nat p)) m2 buf2 tmp in
  let* m4 := put m3 buf3 0 0 in
  Ok (m4, c3 + 1).

(* include/ctype.h:10 *)
Definition c_isspace (a : Z) : bool :=
  (a =? 32) || (a =? 9) || (a =? 10) || (a =? 12) || (a =? 13) || (a =? 11).

(* src/string/strtol.c:6-8 *)
Fixpoint skip_space (fuel : nat) (m : mem) (c : Z) : res Z :=
  match fuel with
  | O => NoFuel
  | S f => let* b := ldc m c in if c_isspace b then skip_space f m (c + 1) else Ok c
  end.
(* src/string/strtol.c:40-46 *)
Definition strtol_digit (b : Z) : Z :=
  if (97 <=? b) && (b <=? 122) then b - 97 + 10
  else if (65 <=? b) && (b <=? 90) then b - 65 + 10
  else if (48 <=? b) && (b <=? 57) then b - 48
  else -1.
(* src/string/strtol.c:36-60; result: value, the pointer last stored in *endp, and
   whether errno was set to ERANGE *)
Fixpoint strtol_loop (strict : bool) (fuel : nat) (m : mem) (c base : Z) (sign : bool) (ret : Z)
  : res (Z * Z * bool) :=
  match fuel with
  | O => NoFuel
  | S f =>
      let* b := ldc m c in
      let add := strtol_digit b in
      if (base <? add) || (add =? -1) then
        let* r := if sign then lar strict (- ret) else Ok ret in Ok (r, c, false)
      else
        let* r1 := lar strict (ret * base) in
        let* r2 := lar strict (r1 + add) in
        if r2 <? 0 then Ok (if sign then LONG_MIN else LONG_MAX, c, true)
        else strtol_loop strict f m (c + 1) base sign r2
  end.
(* src/string/strtol.c:4-61.  A NULL argument faults at line 6, so that the branch to
   strtol_err at line 10 is not reachable. *)
Definition strtol (strict : bool) (fuel : nat) (m : mem) (s base : Z) : res (Z * Z * bool) :=
  let* c := skip_space fuel m s in
  let* b := ldc m c in
  let sign := b =? 45 in
  let c1 := if sign then c + 1 else c in
  let* (c2, base2) :=
    if base =? 0 then
      let* b1 := ldc m c1 in
      if b1 =? 48 then
        let* b2 := ldc m (c1 + 1) in
        if b2 =? 120 then Ok (c1 + 2, 16) else Ok (c1 + 1, 8)
      else Ok (c1, 10)
    else Ok (c1, base) in
  strtol_loop strict fuel m c2 base2 sign 0.
