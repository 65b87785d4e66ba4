(* Model of src/network/*.c (recv.c, a plain forwarding call, is not modelled). *)
From Verif Require Import Base ConvModel.

(* byte n of a word in memory (little endian); for src/network/htonl.c:5-14 *)
Definition wbyte (w n : Z) : Z := (w / 256 ^ n) mod 256.
(* the 32 bit word with the bytes c0..c3 in memory order; for src/network/htonl.c:5-14 *)
Definition word4 (c0 c1 c2 c3 : Z) : Z := c0 + 256 * c1 + 65536 * c2 + 16777216 * c3.

(* src/network/htonl.c:5-14; the union's chars are kept as bytes 0..255,
   the sign of char does not matter for ^= *)
Definition htonl (i : Z) : Z :=
  let c0 := wbyte i 0 in let c1 := wbyte i 1 in let c2 := wbyte i 2 in let c3 := wbyte i 3 in
  let c0 := Z.lxor c0 c3 in
  let c1 := Z.lxor c1 c2 in
  let c3 := Z.lxor c3 c0 in
  let c2 := Z.lxor c2 c1 in
  let c0 := Z.lxor c0 c3 in
  let c1 := Z.lxor c1 c2 in
  word4 c0 c1 c2 c3.

(* src/network/htons.c:3-9 *)
Definition htons (i : Z) : Z :=
  let c0 := wbyte i 0 in let c1 := wbyte i 1 in
  let c0 := Z.lxor c0 c1 in
  let c1 := Z.lxor c1 c0 in
  let c0 := Z.lxor c0 c1 in
  c0 + 256 * c1.

(* src/network/inet_ntoa.c:24-27, c is u.c[n] *)
Fixpoint ntoa_tens (fuel : nat) (m : mem) (p c : Z) : res (mem * Z) :=
  match fuel with
  | O => NoFuel
  | S k =>
      if 9 <? c then
        let* b := ldc m p in
        let* m := put m p 0 (b + 1) in
        ntoa_tens k m p (ubyte (c - 10))
      else Ok (m, c)
  end.
(* src/network/inet_ntoa.c:12-33, the loop body for the byte c; p is the pointer
   before `p++` *)
Definition ntoa_byte (fuel : nat) (m : mem) (p c : Z) : res (mem * Z) :=
  let p := p + 1 in
  let* (m, p, c) :=
    if 9 <? c then
      let* (m, p, c) :=
        if 199 <? c then let* m := put m p 0 50 in Ok (m, p + 1, ubyte (c - 200))
        else if 99 <? c then let* m := put m p 0 49 in Ok (m, p + 1, ubyte (c - 100))
        else Ok (m, p, c) in
      let* m := put m p 0 48 in
      let* (m, c) := ntoa_tens fuel m p c in
      Ok (m, p + 1, c)
    else Ok (m, p, c) in
  let* m := put m p 0 (48 + c) in
  let p := p + 1 in
  let* m := put m p 0 46 in
  Ok (m, p).
(* src/network/inet_ntoa.c:11-34, n counting through the bytes of the union *)
Fixpoint ntoa_loop (fuel : nat) (m : mem) (p : Z) (cs : list Z) : res (mem * Z) :=
  match cs with
  | [] => Ok (m, p)
  | c :: r => let* (m, p) := ntoa_byte fuel m p c in ntoa_loop fuel m p r
  end.
(* src/network/inet_ntoa.c:7-38; addr is &mlgl->inet_ntoa_addr, w is in.s_addr *)
Definition inet_ntoa (fuel : nat) (m : mem) (addr w : Z) : res (mem * Z) :=
  let* (m, p) := ntoa_loop fuel m (addr - 1) [wbyte w 0; wbyte w 1; wbyte w 2; wbyte w 3] in
  let* m := put m p 0 0 in
  Ok (m, addr).

(* u.c[p] = v; for src/network/inet_aton.c:8-17 *)
Fixpoint setn (p : nat) (v : Z) (u : list Z) : list Z :=
  match u, p with
  | [], _ => []
  | _ :: r, O => v :: r
  | c :: r, S p => c :: setn p v r
  end.
(* src/network/inet_aton.c:9-12, v is u.c[p] *)
Fixpoint aton_digits (fuel : nat) (m : mem) (pc v : Z) : res (Z * Z) :=
  match fuel with
  | O => NoFuel
  | S k =>
      let* b := ldc m pc in
      if (48 <=? b) && (b <=? 57) then aton_digits k m (pc + 1) (ubyte (v * 10 + (b - 48)))
      else Ok (pc, v)
  end.
(* src/network/inet_aton.c:8-17; n is 4 - p, so the test p<4 is n > 0 *)
Fixpoint aton_loop (n fuel : nat) (m : mem) (pc : Z) (u : list Z) (p : nat) : res (list Z * nat) :=
  match n with
  | O => Ok (u, p)
  | S n =>
      let* (pc, v) := aton_digits fuel m pc (nth p u 0) in
      let u := setn p v u in
      let* b := ldc m pc in
      if b =? 0 then Ok (u, p) else aton_loop n fuel m (pc + 1) u (S p)
  end.
(* src/network/inet_aton.c:3-26: return value and addr->s_addr *)
Definition inet_aton (fuel : nat) (m : mem) (s : Z) : res (Z * Z) :=
  let* (u, p) := aton_loop 4 fuel m s [0; 0; 0; 0] 0 in
  let u := if (p <? 3)%nat then setn p 0 (setn 3 (nth p u 0) u) else u in
  Ok (1, word4 (nth 0 u 0) (nth 1 u 0) (nth 2 u 0) (nth 3 u 0)).

(* src/network/ether_ntoa.c:4-5 *)
Definition ether_t : list Z := [48; 49; 50; 51; 52; 53; 54; 55; 56; 57; 97; 98; 99; 100; 101; 102].
(* src/network/ether_ntoa.c:7-11; e is the address of ether_addr_octet (uint8_t) *)
Fixpoint ether_loop (n : nat) (m : mem) (addr e i : Z) : res mem :=
  match n with
  | O => Ok m
  | S k =>
      let* b := load m (e + i) in
      let* m := put m addr (i * 3) (nth (Z.to_nat (Z.land b 15)) ether_t 0) in
      let* b := load m (e + i) in
      let* m := put m addr (i * 3 + 1) (nth (Z.to_nat (Z.land (Z.shiftr b 4) 15)) ether_t 0) in
      let* m := put m addr (i * 3 + 2) 58 in
      ether_loop k m addr e (i + 1)
  end.
(* src/network/ether_ntoa.c:3-15; addr is &mlgl->ether_ntoa_addr *)
Definition ether_ntoa (m : mem) (addr e : Z) : res (mem * Z) :=
  let* m := ether_loop 6 m addr e 0 in
  let* m := put m addr 17 0 in
  Ok (m, addr).

(* src/network/gethostname.c:10, the for loop; u is &u.nodename *)
Fixpoint ghn_loop (n : nat) (m : mem) (name u i : Z) : res (mem * Z) :=
  match n with
  | O => Ok (m, i)
  | S k =>
      let* b := load m (u + i) in
      let* m := put m name i b in
      if b =? 0 then Ok (m, i) else ghn_loop k m name u (i + 1)
  end.
(* src/network/gethostname.c:4-14.  ret is what the uname system call returned, u is
   the address of the nodename field it filled (65 bytes, struct new_utsname).
   `len > sizeof(..)` compares as unsigned long. *)
Definition gethostname (ret : Z) (m : mem) (name u len : Z) : res (mem * Z) :=
  if ret =? 0 then
    let len := if 65 <? u64 len then 65 else len in
    let* (m, i) := ghn_loop (Z.to_nat len) m name u 0 in
    if negb (i =? 0) && (i =? len) then let* m := put m name (i - 1) 0 in Ok (m, ret)
    else Ok (m, ret)
  else Ok (m, ret).
