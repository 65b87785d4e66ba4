(* Model of src/math/{powers,hashes,sdbm_hash,rand,srand}.c and src/file/cksum.c.
   Signed overflow: [strict = true] is ISO C (undefined), [strict = false] is
   two's complement wrap-around (gcc -fwrapv). *)
From Verif Require Import Base.

(* product of two ints, src/math/powers.c:44,47 *)
Definition imul (strict : bool) (a b : Z) : res Z :=
  if strict then iop (a * b) else Ok (s32 (a * b)).

(* src/math/powers.c:35-49.  The recursion depth is bounded by [fuel]; the second
   component counts the executed multiplications (ghost, not in the C code). *)
Fixpoint ipoweriui (strict : bool) (fuel : nat) (x n : Z) : res (Z * Z) :=
  match fuel with
  | O => NoFuel
  | S k =>
      if n =? 0 then Ok (1, 0)
      else if n =? 1 then Ok (x, 0)
      else if Z.odd n then
        let* (t, c) := ipoweriui strict k x ((n - 1) / 2) in
        let* tsq := imul strict t t in
        let* r := imul strict tsq x in
        Ok (r, c + 2)
      else
        let* (t, c) := ipoweriui strict k x (n / 2) in
        let* r := imul strict t t in
        Ok (r, c + 1)
  end.

(* src/math/powers.c:52-57.  n is converted to unsigned int by both calls;
   division by zero, and INT_MIN / -1 (not possible here), are undefined. *)
Definition ipoweri (strict : bool) (fuel : nat) (x n : Z) : res (Z * Z) :=
  if 0 <? n then ipoweriui strict fuel x (u32 n)
  else
    let* (d, c) := ipoweriui strict fuel x (u32 n) in
    if d =? 0 then Fault else Ok (Z.quot 1 d, c).

(* src/math/hashes.c:16-19, the loop.  c is an int holding an unsigned char *)
Fixpoint djb2_loop (fuel : nat) (m : mem) (str hash : Z) : res Z :=
  match fuel with
  | O => NoFuel
  | S k =>
      let* c := load m str in
      if c =? 0 then Ok hash
      else djb2_loop k m (str + 1) (u64 (u64 (u64 (Z.shiftl hash 5) + hash) + c))
  end.
(* src/math/hashes.c:12-20 *)
Definition djb2_hash (fuel : nat) (m : mem) (str : Z) : res Z := djb2_loop fuel m str 5381.

(* src/math/sdbm_hash.c:7-10, the loop *)
Fixpoint sdbm_loop (fuel : nat) (m : mem) (str hash : Z) : res Z :=
  match fuel with
  | O => NoFuel
  | S k =>
      let* c := load m str in
      if c =? 0 then Ok hash
      else sdbm_loop k m (str + 1)
             (u64 (u64 (u64 (c + u64 (Z.shiftl hash 6)) + u64 (Z.shiftl hash 16)) - hash))
  end.
(* src/math/sdbm_hash.c:3-11 *)
Definition sdbm_hash (fuel : nat) (m : mem) (str : Z) : res Z := sdbm_loop fuel m str 0.

(* src/file/cksum.c:10-13; `len-->0` counts down an unsigned int, here the nat *)
Fixpoint djb_cksum_loop (len : nat) (m : mem) (p hash : Z) : res Z :=
  match len with
  | O => Ok hash
  | S k =>
      let* c := load m p in
      djb_cksum_loop k m (p + 1) (u32 (u32 (u32 (Z.shiftl hash 5) + hash) + schar c))
  end.
(* src/file/cksum.c:8-15 *)
Definition djb_cksum (m : mem) (p len : Z) : res Z := djb_cksum_loop (Z.to_nat len) m p 5381.

(* src/file/cksum.c:21-26 *)
Fixpoint bsd_cksumblock_loop (len : nat) (m : mem) (hash p : Z) : res Z :=
  match len with
  | O => Ok hash
  | S k =>
      let hash := u32 (Z.shiftr hash 1 + u32 (Z.shiftl (Z.land hash 1) 15)) in
      let* c := load m p in
      let hash := u32 (hash + schar c) in
      let hash := Z.land hash 65535 in
      bsd_cksumblock_loop k m hash (p + 1)
  end.
(* src/file/cksum.c:20-28 *)
Definition bsd_cksumblock (m : mem) (hash p len : Z) : res Z :=
  bsd_cksumblock_loop (Z.to_nat len) m hash p.
(* src/file/cksum.c:31-33 *)
Definition bsd_cksum (m : mem) (p len : Z) : res Z := bsd_cksumblock m 0 p len.

(* src/math/rand.c:14-16 (and 18-20): one round on the int mlgl->srand
   (include/minilib_global.h:80).  gcc defines << of a negative int as a shift of
   the two's complement word and >> as arithmetic shift. *)
Definition rand_round (s : Z) : Z :=
  let s := Z.lxor s (s32 (Z.shiftl s 13)) in
  let s := Z.lxor s (Z.shiftr s 17) in
  Z.lxor s (s32 (Z.shiftl s 5)).
(* src/math/rand.c:7-22: the state mlgl->srand; result and new state *)
Definition rand (s : Z) : Z * Z :=
  let s := if s =? 0 then 1 else s in
  let s := rand_round s in
  let t := u32 s in
  let s := rand_round s in
  (u32 (t - 1), s).
(* src/math/srand.c:4-6; old state, argument, new state *)
Definition srand (s i : Z) : Z := s32 i.

(* the results of k successive calls of rand; not library code, the calls of src/math/rand.c:7-22 *)
Fixpoint rands (k : nat) (s : Z) : list Z :=
  match k with O => [] | S k => fst (rand s) :: rands k (snd (rand s)) end.
