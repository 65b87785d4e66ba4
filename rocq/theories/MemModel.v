(* Model of src/memory/mem*.c and calloc.c. *)
From Verif Require Import Base.

(* src/memory/memcpy.c:6-8 (and 26-28 with OPTIMIZE, started at a > 0) *)
Fixpoint memcpy_bytes (fuel : nat) (m : mem) (d s n a : Z) : res mem :=
  match fuel with
  | O => NoFuel
  | S k =>
      if a <? n then
        let* c := load m (s + a) in
        let* m1 := store m (d + a) c in
        let* a' := iop (a + 1) in
        memcpy_bytes k m1 d s n a'
      else Ok m
  end.

(* src/memory/memcpy.c:4-10, without mini_OPTIMIZE *)
Definition memcpy (fuel : nat) (m : mem) (d s n : Z) : res (mem * Z) :=
  let* m1 := memcpy_bytes fuel m d s n 0 in Ok (m1, d).

(* a k-byte object read through a long* or int* lvalue, as its bytes; for src/memory/memcpy.c:16-18 *)
Fixpoint load_bytes (k : nat) (m : mem) (p : Z) : res (list Z) :=
  match k with
  | O => Ok []
  | S k' => let* b := load m p in
            let* r := load_bytes k' m (p + 1) in Ok (b :: r)
  end.
(* for src/memory/memcpy.c:16-18 *)
Fixpoint store_bytes (m : mem) (p : Z) (l : list Z) : res mem :=
  match l with
  | [] => Ok m
  | b :: r => let* m1 := store m p b in store_bytes m1 (p + 1) r
  end.

(* src/memory/memcpy.c:16-18 (k = 8, long) and 21-23 (k = 4, int): the address is
   d+a with a void pointer, so the index a counts bytes although k bytes are copied *)
Fixpoint memcpy_words (k fuel : nat) (m : mem) (d s e a : Z) : res (mem * Z) :=
  match fuel with
  | O => NoFuel
  | S f =>
      if a <? e then
        let* l := load_bytes k m (s + a) in
        let* m1 := store_bytes m (d + a) l in
        let* a' := iop (a + 1) in
        memcpy_words k f m1 d s e a'
      else Ok (m, a)
  end.

(* src/memory/memcpy.c:4-32 with mini_OPTIMIZE *)
Definition memcpy_opt (fuel : nat) (m : mem) (d s n : Z) : res (mem * Z) :=
  if n =? 0 then Ok (m, d)
  else
    let* (m1, a1) := memcpy_words 8 fuel m d s (n / 8) 0 in
    if a1 =? n then Ok (m1, d)
    else
      let* (m2, a2) := memcpy_words 4 fuel m1 d s (n / 4) a1 in
      if a2 =? n then Ok (m2, d)
      else
        let* m3 := memcpy_bytes fuel m2 d s n a2 in Ok (m3, d).

(* src/memory/memmove.c:9-10 *)
Fixpoint memmove_loop (fuel : nat) (m : mem) (d s n : Z) : res mem :=
  match fuel with
  | O => NoFuel
  | S k =>
      let* n' := iop (n - 1) in
      if n >? 0 then
        let* c := load m s in
        let* m1 := store m d c in
        memmove_loop k m1 (d + 1) (s + 1) n'
      else Ok m
  end.
(* src/memory/memmove.c:3-12 *)
Definition memmove (fuel : nat) (m : mem) (dest src n : Z) : res (mem * Z) :=
  let* m1 := memmove_loop fuel m dest src n in Ok (m1, dest).

(* src/memory/memset.c:6-7 *)
Fixpoint memset_loop (fuel : nat) (m : mem) (s c n a : Z) : res mem :=
  match fuel with
  | O => NoFuel
  | S k =>
      if a <? n then
        let* m1 := store m (s + a) (ubyte c) in
        let* a' := iop (a + 1) in
        memset_loop k m1 s c n a'
      else Ok m
  end.
(* src/memory/memset.c:3-9 *)
Definition memset (fuel : nat) (m : mem) (s c n : Z) : res (mem * Z) :=
  let* m1 := memset_loop fuel m s c n 0 in Ok (m1, s).

(* src/memory/memcmp.c:10-17; len already decremented *)
Fixpoint memcmp_loop (fuel : nat) (m : mem) (c1 c2 len a : Z) : res Z :=
  match fuel with
  | O => NoFuel
  | S k =>
      let* x := load m (c1 + a) in
      let* y := load m (c2 + a) in
      if (a <? len) && (schar x =? schar y) then memcmp_loop k m c1 c2 len (a + 1)
      else if schar x >? schar y then Ok 1
      else if schar x <? schar y then Ok (-1)
      else Ok 0
  end.
(* src/memory/memcmp.c:3-18 *)
Definition memcmp (fuel : nat) (m : mem) (c1 c2 len : Z) : res Z :=
  if len <=? 0 then Ok (-1) else memcmp_loop fuel m c1 c2 (len - 1) 0.

(* src/memory/memchr.c:4-7 *)
Fixpoint memchr_loop (fuel : nat) (m : mem) (p e c : Z) : res Z :=
  match fuel with
  | O => NoFuel
  | S k =>
      if p <? e then
        let* b := load m p in
        if b =? c then Ok p else memchr_loop k m (p + 1) e c
      else Ok 0
  end.
(* src/memory/memchr.c:2-9 *)
Definition memchr (fuel : nat) (m : mem) (s c n : Z) : res Z :=
  memchr_loop fuel m s (s + n) c.

(* src/memory/calloc.c:12-13 (k = 8), 16-17 (k = 4), 21-22 (k = 1):
   for ( e = p+size-(k-1); pp<e; pp+=k ) zero k bytes at pp *)
Fixpoint zero_step (k fuel : nat) (m : mem) (pp e : Z) : res (mem * Z) :=
  match fuel with
  | O => NoFuel
  | S f =>
      if pp <? e then
        let* m1 := store_bytes m pp (repeat 0 k) in
        zero_step k f m1 (pp + Z.of_nat k) e
      else Ok (m, pp)
  end.

(* src/memory/calloc.c:2-28; malloc is an argument: the memory and the block it
   returned.  opt = mini_OPTIMIZATIONS with X64. *)
Definition calloc (opt : bool) (fuel : nat) (malloc : mem -> Z -> mem * Z) (m : mem)
  (nmemb size : Z) : res (mem * Z) :=
  let* n := iop (size * nmemb) in
  let (m1, p) := malloc m n in
  if p =? 0 then Ok (m1, 0)
  else
    let* (m2, pp2) := if opt then zero_step 8 fuel m1 p (p + size - 7) else Ok (m1, p) in
    let* (m3, pp3) := if opt then zero_step 4 fuel m2 pp2 (p + size - 3) else Ok (m2, pp2) in
    let* (m4, _) := zero_step 1 fuel m3 pp3 (p + size) in
    Ok (m4, p).
