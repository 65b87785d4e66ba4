(* Model of src/memory/malloc.c (without mini_malloc_brk and analyzemalloc).

   The buffer mlgl->mbuf / mlgl->ibuf is a map from word index to the 32-bit word
   (as a number 0..2^32-1); [N] is mini_buf, its size in bytes.  A pointer into
   the buffer is its byte offset from mbuf; NULL is 0 (offset 0 is never
   returned).  Access outside ibuf[0..N/4-1] or through a misaligned int pointer
   is [Fault]; misaligned accesses cannot occur when N is a multiple of 4. *)
From Verif Require Import Base.

(* mlgl->ibuf and mlgl->mbufsize: src/memory/malloc.c:142-163 *)
Record ast := mk_ast { words : Z -> Z; msz : Z }.   (* ibuf, mbufsize *)

Definition MBUF_FREE := 2147483648.      (* 0x80000000; src/memory/malloc.c:22 *)
Definition MBUF_PREVISFREE := 536870912. (* 0x20000000; src/memory/malloc.c:33 *)
Definition MBUF_V := 268435455.          (* 0xFFFFFFF; src/memory/malloc.c:41 *)

(* an element of ibuf: src/memory/malloc.c:142-229 *)
Definition geti (N : Z) (w : Z -> Z) (i : Z) : res Z :=
  if (0 <=? i) && (i <? N / 4) then Ok (w i) else Fault.
(* an element of ibuf, written: src/memory/malloc.c:142-229 *)
Definition setw (w : Z -> Z) (i v : Z) : Z -> Z := fun x => if x =? i then v else w x.
(* an element of ibuf, written: src/memory/malloc.c:142-229 *)
Definition seti (N : Z) (w : Z -> Z) (i v : Z) : res (Z -> Z) :=
  if (0 <=? i) && (i <? N / 4) then Ok (setw w i v) else Fault.

(* int + int; [strict]: overflow is undefined, otherwise it wraps (gcc -fwrapv);
   for src/memory/malloc.c:168-229 *)
Definition iadd (strict : bool) (a b : Z) : res Z :=
  if strict then iop (s32 a + s32 b) else Ok (s32 a + s32 b).

(* src/intern/startup.c:50, with whatever the buffer contains *)
Definition init_alloc (N : Z) (w : Z -> Z) : ast := mk_ast w (N - 4).

(* src/memory/malloc.c:142-163; the message written to stderr is not modelled *)
Definition malloc (N : Z) (s : ast) (n : Z) : res (ast * Z) :=
  let* n1 := iop (n - 1) in
  let size := Z.shiftr n1 2 + 2 in
  let* bytes := iop (size * 4) in
  let* rest := iop (msz s - bytes) in
  if rest <? 64 then Ok (s, 0)
  else
    let* v := geti N (words s) (Z.shiftr (msz s) 2) in
    let* w1 := seti N (words s) (Z.shiftr (msz s) 2) (Z.land v MBUF_V) in
    let ms1 := msz s - bytes in
    let* w2 := seti N w1 (Z.shiftr ms1 2) size in
    Ok (mk_ast w2 ms1, ms1 + 4).

(* src/memory/malloc.c:210-213: merge with a free predecessor *)
Definition merge_prev (strict : bool) (N : Z) (w : Z -> Z) (i : Z) : res ((Z -> Z) * Z) :=
  let* v := geti N w i in
  if Z.land v MBUF_PREVISFREE =? 0 then Ok (w, i)
  else
    let* f := geti N w (i - 1) in
    let j := i - s32 f - 1 in
    let* pv := geti N w j in
    let* sum := iadd strict pv v in
    let* w1 := seti N w j (Z.lor (Z.land sum MBUF_V) MBUF_FREE) in
    let* f1 := geti N w1 (i - 1) in
    Ok (w1, i - (s32 f1 + 1)).

(* src/memory/malloc.c:215-225: merge with a free successor or mark it *)
Definition merge_next (strict : bool) (N : Z) (w : Z -> Z) (i : Z) : res (Z -> Z) :=
  let* h := geti N w i in
  let* nx := geti N w (i + Z.land h MBUF_V) in
  if Z.land nx MBUF_FREE =? 0 then
    let* w1 := seti N w (i + Z.land h MBUF_V - 1) (Z.land h MBUF_V - 1) in
    let* h1 := geti N w1 i in
    let* nx1 := geti N w1 (i + Z.land h1 MBUF_V) in
    let* w2 := seti N w1 (i + Z.land h1 MBUF_V) (Z.lor nx1 MBUF_PREVISFREE) in
    let* h2 := geti N w2 i in
    seti N w2 i (Z.lor h2 MBUF_FREE)
  else
    let* sum := iadd strict h nx in
    let* w1 := seti N w i (Z.lor (Z.land sum MBUF_V) MBUF_FREE) in
    let* h1 := geti N w1 i in
    seti N w1 (i + Z.land h1 MBUF_V - 1) (Z.land h1 MBUF_V - 1).

(* src/memory/malloc.c:168-229 *)
Definition free (strict : bool) (N : Z) (s : ast) (p : Z) : res ast :=
  if p =? 0 then Ok s
  else if negb (p mod 4 =? 0) then Fault
  else
    let i := (p - 4) / 4 in
    if msz s =? p - 4 then
      let* v := geti N (words s) i in
      let* ms1 := iop (msz s + Z.land v MBUF_V * 4) in
      if ms1 =? N then Ok (mk_ast (words s) ms1)
      else
        let* u := geti N (words s) (Z.shiftr ms1 2) in
        if Z.land u MBUF_FREE =? 0 then Ok (mk_ast (words s) ms1)
        else let* ms2 := iop (ms1 + Z.land u MBUF_V * 4) in Ok (mk_ast (words s) ms2)
    else
      let* (w1, i1) := merge_prev strict N (words s) i in
      let* w2 := merge_next strict N w1 i1 in
      Ok (mk_ast w2 (msz s)).

(* src/memory/malloc.c:304-307: copy the old contents; k ints are still to be copied,
   d and src are word indices; d = 0 is reached only when malloc returned NULL *)
Fixpoint copy_ints (k : nat) (N : Z) (w : Z -> Z) (d src : Z) : res (Z -> Z) :=
  match k with
  | O => Ok w
  | S k' => let* v := geti N w src in
            let* w1 := seti N w d v in
            copy_ints k' N w1 (d + 1) (src + 1)
  end.

(* src/memory/malloc.c:239-311.  The loop runs while d <= n + 2*oldsize - 1, that is
   (2*oldsize - 1)/4 + 1 times (C division; not at all for oldsize = 0).  The message
   written to stderr is not modelled. *)
Definition realloc (strict : bool) (N : Z) (s : ast) (p n : Z) : res (ast * Z) :=
  if n =? 0 then let* s1 := free strict N s p in Ok (s1, 0)
  else if p =? 0 then malloc N s n
  else if negb (p mod 4 =? 0) then Fault
  else
    let* h := geti N (words s) ((p - 4) / 4) in
    let oldsize := Z.land h MBUF_V in
    let* n1 := iop (n - 1) in
    let* size := iop ((Z.shiftr n1 2 + 2) * 4) in
    if oldsize =? size then Ok (s, p)
    else if size <? oldsize then Ok (s, p)
    else
      let* rest := iop (msz s - size + oldsize * 4) in
      if rest <? 64 then let* s1 := free strict N s p in Ok (s1, 0)
      else
        let* (s1, q) := malloc N s size in
        if q =? 0 then (if oldsize =? 0 then let* s2 := free strict N s1 p in Ok (s2, 0) else Fault)
        else
          let* w2 := copy_ints (if oldsize =? 0 then 0%nat else Z.to_nat ((2 * oldsize - 1) / 4 + 1))
                               N (words s1) (q / 4) (p / 4) in
          let* s2 := free strict N (mk_ast w2 (msz s1)) p in
          Ok (s2, q).

(* ---- the client (not library code) ---- *)

(* byte o of the buffer, and the buffer with byte o replaced (little endian);
   a char of a block that src/memory/malloc.c:142-163 returns *)
Definition getb (w : Z -> Z) (o : Z) : Z := w (o / 4) / 256 ^ (o mod 4) mod 256.
(* the same, written (src/memory/malloc.c:142-163) *)
Definition putb (w : Z -> Z) (o v : Z) : Z -> Z :=
  setw w (o / 4) (w (o / 4) + (v - getb w o) * 256 ^ (o mod 4)).

(* one step of a program that uses the allocator;
   not library code: calls of src/memory/malloc.c:142, 168, 239 and accesses to the blocks *)
Inductive aop :=
| OMalloc (n : Z)          (* call malloc(n) *)
| OFree (p : Z)            (* call free(p) *)
| OWrite (p k v : Z).      (* store byte v at p[k] *)

(* The program's view: its live blocks (pointer, what it expects to find there).
   A program only frees and writes blocks it owns, within the size requested;
   other operations are not performed.  Not library code *)
Definition view := list (Z * list Z).
(* not library code: the blocks of src/memory/malloc.c:142-311 in use *)
Fixpoint lookup (p : Z) (L : view) : option (list Z) :=
  match L with
  | [] => None
  | (q, l) :: r => if q =? p then Some l else lookup p r
  end.
(* not library code: after free, src/memory/malloc.c:168-229 *)
Definition remove (p : Z) (L : view) : view := filter (fun e => negb (fst e =? p)) L.
(* not library code: a char of a block of src/memory/malloc.c:142-163 *)
Fixpoint set_nth (k : nat) (v : Z) (l : list Z) : list Z :=
  match l, k with
  | [], _ => []
  | _ :: r, O => v :: r
  | b :: r, S k' => b :: set_nth k' v r
  end.
(* not library code: a char of a block of src/memory/malloc.c:142-163 *)
Definition update (p k v : Z) (L : view) : view :=
  map (fun e => if fst e =? p then (fst e, set_nth (Z.to_nat k) v (snd e)) else e) L.

(* not library code: one call of src/memory/malloc.c:142, 168, 239 or one access *)
Definition astep (strict : bool) (N : Z) (st : res (ast * view)) (o : aop) : res (ast * view) :=
  let* (s, L) := st in
  match o with
  | OMalloc n =>
      let* (s1, p) := malloc N s n in
      if p =? 0 then Ok (s1, L)
      else Ok (s1, (p, map (fun k => getb (words s1) (p + Z.of_nat k)) (seq 0 (Z.to_nat n))) :: L)
  | OFree p =>
      match lookup p L with
      | None => Ok (s, L)
      | Some _ => let* s1 := free strict N s p in Ok (s1, remove p L)
      end
  | OWrite p k v =>
      match lookup p L with
      | Some l => if (0 <=? k) && (k <? zlen l) && (0 <=? v) && (v <? 256)
                  then Ok (mk_ast (putb (words s) (p + k) v) (msz s), update p k v L)
                  else Ok (s, L)
      | None => Ok (s, L)
      end
  end.
(* not library code: a program calling src/memory/malloc.c:142, 168, 239 *)
Definition arun (strict : bool) (N : Z) (s : ast) (ops : list aop) : res (ast * view) :=
  fold_left (astep strict N) ops (Ok (s, [])).
