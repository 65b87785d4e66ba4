(* Model of src/memory/malloc.c with mini_malloc_brk: malloc, free and realloc for programs which use
   malloc (the buffer of mini_buf) and malloc_brk (the data segment) together.  The two allocators are those
   of AllocModel and DirModel; what is new here is how free and realloc tell the blocks apart, and the way of
   a block of the data segment into the buffer (src/memory/malloc.c:293-311). *)
From Verif Require Import Base SortModel ShrinkModel AllocModel DirModel.

(* the buffer with mbufsize (src/memory/malloc.c:142-163), the data segment, mlgl->malloc_start
   (src/memory/malloc_brk.c:28-29) *)
Record heap := mkheap { h_buf : ast; h_seg : DirModel.seg; h_start : Z }.

Section mix.
Variables B N : Z.       (* address and size of mlgl->mbuf *)
Variables lo hi : Z.     (* lowest and highest break *)
Variable strict : bool.  (* as in AllocModel *)

(* is there a byte of mlgl->mbuf at p; for src/memory/malloc.c:142-311 *)
Definition in_buf (p : Z) : bool := (B <=? p) && (p <? B + N).
(* the int at p, in the buffer or elsewhere; for src/memory/malloc.c:172-179, 251-255, 304-307.  Misaligned
   accesses to the buffer are Fault as in AllocModel *)
Definition geth (h : heap) (p : Z) : res Z :=
  if in_buf p then (if (p - B) mod 4 =? 0 then geti N (words (h_buf h)) ((p - B) / 4) else Fault)
  else get_le 4 (sm (h_seg h)) p.

(* src/memory/malloc.c:142-163 *)
Definition mmalloc (h : heap) (n : Z) : res (heap * Z) :=
  let* (s, q) := AllocModel.malloc N (h_buf h) n in
  Ok (mkheap s (h_seg h) (h_start h), if q =? 0 then 0 else B + q).
(* src/memory/malloc_brk.c:16-39 *)
Definition mmalloc_brk (h : heap) (n : Z) : res (heap * Z) :=
  let* (s, start, p) := malloc_brk lo hi (h_seg h) (h_start h) n in
  Ok (mkheap (h_buf h) s start, p).

(* src/memory/malloc.c:168-229.  A word of the buffer with the flag MALLOC_BRK, and a word elsewhere without it,
   are no headers of blocks: NoFuel, not modelled *)
Definition mfree (h : heap) (p : Z) : res heap :=
  if p =? 0 then Ok h
  else
    let* v := geth h (p - 4) in
    if negb (Z.land v MALLOC_BRK =? 0) then
      if in_buf (p - 4) then NoFuel
      else let* s := free_blk lo hi (h_seg h) p in Ok (mkheap (h_buf h) s (h_start h))
    else
      if in_buf (p - 4) then
        let* s := AllocModel.free strict N (h_buf h) (p - B) in Ok (mkheap s (h_seg h) (h_start h))
      else NoFuel.

(* src/memory/malloc.c:304-307: k ints are still to be copied from address src to the word d of the buffer *)
Fixpoint mcopy (k : nat) (h : heap) (d src : Z) : res heap :=
  match k with
  | O => Ok h
  | S k' => let* v := geth h src in
            let* w := seti N (words (h_buf h)) d v in
            mcopy k' (mkheap (mk_ast w (msz (h_buf h))) (h_seg h) (h_start h)) (d + 1) (src + 4)
  end.

(* src/memory/malloc.c:240-311; the loop as in AllocModel.realloc.  The message written to stderr is not modelled *)
Definition mrealloc (h : heap) (p n : Z) : res (heap * Z) :=
  if n =? 0 then let* h := mfree h p in Ok (h, 0)
  else if p =? 0 then mmalloc h n
  else
    let* v := geth h (p - 4) in
    let oldsize := Z.land v MBUF_V in
    let* size := brk_size n in
    if oldsize =? size then Ok (h, p)
    else if negb (Z.land v MALLOC_BRK =? 0) && (sbk (h_seg h) <=? p + oldsize) then
      if in_buf (p - 4) then NoFuel
      else
        let '(s, ret) := brk lo hi (h_seg h) (p - 4 + size) in
        if negb (ret =? 0) then Ok (mkheap (h_buf h) s (h_start h), 0)
        else
          let* m := put_le 4 (sm s) (p - 4) (Z.lor MALLOC_BRK size) in
          Ok (mkheap (h_buf h) (mkseg m (sbk s)) (h_start h), p)
    else if size <? oldsize then Ok (h, p)
    else
      let* rest := iop (msz (h_buf h) - size + oldsize * 4) in
      if rest <? 64 then let* h := mfree h p in Ok (h, 0)
      else
        let* (h1, q) := mmalloc h size in
        if q =? 0 then (if oldsize =? 0 then let* h2 := mfree h1 p in Ok (h2, 0) else Fault)
        else
          let* h2 := mcopy (if oldsize =? 0 then 0%nat else Z.to_nat ((2 * oldsize - 1) / 4 + 1)) h1 ((q - B) / 4) p in
          let* h3 := mfree h2 p in
          Ok (h3, q).

(* ---- a program that uses both (not library code) ---- *)
(* calls for blocks of the buffer, given by their offsets, and for the stack of blocks of the data segment;
   src/memory/malloc.c:142, 168, 240, src/memory/malloc_brk.c:16 *)
Inductive mop := InBuf (o : aop) | InSeg (o : bop).
(* the heap, the blocks of the buffer with what the program expects there, the pointers to the blocks of the data
   segment; not library code: one call of src/memory/malloc.c:142, 168, 240, src/memory/malloc_brk.c:16 or one access *)
Definition mstep (st : heap * view * list Z) (o : mop) : res (heap * view * list Z) :=
  let '(h, L, ps) := st in
  match o with
  | InBuf (OMalloc n) =>
      let* (h, p) := mmalloc h n in
      if p =? 0 then Ok (h, L, ps)
      else Ok (h, (p - B, map (fun k => getb (words (h_buf h)) (p - B + Z.of_nat k)) (seq 0 (Z.to_nat n))) :: L, ps)
  | InBuf (OFree p) =>
      match lookup p L with None => Ok (h, L, ps) | Some _ => let* h := mfree h (B + p) in Ok (h, remove p L, ps) end
  | InBuf (OWrite p k v) =>
      match lookup p L with
      | Some l => if (0 <=? k) && (k <? zlen l) && (0 <=? v) && (v <? 256)
                  then Ok (mkheap (mk_ast (putb (words (h_buf h)) (p + k) v) (msz (h_buf h))) (h_seg h) (h_start h), update p k v L, ps)
                  else Ok (h, L, ps)
      | None => Ok (h, L, ps)
      end
  | InSeg (BMalloc n) => let* (h, p) := mmalloc_brk h n in Ok (h, L, p :: ps)
  | InSeg (BRealloc n) =>
      match ps with [] => Fault | p :: ps' => let* (h, p) := mrealloc h p n in Ok (h, L, p :: ps') end
  | InSeg (BFree i) =>
      match nth_error ps i with None => Fault | Some p => let* h := mfree h p in Ok (h, L, drop i ps) end
  | InSeg (BWrite i off v) =>
      match nth_error ps i with
      | None => Fault
      | Some p => let* m := store (sm (h_seg h)) (p + off) v in Ok (mkheap (h_buf h) (mkseg m (sbk (h_seg h))) (h_start h), L, ps)
      end
  end.
(* not library code: a program calling src/memory/malloc.c:142, 168, 240 and src/memory/malloc_brk.c:16 *)
Fixpoint mrun (st : heap * view * list Z) (os : list mop) : res (heap * view * list Z) :=
  match os with [] => Ok st | o :: r => let* st := mstep st o in mrun st r end.
End mix.
