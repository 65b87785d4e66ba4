(* Model of contrib/kmalloc/kmalloc.c: kmalloc, kcalloc, morecore, kfree,
   kmalloc_usable_size, krealloc, findbucket; compiled with minilib (MLIB defined,
   RCHECK, MSTATS and DEBUG not), on top of sbrk (DirModel).

   kmalloc is defined with an old style parameter list (lines 162-164) and called
   with a long by kcalloc and krealloc: the callee takes the lower 32 bits. *)
From Verif Require Import Base SortModel MemModel ShrinkModel DirModel.

(* headers/linux_x64/bits/limits.h:1, contrib/kmalloc/kmalloc.c:77, 96-110, 112, 126 *)
Definition PAGE := 4096.
Definition OVER := 8. (* headers/linux_x64/bits/limits.h:1, contrib/kmalloc/kmalloc.c:77, 96-110, 112, 126 *)
Definition MAGIC := 239. (* contrib/kmalloc/kmalloc.c:112 *)
Definition NBUCKETS := 30. (* contrib/kmalloc/kmalloc.c:126 *)

(* the data segment and the static variables pagesz, pagebucket and nextf
   (contrib/kmalloc/kmalloc.c:127, 130, 131) *)
Record kst := mkk { kseg : seg; kpg : Z; kpb : Z; kn : Z -> Z }.

(* nextf[b], contrib/kmalloc/kmalloc.c:127 *)
Definition nextf (k : kst) (b : Z) : res Z :=
  if (0 <=? b) && (b <? NBUCKETS) then Ok (kn k b) else Fault.
(* contrib/kmalloc/kmalloc.c:127 *)
Definition set_nextf (k : kst) (b v : Z) : res kst :=
  if (0 <=? b) && (b <? NBUCKETS) then
    Ok (mkk (kseg k) (kpg k) (kpb k) (fun x => if x =? b then v else kn k x))
  else Fault.
(* contrib/kmalloc/kmalloc.c:127 *)
Definition set_mem (k : kst) (m : mem) : kst :=
  mkk (mkseg m (sbk (kseg k))) (kpg k) (kpb k) (kn k).
Definition set_seg (k : kst) (s : seg) : kst := mkk s (kpg k) (kpb k) (kn k). (* contrib/kmalloc/kmalloc.c:127 *)

(* 1 << n for int, contrib/kmalloc/kmalloc.c:272, 415, 423; gcc gives the bits of the
   result when the sign bit is reached *)
Definition shl1 (n : Z) : res Z :=
  if (0 <=? n) && (n <? 32) then Ok (s32 (2 ^ n)) else Fault.

(* contrib/kmalloc/kmalloc.c:188-191 *)
Fixpoint page_bucket (f : nat) (pg amt bucket : Z) : res Z :=
  match f with
  | O => NoFuel
  | S g => if amt <? pg then page_bucket g pg (u32 (amt * 2)) (bucket + 1) else Ok bucket
  end.
(* contrib/kmalloc/kmalloc.c:175-193; false: return NULL (line 183) *)
Definition kinit (lo hi : Z) (k : kst) : res (kst * bool) :=
  if kpg k =? 0 then
    let* (s, op) := sbrk lo hi (kseg k) 0 in
    let n := s64 (PAGE - OVER - Z.land op (PAGE - 1)) in
    let n := if n <? 0 then n + PAGE else n in
    let* (s, r) := (if n =? 0 then Ok (s, 0) else sbrk lo hi s n) in
    if r =? -1 then Ok (mkk s PAGE (kpb k) (kn k), false)
    else
      let* b := page_bucket 40 PAGE 8 0 in
      Ok (mkk s PAGE b (kn k), true)
  else Ok (k, true).

(* contrib/kmalloc/kmalloc.c:212-218; None: return NULL *)
Fixpoint find_class (f : nat) (nbytes n amt bucket : Z) : res (option Z) :=
  match f with
  | O => NoFuel
  | S g =>
      if amt + n <? nbytes then
        let amt := u32 (amt * 2) in
        if amt =? 0 then Ok None else find_class g nbytes n amt (bucket + 1)
      else Ok (Some bucket)
  end.

(* contrib/kmalloc/kmalloc.c:295-298, the remaining number of turns *)
Fixpoint link_blocks (n : nat) (m : mem) (op sz : Z) : res mem :=
  match n with
  | O => Ok m
  | S j => let* m := put_le 8 m op (op + sz) in link_blocks j m (op + sz) sz
  end.
(* contrib/kmalloc/kmalloc.c:259-299 *)
Definition morecore (lo hi : Z) (k : kst) (bucket : Z) : res kst :=
  let* sz := shl1 (bucket + 3) in
  if sz <=? 0 then Ok k
  else
    let '(amt, nblks) := if sz <? kpg k then (kpg k, kpg k / sz) else (sz + kpg k, 1) in
    let* (s, op) := sbrk lo hi (kseg k) amt in
    let k := set_seg k s in
    if op =? -1 then Ok k
    else
      let* k := set_nextf k bucket op in
      let* m := link_blocks (Z.to_nat (nblks - 1)) (sm s) op sz in
      Ok (set_mem k m).

(* contrib/kmalloc/kmalloc.c:229-232, 245 *)
Definition take_block (k : kst) (bucket op : Z) : res (kst * Z) :=
  let* nx := get_le 8 (sm (kseg k)) op in
  let* k := set_nextf k bucket nx in
  let* m := store (sm (kseg k)) op MAGIC in
  let* m := store m (op + 1) (ubyte bucket) in
  Ok (set_mem k m, op + OVER).

(* contrib/kmalloc/kmalloc.c:162-246 *)
Definition kmalloc (lo hi : Z) (k : kst) (nbytes : Z) : res (kst * Z) :=
  let* (k, go) := kinit lo hi k in
  if negb go then Ok (k, 0)
  else
    let n := kpg k - OVER in
    let* c := (if nbytes <=? n then find_class 40 nbytes (- OVER) 8 0
               else find_class 40 nbytes n (kpg k) (kpb k)) in
    match c with
    | None => Ok (k, 0)
    | Some bucket =>
        let* op := nextf k bucket in
        if op =? 0 then
          let* k := morecore lo hi k bucket in
          let* op := nextf k bucket in
          if op =? 0 then Ok (k, 0) else take_block k bucket op
        else take_block k bucket op
    end.

(* contrib/kmalloc/kmalloc.c:248-253; memset takes an int (src/memory/memset.c:3) *)
Definition kcalloc (fuel : nat) (lo hi : Z) (k : kst) (nelem elsize : Z) : res (kst * Z) :=
  let* t := lop (nelem * elsize) in
  let* (k, p) := kmalloc lo hi k (s32 t) in
  let* (m, _) := memset fuel (sm (kseg k)) p 0 (s32 t) in
  Ok (set_mem k m, p).

(* contrib/kmalloc/kmalloc.c:304-331 *)
Definition kfree (k : kst) (cp : Z) : res kst :=
  if cp =? 0 then Ok k
  else
    let op := cp - OVER in
    let* mg := load (sm (kseg k)) op in
    if negb (mg =? MAGIC) then Ok k
    else
      let* size := load (sm (kseg k)) (op + 1) in
      let* nx := nextf k size in
      let* m := put_le 8 (sm (kseg k)) op nx in
      set_nextf (set_mem k m) size op.

(* contrib/kmalloc/kmalloc.c:336-355 *)
Definition kmalloc_usable_size (k : kst) (cp : Z) : res Z :=
  if cp =? 0 then Ok 0
  else
    let* mg := load (sm (kseg k)) (cp - OVER) in
    if negb (mg =? MAGIC) then Ok 0 else load (sm (kseg k)) (cp - OVER + 1).

(* contrib/kmalloc/kmalloc.c:460-464: is the block among the first srchlen of a list *)
Fixpoint search_list (fuel : nat) (m : mem) (p freep j srchlen : Z) : res bool :=
  match fuel with
  | O => NoFuel
  | S f =>
      if negb (p =? 0) && negb (j =? srchlen) then
        if p =? freep then Ok true
        else
          let* nx := get_le 8 m p in search_list f m nx freep (j + 1) srchlen
      else Ok false
  end.
(* contrib/kmalloc/kmalloc.c:458-466, the remaining number of buckets *)
Fixpoint findbucket_loop (n fuel : nat) (k : kst) (freep srchlen : Z) : res Z :=
  match n with
  | O => Ok (-1)
  | S n' =>
      let i := NBUCKETS - Z.of_nat n in
      let* b := search_list fuel (sm (kseg k)) (kn k i) freep 0 srchlen in
      if b then Ok i else findbucket_loop n' fuel k freep srchlen
  end.
(* contrib/kmalloc/kmalloc.c:450-467 *)
Definition findbucket := findbucket_loop 30.

(* the usable bytes of a bucket as krealloc computes them,
   contrib/kmalloc/kmalloc.c:415-419 (and 423-427 with i - 1) *)
Definition usable (k : kst) (i : Z) : res Z :=
  let* onb := shl1 (i + 3) in
  Ok (if u64 onb <? kpg k then u64 (onb - OVER) else u64 (onb + kpg k - OVER)).

(* contrib/kmalloc/kmalloc.c:438-442 *)
Definition krealloc_move (fuel : nat) (lo hi : Z) (k : kst) (cp nbytes onb : Z) : res (kst * Z) :=
  let* (k, r) := kmalloc lo hi k (s32 nbytes) in
  if r =? 0 then Ok (k, 0)
  else if cp =? r then Ok (k, r)
  else
    let* (m, _) := memcpy fuel (sm (kseg k)) r cp
                     (s32 (if u64 nbytes <? onb then nbytes else onb)) in
    Ok (set_mem k m, r).
(* contrib/kmalloc/kmalloc.c:375-443; realloc_srchlen (line 370) is srch *)
Definition krealloc (fuel : nat) (srch lo hi : Z) (k : kst) (cp nbytes : Z) : res (kst * Z) :=
  if cp =? 0 then kmalloc lo hi k (s32 nbytes)
  else if nbytes =? 0 then let* k := kfree k cp in Ok (k, 0)
  else
    let op := cp - OVER in
    let* mg := load (sm (kseg k)) op in
    if mg =? MAGIC then
      let* i := load (sm (kseg k)) (op + 1) in
      let* onb := usable k i in
      let* low := (if i =? 0 then Ok 0 else usable k (i - 1)) in
      if (u64 nbytes <=? onb) && (low <? nbytes) then Ok (k, cp)
      else
        let* k := kfree k cp in
        krealloc_move fuel lo hi k cp nbytes onb
    else
      let* i := findbucket fuel k op 1 in
      let* i := (if i <? 0 then findbucket fuel k op srch else Ok i) in
      let i := if i <? 0 then NBUCKETS else i in
      let* onb := usable k i in
      krealloc_move fuel lo hi k cp nbytes onb.

(* a program that uses the allocator: it keeps its pointers in a list, the newest
   first, and the pointers it ever got.  This is no code of the library, it calls
   kmalloc, kcalloc, krealloc and kfree (contrib/kmalloc/kmalloc.c:162, 248, 304, 375)
   and writes bytes. *)
Inductive kop := KMalloc (n : Z) | KCalloc (a b : Z) | KRealloc (i : nat) (n : Z)
  | KFree (i : nat) | KWrite (i : nat) (off v : Z).
Record prog := mkp { pk : kst; ptrs : list Z; ever : list Z }. (* contrib/kmalloc/kmalloc.c:162, 248, 304, 375 *)
(* contrib/kmalloc/kmalloc.c:162, 248, 304, 375 *)
Fixpoint without {A} (i : nat) (l : list A) : list A :=
  match i, l with
  | _, [] => []
  | O, _ :: r => r
  | S j, a :: r => a :: without j r
  end.
(* a pointer joins the list unless it is NULL;
   not library code, the results of contrib/kmalloc/kmalloc.c:162, 248, 375 *)
Definition keep (k : kst) (p : Z) (ps es : list Z) : prog :=
  if p =? 0 then mkp k ps es else mkp k (p :: ps) (p :: es).
(* not library code: one call of contrib/kmalloc/kmalloc.c:162, 248, 304, 375 or one access *)
Definition kstep (fuel : nat) (srch lo hi : Z) (c : prog) (o : kop) : res prog :=
  match o with
  | KMalloc n => let* (k, p) := kmalloc lo hi (pk c) n in Ok (keep k p (ptrs c) (ever c))
  | KCalloc a b => let* (k, p) := kcalloc fuel lo hi (pk c) a b in Ok (keep k p (ptrs c) (ever c))
  | KRealloc i n =>
      match nth_error (ptrs c) i with
      | None => Fault
      | Some p =>
          let* (k, q) := krealloc fuel srch lo hi (pk c) p n in
          Ok (keep k q (without i (ptrs c)) (ever c))
      end
  | KFree i =>
      match nth_error (ptrs c) i with
      | None => Fault
      | Some p => let* k := kfree (pk c) p in Ok (mkp k (without i (ptrs c)) (ever c))
      end
  | KWrite i off v =>
      match nth_error (ptrs c) i with
      | None => Fault
      | Some p =>
          let* m := store (sm (kseg (pk c))) (p + off) v in
          Ok (mkp (set_mem (pk c) m) (ptrs c) (ever c))
      end
  end.
(* not library code: a program calling contrib/kmalloc/kmalloc.c:162, 248, 304, 375 *)
Fixpoint krun (fuel : nat) (srch lo hi : Z) (c : prog) (os : list kop) : res prog :=
  match os with
  | [] => Ok c
  | o :: r => let* c := kstep fuel srch lo hi c o in krun fuel srch lo hi c r
  end.
