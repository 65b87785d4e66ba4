(* Model of src/memory/{sys_brk,brk,sbrk,getbrk,setbrk}.c with the break the library remembers
   (mini_globals, mini_errno; errno is not modelled). *)
From Verif Require Import Base.

(* the memory of the data segment and the break of the kernel; mlgl->brk, 0 before the first use
   (src/intern/minilib_global.c, include/globaldefs.h); for src/memory/sys_brk.c:4-8 *)
Record bst := mkb { bm : mem; kb : Z; gb : Z }.

(* not minilib code: the kernel's brk.  The break moves unless the address is below lo, the end of the
   program, or above hi, the limit; new memory is zero; the result is the break in both cases.  Memory is
   accessible up to the break exactly; the kernel rounds up to pages.  src/memory/sys_brk.c:4-8 *)
Definition sys_brk (lo hi : Z) (s : bst) (addr : Z) : bst * Z :=
  if (lo <=? addr) && (addr <=? hi)
  then (mkb (fun x => if x <? lo then bm s x else if addr <=? x then None else if kb s <=? x then Some 0 else bm s x) addr (gb s), addr)
  else (s, kb s).
(* src/memory/brk.c:8-25; the address is taken as unsigned long *)
Definition brk (lo hi : Z) (s : bst) (addr : Z) : bst * Z :=
  let '(s, newbrk) := sys_brk lo hi s (u64 addr) in
  if 0 <? s64 newbrk then (mkb (bm s) (kb s) (s64 newbrk), 0) else (s, -1).
(* src/memory/setbrk.c:5-7 *)
Definition setbrk (lo hi : Z) (s : bst) (addr : Z) : bst * Z := brk lo hi s addr.
(* src/memory/getbrk.c:5-16 *)
Definition getbrk (lo hi : Z) (s : bst) : bst * Z :=
  let s := (if gb s =? 0 then let '(s, r) := sys_brk lo hi s 0 in mkb (bm s) (kb s) (s64 r) else s) in
  (s, gb s).
(* src/memory/sbrk.c:9-31 *)
Definition sbrk (lo hi : Z) (s : bst) (incr : Z) : res (bst * Z) :=
  let '(s, ret) := getbrk lo hi s in
  let* addr := lop (ret + incr) in
  let '(s, newbrk) := sys_brk lo hi s (u64 addr) in
  if 0 <? s64 newbrk then Ok (mkb (bm s) (kb s) (s64 newbrk), ret) else Ok (s, 0).
