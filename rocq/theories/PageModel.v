(* Model of src/memory/{map_protected,unmap_protected}.c and of the mmap and mprotect
   wrappers. *)
From Verif Require Import Base ConvModel.

Definition PAGESIZE := 4096. (* headers/linux_x64/bits/limits.h:1 *)
(* the pages of the address space by number: None = not mapped, Some prot; for src/memory/mmap.c:8-20 *)
Definition pages := Z -> option Z.
Definition PROT_NONE := 0. (* for include/syscall.h:303-321, include/syscall_stubs.h:470 *)
Definition PROT_RW := 3. (* for src/memory/map_protected.c:22-34 *)
(* for src/memory/mmap.c:8-20 *)
Definition set_pages (pg : pages) (first n : Z) (v : option Z) : pages :=
  fun x => if (first <=? x) && (x <? first + n) then v else pg x.
Definition page_count (len : Z) : Z := (len + 4095) / 4096. (* for src/memory/mmap.c:8-20 *)

(* what a failing system call returns, as an address: -1 with mini_errno, else -errno;
   for src/memory/mmap.c:8-20 *)
Definition bad (mini_errno : bool) (e : Z) : Z := u64 (if mini_errno then -1 else - e).

(* the kernel's mmap of anonymous memory at an address it chooses, and the wrapper
   src/memory/mmap.c:8-20.  [choose len] is the address or the errno. *)
Definition mmap (mini_errno : bool) (choose : Z -> Z + Z) (pg : pages) (len prot : Z) : pages * Z :=
  if len <=? 0 then (pg, bad mini_errno 22)
  else match choose len with
       | inl a => (set_pages pg (a / 4096) (page_count len) (Some prot), a)
       | inr e => (pg, bad mini_errno e)
       end.
(* the kernel's mprotect(addr, 1, prot), and the wrapper include/syscall.h:303-321 with
   include/syscall_stubs.h:470: on success it returns *addr, as int.  [reads]: this load
   is carried out although the result is not used; [word] is the memory's content *)
Definition mprotect1 (reads mini_errno : bool) (word : Z -> Z) (pg : pages) (addr prot : Z) : res (pages * Z) :=
  if negb (addr mod 4096 =? 0) then Ok (pg, s32 (bad mini_errno 22))
  else match pg (addr / 4096) with
       | None => Ok (pg, s32 (bad mini_errno 12))
       | Some _ =>
           let pg := set_pages pg (addr / 4096) 1 (Some prot) in
           if reads && (prot =? PROT_NONE) then Fault else Ok (pg, s32 (word addr))
       end.
(* the kernel's munmap; for src/memory/unmap_protected.c:9-15 *)
Definition munmap (mini_errno : bool) (pg : pages) (addr len : Z) : pages * Z :=
  if negb (addr mod 4096 =? 0) || (len <=? 0) then (pg, if mini_errno then -1 else -22)
  else (set_pages pg (addr / 4096) (page_count len) None, 0).

(* src/memory/map_protected.c:24; int arithmetic *)
Definition round_len (strict : bool) (len : Z) : res Z :=
  let* a := iar strict (PAGESIZE - Z.rem len PAGESIZE) in
  iar strict (len + a).
(* src/memory/map_protected.c:22-34.  The comparison p<=0 of pointers is unsigned: only
   the null pointer passes. *)
Definition map_protected (strict reads mini_errno : bool) (choose : Z -> Z + Z) (word : Z -> Z) (pg : pages) (len : Z) : res (pages * Z) :=
  let* len := round_len strict len in
  let* len := iar strict (len + 2 * PAGESIZE) in
  let '(pg, p) := mmap mini_errno choose pg len PROT_RW in
  if p <=? 0 then Ok (pg, p)
  else
    let* (pg, _) := mprotect1 reads mini_errno word pg p PROT_NONE in
    let* (pg, _) := mprotect1 reads mini_errno word pg (u64 (p + len - PAGESIZE)) PROT_NONE in
    Ok (pg, u64 (p + PAGESIZE)).
(* src/memory/unmap_protected.c:9-15 *)
Definition unmap_protected (strict mini_errno : bool) (pg : pages) (p len : Z) : res (pages * Z) :=
  let* len := round_len strict len in
  let* n := iar strict (len + 2 * PAGESIZE) in
  Ok (munmap mini_errno pg (u64 (p - PAGESIZE)) n).
