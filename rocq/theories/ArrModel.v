(* Model of macros/array.c, macros/linkedlist.c and src/intern/start_c.c. *)
From Verif Require Import Base.

(* ---- macros/array.c ---- *)
(* The struct array (64 bytes at the start of the area) is kept as a record of the fields that are
   used; the bytes behind it are in the memory.  current, next, previous, data are only written.
   for macros/array.c:41-57 *)
Record arr := { a_first : Z; a_last : Z; a_end : Z }.
Definition sizeof_array : Z := 64. (* for macros/array.c:41-57 *)
(* for macros/array.c:41-57 *)
Fixpoint clear (n : nat) (m : mem) (p : Z) : res mem :=
  match n with O => Ok m | S k => let* m := store m p 0 in clear k m (p + 1) end.
(* macros/array.c:41-57; p: what mmap returns, as an address (an error is close to 2^64).  a<=0
   is a comparison of pointers. *)
Definition newarray (m : mem) (p preallocate : Z) : res (mem * option arr) :=
  let preallocate := if preallocate =? 0 then 4096 else preallocate in
  if p <=? 0 then Ok (m, None)
  else
    let* m := clear (Z.to_nat sizeof_array) m p in
    Ok (m, Some {| a_first := p; a_last := p + sizeof_array; a_end := p + preallocate |}).
(* macros/array.c:34-38 *)
Record iter := { i_current : arr; i_index : Z; i_last : Z }.
(* macros/array.c:59-66; first is the array itself *)
Definition getiter (a : arr) : iter := {| i_current := a; i_index := a_first a + sizeof_array; i_last := a_last a |}.
(* macros/array.c:70-74 *)
Definition first (i : iter) : iter * Z :=
  let x := a_first (i_current i) + sizeof_array in ({| i_current := i_current i; i_index := x; i_last := i_last i |}, x).
(* macros/array.c:76-80 *)
Definition current (i : iter) : Z := if i_last i <=? i_index i then 0 else i_index i.
(* macros/array.c:83-92; the message is left out *)
Definition next (i : iter) : iter * Z :=
  let i := {| i_current := i_current i; i_index := i_index i + 1; i_last := i_last i |} in
  (i, if i_index i <? i_last i then i_index i else 0).
(* macros/array.c:96-108; the message is left out *)
Definition push (m : mem) (a : arr) (e : Z) : res (mem * arr * Z) :=
  if a_last a <? a_end a then
    let* c := load m e in
    let* m := store m (a_last a) c in
    let a := {| a_first := a_first a; a_last := a_last a + 1; a_end := a_end a |} in
    Ok (m, a, a_last a)
  else Ok (m, a, 0).

(* ---- macros/linkedlist.c ---- *)
(* the struct list (64 bytes) as a record; a node is 8 bytes; for macros/linkedlist.c:51-65 *)
Record llist := { l_first : Z; l_last : Z; l_memend : Z; l_count : Z }.
(* a pointer variable of 8 bytes; for macros/linkedlist.c:51-65 *)
Fixpoint store8 (n : nat) (m : mem) (p v : Z) : res mem :=
  match n with O => Ok m | S k => let* m := store m p (v mod 256) in store8 k m (p + 1) (v / 256) end.
(* macros/linkedlist.c:51-65; l: what mmap returns.  (node* )l + sizeof(list) is l + 8 * 64, and
   preallocate + l is l + 64 * preallocate; sizeof(list) is 5 * 8 + 6 * 4 = 64. *)
Definition newlist (m : mem) (l preallocate : Z) : res (mem * option llist) :=
  let preallocate := if preallocate =? -1 then 4096 else preallocate in
  if l <=? 0 then Ok (m, None)
  else
    let* m := clear 64 m l in
    let f := l + 512 in
    let* m := store8 8 m f 0 in
    Ok (m, Some {| l_first := f; l_last := f; l_memend := l + 64 * preallocate; l_count := 0 |}).
(* macros/linkedlist.c:51-65 *)
Fixpoint copy (n : nat) (m : mem) (d s : Z) : res mem :=
  match n with O => Ok m | S k => let* c := load m s in let* m := store m d c in copy k m (d + 1) (s + 1) end.
(* macros/linkedlist.c:89-99; the check for the end of the memory does nothing.  last + sizeof(node* )
   is 64 bytes further; len + 16 is the int the pointer is set to. *)
Definition append (m : mem) (l : llist) (e len : Z) : res (mem * llist * Z) :=
  let nx := len + 16 in
  let* m := store8 8 m (l_last l) nx in
  let* m := copy (Z.to_nat len) m (l_last l + 64) e in
  let l := {| l_first := l_first l; l_last := nx; l_memend := l_memend l; l_count := l_count l |} in
  let* m := clear 8 m (l_last l) in
  Ok (m, {| l_first := l_first l; l_last := l_last l; l_memend := l_memend l; l_count := l_count l + 1 |}, l_last l + 64).

(* ---- src/intern/start_c.c ---- *)
(* a memory of 32 bit words, by address; for src/intern/start_c.c:18 *)
Definition words := Z -> option Z.
(* for src/intern/start_c.c:18 *)
Definition word_at (m : words) (a : Z) : res Z := match m a with Some v => Ok v | None => Fault end.
(* src/intern/start_c.c:18 for pointers of ps bytes, 4 or 8: the address behind the null pointer *)
Fixpoint skip_env (fuel : nat) (ps : Z) (m : words) (envp : Z) : res Z :=
  match fuel with
  | O => NoFuel
  | S k =>
      let* lo := word_at m envp in
      let* hi := (if ps =? 8 then word_at m (envp + 4) else Ok 0) in
      if (lo =? 0) && (hi =? 0) then Ok (envp + ps) else skip_env k ps m (envp + ps)
  end.
(* src/intern/start_c.c:21-27: entries of 8 bytes *)
Fixpoint scan_aux (fuel : nat) (m : words) (p : Z) : res Z :=
  match fuel with
  | O => NoFuel
  | S k =>
      let* ty := word_at m p in
      if ty =? 32 then word_at m (p + 4) else scan_aux k m (p + 8)
  end.
(* src/intern/start_c.c:15-28; the value __mini_vsys gets *)
Definition start_c (fuel : nat) (ps : Z) (m : words) (envp : Z) : res Z :=
  let* p := skip_env fuel ps m envp in scan_aux fuel m p.
