(* Model of src/sort/{swap,qsort,bsearch}.c.  The comparison callback is a function
   of the bytes of the two elements it is given (it may depend on anything else that
   the sort does not change); reading them is part of the model. *)
From Verif Require Import Base.

(* the n bytes at a; for src/sort/bsearch.c:65-76 *)
Fixpoint loads (n : nat) (m : mem) (a : Z) : res (list Z) :=
  match n with
  | O => Ok []
  | S k => let* b := load m a in let* r := loads k m (a + 1) in Ok (b :: r)
  end.
(* for src/directories/scandir.c:61-88 *)
Fixpoint stores (m : mem) (a : Z) (l : list Z) : res mem :=
  match l with [] => Ok m | b :: r => let* m := store m a b in stores m (a + 1) r end.

(* src/sort/swap.c:7 (12, 17), the three xor instructions on the operands x, y,
   byte by byte: y ^= x; x ^= y; y ^= x *)
Definition xorl (x y : list Z) : list Z := map (fun p => Z.lxor (fst p) (snd p)) (combine x y).
(* src/sort/swap.c:7 *)
Definition xor_swap (x y : list Z) : list Z * list Z :=
  let y := xorl y x in let x := xorl x y in let y := xorl y x in (x, y).
(* one asm statement on operands of n bytes; for src/sort/swap.c:16-20 *)
Definition swap_word (n : nat) (m : mem) (a b : Z) : res mem :=
  let* x := loads n m a in
  let* y := loads n m b in
  let (x, y) := xor_swap x y in
  let* m := stores m a x in
  stores m b y.
(* src/sort/swap.c:16-20 *)
Fixpoint swap_bytes (n : nat) (m : mem) (a b : Z) : res mem :=
  match n with
  | O => Ok m
  | S k => let* m := swap_word 1 m a b in swap_bytes k m (a + 1) (b + 1)
  end.
(* src/sort/swap.c:5-21; size is converted to int by the call.  A negative size
   would count down from a negative number; not modelled, the result is NoFuel. *)
Definition swap (m : mem) (a b size : Z) : res mem :=
  let size := s32 size in
  if size =? 4 then swap_word 4 m a b
  else if size =? 8 then swap_word 8 m a b
  else if size <? 0 then NoFuel
  else swap_bytes (Z.to_nat size) m a b.

Section qsort.
Variable comp : list Z -> list Z -> Z.

(* the call comp(a, b) on elements of the given width; for src/sort/qsort.c:52-66 *)
Definition call_comp (m : mem) (width a b : Z) : res Z :=
  let* x := loads (Z.to_nat width) m a in
  let* y := loads (Z.to_nat width) m b in
  Ok (comp x y).

(* src/sort/qsort.c:47-48; gap on entry is the value before ++gap *)
Fixpoint gap_up (fuel : nat) (nel gap : Z) : res Z :=
  match fuel with
  | O => NoFuel
  | S k =>
      let* gap := lop (gap + 1) in
      if gap <? nel then let* gap := lop (gap * 3) in gap_up k nel gap else Ok gap
  end.
(* src/sort/qsort.c:52-66 *)
Fixpoint sift (fuel : nat) (m : mem) (base width wgap j : Z) : res mem :=
  match fuel with
  | O => NoFuel
  | S k =>
      let a := j + base in
      let b := a + wgap in
      let* c := call_comp m width a b in
      if c <=? 0 then Ok m
      else
        let* m := swap m a b width in
        if j <? wgap then Ok m
        else let* j := lop (j - wgap) in sift k m base width wgap j
  end.
(* src/sort/qsort.c:51-67; n is the budget of this loop *)
Fixpoint pass (n fuel : nat) (m : mem) (base width wgap wnel i : Z) : res mem :=
  match n with
  | O => NoFuel
  | S k =>
      if i <? wnel then
        let* j := lop (i - wgap) in
        let* m := sift fuel m base width wgap j in
        let* i := lop (i + width) in
        pass k fuel m base width wgap wnel i
      else Ok m
  end.
(* src/sort/qsort.c:49-68; g is the outer loop budget *)
Fixpoint passes (g fuel : nat) (m : mem) (base width wnel gap : Z) : res mem :=
  match g with
  | O => NoFuel
  | S k =>
      let gap := Z.quot gap 3 in
      if gap =? 0 then Ok m
      else
        let* wgap := lop (width * gap) in
        let* m := pass fuel fuel m base width wgap wnel wgap in
        passes k fuel m base width wnel gap
  end.
(* src/sort/qsort.c:35-69 *)
Definition qsort (fuel : nat) (m : mem) (base nel width : Z) : res mem :=
  let* wnel := lop (width * nel) in
  let* gap := gap_up fuel nel 0 in
  passes fuel fuel m base width wnel gap.
End qsort.

Section bsearch.
(* compar(key, p) as a function of the bytes of the element p *)
Variable compar : list Z -> Z.

(* src/sort/bsearch.c:65-76 *)
Fixpoint bsearch_loop (fuel : nat) (m : mem) (base lim size : Z) : res Z :=
  match fuel with
  | O => NoFuel
  | S k =>
      if lim =? 0 then Ok 0
      else
        let* off := lop (Z.shiftr lim 1 * size) in
        let p := base + off in
        let* e := loads (Z.to_nat size) m p in
        let cmp := compar e in
        if cmp =? 0 then Ok p
        else if 0 <? cmp then
          let* lim := lop (lim - 1) in
          bsearch_loop k m (p + size) (Z.shiftr lim 1) size
        else bsearch_loop k m base (Z.shiftr lim 1) size
  end.
(* src/sort/bsearch.c:55-77 *)
Definition bsearch (fuel : nat) (m : mem) (base nmemb size : Z) : res Z :=
  bsearch_loop fuel m base nmemb size.
End bsearch.
