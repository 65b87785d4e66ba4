(* Generic sorting macros: contrib/qsort.h and contrib/ksort.h.

   The macros are instantiated with an element type and an order.  An array of
   n elements is a function on indices; an access outside of 0..n-1 is [Fault].
   Pointers into an array are modelled by their index.  Comparing an element
   has no effects.  The unsigned long expressions of contrib/qsort.h are
   reduced with u64.  size_t in contrib/ksort.h is long
   (include/globaldefs.h typedef long size_t): an overflow of a sum or product
   is a Fault. *)
From Verif Require Import Base.

Definition arr (A : Type) := Z -> A. (* for contrib/qsort.h:28-35, contrib/ksort.h:74 *)

Section sort.
Context {A : Type}.
Variable lt : A -> A -> bool.   (* the order given to the macro *)

(* an element read: contrib/ksort.h, all accesses; for contrib/qsort.h:28-35, contrib/ksort.h:74 *)
Definition get (n : Z) (a : arr A) (i : Z) : res A :=
  if (0 <=? i) && (i <? n) then Ok (a i) else Fault.
(* for contrib/ksort.h:86-98 *)
Definition set (n : Z) (a : arr A) (i : Z) (v : A) : res (arr A) :=
  if (0 <=? i) && (i <? n) then Ok (fun x => if x =? i then v else a x) else Fault.

(* Q_LESS and Q_SWAP as described in contrib/qsort.h:28-35; also
   __sort_lt( *i, *j) and the swaps of contrib/ksort.h:74 and inline *)
Definition less (n : Z) (a : arr A) (i j : Z) : res bool :=
  let* x := get n a i in let* y := get n a j in Ok (lt x y).
(* contrib/qsort.h:28-35, contrib/ksort.h:74 *)
Definition swap (n : Z) (a : arr A) (i j : Z) : res (arr A) :=
  let* x := get n a i in let* y := get n a j in
  let* a1 := set n a i y in set n a1 j x.

(* ---- contrib/qsort.h ---------------------------------------------------- *)

(* contrib/qsort.h:41-57 Q_SORT3 *)
Definition q_sort3 (n : Z) (a : arr A) (a1 a2 a3 : Z) : res (arr A) :=
  let* b := less n a a2 a1 in
  if b then
    let* b2 := less n a a3 a2 in
    if b2 then swap n a a1 a3
    else let* a' := swap n a a1 a2 in
         let* b3 := less n a' a3 a2 in
         if b3 then swap n a' a2 a3 else Ok a'
  else
    let* b2 := less n a a3 a2 in
    if b2 then
      let* a' := swap n a a2 a3 in
      let* b3 := less n a' a2 a1 in
      if b3 then swap n a' a1 a2 else Ok a'
    else Ok a.

(* contrib/qsort.h:80: do q_i++; while (Q_LESS(q_i, q_l)) *)
Fixpoint q_up (f : nat) (n : Z) (a : arr A) (l i : Z) : res Z :=
  match f with
  | O => NoFuel
  | S f => let i1 := u64 (i + 1) in
           let* b := less n a i1 l in
           if b then q_up f n a l i1 else Ok i1
  end.
(* contrib/qsort.h:81: do q_j--; while (Q_LESS(q_l, q_j)) *)
Fixpoint q_down (f : nat) (n : Z) (a : arr A) (l j : Z) : res Z :=
  match f with
  | O => NoFuel
  | S f => let j1 := u64 (j - 1) in
           let* b := less n a l j1 in
           if b then q_down f n a l j1 else Ok j1
  end.
(* contrib/qsort.h:79-84; g is the budget of the inner loops *)
Fixpoint q_part_loop (f g : nat) (n : Z) (a : arr A) (l i j : Z) : res (arr A * Z) :=
  match f with
  | O => NoFuel
  | S f =>
      let* i1 := q_up g n a l i in
      let* j1 := q_down g n a l j in
      if j1 <=? i1 then Ok (a, j1)
      else let* a1 := swap n a i1 j1 in q_part_loop f g n a1 l i1 j1
  end.
(* contrib/qsort.h:62-91 Q_PARTITION: the array, q_i and q_j *)
Definition q_partition (f : nat) (n : Z) (a : arr A) (l r : Z) : res (arr A * Z * Z) :=
  let m := u64 (l + u64 (r - l) / 2) in
  let* a1 := q_sort3 n a (u64 (l + 1)) m r in
  let* a2 := swap n a1 l m in
  let* (a3, j) := q_part_loop f f n a2 l (u64 (l + 1)) r in
  let i := u64 (j + 1) in
  let* a4 := swap n a3 l j in
  Ok (a4, i, u64 (j - 1)).

(* contrib/qsort.h:106-107 *)
Fixpoint q_ins_inner (f : nat) (n : Z) (a : arr A) (l j : Z) : res (arr A) :=
  match f with
  | O => NoFuel
  | S f =>
      if l <? j then
        let* b := less n a j (u64 (j - 1)) in
        if b then let* a1 := swap n a j (u64 (j - 1)) in q_ins_inner f n a1 l (u64 (j - 1))
        else Ok a
      else Ok a
  end.
(* contrib/qsort.h:100-108 Q_INSERTION_SORT, from q_i on *)
Fixpoint q_insertion (f g : nat) (n : Z) (a : arr A) (l r i : Z) : res (arr A) :=
  match f with
  | O => NoFuel
  | S f =>
      if i <=? r then
        let* a1 := q_ins_inner g n a l i in
        q_insertion f g n a1 l r (u64 (i + 1))
      else Ok a
  end.

(* contrib/qsort.h:118-149 Q_LOOP with Q_SUBFILES (contrib/qsort.h:153-173);
   cap is the number of elements of q_st, st the frames, newest first *)
Fixpoint q_loop (f g cap : nat) (n : Z) (a : arr A) (l r : Z) (st : list (Z * Z)) : res (arr A) :=
  match f with
  | O => NoFuel
  | S f =>
      if 16 <=? u64 (u64 (r - l) + 1) then
        let* (a1, i, j) := q_partition g n a l r in
        let '(l1, r1, l2, r2) :=
          if u64 (r - i) <=? u64 (j - l) then (l, j, i, r) else (i, r, l, j) in
        if l2 =? r2 then q_loop f g cap n a1 l1 r1 st
        else if (length st <? cap)%nat then q_loop f g cap n a1 l2 r2 ((l1, r1) :: st)
        else Fault
      else
        let* a1 := q_insertion g g n a l r (u64 (l + 1)) in
        match st with
        | [] => Ok a1
        | (l', r') :: st' => q_loop f g cap n a1 l' r' st'
        end
  end.
(* contrib/qsort.h:176-183 QSORT *)
Definition qsort_h (f : nat) (cap : nat) (n : Z) (a : arr A) : res (arr A) :=
  if 1 <? n then q_loop f f cap n a 0 (u64 (n - 1)) [] else Ok a.

(* ---- contrib/ksort.h ---------------------------------------------------- *)

(* contrib/ksort.h:86-98: the pass with shift = 0, from a into b *)
Fixpoint ms_pairs (f : nat) (n : Z) (a b : arr A) (i p : Z) : res (arr A) :=
  match f with
  | O => NoFuel
  | S f =>
      if i <? n then
        if i =? n - 1 then
          let* x := get n a i in
          let* b := set n b p x in
          ms_pairs f n a b (i + 2) (p + 1)
        else
          let* x := get n a i in
          let* y := get n a (i + 1) in
          if lt y x then
            let* b := set n b p y in let* b := set n b (p + 1) x in ms_pairs f n a b (i + 2) (p + 2)
          else
            let* b := set n b p x in let* b := set n b (p + 1) y in ms_pairs f n a b (i + 2) (p + 2)
      else Ok b
  end.
(* contrib/ksort.h:113-114: while (j < e) *p++ = *j++ *)
Fixpoint ms_copy (f : nat) (n : Z) (a b : arr A) (j e p : Z) : res (arr A * Z) :=
  match f with
  | O => NoFuel
  | S f =>
      if j <? e then
        let* x := get n a j in
        let* b := set n b p x in
        ms_copy f n a b (j + 1) e (p + 1)
      else Ok (b, p)
  end.
(* contrib/ksort.h:109-114 *)
Fixpoint ms_merge (f : nat) (n : Z) (a b : arr A) (j ea k eb p : Z) : res (arr A) :=
  match f with
  | O => NoFuel
  | S f' =>
      if (j <? ea) && (k <? eb) then
        let* x := get n a j in
        let* y := get n a k in
        if lt y x then let* b := set n b p y in ms_merge f' n a b j ea (k + 1) eb (p + 1)
        else let* b := set n b p x in ms_merge f' n a b (j + 1) ea k eb (p + 1)
      else
        let* (b, p) := ms_copy f n a b j ea p in
        let* (b, p) := ms_copy f n a b k eb p in
        Ok b
  end.
(* contrib/ksort.h:99-116: the other passes *)
Fixpoint ms_blocks (f g : nat) (n : Z) (a b : arr A) (i step : Z) : res (arr A) :=
  match f with
  | O => NoFuel
  | S f =>
      if i <? n then
        let* is := lop (i + step) in
        let* (ea, eb) :=
          (if n <? is then Ok (n, 0)
           else let* i2 := lop (i + step * 2) in Ok (is, if n <? i2 then n else i2)) in
        let* b := ms_merge g n a b i ea is eb i in
        let* i2 := lop (i + step * 2) in
        ms_blocks f g n a b i2 step
      else Ok b
  end.
(* contrib/ksort.h:84-118; a = a2[curr], b = a2[1-curr] *)
Fixpoint ms_loop (f g : nat) (n : Z) (a b : arr A) (curr : bool) (shift : Z) : res (arr A * arr A * bool) :=
  match f with
  | O => NoFuel
  | S f =>
      if 2 ^ shift <? n then
        let* b := (if shift =? 0 then ms_pairs g n a b 0 0 else ms_blocks g g n a b 0 (2 ^ shift)) in
        ms_loop f g n b a (negb curr) (shift + 1)
      else Ok (a, b, curr)
  end.
(* contrib/ksort.h:77-124 ks_mergesort with a temp array (or with a malloc
   that succeeds); result: the array.  shift < 64 as n is a long. *)
Definition mergesort (f : nat) (n : Z) (array temp : arr A) : res (arr A) :=
  let* (a, b, curr) := ms_loop f f n array temp false 0 in
  if curr then (* a2[1] is the source of the copy, a2[0] its target *)
    let* (b, _) := ms_copy f n a b 0 n 0 in Ok b
  else Ok a.

(* contrib/ksort.h:129-133; i is the place of the hole *)
Fixpoint heap_down (f : nat) (n m : Z) (l : arr A) (tmp : A) (i k : Z) : res (arr A * Z) :=
  match f with
  | O => NoFuel
  | S f =>
      let* k2 := lop (k * 2) in
      let* k := lop (k2 + 1) in
      if k <? n then
        let* k := (if k =? n - 1 then Ok k
                   else let* b := less m l k (k + 1) in Ok (if b then k + 1 else k)) in
        let* x := get m l k in
        if lt x tmp then Ok (l, i)
        else let* l := set m l i x in heap_down f n m l tmp k k
      else Ok (l, i)
  end.
(* contrib/ksort.h:125-135 ks_heapadjust; m is the number of elements of l *)
Definition heapadjust (f : nat) (m i n : Z) (l : arr A) : res (arr A) :=
  let* tmp := get m l i in
  let* (l, i) := heap_down f n m l tmp i i in
  set m l i tmp.
(* contrib/ksort.h:139-140 *)
Fixpoint heapmake_loop (f g : nat) (n : Z) (l : arr A) (i : Z) : res (arr A) :=
  match f with
  | O => NoFuel
  | S f =>
      if i =? -1 then Ok l
      else let* l := heapadjust g n i n l in heapmake_loop f g n l (i - 1)
  end.
(* contrib/ksort.h:136-141 ks_heapmake *)
Definition heapmake (f : nat) (n : Z) (l : arr A) : res (arr A) :=
  heapmake_loop f f n l (n / 2 - 1).
(* contrib/ksort.h:145-148 *)
Fixpoint heapsort_loop (f g : nat) (n : Z) (l : arr A) (i : Z) : res (arr A) :=
  match f with
  | O => NoFuel
  | S f =>
      if 0 <? i then
        let* l := swap n l 0 i in
        let* l := heapadjust g n 0 i l in
        heapsort_loop f g n l (i - 1)
      else Ok l
  end.
(* contrib/ksort.h:142-149 ks_heapsort *)
Definition heapsort (f : nat) (n : Z) (l : arr A) : res (arr A) :=
  heapsort_loop f f n l (n - 1).

(* contrib/ksort.h:250: do ++ll; while (lt( *ll, *low)) *)
Fixpoint ks_up (f : nat) (n : Z) (a : arr A) (low ll : Z) : res Z :=
  match f with
  | O => NoFuel
  | S f => let* b := less n a (ll + 1) low in
           if b then ks_up f n a low (ll + 1) else Ok (ll + 1)
  end.
(* contrib/ksort.h:251: do --hh; while (lt( *low, *hh)) *)
Fixpoint ks_down (f : nat) (n : Z) (a : arr A) (low hh : Z) : res Z :=
  match f with
  | O => NoFuel
  | S f => let* b := less n a low (hh - 1) in
           if b then ks_down f n a low (hh - 1) else Ok (hh - 1)
  end.
(* contrib/ksort.h:249-254 *)
Fixpoint ks_part (f g : nat) (n : Z) (a : arr A) (low ll hh : Z) : res (arr A * Z * Z) :=
  match f with
  | O => NoFuel
  | S f =>
      let* ll := ks_up g n a low ll in
      let* hh := ks_down g n a low hh in
      if hh <? ll then Ok (a, ll, hh)
      else let* a := swap n a ll hh in ks_part f g n a low ll hh
  end.
(* contrib/ksort.h:244-246: if (lt( *x, *y)) KSORT_SWAP *)
Definition ks_order (n : Z) (a : arr A) (x y : Z) : res (arr A) :=
  let* b := less n a x y in if b then swap n a x y else Ok a.
(* contrib/ksort.h:237-258, from low and high on; the array and the result *)
Fixpoint ksmall_loop (f g : nat) (n : Z) (a : arr A) (low high k : Z) : res (arr A * A) :=
  match f with
  | O => NoFuel
  | S f =>
      if high <=? low then let* v := get n a k in Ok (a, v)
      else if high =? low + 1 then
        let* a := ks_order n a high low in
        let* v := get n a k in Ok (a, v)
      else
        let mid := low + (high - low) / 2 in
        let* a := ks_order n a high mid in
        let* a := ks_order n a high low in
        let* a := ks_order n a low mid in
        let* a := swap n a mid (low + 1) in
        let* (a, ll, hh) := ks_part g g n a low (low + 1) high in
        let* a := swap n a low hh in
        ksmall_loop f g n a (if hh <=? k then ll else low) (if k <=? hh then hh - 1 else high) k
  end.
(* contrib/ksort.h:233-259 ks_ksmall *)
Definition ksmall (f : nat) (n : Z) (a : arr A) (kk : Z) : res (arr A * A) :=
  ksmall_loop f f n a 0 (n - 1) kk.

(* contrib/ksort.h:154: for (j = i; j > s && ...; --j) *)
Fixpoint is_inner (f : nat) (n : Z) (a : arr A) (s j : Z) : res (arr A) :=
  match f with
  | O => NoFuel
  | S f =>
      if s <? j then
        let* b := less n a j (j - 1) in
        if b then let* a := swap n a j (j - 1) in is_inner f n a s (j - 1) else Ok a
      else Ok a
  end.
(* contrib/ksort.h:153-156, from i on *)
Fixpoint is_loop (f g : nat) (n : Z) (a : arr A) (s t i : Z) : res (arr A) :=
  match f with
  | O => NoFuel
  | S f =>
      if i <? t then let* a := is_inner g n a s i in is_loop f g n a s t (i + 1)
      else Ok a
  end.
(* contrib/ksort.h:150-157 __ks_insertsort, in an array of n elements *)
Definition insertsort (f : nat) (n : Z) (a : arr A) (s t : Z) : res (arr A) :=
  is_loop f f n a s t (s + 1).

(* contrib/ksort.h:170-176; i is the index of *i, the end of the loop is e *)
Fixpoint cs_pass (f : nat) (n : Z) (a : arr A) (gap e i : Z) (sw : bool) : res (arr A * bool) :=
  match f with
  | O => NoFuel
  | S f =>
      if i <? e then
        let* b := less n a (i + gap) i in
        if b then let* a := swap n a i (i + gap) in cs_pass f n a gap e (i + 1) true
        else cs_pass f n a gap e (i + 1) sw
      else Ok (a, sw)
  end.
(* contrib/ksort.h:164-178; the elements base, ..., base + c - 1 are sorted.
   (size_t)(gap / shrink_factor), a division of doubles, is the argument
   shrink; the hypotheses on it are stated with the theorems. *)
Fixpoint cs_loop (shrink : Z -> Z) (f g : nat) (n : Z) (a : arr A) (base c gap : Z) : res (arr A) :=
  match f with
  | O => NoFuel
  | S f =>
      let gap := if 2 <? gap then let q := shrink gap in if (q =? 9) || (q =? 10) then 11 else q
                 else gap in
      let* (a, sw) := cs_pass g n a gap (base + c - gap) base false in
      if sw || (2 <? gap) then cs_loop shrink f g n a base c gap
      else if gap =? 1 then Ok a
      else insertsort g n a base (base + c)
  end.
(* contrib/ksort.h:158-179 ks_combsort of the c elements from base on *)
Definition combsort (shrink : Z -> Z) (f : nat) (n : Z) (a : arr A) (base c : Z) : res (arr A) :=
  cs_loop shrink f f n a base c c.

(* contrib/ksort.h:192: for (d = 2; 1ul<<d < n; ++d) *)
Fixpoint intro_depth (f : nat) (n d : Z) : res Z :=
  match f with
  | O => NoFuel
  | S f => if 63 <? d then Fault else if 2 ^ d <? n then intro_depth f n (d + 1) else Ok d
  end.
(* contrib/ksort.h:209: do ++i; while (lt( *i, rp)) *)
Fixpoint intro_up (f : nat) (n : Z) (a : arr A) (rp : A) (i : Z) : res Z :=
  match f with
  | O => NoFuel
  | S f => let* x := get n a (i + 1) in
           if lt x rp then intro_up f n a rp (i + 1) else Ok (i + 1)
  end.
(* contrib/ksort.h:210: do --j; while (i <= j && lt(rp, *j)) *)
Fixpoint intro_down (f : nat) (n : Z) (a : arr A) (rp : A) (i j : Z) : res Z :=
  match f with
  | O => NoFuel
  | S f =>
      if i <=? j - 1 then
        let* x := get n a (j - 1) in
        if lt rp x then intro_down f n a rp i (j - 1) else Ok (j - 1)
      else Ok (j - 1)
  end.
(* contrib/ksort.h:208-213; the array and i *)
Fixpoint intro_part (f g : nat) (n : Z) (a : arr A) (rp : A) (i j : Z) : res (arr A * Z) :=
  match f with
  | O => NoFuel
  | S f =>
      let* i := intro_up g n a rp i in
      let* j := intro_down g n a rp i j in
      if j <=? i then Ok (a, i)
      else let* a := swap n a i j in intro_part f g n a rp i j
  end.
(* contrib/ksort.h:202-214: the pivot, the partition and the last swap *)
Definition intro_split (f : nat) (n : Z) (a : arr A) (s t : Z) : res (arr A * Z) :=
  let k := s + (t - s) / 2 + 1 in
  let* b := less n a k s in
  let* k := (if b then let* b := less n a k t in Ok (if b then t else k)
             else let* b := less n a t s in Ok (if b then s else t)) in
  let* rp := get n a k in
  let* a := (if k =? t then Ok a else swap n a k t) in
  let* (a, i) := intro_part f f n a rp s t in
  let* a := swap n a i t in
  Ok (a, i).
(* contrib/ksort.h:195-229; st is the stack of cap entries, top first *)
Fixpoint intro_loop (shrink : Z -> Z) (f g : nat) (cap n : Z) (a : arr A) (s t d : Z)
    (st : list (Z * Z * Z)) : res (arr A) :=
  match f with
  | O => NoFuel
  | S f =>
      let push x := if zlen st <? cap then Ok (x :: st) else Fault in
      if s <? t then
        let d := d - 1 in
        if d =? 0 then
          let* a := combsort shrink g n a s (t - s + 1) in
          intro_loop shrink f g cap n a s s d st
        else
          let* (a, i) := intro_split g n a s t in
          if t - i <? i - s then
            let* st := (if 16 <? i - s then push (s, i - 1, d) else Ok st) in
            intro_loop shrink f g cap n a (if 16 <? t - i then i + 1 else t) t d st
          else
            let* st := (if 16 <? t - i then push (i + 1, t, d) else Ok st) in
            intro_loop shrink f g cap n a s (if 16 <? i - s then i - 1 else s) d st
      else
        match st with
        | [] => insertsort g n a 0 n
        | (s, t, d) :: st => intro_loop shrink f g cap n a s t d st
        end
  end.
(* contrib/ksort.h:180-230 ks_introsort; the malloc of line 193 succeeds, it
   has room for sizeof(size_t) * d + 2 entries *)
Definition introsort (shrink : Z -> Z) (f : nat) (n : Z) (a : arr A) : res (arr A) :=
  if n <? 1 then Ok a
  else if n =? 2 then
    let* b := less n a 1 0 in if b then swap n a 0 1 else Ok a
  else
    let* d := intro_depth f n 2 in
    intro_loop shrink f f (8 * d + 2) n a 0 (n - 1) (d * 2) [].

(* contrib/ksort.h:260-268 ks_shuffle; (int)(drand48() * i), the number drawn
   at each step, is the next element of js, a draw outside of 0..i-1 is a
   Fault, n is an int *)
Fixpoint shuffle (n : Z) (a : arr A) (i : Z) (js : list Z) : res (arr A) :=
  if 1 <? i then
    match js with
    | [] => NoFuel
    | j :: js =>
        if (0 <=? j) && (j <? i) then
          let* a := swap n a j (i - 1) in shuffle n a (i - 1) js
        else Fault
    end
  else Ok a.

End sort.
