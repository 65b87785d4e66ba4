(* Model of src/string/*.c (see each definition for file and lines).
   Addresses are unbounded integers, so pointer arithmetic never wraps.
   A C loop is recursion on [fuel]; running out of it yields [NoFuel]. *)
From Verif Require Import Base.

(* src/string/strlen.c:10-14, the while loop; `a` is an int *)
Fixpoint strlen_loop (fuel : nat) (m : mem) (str a : Z) : res Z :=
  match fuel with
  | O => NoFuel
  | S k =>
      let* c := load m (str + a) in
      if c =? 0 then Ok a
      else let* a' := iop (a + 1) in strlen_loop k m str a'
  end.

(* src/string/strlen.c:6-15 *)
Definition strlen (fuel : nat) (m : mem) (str : Z) : res Z :=
  if str =? 0 then Ok 0 else strlen_loop fuel m str 0.

(* src/string/strnlen.c:12-18 *)
Fixpoint strnlen_loop (fuel : nat) (m : mem) (str max a : Z) : res Z :=
  match fuel with
  | O => NoFuel
  | S k =>
      let* c := load m (str + a) in
      if c =? 0 then Ok a
      else let* a' := iop (a + 1) in
           if a' >=? max then Ok max else strnlen_loop k m str max a'
  end.

(* src/string/strnlen.c:8-19 *)
Definition strnlen (fuel : nat) (m : mem) (str max : Z) : res Z :=
  if str =? 0 then Ok 0 else strnlen_loop fuel m str max 0.

(* src/string/strcpy.c:5-7: the for loop and the final `*d = 0`;
   returns the memory and the final d.
   src/string/stpcpy.c:5-10 is the same loop written with while. *)
Fixpoint strcpy_loop (fuel : nat) (m : mem) (d src : Z) : res (mem * Z) :=
  match fuel with
  | O => NoFuel
  | S k =>
      let* c := load m src in
      if c =? 0 then let* m1 := store m d 0 in Ok (m1, d)
      else let* m1 := store m d c in strcpy_loop k m1 (d + 1) (src + 1)
  end.

(* src/string/strcpy.c:3-9 *)
Definition strcpy (fuel : nat) (m : mem) (dest src : Z) : res (mem * Z) :=
  let* (m1, _) := strcpy_loop fuel m dest src in Ok (m1, dest).

(* src/string/stpcpy.c:3-12 *)
Definition stpcpy (fuel : nat) (m : mem) (dest src : Z) : res (mem * Z) :=
  strcpy_loop fuel m dest src.

(* src/string/strcat.c:9-11; i is a size_t (long) and cannot overflow *)
Fixpoint strcat_loop (fuel : nat) (m : mem) (dest src dest_len i : Z) : res mem :=
  match fuel with
  | O => NoFuel
  | S k =>
      let* c := load m (src + i) in
      if c =? 0 then store m (dest + (dest_len + i)) 0
      else let* m1 := store m (dest + (dest_len + i)) c in
           strcat_loop k m1 dest src dest_len (i + 1)
  end.

(* src/string/strcat.c:5-14 *)
Definition strcat (fuel : nat) (m : mem) (dest src : Z) : res (mem * Z) :=
  let* dest_len := strlen fuel m dest in
  let* m1 := strcat_loop fuel m dest src dest_len 0 in
  Ok (m1, dest).

(* src/string/strncat.c:7-8 *)
Fixpoint find_end (fuel : nat) (m : mem) (d : Z) : res Z :=
  match fuel with
  | O => NoFuel
  | S k =>
      let* c := load m d in
      if c =? 0 then Ok d else find_end k m (d + 1)
  end.

(* src/string/strncat.c:9-13; n unsigned, tested before the copy of the byte *)
Fixpoint strncat_loop (fuel : nat) (m : mem) (d src n : Z) : res mem :=
  match fuel with
  | O => NoFuel
  | S k =>
      if n =? 0 then store m d 0
      else
        let* c := load m src in
        let* m1 := store m d c in
        if c =? 0 then store m1 d 0
        else strncat_loop k m1 (d + 1) (src + 1) (n - 1)
  end.

(* src/string/strncat.c:2-16 *)
Definition strncat (fuel : nat) (m : mem) (dst src n : Z) : res (mem * Z) :=
  if n =? 0 then Ok (m, dst)
  else
    let* d := find_end fuel m dst in
    let* m1 := strncat_loop fuel m d src n in
    Ok (m1, dst).

(* `for (;a<n;a++) dest[a]=0`: src/string/strncpy.c:14-15 and, with
   d<e pointers, src/string/stpncpy.c:15-17 *)
Fixpoint zero_fill (fuel : nat) (m : mem) (dest a n : Z) : res mem :=
  match fuel with
  | O => NoFuel
  | S k =>
      if a <? n then let* m1 := store m (dest + a) 0 in zero_fill k m1 dest (a + 1) n
      else Ok m
  end.

(* src/string/strncpy.c:9-15; src[a] is read before a is compared with n *)
Fixpoint strncpy_loop (fuel : nat) (m : mem) (dest src n a : Z) : res mem :=
  match fuel with
  | O => NoFuel
  | S k =>
      let* c := load m (src + a) in
      if c =? 0 then zero_fill (S k) m dest a n
      else if a >=? n then Ok m
      else let* m1 := store m (dest + a) c in strncpy_loop k m1 dest src n (a + 1)
  end.

(* src/string/strncpy.c:7-17 *)
Definition strncpy (fuel : nat) (m : mem) (dest src n : Z) : res (mem * Z) :=
  let* m1 := strncpy_loop fuel m dest src n 0 in Ok (m1, dest).

(* src/string/strlcpy.c:7-14 with `a` the value before the increment *)
Fixpoint strlcpy_loop (fuel : nat) (m : mem) (dest src n a : Z) : res mem :=
  match fuel with
  | O => NoFuel
  | S k =>
      let a1 := a + 1 in
      let* lim := iop (n - 1) in
      if a1 >=? lim then store m (dest + lim) 0
      else
        let* c := load m (src + a1) in
        let* m1 := store m (dest + a1) c in
        let* c' := load m1 (src + a1) in
        if c' =? 0 then Ok m1 else strlcpy_loop k m1 dest src n a1
  end.

(* src/string/strlcpy.c:5-17 *)
Definition strlcpy (fuel : nat) (m : mem) (dest src n : Z) : res (mem * Z) :=
  let* m1 := strlcpy_loop fuel m dest src n (-1) in Ok (m1, dest).

(* the copy loop common to src/string/stpncpy.c:9-13 and
   src/string/stplcpy.c:7-11; *src is read before d<e is tested *)
Fixpoint stpn_loop (fuel : nat) (m : mem) (d e src : Z) : res (mem * Z) :=
  match fuel with
  | O => NoFuel
  | S k =>
      let* c := load m src in
      if (negb (c =? 0)) && (d <? e)
      then let* m1 := store m d c in stpn_loop k m1 (d + 1) e (src + 1)
      else Ok (m, d)
  end.

(* src/string/stpncpy.c:6-20 *)
Definition stpncpy (fuel : nat) (m : mem) (dest src size : Z) : res (mem * Z) :=
  let e := dest + size in
  let* (m1, d) := stpn_loop fuel m dest e src in
  let* m2 := zero_fill fuel m1 0 d e in
  Ok (m2, d).

(* src/string/stplcpy.c:4-15 *)
Definition stplcpy (fuel : nat) (m : mem) (dest src size : Z) : res (mem * Z) :=
  let e := dest + size in
  let* (m1, d) := stpn_loop fuel m dest e src in
  let* m2 := store m1 d 0 in
  Ok (m2, d).

(* src/string/strcmp.c:10-18; chars are compared for equality, which agrees
   with equality of bytes; `--n` on an int may underflow *)
Fixpoint strcmp_loop (fuel : nat) (m : mem) (s1 s2 n : Z) : res Z :=
  match fuel with
  | O => NoFuel
  | S k =>
      let* c1 := load m s1 in
      let* c2 := load m s2 in
      if negb (c1 =? c2) then Ok (c1 - c2)
      else if c1 =? 0 then Ok 0
      else let* n' := iop (n - 1) in
           if n' =? 0 then Ok 0 else strcmp_loop k m (s1 + 1) (s2 + 1) n'
  end.

(* src/string/strcmp.c:36-38 *)
Definition strcmp (fuel : nat) (m : mem) (c1 c2 : Z) : res Z :=
  strcmp_loop fuel m c1 c2 (-1).

(* src/string/strcmp.c:44-50 *)
Definition strncmp (fuel : nat) (m : mem) (c1 c2 len : Z) : res Z :=
  if len =? 0 then Ok 0
  else if len <? 0 then Ok (-1)
  else strcmp_loop fuel m c1 c2 len.

(* include/ctype.h:12 `_tolower(a) ((a)|0x20)` on an int *)
Definition c_tolower (a : Z) : Z := Z.lor a 32.

(* src/string/strcasecmp.c:5-19; chars promoted to int keep their sign *)
Fixpoint strcasecmp_loop (fuel : nat) (m : mem) (c1 c2 len a : Z) : res Z :=
  match fuel with
  | O => NoFuel
  | S k =>
      let* x := load m (c1 + a) in
      let* y := if x =? 0 then Ok 0 else load m (c2 + a) in
      if negb (x =? 0) && negb (y =? 0) && negb (a =? len) then
        if negb (x =? y) && (c_tolower (schar x) >? c_tolower (schar y)) then Ok 1
        else if negb (x =? y) && (c_tolower (schar x) <? c_tolower (schar y)) then Ok (-1)
        else let* a' := iop (a + 1) in strcasecmp_loop k m c1 c2 len a'
      else
        (* line 16: c2[a] is only read when c1[a] == 0 *)
        if x =? 0 then let* z := load m (c2 + a) in if z =? 0 then Ok 0 else Ok 1
        else Ok 1
  end.

(* src/string/strcasecmp.c:26-28 *)
Definition strcasecmp (fuel : nat) (m : mem) (c1 c2 : Z) : res Z :=
  strcasecmp_loop fuel m c1 c2 (-1) 0.

(* src/string/strcasecmp.c:34-38 *)
Definition strncasecmp (fuel : nat) (m : mem) (c1 c2 len : Z) : res Z :=
  if len <=? 0 then Ok (-1) else strcasecmp_loop fuel m c1 c2 len 0.

(* src/string/strchrnul.c:3-12; `*s==c` compares a signed char with an int *)
Fixpoint strchrnul (fuel : nat) (m : mem) (s c : Z) : res Z :=
  match fuel with
  | O => NoFuel
  | S k =>
      let* b := load m s in
      if b =? 0 then Ok s
      else if schar b =? c then Ok s
      else strchrnul k m (s + 1) c
  end.

(* src/string/strchr.c:6-17 *)
Definition strchr (fuel : nat) (m : mem) (s c : Z) : res Z :=
  let* ret := strchrnul fuel m s c in
  if c =? 0 then Ok ret
  else let* b := load m ret in if b =? 0 then Ok 0 else Ok ret.

(* src/string/strrchr.c:7-10; [tmp1] is tmp+1, the start of the next search *)
Fixpoint strrchr_loop (fuel : nat) (m : mem) (ret tmp1 c : Z) : res Z :=
  match fuel with
  | O => NoFuel
  | S k =>
      let* tmp := strchrnul (S k) m tmp1 c in
      if tmp =? 0 then Ok ret
      else let* b := load m tmp in
           if b =? 0 then Ok ret else strrchr_loop k m tmp (tmp + 1) c
  end.

(* src/string/strrchr.c:4-11 *)
Definition strrchr (fuel : nat) (m : mem) (s c : Z) : res Z :=
  strrchr_loop fuel m 0 s c.

(* src/string/strstr.c:15-19, inner do loop; true = little exhausted (match) *)
Fixpoint strstr_in (fuel : nat) (m : mem) (s p : Z) : res bool :=
  match fuel with
  | O => NoFuel
  | S k =>
      let p1 := p + 1 in
      let s1 := s + 1 in
      let* b := load m p1 in
      if b =? 0 then Ok true
      else let* a := load m s1 in
           if a =? b then strstr_in k m s1 p1 else Ok false
  end.

(* src/string/strstr.c:11-27, outer do loop; p == little at its head *)
Fixpoint strstr_out (fuel : nat) (m : mem) (little s : Z) : res Z :=
  match fuel with
  | O => NoFuel
  | S k =>
      let* a := load m s in
      let* b := load m little in
      let* hit := if a =? b then strstr_in (S k) m s little else Ok false in
      if hit then Ok s
      else let* a1 := load m (s + 1) in
           if a1 =? 0 then Ok 0 else strstr_out k m little (s + 1)
  end.

(* src/string/strstr.c:3-28 *)
Definition strstr (fuel : nat) (m : mem) (big little : Z) : res Z :=
  let* b := load m little in
  if b =? 0 then Ok big else strstr_out fuel m little big.

(* src/string/strspn.c:6-10 *)
Fixpoint strspn_loop (fuel : nat) (m : mem) (s2 p acc : Z) : res Z :=
  match fuel with
  | O => NoFuel
  | S k =>
      let* a := load m acc in
      let* b := load m p in
      let '(p, acc) := if a =? b then (p + 1, s2) else (p, acc) in
      let* b' := load m p in
      if b' =? 0 then Ok p
      else let* a' := load m acc in
           if a' =? 0 then Ok p else strspn_loop k m s2 p (acc + 1)
  end.

(* src/string/strspn.c:2-13; the pointer difference is converted to int *)
Definition strspn (fuel : nat) (m : mem) (s1 s2 : Z) : res Z :=
  let* p := strspn_loop fuel m s2 s1 s2 in Ok (s32 (p - s1)).

(* src/string/strcspn.c:22-25, inner for loop: is byte b in the string acc *)
Fixpoint mem_str (fuel : nat) (m : mem) (acc b : Z) : res bool :=
  match fuel with
  | O => NoFuel
  | S k =>
      let* a := load m acc in
      if a =? 0 then Ok false
      else if a =? b then Ok true else mem_str k m (acc + 1) b
  end.

(* src/string/strcspn.c:18-28 without OPTIMIZE *)
Fixpoint strcspn_loop (fuel : nat) (m : mem) (s2 p : Z) : res Z :=
  match fuel with
  | O => NoFuel
  | S k =>
      let* b := load m p in
      if b =? 0 then Ok p
      else let* hit := mem_str (S k) m s2 b in
           if hit then Ok p else strcspn_loop k m s2 (p + 1)
  end.

(* src/string/strcspn.c:6-29 without OPTIMIZE *)
Definition strcspn (fuel : nat) (m : mem) (s1 s2 : Z) : res Z :=
  let* p := strcspn_loop fuel m s2 s1 in Ok (s32 (p - s1)).

(* src/string/strcspn.c:11-14, OPTIMIZE: the bit mask; `bm` is a char, kept as a byte *)
Fixpoint bm_loop (fuel : nat) (m : mem) (acc bm : Z) : res Z :=
  match fuel with
  | O => NoFuel
  | S k =>
      let* a := load m acc in
      if a =? 0 then Ok bm else bm_loop k m (acc + 1) (Z.lor bm a)
  end.

(* src/string/strcspn.c:18-28 with OPTIMIZE *)
Fixpoint strcspn_opt_loop (fuel : nat) (m : mem) (s2 bm p : Z) : res Z :=
  match fuel with
  | O => NoFuel
  | S k =>
      let* b := load m p in
      if b =? 0 then Ok p
      else
        let* hit := if Z.land b bm =? 0 then Ok false else mem_str (S k) m s2 b in
        if hit then Ok p else strcspn_opt_loop k m s2 bm (p + 1)
  end.

(* src/string/strcspn.c:6-29 with OPTIMIZE *)
Definition strcspn_opt (fuel : nat) (m : mem) (s1 s2 : Z) : res Z :=
  let* bm := bm_loop fuel m s2 0 in
  let* p := strcspn_opt_loop fuel m s2 bm s1 in Ok (s32 (p - s1)).

(* src/string/strpbrk.c:2-10: line 4 passes the pointer s where a char is
   expected; it is converted to int (gcc warns, -Wint-conversion) *)
Fixpoint strpbrk (fuel : nat) (m : mem) (s charset : Z) : res Z :=
  match fuel with
  | O => NoFuel
  | S k =>
      let* b := load m s in
      if b =? 0 then Ok 0
      else let* r := strchrnul (S k) m charset (s32 s) in
           if r =? 0 then strpbrk k m (s + 1) charset else Ok s
  end.

(* src/string/strtok_r.c:13-18: skip leading delimiters.
   Returns c and the advanced s. *)
Fixpoint strtok_skip (fuel : nat) (m : mem) (s delim : Z) : res (Z * Z) :=
  match fuel with
  | O => NoFuel
  | S k =>
      let* c := load m s in
      let* hit := mem_str (S k) m delim c in
      if hit then strtok_skip k m (s + 1) delim else Ok (c, s + 1)
  end.

(* src/string/strtok_r.c:33-42, inner do loop: c is a delimiter or both are NUL *)
Fixpoint strtok_hit (fuel : nat) (m : mem) (spanp c : Z) : res bool :=
  match fuel with
  | O => NoFuel
  | S k =>
      let* sc := load m spanp in
      if sc =? c then Ok true
      else if sc =? 0 then Ok false else strtok_hit k m (spanp + 1) c
  end.

(* src/string/strtok_r.c:30-43: returns the memory and the new *last *)
Fixpoint strtok_scan (fuel : nat) (m : mem) (s delim : Z) : res (mem * Z) :=
  match fuel with
  | O => NoFuel
  | S k =>
      let* c := load m s in
      let* hit := strtok_hit (S k) m delim c in
      if hit then
        if c =? 0 then Ok (m, 0)
        else let* m1 := store m s 0 in Ok (m1, s + 1)
      else strtok_scan k m (s + 1) delim
  end.

(* src/string/strtok_r.c:2-44.  [last] is the value of *last; the result is
   (memory, new *last, returned pointer). *)
Definition strtok_r (fuel : nat) (m : mem) (s delim last : Z) : res (mem * Z * Z) :=
  let s0 := if s =? 0 then last else s in
  if s0 =? 0 then Ok (m, last, 0)
  else
    let* (c, s1) := strtok_skip fuel m s0 delim in
    if c =? 0 then Ok (m, 0, 0)
    else
      let tok := s1 - 1 in
      let* (m1, last1) := strtok_scan fuel m s1 delim in
      Ok (m1, last1, tok).

(* src/string/strtok.c:3-6: strtok is strtok_r with one static `last` *)
Definition strtok := strtok_r.

(* src/string/strdup.c:7-12; malloc is an argument: the memory and the block
   it returned for the requested size *)
Definition strdup (fuel : nat) (malloc : mem -> Z -> mem * Z) (m : mem) (source : Z)
  : res (mem * Z) :=
  let* l := strlen fuel m source in
  let (m1, d) := malloc m l in
  if d =? 0 then Ok (m1, 0)
  else let* (m2, _) := strcpy fuel m1 d source in Ok (m2, d).

(* src/string/strndup.c:5-13 *)
Definition strndup (fuel : nat) (malloc : mem -> Z -> mem * Z) (m : mem) (source maxlen : Z)
  : res (mem * Z) :=
  let* l0 := strlen fuel m source in
  let l := if l0 >? maxlen then maxlen else l0 in
  let (m1, d) := malloc m (l + 1) in
  if d =? 0 then Ok (m1, 0)
  else let* (m2, _) := stplcpy fuel m1 d source (l + 1) in Ok (m2, d).

(* The client loop the property is about (not library code): call strtok_r with
   the string, then with NULL, until it returns NULL; collects the tokens.
   src/string/strtok_r.c:13-43 *)
Fixpoint strtok_all (calls fuel : nat) (m : mem) (s delim last : Z) : res (mem * list Z * Z) :=
  match calls with
  | O => NoFuel
  | S k =>
      let* (r, tok) := strtok_r fuel m s delim last in
      let '(m1, last1) := r in
      if tok =? 0 then Ok (m1, [], last1)
      else let* (q, last2) := strtok_all k fuel m1 0 delim last1 in
           let '(m2, toks) := q in Ok (m2, tok :: toks, last2)
  end.
