(* Model of tools/removeccomments.c (DEBUG is not defined). *)
From Verif Require Import Base.

(* Positions are ints; they stay below BUFSIZE = 10^6, no overflow is modelled.  Left out:
   line 138, a sprintf into the unused array sout.  for tools/removeccomments.c:123-208 *)
Definition BUFSIZE : Z := 1000000.        (* tools/removeccomments.c:56 *)
Definition MAXLINECOUNT : Z := 500000.    (* tools/removeccomments.c:58 *)

(* while (!stop(ptr[j]) && j < len) j++;  tools/removeccomments.c:95, 111, 154, 172 *)
Fixpoint seek (stop : Z -> bool) (fuel : nat) (m : mem) (ptr j len : Z) : res Z :=
  match fuel with
  | O => NoFuel
  | S k =>
      let* c := load m (ptr + j) in
      if negb (stop c) && (j <? len) then seek stop k m ptr (j + 1) len else Ok j
  end.
(* tools/removeccomments.c:91-105; the result and *pos *)
Fixpoint match_quote (fuel : nat) (m : mem) (ptr j len : Z) : res (bool * Z) :=
  match fuel with
  | O => NoFuel
  | S k =>
      if j <? len then
        let* j := seek (fun c => c =? 34) k m ptr j len in
        if j <? len then
          let* c := load m (ptr + (j + 1 - 2)) in
          if c =? 92 then match_quote k m ptr (j + 1) len else Ok (true, j + 1)
        else match_quote k m ptr j len
      else Ok (false, j)
  end.
(* tools/removeccomments.c:110-117 *)
Fixpoint cms_loop (fuel : nat) (m : mem) (ptr j len : Z) : res (bool * Z) :=
  match fuel with
  | O => NoFuel
  | S k =>
      if j <? len then
        let* j := seek (fun c => c =? 47) k m ptr j len in
        if j <? len then
          let* c := load m (ptr + (j + 1 - 2)) in
          if c =? 42 then Ok (true, j + 1) else cms_loop k m ptr (j + 1) len
        else cms_loop k m ptr j len
      else Ok (false, j)
  end.
(* tools/removeccomments.c:107-121 *)
Definition match_cms (fuel : nat) (m : mem) (ptr j len : Z) : res (bool * Z) :=
  cms_loop fuel m ptr (if j <? len then j + 1 else j) len.

(* flag_quote, flag_cms, flag_ccms and prev != -1 (tools/removeccomments.c:126-127) *)
Record flags := { fq : bool; fcms : Z; fcc : bool; prev : bool }.
(* c <= ' ' for a char, which is signed; for tools/removeccomments.c:133 *)
Definition small (c : Z) : bool := schar c <=? 32.
Definition eol (c : Z) : bool := (c =? 10) || (c =? 13). (* for tools/removeccomments.c:133 *)
(* tools/removeccomments.c:133 *)
Fixpoint lead (fuel : nat) (m : mem) (ptr j : Z) : res Z :=
  match fuel with
  | O => NoFuel
  | S k => let* c := load m (ptr + j) in
           if small c && negb (eol c) then lead k m ptr (j + 1) else Ok j
  end.
(* tools/removeccomments.c:135 *)
Fixpoint line_end (fuel : nat) (m : mem) (ptr len : Z) : res Z :=
  match fuel with
  | O => NoFuel
  | S k => let* c := load m (ptr + len) in
           if negb (eol c) then line_end k m ptr (len + 1) else Ok len
  end.
(* tools/removeccomments.c:167 *)
Fixpoint trim (fuel : nat) (m : mem) (ptr len : Z) : res Z :=
  match fuel with
  | O => NoFuel
  | S k =>
      if 0 <? len then
        let* c := load m (ptr + len - 1) in
        if small c then trim k m ptr (len - 1) else Ok len
      else Ok len
  end.
(* tools/removeccomments.c:170-194; the result: j, the flags flag_quote, flag_cms, flag_ccms,
   and whether lines[n].p is set to NULL *)
Fixpoint rest_of_line (fuel : nat) (m : mem) (ptr start len j : Z) (q : bool) (cms : Z) (cc : bool)
  : res (Z * bool * Z * bool * bool) :=
  match fuel with
  | O => NoFuel
  | S k =>
      if j <? len then
        let* j := seek (fun c => (c =? 34) || (c =? 47)) k m ptr j len in
        let* c := load m (ptr + j) in
        if c =? 34 then
          let* (ok, j) := match_quote k m ptr (j + 1) len in
          if ok then rest_of_line k m ptr start len j q cms cc else Ok (j, true, cms, cc, false)
        else if c =? 47 then
          let j := j + 1 in
          let* c := load m (ptr + j) in
          if c =? 42 then
            let* (ok, j2) := match_cms k m ptr (j + 1) len in
            if ok then rest_of_line k m ptr start len j2 q 0 cc else Ok (j2, q, j, cc, false)
          else if c =? 47 then Ok (j, q, cms, true, j =? start + 1)
          else rest_of_line k m ptr start len j q cms cc
        else rest_of_line k m ptr start len j q cms cc
      else Ok (j, q, cms, cc, false)
  end.
(* tools/removeccomments.c:130-205, the body of the loop for the line at ptr.  The result: the
   address of the last character of its end (buf + i), the flags, lines[n] (None: p is NULL). *)
Definition do_line (fuel : nat) (m : mem) (ptr : Z) (f : flags) : res (Z * flags * option (Z * Z)) :=
  let* start := lead fuel m ptr 0 in
  let j := start in
  let* len := line_end fuel m ptr start in
  (* 141-149 *)
  let* (q, j) := (if prev f && fq f then let* (ok, j) := match_quote fuel m ptr j len in Ok (negb ok, j)
                  else Ok (fq f, j)) in
  let null := prev f && fcc f in
  let j := if prev f && fcc f then len else j in
  (* 150-157 *)
  let* (ptr, start, len, j, cms, null) :=
    (if negb (fcms f =? 0) then
       let* (ok, j) := match_cms fuel m ptr j len in
       if ok then
         let ptr := ptr + j in
         let len := len - j in
         let* j := seek (fun c => negb (small c)) fuel m ptr 0 len in
         Ok (ptr, j, len, j, 0, null)
       else Ok (ptr, start, len, j, fcms f, true)
     else Ok (ptr, start, len, j, 0, null)) in
  (* 159-163 *)
  let* c := load m (ptr + len - 1) in
  let prev' := (c =? 92) && (0 <? len) in
  (* 165-167 *)
  let i := ptr + len in
  let* c := load m i in
  let* i := (if c =? 13 then let* d := load m (i + 1) in Ok (if d =? 10 then i + 1 else i) else Ok i) in
  let* len := trim fuel m ptr len in
  let* (j, q, cms, cc, null2) := rest_of_line fuel m ptr start len j q cms (fcc f) in
  let null := null || null2 in
  (* 195-197 *)
  let* c := load m (ptr + start) in
  let* d := (if c =? 47 then load m (ptr + start + 1) else Ok 0) in
  let (len, null) :=
    if (c =? 47) && (d =? 42) then (len, null || negb (cms =? 0) || (j =? len))
    else if negb (cms =? 0) then (cms - 1, null) else (len, null) in
  Ok (i, {| fq := prev' && q; fcms := cms; fcc := prev' && cc; prev := prev' |},
      if null then None else Some (ptr, len)).
(* tools/removeccomments.c:129-206; buf + i is p, e is buf + total; lines[] in the order *)
Fixpoint split_loop (n fuel : nat) (m : mem) (p e : Z) (cnt : Z) (f : flags) : res (list (option (Z * Z))) :=
  match n with
  | O => NoFuel
  | S n =>
      if p <? e then
        if MAXLINECOUNT <=? cnt then Fault
        else
          let* (i, f, l) := do_line fuel m p f in
          let* r := split_loop n fuel m (i + 1) e (cnt + 1) f in Ok (l :: r)
      else Ok []
  end.
(* tools/removeccomments.c:123-208; a write behind the array is a Fault *)
Definition splittolines (fuel : nat) (m : mem) (buf total : Z) : res (mem * list (option (Z * Z))) :=
  if total <=? 0 then Ok (m, [])
  else if BUFSIZE <=? total then Fault
  else
    let* m := store m (buf + total) 10 in
    let* l := split_loop fuel fuel m buf (buf + total) 0 {| fq := false; fcms := 0; fcc := false; prev := false |} in
    Ok (m, l).
(* the string at p (puts); for tools/removeccomments.c:222-230 *)
Fixpoint cstr (fuel : nat) (m : mem) (p : Z) : res (list Z) :=
  match fuel with
  | O => NoFuel
  | S k => let* c := load m p in if c =? 0 then Ok [] else let* l := cstr k m (p + 1) in Ok (c :: l)
  end.
(* tools/removeccomments.c:222-230: what is written to stdout *)
Fixpoint printlines (fuel : nat) (m : mem) (l : list (option (Z * Z))) : res (list Z) :=
  match l with
  | [] => Ok []
  | None :: r => let* o := printlines fuel m r in Ok (10 :: o)
  | Some (p, n) :: r =>
      let* m := store m (p + n) 0 in
      let* s := cstr fuel m p in
      let* o := printlines fuel m r in Ok (s ++ 10 :: o)
  end.
(* tools/removeccomments.c:232-238; the file is read into filebuf, whose address is buf *)
Definition removeccomments (fuel : nat) (m : mem) (buf total : Z) : res (list Z) :=
  let* (m, l) := splittolines fuel m buf total in printlines fuel m l.
