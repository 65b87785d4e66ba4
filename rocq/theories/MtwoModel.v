(* Model of src/match/match_ext2.c.  The callbacks and the structure st_match are those of
   MextModel.ext; callbacks do not change the text.  The function writes messages to
   standard output (left over from debugging): modelled is the number of these calls, not
   what they write. *)
From Verif Require Import Base SysModel MatchModel MextModel.

Record ext2 := mk2 { base : ext; out : Z }. (* for src/match/match_ext2.c:333-334 *)
(* one message; for src/match/match_ext2.c:395-403 *)
Definition say (e : ext2) : ext2 := mk2 (base e) (out e + 1).
(* src/match/match_ext2.c:333-334 *)
Definition yreset (e : ext2) : ext2 := mk2 (xreset (base e)) (out e).
(* src/match/match_ext2.c:522-527 and 549-556 *)
Definition yreport (e : ext2) (n pos text : Z) : ext2 := mk2 (report (base e) n pos text) (out e).
(* RE_NOMATCH and RE_ERROR are 0 (include/globaldefs.h:67-68), a match is the position in
   the text; text positions are pointers, and compared with 0 as such *)

(* src/match/match_ext2.c:395-403, [rec ret e] is _match_ext2(ret,re,..); result: ret, c.
   Four messages in each iteration. *)
Fixpoint y_rep (rec : Z -> ext2 -> res (Z * ext2)) (fuel : nat) (count ret : Z) (e : ext2) : res (Z * Z * ext2) :=
  match fuel with
  | O => NoFuel
  | S k =>
      if count =? 0 then Ok (ret, count, e)
      else
        let* r := rec ret e in
        let '(r, e) := r in
        if r =? 0 then Ok (ret, count, e)
        else let* count := iop (count - 1) in y_rep rec k count r (say (say (say (say e))))
  end.
(* src/match/match_ext2.c:407-409 and 446-447: the next byte x of the pattern, or its end *)
Fixpoint seek (fuel : nat) (m : mem) (x re : Z) : res Z :=
  match fuel with
  | O => NoFuel
  | S k => let* c := load m re in if (c =? x) || (c =? 0) then Ok re else seek k m x (re + 1)
  end.
(* src/match/match_ext2.c:538-546: None when line 544 returns, else text and rematch at
   __MATCHEND *)
Fixpoint y_star (rec : Z -> ext2 -> res (Z * ext2)) (fuel : nat) (m : mem) (text re : Z) (e : ext2) : res (option (Z * Z) * ext2) :=
  match fuel with
  | O => NoFuel
  | S k =>
      let* r := rec text e in
      let '(r, e) := r in
      if r =? 0 then
        let text := text + 1 in
        let* c := load m text in
        if c =? 0 then
          let* c := load m re in
          Ok (if (c =? 35) || (c =? 36) then Some (text, 0) else None, e)
        else y_star rec k m text re e
      else Ok (Some (text, r), e)
  end.
(* src/match/match_ext2.c:566-581: Some b when the character behind the backslash is a
   class, with the value of [neg ^ condition].  The characters are signed. *)
Definition escape2 (c t : Z) (neg : bool) : option bool :=
  let t := schar t in
  let yes (b : bool) := Some (xorb neg b) in
  if c =? 110 then yes (t =? 10)
  else if c =? 116 then yes (t =? 9)
  else if c =? 100 then yes (isdigit t)
  else if c =? 68 then yes (negb (isdigit t))
  else if c =? 115 then yes (isspace t)
  else if c =? 83 then yes (negb (isspace t))
  else if c =? 119 then yes (((32 <=? t) && (t <=? 126)) || (160 <=? t))
  else if c =? 87 then yes ((t <? 32) || ((126 <? t) && (t <? 160)))
  else if c =? 120 then yes (isdigit t || ((97 <=? t) && (t <=? 102)) || ((65 <=? t) && (t <=? 70)))
  else None.

Section Body.
(* _match_ext2 from line 342 on (rec text re n_match) *)
Variable rec : Z -> Z -> Z -> ext2 -> res (Z * ext2).
Variables (k : nat) (m : mem).
(* a call of _match_ext2; for src/match/match_ext2.c:369-412 *)
Definition call2 (text re : Z) (e : ext2) : res (Z * ext2) := rec text re 0 (yreset e).

(* src/match/match_ext2.c:369-412; re is behind the '{' *)
Definition y_count (text re : Z) (e : ext2) : res (Z * ext2) :=
  let* c := load m re in
  let* r :=
    (if c =? 43 then let* r := call2 text (re + 1) e in let '(r, e) := r in Ok (r, re + 1, -1, e)
     else if c =? 42 then Ok (text, re + 1, -1, e)
     else let* r := digits k m re 0 in let (re, count) := r in Ok (text, re, count, e)) in
  let '(ret, re, count, e) := r in
  if ret =? 0 then Ok (0, e)
  else
    let* r := y_rep (fun ret e => call2 ret re e) k count ret e in
    let '(ret, count, e) := r in
    if 0 <? count then Ok (0, e)
    else
      let* re := seek k m 125 re in
      let* c := load m re in
      if c =? 0 then Ok (0, e) else call2 ret (re + 1) e.

(* src/match/match_ext2.c:516-560, neg plays no part here; count is 0 *)
Definition y_any (text re nm : Z) (matchpos : option Z) (e : ext2) : res (Z * ext2) :=
  let re := re + 1 in
  let* c := load m re in
  if c =? 0 then
    match matchpos with
    | Some p =>
        if pm (base e) || match stm (base e) with Some _ => true | None => false end
        then let* z := text_end k m text in Ok (z, say (yreport e nm p z))
        else Ok (text, say e)
    | None => Ok (text, say e)
    end
  else
    let* r := y_star (fun text e => call2 text re e) k m text re e in
    match r with
    | (Some (text, v), e) => Ok (v, match matchpos with Some p => yreport e nm p text | None => e end)
    | (None, e) => Ok (0, e)
    end.

(* src/match/match_ext2.c:415-591 for the character t of the text and the byte c of the
   pattern at re; the loop of line 416 runs once *)
Definition y_item (text t re c : Z) (neg : bool) (nm : Z) (e : ext2) : res (Z * ext2) :=
  let next (text re nm : Z) := rec (text + 1) (re + 1) nm e in
  let test (b : bool) (re : Z) := if xorb neg b then next text re nm else Ok (0, e) in
  (* 513-515 *)
  let plus (nm re : Z) (matchpos : option Z) :=
    let text := text + 1 in
    let* c := load m text in
    if c =? 0 then Ok (if neg then text else 0, e) else y_any text re nm matchpos e in
  (* 582-587 *)
  let literal (re c : Z) := if c =? 0 then Ok (0, e) else test (c =? t) re in
  if c =? 63 then if neg then Ok (0, e) else next text re nm
  else if c =? 64 then test (t =? 10) re
  else if c =? 91 then
    (* 431-441 *)
    let* r := class_for k m (re + 1) t in
    match r with
    | None => Ok (if neg then text else 0, e)
    | Some re =>
        let* re := class_end k m re in
        let* c := load m re in
        if c =? 0 then Ok (0, e)
        else if neg then Ok (0, e)
        else next text re nm
    end
  else if c =? 40 then
    (* 442-463; four messages *)
    let* z := seek k m 41 (re + 1) in
    let* c := load m z in
    if c =? 0 then Ok (0, e)
    else
      let* r := call2 text (re + 1) e in
      let '(r, e) := r in
      if r =? 0 then Ok (0, e) else Ok (r, say (say (say (say e))))
  else if c =? 35 then test (isspace (schar t)) re
  else if c =? 36 then test (t =? 10) re
  else if (c =? 38) || (c =? 37) then
    (* 484-488 *)
    let* d := load m (re + 1) in
    let num := (48 <=? d) && (d <=? 57) in
    let nm := if num then d - 48 else nm in
    let re := if num then re + 1 else re in
    if c =? 38 then
      (* 490-510 *)
      match pmc (base e) with
      | Some f =>
          let r := f nm text in
          if r =? 0 then if neg then next text re nm else Ok (0, e)
          else if r =? -1 then Ok (if neg then 0 else text, e)
          else if neg then Ok (0, e) else next (text + r) re nm
      | None => if neg then Ok (0, e) else next text re nm
      end
    else plus nm re (Some text)
  else if c =? 43 then plus nm re None
  else if c =? 42 then y_any text re nm None e
  else if c =? 92 then
    let re := re + 1 in
    let* c := load m re in
    match escape2 c t neg with
    | Some true => next text re nm
    | Some false => Ok (0, e)
    | None => literal re c
    end
  else literal re c.

(* src/match/match_ext2.c:348-413 *)
Definition y_head (text t re : Z) (nm : Z) (e : ext2) : res (Z * ext2) :=
  let* c := load m re in
  let neg := c =? 33 in
  let re := if (c =? 33) || (c =? 44) then re + 1 else re in
  let* c := load m re in
  if c =? 41 then
    let* r := call2 text (re + 1) e in
    let '(r, e) := r in Ok (if r =? 0 then 0 else text, e)
  else if c =? 125 then Ok (text, say e)
  else if c =? 123 then y_count text (re + 1) e
  else y_item text t re c neg nm e.

(* src/match/match_ext2.c:596-612 *)
Definition y_end (text re : Z) (e : ext2) : res (Z * ext2) :=
  let* c := load m re in
  let re := if c =? 44 then re + 1 else re in
  let* c := load m re in
  if (c =? 35) || (c =? 36) then Ok (text, say e)
  else if c =? 0 then Ok (text, e)
  else if c =? 42 then let* c := load m (re + 1) in Ok (if c =? 0 then text else 0, e)
  else Ok (0, e).
End Body.

(* src/match/match_ext2.c:342-612; nm is n_match.  matchpos is only used in the iteration
   that sets it; rematch too. *)
Fixpoint y_loop (fuel : nat) (m : mem) (text re nm : Z) (e : ext2) : res (Z * ext2) :=
  match fuel with
  | O => NoFuel
  | S k =>
      let* t := load m text in
      if t =? 0 then y_end m text re e
      else y_head (y_loop k m) k m text t re nm e
  end.
(* src/match/match_ext2.c:326-612 *)
Definition match_sub (fuel : nat) (m : mem) (text re : Z) (e : ext2) : res (Z * ext2) :=
  y_loop fuel m text re 0 (yreset e).
(* src/match/match_ext2.c:306-322 *)
Definition match_ext2 (fuel : nat) (m : mem) (text re : Z) (e : ext2) : res (Z * ext2) :=
  let* c := load m re in
  let* d := (if c =? 42 then load m (re + 1) else Ok 0) in
  let* r := (if d =? 64 then match_sub fuel m text (re + 2) e
             else if c =? 64 then match_sub fuel m text (re + 1) e
             else Ok (0, e)) in
  let '(r, e) := r in
  if r =? 0 then
    let* r := match_sub fuel m text re e in
    let '(r, e) := r in Ok (if r =? 0 then 0 else 1, e)
  else Ok (1, e).
