(* Model of src/match/match.c.  A text_match argument is [None] for a null pointer and
   [Some (pos, len)] for the contents of the structure. *)
From Verif Require Import Base SysModel.

Definition tmatch := option (Z * Z). (* for src/match/match.c:102 *)
(* src/match/match.c:102 *)
Definition reset (st : tmatch) : tmatch :=
  match st with Some (p, _) => Some (p, 0) | None => None end.
(* src/match/match.c:153-157 and 171-176; len is an int *)
Definition capture (st : tmatch) (pos text : Z) : tmatch :=
  match st with Some _ => Some (pos, s32 (text - pos)) | None => None end.
(* RE_NOMATCH 0, RE_MATCH 1, include/globaldefs.h:67-69, xored with neg *)
Definition verdict (neg : bool) (r : Z) : Z := Z.lxor (Z.b2z neg) r.

(* src/match/match.c:117-119: None when a ']' was passed *)
Fixpoint class_for (fuel : nat) (m : mem) (re t : Z) : res (option Z) :=
  match fuel with
  | O => NoFuel
  | S k =>
      let* c := load m re in
      if (c =? 0) || (c =? t) then Ok (Some re)
      else if c =? 93 then Ok None
      else class_for k m (re + 1) t
  end.
(* src/match/match.c:120-121 *)
Fixpoint class_end (fuel : nat) (m : mem) (re : Z) : res Z :=
  match fuel with
  | O => NoFuel
  | S k =>
      let* c := load m re in
      if (c =? 0) || (c =? 93) then Ok re else class_end k m (re + 1)
  end.
(* src/match/match.c:152-153 *)
Fixpoint text_end (fuel : nat) (m : mem) (text : Z) : res Z :=
  match fuel with
  | O => NoFuel
  | S k => let* c := load m text in if c =? 0 then Ok text else text_end k m (text + 1)
  end.
(* src/match/match.c:162-169; [rec text st] is _match(text,re,st_match).  The boolean tells
   whether __MATCHEND2 is reached. *)
Fixpoint star_loop (rec : Z -> tmatch -> res (Z * tmatch)) (fuel : nat) (m : mem) (text re : Z) (st : tmatch) : res (bool * Z * tmatch) :=
  match fuel with
  | O => NoFuel
  | S k =>
      let* r := rec text st in
      let '(r, st) := r in
      if r =? 0 then
        let text := text + 1 in
        let* c := load m text in
        if c =? 0 then
          let* c := load m re in
          if (c =? 35) || (c =? 36) then
            let* c := load m (re + 1) in Ok (c =? 0, text, st)
          else Ok (false, text, st)
        else star_loop rec k m text re st
      else Ok (true, text, st)
  end.
(* src/match/match.c:186-191: Some b when the character behind the backslash is a class,
   with the value of [neg ^ condition]; the last two conditions expand to
   [neg ^ (..) || (..)].  The characters are signed. *)
Definition escape (c t : Z) (neg : bool) : option bool :=
  let t := schar t in
  if c =? 100 then Some (xorb neg (isdigit t))
  else if c =? 68 then Some (xorb neg (negb (isdigit t)))
  else if c =? 115 then Some (xorb neg (isspace t))
  else if c =? 83 then Some (xorb neg (negb (isspace t)))
  else if c =? 119 then Some (xorb neg ((32 <=? t) && (t <=? 126)) || (160 <=? t))
  else if c =? 87 then Some (xorb neg (t <? 32) || ((126 <? t) && (t <? 160)))
  else None.

(* src/match/match.c:96-215 from line 104 on: [m_loop] is the loop, [matchpos] is only
   used in the iteration that sets it.  The comparisons of *re with constants below 128
   and of *re with *text are comparisons of the bytes. *)
Fixpoint m_loop (fuel : nat) (m : mem) (text re : Z) (st : tmatch) : res (Z * tmatch) :=
  match fuel with
  | O => NoFuel
  | S k =>
      let* t := load m text in
      if t =? 0 then
        (* 203-214 *)
        let* c := load m re in
        let re := if (c =? 35) || (c =? 36) then re + 1 else re in
        let* c := load m re in
        if c =? 0 then Ok (1, st)
        else if c =? 42 then let* c := load m (re + 1) in Ok (if c =? 0 then 1 else 0, st)
        else Ok (0, st)
      else
        let* c := load m re in
        let neg := c =? 33 in
        let re := if neg then re + 1 else re in
        let* c := load m re in
        (* 148-178 *)
        let star (text : Z) (matchpos : option Z) :=
          let re := re + 1 in
          let* c := load m re in
          if c =? 0 then
            match matchpos, st with
            | Some pos, Some _ => let* e := text_end k m text in Ok (verdict neg 1, capture st pos e)
            | _, _ => Ok (verdict neg 1, st)
            end
          else
            let* r := star_loop (fun text st => m_loop k m text re (reset st)) k m text re st in
            let '(hit, text, st) := r in
            if hit then
              Ok (verdict neg 1, match matchpos with Some pos => capture st pos text | None => st end)
            else Ok (verdict neg 0, st) in
        (* 145-147 *)
        let plus (matchpos : option Z) :=
          let text := text + 1 in
          let* c := load m text in
          if c =? 0 then Ok (verdict neg 0, st) else star text matchpos in
        (* 193-198 *)
        let literal (re c : Z) :=
          if c =? 0 then Ok (0, st)
          else if xorb neg (negb (c =? t)) then Ok (0, st)
          else m_loop k m (text + 1) (re + 1) st in
        (* 127-141 *)
        let test (b : bool) :=
          if xorb neg b then m_loop k m (text + 1) (re + 1) st else Ok (0, st) in
        if c =? 63 then if neg then Ok (0, st) else m_loop k m (text + 1) (re + 1) st
        else if c =? 91 then
          let* r := class_for k m (re + 1) t in
          match r with
          | None => Ok (verdict neg 0, st)
          | Some re =>
              let* re := class_end k m re in
              let* c := load m re in
              if c =? 0 then Ok (0, st)
              else if neg then Ok (0, st)
              else m_loop k m (text + 1) (re + 1) st
          end
        else if c =? 35 then test (isspace (schar t))
        else if c =? 64 then test (t =? 10)
        else if c =? 37 then plus (Some text)
        else if c =? 43 then plus None
        else if c =? 42 then star text None
        else if c =? 92 then
          let re := re + 1 in
          let* c := load m re in
          match escape c t neg with
          | Some true => m_loop k m (text + 1) (re + 1) st
          | Some false => Ok (0, st)
          | None => literal re c
          end
        else literal re c
  end.
(* src/match/match.c:96-215 *)
Definition match0 (fuel : nat) (m : mem) (text re : Z) (st : tmatch) : res (Z * tmatch) :=
  m_loop fuel m text re (reset st).

(* src/match/match.c:83-93 *)
Definition match_ (fuel : nat) (m : mem) (text re : Z) (st : tmatch) : res (Z * tmatch) :=
  let* c := load m re in
  let* r := (if c =? 42 then let* d := load m (re + 1) in Ok (if d =? 64 then 2 else 0)
             else Ok (if c =? 64 then 1 else 0)) in
  if r =? 0 then match0 fuel m text re st
  else
    let* a := match0 fuel m text (re + r) st in
    let '(v, st) := a in
    if v =? 1 then Ok (1, st) else match0 fuel m text re st.
