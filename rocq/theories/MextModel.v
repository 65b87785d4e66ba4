(* Model of src/match/match_ext.c.  Callbacks: p_match is a log of its calls (latest first)
   and a flag for a nonzero pointer; p_match_char is a function of the number and the
   position.  Simplified: callbacks do not change the text. *)
From Verif Require Import Base SysModel MatchModel.

(* what p_match was called with: number, position and length; for src/match/match_ext.c:197 *)
Definition call : Type := Z * Z * Z.
(* p_match nonzero, p_match_char, st_match (as in MatchModel), calls so far;
   for src/match/match_ext.c:197 *)
Record ext := { pm : bool; pmc : option (Z -> Z -> Z); stm : tmatch; calls : list call }.
(* src/match/match_ext.c:197 *)
Definition xreset (e : ext) : ext := {| pm := pm e; pmc := pmc e; stm := reset (stm e); calls := calls e |}.
(* src/match/match_ext.c:292-297 and 316-321; the lengths are ints *)
Definition report (e : ext) (n pos text : Z) : ext :=
  {| pm := pm e; pmc := pmc e; stm := capture (stm e) pos text;
     calls := if pm e then (n, pos, s32 (text - pos)) :: calls e else calls e |}.
(* src/match/match_ext.c:210-212: re is behind the '{'; int arithmetic *)
Fixpoint digits (fuel : nat) (m : mem) (re count : Z) : res (Z * Z) :=
  match fuel with
  | O => NoFuel
  | S k =>
      let* c := load m re in
      if isdigit (schar c) then let* count := iop (count + (count * 10 + (c - 48))) in digits k m (re + 1) count
      else Ok (re, count)
  end.
(* src/match/match_ext.c:306-313; [rec text e] is match_ext(text,re,..).  The boolean tells
   whether __MATCHEND is reached. *)
Fixpoint xstar_loop (rec : Z -> ext -> res (Z * ext)) (fuel : nat) (m : mem) (text re : Z) (e : ext) : res (bool * Z * ext) :=
  match fuel with
  | O => NoFuel
  | S k =>
      let* r := rec text e in
      let '(r, e) := r in
      if r =? 0 then
        let text := text + 1 in
        let* c := load m text in
        if c =? 0 then
          let* c := load m re in
          if (c =? 35) || (c =? 36) then
            let* c := load m (re + 1) in Ok (c =? 0, text, e)
          else Ok (false, text, e)
        else xstar_loop rec k m text re e
      else Ok (true, text, e)
  end.
(* src/match/match_ext.c:328-337; the macro of lines 336 and 337 expands as in match.c, see
   MatchModel.escape *)
Definition xescape := escape.
(* where the function is: at the condition of the loop of line 199, or at that of line 219
   with count, neg and pos; for src/match/match_ext.c:199-363 *)
Inductive place := Outer | Inner (count : Z) (neg : bool) (pos : Z).

(* src/match/match_ext.c:199-363; nm is n_match.  matchpos is only used in the iteration
   that sets it. *)
Fixpoint x_loop (fuel : nat) (m : mem) (pl : place) (text re nm : Z) (e : ext) : res (Z * ext) :=
  match fuel with
  | O => NoFuel
  | S k =>
      match pl with
      | Outer =>
          let* t := load m text in
          if t =? 0 then
            (* 350-360 *)
            let* c := load m re in
            let re := if (c =? 35) || (c =? 36) then re + 1 else re in
            let* c := load m re in
            if c =? 0 then Ok (1, e)
            else if c =? 42 then let* c := load m (re + 1) in Ok (if c =? 0 then 1 else 0, e)
            else Ok (0, e)
          else
            (* 200-218 *)
            let* c := load m re in
            let neg := c =? 33 in
            let re := if neg then re + 1 else re in
            let* c := load m re in
            let re := if c =? 125 then re + 1 else re in
            let* c := load m re in
            let* r := (if c =? 123 then digits k m (re + 1) 0 else Ok (re, 1)) in
            let (re, count) := r in
            let* c := load m re in
            let re := if c =? 44 then re + 1 else re in
            x_loop k m (Inner count neg re) text re nm e
      | Inner count neg pos =>
          if 0 <? count then
            (* 220-345 *)
            let re := pos in
            let* t := load m text in
            let* c := load m re in
            let next (text re nm : Z) := x_loop k m (Inner (count - 1) neg pos) (text + 1) re nm e in
            (* 286-324 *)
            let star (text nm : Z) (re : Z) (matchpos : option Z) :=
              let re := re + 1 in
              let* c := load m re in
              if c =? 0 then
                match matchpos with
                | Some p =>
                    if pm e || match stm e with Some _ => true | None => false end
                    then let* z := text_end k m text in Ok (verdict neg 1, report e nm p z)
                    else Ok (verdict neg 1, e)
                | None => Ok (verdict neg 1, e)
                end
              else
                let* r := xstar_loop (fun text e => x_loop k m Outer text re 0 (xreset e)) k m text re e in
                let '(hit, text, e) := r in
                if hit then Ok (verdict neg 1, match matchpos with Some p => report e nm p text | None => e end)
                else Ok (verdict neg 0, e) in
            (* 283-285 *)
            let plus (nm re : Z) (matchpos : option Z) :=
              let text := text + 1 in
              let* c := load m text in
              if c =? 0 then Ok (verdict neg 0, e) else star text nm re matchpos in
            (* 339-343 *)
            let literal (re c : Z) :=
              if c =? 0 then Ok (0, e)
              else if xorb neg (negb (c =? t)) then Ok (0, e)
              else next text re nm in
            if c =? 63 then if neg then Ok (0, e) else next text re nm
            else if c =? 91 then
              (* 227-236 *)
              let* r := class_for k m (re + 1) t in
              match r with
              | None => Ok (verdict neg 0, e)
              | Some re =>
                  let* re := class_end k m re in
                  let* c := load m re in
                  if c =? 0 then Ok (0, e)
                  else if neg then Ok (0, e)
                  else next text re nm
              end
            else if c =? 35 then if xorb neg (isspace (schar t)) then next text re nm else Ok (0, e)
            else if (c =? 38) || (c =? 37) then
              (* 255-258 *)
              let* d := load m (re + 1) in
              let num := (48 <=? d) && (d <=? 57) in
              let nm := if num then d - 48 else nm in
              let re := if num then re + 1 else re in
              if c =? 38 then
                (* 263-279 *)
                match pmc e with
                | Some f =>
                    let r := f nm text in
                    if r =? 0 then if neg then next text re nm else Ok (0, e)
                    else if r =? -1 then Ok (verdict neg 1, e)
                    else if neg then Ok (0, e) else next (text + r) re nm
                | None => if neg then Ok (0, e) else next text re nm
                end
              else plus nm re (Some text)
            else if c =? 43 then plus nm re None
            else if c =? 42 then star text nm re None
            else if c =? 92 then
              let re := re + 1 in
              let* c := load m re in
              match xescape c t neg with
              | Some true => next text re nm
              | Some false => Ok (0, e)
              | None => literal re c
              end
            else literal re c
          else x_loop k m Outer text (re + 1) nm e
      end
  end.
(* src/match/match_ext.c:193-363 *)
Definition match_ext (fuel : nat) (m : mem) (text re : Z) (e : ext) : res (Z * ext) :=
  x_loop fuel m Outer text re 0 (xreset e).
