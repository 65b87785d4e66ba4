(* Model of contrib/regetopt/regetopt.c (also included by contrib/regetopt/getopt_long.c
   under the names of getopt_long).  argv is an array of pointers, here a list; an access
   outside is a Fault.  The messages to stderr, and re_opterr, which only decides about
   them, are left out. *)
From Verif Require Import Base StrModel GetoptModel.

(* struct re_option, contrib/regetopt/include/regetopt.h:33-38 *)
Record lopt := mklopt { lname : Z; lhas : Z; lflag : Z; lval : Z }.

(* re_optind, re_optopt, re_optarg, optchar_index, option_argc
   (contrib/regetopt/regetopt.c:14-24); the array argv; *longindex; the int variables that
   the flag members of the long options point to, by address *)
Record rst := mkrst { roind : Z; roopt : Z; roarg : Z; rocix : Z; rocnt : Z;
                      roargv : list Z; rolong : Z; roflag : Z -> Z }.
(* contrib/regetopt/regetopt.c:15-24: the state at the beginning of a program *)
Definition rst0 (argv : list Z) (li : Z) (fl : Z -> Z) : rst := mkrst 1 0 0 1 (-1) argv li fl.

(* argv[i], and argv[i] = p (contrib/regetopt/regetopt.c:27, 44, 133, 171-175, 191) *)
Definition aget (l : list Z) (i : Z) : res Z :=
  if i <? 0 then Fault else match nth_error l (Z.to_nat i) with Some p => Ok p | None => Fault end.
(* contrib/regetopt/regetopt.c:27, 44, 133, 171-175, 191 *)
Fixpoint lset (l : list Z) (n : nat) (p : Z) : list Z :=
  match l, n with
  | [], _ => []
  | _ :: r, O => p :: r
  | x :: r, S k => x :: lset r k p
  end.
(* contrib/regetopt/regetopt.c:27, 44, 133, 171-175, 191 *)
Definition aset (l : list Z) (i p : Z) : res (list Z) :=
  if (0 <=? i) && (i <? zlen l) then Ok (lset l (Z.to_nat i) p) else Fault.

(* contrib/regetopt/regetopt.c:33-35: the search for the option character; None: not found,
   Some b: b tells whether a colon follows *)
Fixpoint short_loop (fuel : nat) (m : mem) (os n c i : Z) : res (option bool) :=
  match fuel with
  | O => NoFuel
  | S k =>
      if i <? n then
        let* x := load m (os + i) in
        if schar x =? c then
          if i + 1 <? n then let* y := load m (os + i + 1) in Ok (Some (y =? 58))
          else Ok (Some false)
        else short_loop k m os n c (i + 1)
      else Ok None
  end.
(* contrib/regetopt/regetopt.c:26-71 *)
Definition regetopt_short (fuel : nat) (m : mem) (argc optstring : Z) (st : rst) : res (Z * rst) :=
  let i := roind st in
  let* cur := aget (roargv st) i in
  let* len := strlen fuel m cur in
  let* c := load m (cur + rocix st) in
  let c := schar c in
  let* n := strlen fuel m optstring in
  let* r := short_loop fuel m optstring n c 0 in
  match r with
  | None => Ok (63, mkrst i c (roarg st) (rocix st) (rocnt st) (roargv st) (rolong st) (roflag st))
  | Some false => Ok (c, mkrst i c (roarg st) (rocix st + 1) (rocnt st) (roargv st) (rolong st) (roflag st))
  | Some true =>
      if rocix st + 1 <? len then
        let* i1 := iop (i + 1) in
        Ok (c, mkrst i1 c (cur + rocix st + 1) 1 (rocnt st) (roargv st) (rolong st) (roflag st))
      else
        let* i1 := iop (i + 1) in
        if i1 <? argc then
          let* p := aget (roargv st) i1 in
          let* i2 := iop (i + 2) in
          Ok (c, mkrst i2 c p 1 (rocnt st) (roargv st) (rolong st) (roflag st))
        else Ok (58, mkrst i c (roarg st) (rocix st) (rocnt st) (roargv st) (rolong st) (roflag st))
  end.

(* contrib/regetopt/regetopt.c:94-117: index counts, mi is match_index; Some mi: behind the
   loop, None: return '?' (ambiguous) *)
Fixpoint long_loop (fuel : nat) (m : mem) (cur cur_len : Z) (ls : list lopt) (index mi : Z) : res (option Z) :=
  match ls with
  | [] => Ok (Some mi)
  | o :: r =>
      let* opt_len := strlen fuel m (lname o) in
      let* exact := (if opt_len =? cur_len then
                       let* x := strncmp fuel m (cur + 2) (lname o) opt_len in Ok (x =? 0)
                     else Ok false) in
      if exact then Ok (Some index)
      else
        let* part := (if cur_len <? opt_len then
                        let* x := strncmp fuel m (cur + 2) (lname o) cur_len in Ok (x =? 0)
                      else Ok false) in
        if part then
          if 0 <=? mi then Ok None
          else let* i1 := iop (index + 1) in long_loop fuel m cur cur_len r i1 index
        else let* i1 := iop (index + 1) in long_loop fuel m cur cur_len r i1 mi
  end.
(* contrib/regetopt/regetopt.c:83-168.  longopts: None is NULL, otherwise the elements in
   front of the one whose name is NULL. li: longindex is not NULL. *)
Definition regetopt_long (fuel : nat) (m : mem) (argc : Z) (longopts : option (list lopt)) (li : bool) (st : rst)
  : res (Z * rst) :=
  let i := roind st in
  let* cur := aget (roargv st) i in
  let* eq := strchr fuel m cur 61 in
  let* cur_len := (if eq =? 0 then let* n := strlen fuel m cur in iop (n - 2) else lop (eq - cur - 2)) in
  match longopts with
  | None => Fault
  | Some ls =>
      let* r := long_loop fuel m cur cur_len ls 0 (-1) in
      match r with
      | None => Ok (63, st)
      | Some mi =>
          if mi <? 0 then Ok (63, st)
          else match nth_error ls (Z.to_nat mi) with
          | None => Fault
          | Some o =>
              let finish (i arg : Z) : res (Z * rst) :=
                let* i1 := iop (i + 1) in
                let l := if li then mi else rolong st in
                if lflag o =? 0 then
                  Ok (lval o, mkrst i1 (roopt st) arg (rocix st) (rocnt st) (roargv st) l (roflag st))
                else
                  Ok (1, mkrst i1 (roopt st) arg (rocix st) (rocnt st) (roargv st) l
                           (fun x => if x =? lflag o then lval o else roflag st x)) in
              if lhas o =? 1 then
                if negb (eq =? 0) then finish i (eq + 1)
                else
                  let* i1 := iop (i + 1) in
                  if i1 <? argc then let* p := aget (roargv st) i1 in finish i1 p
                  else Ok (63, st)
              else if lhas o =? 2 then finish i (if eq =? 0 then 0 else eq + 1)
              else finish i (roarg st)
          end
      end
  end.

(* contrib/regetopt/regetopt.c:172-174, from i on *)
Fixpoint shift_loop (fuel : nat) (argc : Z) (l : list Z) (i : Z) : res (list Z) :=
  match fuel with
  | O => NoFuel
  | S k =>
      if i <? argc then
        let* p := aget l i in let* l := aset l (i - 1) p in
        let* i1 := iop (i + 1) in shift_loop k argc l i1
      else Ok l
  end.
(* contrib/regetopt/regetopt.c:170-176 *)
Definition reorder_option (fuel : nat) (argc : Z) (l : list Z) (ind : Z) : res (list Z) :=
  let* cur := aget l ind in
  let* i := iop (ind + 1) in
  let* l := shift_loop fuel argc l i in
  aset l (argc - 1) cur.

(* contrib/regetopt/regetopt.c:186-224, from begin_parse on *)
Fixpoint begin_parse (turns fuel : nat) (m : mem) (argc optstring : Z) (longopts : option (list lopt)) (li : bool)
  (st : rst) : res (Z * rst) :=
  match turns with
  | O => NoFuel
  | S k =>
      if rocnt st <=? roind st then Ok (-1, st)
      else
        let* cur := aget (roargv st) (roind st) in
        let* len := strlen fuel m cur in
        let* dd := is_dashdash m cur in
        if dd then
          let* i1 := iop (roind st + 1) in
          Ok (-1, mkrst i1 (roopt st) (roarg st) (rocix st) (rocnt st) (roargv st) (rolong st) (roflag st))
        else
          let* c0 := (if 2 <=? len then load m cur else Ok 0) in
          let* c1 := (if (2 <=? len) && (c0 =? 45) then load m (cur + 1) else Ok 0) in
          let is_option := ((2 <? len) && (c0 =? 45)) || ((len =? 2) && (c0 =? 45) && negb (c1 =? 45)) in
          if negb is_option then
            let* l := reorder_option fuel argc (roargv st) (roind st) in
            let* n := iop (rocnt st - 1) in
            begin_parse k fuel m argc optstring longopts li
              (mkrst (roind st) (roopt st) (roarg st) (rocix st) n l (rolong st) (roflag st))
          else if negb ((2 <? len) && (c1 =? 45)) then
            if len <=? rocix st then
              let* i1 := iop (roind st + 1) in
              begin_parse k fuel m argc optstring longopts li
                (mkrst i1 (roopt st) (roarg st) 1 (rocnt st) (roargv st) (rolong st) (roflag st))
            else regetopt_short fuel m (rocnt st) optstring st
          else regetopt_long fuel m (rocnt st) longopts li st
  end.
(* contrib/regetopt/regetopt.c:178-225 *)
Definition regetopt (turns fuel : nat) (m : mem) (argc optstring : Z) (longopts : option (list lopt)) (li : bool)
  (st : rst) : res (Z * rst) :=
  let n := if rocnt st <? 0 then argc else rocnt st in
  begin_parse turns fuel m argc optstring longopts li
    (mkrst (roind st) (roopt st) (roarg st) (rocix st) n (roargv st) (rolong st) (roflag st)).

(* a program that calls regetopt n times (contrib/regetopt/regetopt.c:178) *)
Fixpoint regetopts (n turns fuel : nat) (m : mem) (argc optstring : Z) (longopts : option (list lopt)) (li : bool)
  (st : rst) : res (list (Z * rst)) :=
  match n with
  | O => Ok []
  | S n =>
      let* r := regetopt turns fuel m argc optstring longopts li st in
      let* l := regetopts n turns fuel m argc optstring longopts li (snd r) in Ok (r :: l)
  end.
