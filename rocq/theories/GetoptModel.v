(* Model of contrib/getopt/getopt.h. *)
From Verif Require Import Base StrModel SysModel.

(* contrib/getopt/getopt.h:18-21,26: the static variables; opterr, which only decides about
   messages, is left out *)
Record gost := mkgost { optind : Z; optpos : Z; optopt : Z; optarg : Z }.
(* contrib/getopt/getopt.h:18,26 *)
Definition gost0 : gost := mkgost 1 1 0 0.

(* strcmp(arg, "--") == 0 in contrib/getopt/getopt.h:37; strcmp reads up to the first
   difference (src/string/strcmp.c) *)
Definition is_dashdash (m : mem) (arg : Z) : res bool :=
  let* a := load m arg in
  if negb (a =? 45) then Ok false
  else let* b := load m (arg + 1) in
       if negb (b =? 45) then Ok false else let* c := load m (arg + 2) in Ok (c =? 0).

(* contrib/getopt/getopt.h:37-40: Some i: return -1 with optind = i; None: line 43 *)
Definition no_option (m : mem) (arg i : Z) : res (option Z) :=
  if arg =? 0 then Ok (Some i)
  else
    let* d := is_dashdash m arg in
    if d then let* i := iop (i + 1) in Ok (Some i)
    else
      let* a := load m arg in
      if negb (a =? 45) then Ok (Some i)
      else
        let* b := load m (arg + 1) in
        if isalnum (schar b) then Ok None else Ok (Some i).

(* contrib/getopt/getopt.h:24-75: the result and the new state.  argv is a memory of
   pointers, indexed by element.  The messages to stderr are left out. *)
Definition getopt (fuel : nat) (m argv : mem) (optstring : Z) (st : gost) : res (Z * gost) :=
  let st := if optind st =? 0 then mkgost 1 1 (optopt st) (optarg st) else st in
  let i := optind st in let p := optpos st in
  let* arg := load argv i in
  let* no := no_option m arg i in
  match no with
  | Some i => Ok (-1, mkgost i p (optopt st) (optarg st))
  | None =>
      let* c := load m (arg + p) in
      let c := schar c in
      let* opt := strchr fuel m optstring c in
      if opt =? 0 then Ok (63, mkgost i p c (optarg st))
      else
        let* o := load m (opt + 1) in
        if o =? 58 then
          let* p1 := iop (p + 1) in
          let* d := load m (arg + p1) in
          if negb (d =? 0) then
            let* i1 := iop (i + 1) in Ok (c, mkgost i1 1 c (arg + p + 1))
          else
            let* i1 := iop (i + 1) in
            let* next := load argv i1 in
            if negb (next =? 0) then
              let* i2 := iop (i + 2) in Ok (c, mkgost i2 1 c next)
            else
              let* o := load m optstring in
              Ok (if o =? 58 then 58 else 63, mkgost i p c (optarg st))
        else
          let* p1 := iop (p + 1) in
          let* d := load m (arg + p1) in
          if d =? 0 then let* i1 := iop (i + 1) in Ok (c, mkgost i1 1 c (optarg st))
          else Ok (c, mkgost i p1 c (optarg st))
  end.

(* n calls in a row, with results and states;
   not library code, the calls of contrib/getopt/getopt.h:24-75 *)
Fixpoint getopts (n : nat) (fuel : nat) (m argv : mem) (optstring : Z) (st : gost) : res (list (Z * gost)) :=
  match n with
  | O => Ok []
  | S n => let* r := getopt fuel m argv optstring st in
           let* l := getopts n fuel m argv optstring (snd r) in Ok (r :: l)
  end.
