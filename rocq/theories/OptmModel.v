(* Model of macros/getoptm.h: option flags in a bit field.

   argv is the list of the strings in front of the null pointer; a string is the
   list of its char values (signed) in front of the terminator. *)
From Verif Require Import Base.

(* macros/getoptm.h:7-9: the enumeration constants a .. z, by the code of the letter *)
Definition enum_val (c : Z) : Z := 2 ^ (c - 97).
(* the argument "options" of the macro, (a+l+h+..), given by the letters, at the place
   where it is expanded, macros/getoptm.h:32: there the variable b of the loop of line
   29 hides the enumeration constant b *)
Definition options_val (letters : list Z) (b : Z) : Z :=
  s32 (fold_right (fun c s => (if c =? 98 then b else enum_val c) + s) 0 letters).
(* the same argument in the other macros, where nothing is hidden; for macros/getoptm.h:44-47 *)
Definition flags_val (letters : list Z) : Z :=
  s32 (fold_right (fun c s => enum_val c + s) 0 letters).

(* 1 << k: undefined unless 0 <= k < 31; else gcc and x86: count modulo 32;
   for macros/getoptm.h:29-35 *)
Definition shl1 (strict : bool) (k : Z) : res Z :=
  if (0 <=? k) && (k <? 31) then Ok (2 ^ k)
  else if strict then Fault else Ok (s32 (2 ^ (k mod 32))).

(* macros/getoptm.h:29-35: opts and the options for which "unrecognized" is executed
   ("unrecognized" goes on here; code that leaves the program sees the first of them) *)
Fixpoint optm_chars (strict : bool) (letters : list Z) (s : list Z) (b opts : Z) : res (Z * list Z) :=
  match s with
  | [] => Ok (opts, [])
  | c :: s =>
      let* ti := shl1 strict (c - 97) in
      let* (o, un) := optm_chars strict letters s (b + 1) (Z.lor opts ti) in
      Ok (o, if Z.land (options_val letters b) ti =? 0 then c :: un else un)
  end.
(* macros/getoptm.h:26-37 from argv[ap] on *)
Fixpoint optm_args (strict : bool) (letters : list Z) (argv : list (list Z)) (ap argp opts : Z) : res (Z * Z * list Z) :=
  match argv with
  | [] => Ok (argp, opts, [])
  | (45 :: s) :: argv =>
      let* (o, un) := optm_chars strict letters s 1 opts in
      let* (r, o', un') := optm_args strict letters argv (ap + 1) (ap + 1) o in
      Ok (r, o', un ++ un')
  | _ :: argv => optm_args strict letters argv (ap + 1) argp opts
  end.
(* macros/getoptm.h:23-39 PARSEOPTS_short; args is argv without argv[0].  Result: the
   value of the expression, opts, the options given to "unrecognized" *)
Definition parseopts_short (strict : bool) (letters : list Z) (args : list (list Z)) (opts : Z) : res (Z * Z * list Z) :=
  optm_args strict letters args 1 1 opts.

(* macros/getoptm.h:44-47 GETOPT_short *)
Definition getopt_short (opts : Z) (letters : list Z) : Z := Z.land opts (flags_val letters).
(* macros/getoptm.h:52-55 SETOPT_short *)
Definition setopt_short (opts : Z) (letters : list Z) : Z := Z.lor opts (flags_val letters).
