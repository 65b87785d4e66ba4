(* Model of tools/stripblanks.c and tools/stripblanklines.c. *)
From Verif Require Import Base StrModel StreamModel OutModel.

(* include/ctype.h:10, on the byte of a char *)
Definition c_isspace (c : Z) : bool := (c =? 32) || (c =? 9) || (c =? 10) || (c =? 12) || (c =? 13) || (c =? 11).
(* tools/stripblanks.c:36, tools/stripblanklines.c:31: the loop *)
Fixpoint skip_loop (fuel : nat) (m : mem) (buf a : Z) : res Z :=
  match fuel with
  | O => NoFuel
  | S k => let* c := load m (buf + a) in
           if c_isspace c then let* a := iop (a + 1) in skip_loop k m buf a else Ok a
  end.
(* tools/stripblanks.c:29-32 (the same in tools/stripblanklines.c:24-27): a line that fills the buffer *)
Fixpoint long_loop {W} (k : kernel W) (fuel n : nat) (m : mem) (s : stream) (buf : Z) (w : W) : res (mem * stream * W) :=
  match n with
  | O => NoFuel
  | S n =>
      let* r := print k fuel m 2 buf w in
      let* r := prints k fuel m buf [] (snd r) in
      let* g := fgets fuel m s buf 1024 in
      let '(m, s, p) := g in
      let w := snd r in
      if p =? 0 then Ok (m, s, w)
      else let* l := strlen fuel m buf in
           if 1024 <=? l then long_loop k fuel n m s buf w else Ok (m, s, w)
  end.
(* The loop of main: tools/stripblanks.c:26-40 with whole = false, tools/stripblanklines.c:21-35
   with whole = true (the line is printed with its blanks).  buf is the array char buf[1024],
   s is stdin, warn the address of the warning (23 characters). *)
Fixpoint strip {W} (whole : bool) (k : kernel W) (fuel n : nat) (warn : Z) (m : mem) (s : stream) (buf : Z) (w : W) : res (mem * stream * W) :=
  match n with
  | O => NoFuel
  | S n =>
      let* g := fgets fuel m s buf 1024 in
      let '(m, s, p) := g in
      if p =? 0 then Ok (m, s, w)
      else
        let* l := strlen fuel m buf in
        if 1024 <=? l then
          let* r := writes k m 2 warn 23 w in
          let* r := long_loop k fuel n m s buf (snd r) in
          let '(m, s, w) := r in
          let* r := print k fuel m 2 buf w in
          let* r := prints k fuel m buf [] (snd r) in
          strip whole k fuel n warn m s buf (snd r)
        else
          let* a := skip_loop fuel m buf 0 in
          let* c := load m (buf + a) in
          if negb (c =? 0) then
            let* r := prints k fuel m (if whole then buf else buf + a) [] w in
            strip whole k fuel n warn m s buf (snd r)
          else strip whole k fuel n warn m s buf w
  end.
