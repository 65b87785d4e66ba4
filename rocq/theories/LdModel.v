(* Model of the linker scripts ldscripts/ld.script.{default,default_execstack,exec,onlytext,
   onlytext_tiny,text_and_bss,textandbss,bloating} and of what ld and the kernel make of them. *)
From Coq Require Export String Ascii.
From Verif Require Import Base.
Open Scope Z_scope.

(* an input section of an object file: name, size, alignment and the flags SHF_WRITE and SHF_EXECINSTR
   (ELF; not minilib code).  Common symbols are an input section COMMON; for the patterns of
   ldscripts/ld.script.default:27-76 *)
Record input := { i_name : string; i_size : Z; i_align : Z; i_write : bool; i_exec : bool }.

(* the patterns of ld, as far as the scripts use them: a star is any text, other characters stand for
   themselves; ldscripts/ld.script.default:27-76 *)
Fixpoint wild (p s : string) : bool :=
  match p with
  | EmptyString => match s with EmptyString => true | _ => false end
  | String c p' =>
      if Ascii.eqb c "*" then
        (fix star (s : string) : bool := wild p' s || match s with EmptyString => false | String _ s' => star s' end) s
      else match s with EmptyString => false | String d s' => Ascii.eqb c d && wild p' s' end
  end.

(* an output section: its statements *( p1 p2 ... ), the alignment of the end (1: none) and its segment;
   for ldscripts/ld.script.default:2-78 *)
Record output := { o_name : string; o_stmts : list (list string); o_end : Z; o_seg : string }.
(* PHDRS: the PT_LOAD segments with FLAGS, if given; the flags of PT_GNU_STACK; the output sections; the alignment
   in front of _end; the patterns of /DISCARD/; for ldscripts/ld.script.default:2-78 *)
Record script := { s_loads : list (string * option Z); s_stack : option Z; s_outputs : list output; s_end : Z; s_discard : list string }.

(* the patterns of /DISCARD/ all scripts have: ldscripts/ld.script.default:64-74,76 and the same lines of the others *)
Definition discards : list string :=
  [".note.GNU-stack"; ".note*"; ".gnu_debuglink"; ".gnu.lto_*"; ".iplt*"; ".igot*"; ".rel*"; ".comment"; ".eh_frame"; ".plt*"; ".got.plt*"; ".rel.*"]%string.

(* ldscripts/ld.script.default:27-35; the same in default_execstack:27-35, exec:27-35, text_and_bss:33-41 *)
Definition code_stmts : list (list string) :=
  [[".text.unlikely"; ".text.*_unlikely"]; [".text._start"]; [".text.exit"; ".text.exit.*"]; [".text._startup"]; [".text.main"];
   [".text.hot"; ".text.hot.*"]; [".text"; ".stub"; ".text.*"; ".gnu.linkonce.t.*"]; [".gnu.warning"]]%string.
(* ldscripts/ld.script.default:27-35 *)
Definition rodata_stmt : list string := [".rodata"; ".rodata.*"; ".gnu.linkonce.r.*"]%string.
Definition data_stmt : list string := [".data"; ".data.*"]%string. (* ldscripts/ld.script.default:27-35 *)
(* ldscripts/ld.script.default:27-35 *)
Definition bss_stmt : list string := [".bss"; ".bss.*"; ".gnu.linkonce.b.*"]%string.

(* ldscripts/ld.script.default:2-78: [text], [end_al] the alignments of line 56 and in front of _end, [stack] line 16 *)
Definition three (text stack bss_end end_al : Z) (more : list string) : script :=
  {| s_loads := [("text", Some text); ("data", Some 7); ("bss", Some 7)]%string; s_stack := Some stack;
     s_outputs := [ {| o_name := ".text"; o_stmts := code_stmts ++ [rodata_stmt]; o_end := 1; o_seg := "text" |};
                    {| o_name := ".data"; o_stmts := [data_stmt]; o_end := 1; o_seg := "data" |};
                    {| o_name := ".bss"; o_stmts := [["COMMON"]; [".dynbss"]; bss_stmt]; o_end := bss_end; o_seg := "bss" |} ]%string;
     s_end := end_al; s_discard := discards ++ more |}.
(* ldscripts/ld.script.default:2-80 *)
Definition default := three 5 6 8 1 [".got*"%string].
(* ldscripts/ld.script.default_execstack:2-78 *)
Definition default_execstack := three 5 7 4 8 [].
(* ldscripts/ld.script.exec:2-78 *)
Definition exec := three 7 7 4 8 [].
(* ldscripts/ld.script.text_and_bss:5-76, which is ldscripts/ld.script.textandbss *)
Definition text_and_bss : script :=
  {| s_loads := [("text", Some 5); ("bss", Some 7)]%string; s_stack := Some 6;
     s_outputs := [ {| o_name := ".text"; o_stmts := code_stmts; o_end := 1; o_seg := "text" |};
                    {| o_name := ".bss"; o_stmts := [[".dynbss"]; bss_stmt; ["COMMON"]; data_stmt; rodata_stmt]; o_end := 1; o_seg := "bss" |} ]%string;
     s_end := 8; s_discard := discards |}.
(* ldscripts/ld.script.onlytext:5-75 *)
Definition onlytext : script :=
  {| s_loads := [("text", None)]%string; s_stack := Some 6;
     s_outputs := [ {| o_name := ".text";
       o_stmts := [[".text.unlikely"; ".text.*_unlikely"]; [".text._start"; ".text._start.*"]; [".text._exit"; ".text._exit.*"];
         [".text.__exit"; ".text.__exit.*"]; [".text._startup"; ".text._startup.*"]; [".text.main"; ".text.main.*"]; [".text.cexit"];
         [".text.hot"; ".text.hot.*"]; [".text"; ".stub"; ".text.*"; ".gnu.linkonce.t.*"]; [".gnu.warning"];
         [".dynbss"]; bss_stmt; ["COMMON"]; rodata_stmt; data_stmt]; o_end := 1; o_seg := "text" |} ]%string;
     s_end := 1; s_discard := discards ++ ["*"%string] |}.
(* ldscripts/ld.script.onlytext_tiny:5-75: the same without line 13 *)
Definition onlytext_tiny : script :=
  {| s_loads := s_loads onlytext; s_stack := None; s_outputs := s_outputs onlytext; s_end := s_end onlytext; s_discard := s_discard onlytext |}.
(* ldscripts/ld.script.bloating:5-61; .shstrtab is no input section *)
Definition bloating : script :=
  {| s_loads := [("text", None)]%string; s_stack := None;
     s_outputs := [ {| o_name := ".text"; o_stmts := [[".text.unlikely"; ".text.*_unlikely"]; [".text.exit"; ".text.exit.*"];
         [".text.startup"; ".text.startup.*"]; [".text.hot"; ".text.hot.*"]; [".text"; ".stub"; ".text.*"; ".gnu.linkonce.t.*"]; [".gnu.warning"]]; o_end := 1; o_seg := "text" |};
                    {| o_name := ".bss"; o_stmts := [[".dynbss"]; bss_stmt; [".bss"]; [".shstrtab"]; ["COMMON"]; rodata_stmt]; o_end := 4; o_seg := "text" |} ]%string;
     s_end := 1; s_discard := discards |}.

(* ---- what ld does with a script (not minilib code) ---- *)
(* a statement takes every section that matches one of its patterns and that no statement before has taken, in
   the order of the command line; ldscripts/ld.script.default:27-76 *)
Definition hits (st : list string) (i : input) : bool := existsb (fun p => wild p (i_name i)) st.
(* the same for a list of statements, ldscripts/ld.script.default:27-76 *)
Fixpoint select (sts : list (list string)) (rest : list input) : list input * list input :=
  match sts with
  | [] => ([], rest)
  | st :: r => let '(h, m) := partition (hits st) rest in let '(h', m') := select r m in (h ++ h', m')
  end.
Definition align_up (a x : Z) : Z := (x + a - 1) / a * a. (* ALIGN of ld, ldscripts/ld.script.default:56 *)
(* the sections one after the other, each at a multiple of its alignment;
   ldscripts/ld.script.default:27-76 *)
Fixpoint lay (dot : Z) (l : list input) : list (Z * input) * Z :=
  match l with
  | [] => ([], dot)
  | i :: r => let a := align_up (i_align i) dot in let '(p, e) := lay (a + i_size i) r in ((a, i) :: p, e)
  end.
(* an output section starts at a multiple of the largest alignment in it; one without sections is left out;
   ldscripts/ld.script.default:27-76 *)
Definition largest (l : list input) : Z := fold_right (fun i a => Z.max (i_align i) a) 1 l.
(* ldscripts/ld.script.default:22-62 *)
Fixpoint outs (os : list output) (dot : Z) (rest : list input) : list (string * Z * input) * Z * list input :=
  match os with
  | [] => ([], dot, rest)
  | o :: r =>
      let '(h, m) := select (o_stmts o) rest in
      let '(p, e) := lay (align_up (largest h) dot) h in
      let e := match h with [] => dot | _ => align_up (o_end o) e end in
      let '(q, e', m') := outs r e m in
      (map (fun x => (o_seg o, fst x, snd x)) p ++ q, e', m')
  end.
(* the linked program: the sections with segment and address, _end, the sections that are thrown away and
   those no statement names (ld puts them where it wants); ldscripts/ld.script.default:1-82 *)
Record program := { p_placed : list (string * Z * input); p_end : Z; p_lost : list input; p_orphans : list input }.
(* the addresses start at 0x08048000 + SIZEOF_HEADERS, ldscripts/ld.script.default:23 *)
Definition base : Z := 0x08048000.
(* ldscripts/ld.script.default:23 *)
Definition link (s : script) (headers : Z) (l : list input) : program :=
  let '(p, e, rest) := outs (s_outputs s) (base + headers) l in
  let '(lost, orphans) := partition (hits (s_discard s)) rest in
  {| p_placed := p; p_end := align_up (s_end s) e; p_lost := lost; p_orphans := orphans |}.

(* p_flags of a segment: those of the script, or read and what the sections in it need (1 execute, 2 write, 4 read);
   ldscripts/ld.script.default:13-15 *)
Definition seg_flags (s : script) (p : program) (seg : string) : Z :=
  match find (fun x => String.eqb (fst x) seg) (s_loads s) with
  | Some (_, Some f) => f
  | _ => let mine := filter (fun x => String.eqb (fst (fst x)) seg) (p_placed p) in
         4 + (if existsb (fun x => i_write (snd x)) mine then 2 else 0) + (if existsb (fun x => i_exec (snd x)) mine then 1 else 0)
  end.
(* the kernel maps the pages of the segments in their order: the last segment that has a byte in the page of x
   decides (Linux, load_elf_binary; the headers are not counted here);
   for ldscripts/ld.script.default:13-15 *)
Definition page (x : Z) : Z := x / 4096.
(* not minilib code; for ldscripts/ld.script.default:13-15 *)
Definition touches (x : Z) (y : string * Z * input) : bool :=
  let '(_, a, i) := y in (0 <? i_size i) && (page a <=? page x) && (page x <=? page (a + i_size i - 1)).
(* not minilib code; for ldscripts/ld.script.default:13-15 *)
Definition rights (s : script) (p : program) (x : Z) : option Z :=
  fold_left (fun r seg => if existsb (fun y => String.eqb (fst (fst y)) (fst seg) && touches x y) (p_placed p)
                          then Some (seg_flags s p (fst seg)) else r) (s_loads s) None.
(* the rights of the stack: PT_GNU_STACK; without it the kernel makes it executable;
   ldscripts/ld.script.default:16 *)
Definition stack_rights (s : script) : Z := match s_stack s with Some f => f | None => 7 end.
