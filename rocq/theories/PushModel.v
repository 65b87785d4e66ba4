(* Model of asm/macros/mpush_pop.asm: the macros mpush, mpop, mpushrev and mpoprev of the assembler,
   on the machine of AsmModel.v. *)
From Verif Require Import Base AsmModel.

(* the instructions the macros expand to; for asm/macros/mpush_pop.asm:4-8 *)
Inductive pinstr := Push_ (r : rg) | Pop_ (r : rg).

(* asm/macros/mpush_pop.asm:4-8.  .irp repeats its body for every argument; without arguments the
   assembler expands the body once with an empty operand, which it rejects: None *)
Definition irp (i : rg -> pinstr) (args : list rg) : option (list pinstr) :=
  match args with [] => None | _ => Some (map i args) end.
Definition mpush (args : list rg) : option (list pinstr) := irp Push_ args. (* asm/macros/mpush_pop.asm:4-8 *)
(* asm/macros/mpush_pop.asm:10-15: .ifnb is true if there are further arguments; without any argument
   cur is empty, so that pop has no operand: None *)
Fixpoint mpop (args : list rg) : option (list pinstr) :=
  match args with
  | [] => None
  | cur :: args =>
      match args with
      | [] => Some [Pop_ cur]
      | _ => match mpop args with Some p => Some (p ++ [Pop_ cur]) | None => None end
      end
  end.
(* asm/macros/mpush_pop.asm:17-22 *)
Fixpoint mpushrev (args : list rg) : option (list pinstr) :=
  match args with
  | [] => None
  | cur :: args =>
      match args with
      | [] => Some [Push_ cur]
      | _ => match mpushrev args with Some p => Some (p ++ [Push_ cur]) | None => None end
      end
  end.
(* asm/macros/mpush_pop.asm:24-28 *)
Definition mpoprev (args : list rg) : option (list pinstr) := irp Pop_ args.

(* push stores the register below the stack pointer and decrements it; pop as in AsmModel.v
   (processor).  push %rsp stores the value before the decrement, pop %rsp leaves the loaded value;
   for asm/macros/mpush_pop.asm:4-28 *)
Definition step (i : pinstr) (s : mach) : res mach :=
  match i with
  | Push_ r =>
      let* s' := stw (setr RSP (u64 (regs s RSP - 8)) s) (u64 (regs s RSP - 8)) (regs s r) in Ok s'
  | Pop_ r => let* v := ldw s (regs s RSP) in Ok (setr r v (setr RSP (u64 (regs s RSP + 8)) s))
  end.
(* for asm/macros/mpush_pop.asm:4-28 *)
Fixpoint steps (p : list pinstr) (s : mach) : res mach :=
  match p with [] => Ok s | i :: p => let* s := step i s in steps p s end.
