(* Model of the assembler code of asm/jmp-x64.c (the same as asm/jmp-x64.S) and
   asm/start-linux-x64.c: a machine with the instructions used there. *)
From Verif Require Import Base.

(* the registers of 64 bits, values 0..2^64-1; for asm/jmp-x64.c:13-44, asm/start-linux-x64.c:1-25 *)
Inductive rg := RAX | RBX | RDX | RSI | RDI | RBP | RSP | R12 | R13 | R14 | R15.
(* [rg_eqb]: equality of registers; for asm/jmp-x64.c:13-44, asm/start-linux-x64.c:1-25 *)
Definition rg_n (r : rg) : Z :=
  match r with RAX => 0 | RBX => 1 | RDX => 2 | RSI => 3 | RDI => 4 | RBP => 5 | RSP => 6
             | R12 => 7 | R13 => 8 | R14 => 9 | R15 => 10 end.
Definition rg_eqb (a b : rg) : bool := rg_n a =? rg_n b. (* for asm/jmp-x64.c:13-44, asm/start-linux-x64.c:1-25 *)

(* registers, the zero flag, the memory by words of 64 bits.  Simplified: only addresses
   that are multiples of 8 can be accessed (all operands of the code are words of 8 bytes,
   jmp_buf and the stack are aligned).  asm/jmp-x64.c:13-44, asm/start-linux-x64.c:1-25 *)
Record mach := mkm { regs : rg -> Z; zf : bool; words : Z -> option Z }.
(* for asm/jmp-x64.c:13-44, asm/start-linux-x64.c:1-25 *)
Definition setr (r : rg) (v : Z) (s : mach) : mach :=
  mkm (fun x => if rg_eqb x r then v else regs s x) (zf s) (words s).
(* for asm/jmp-x64.c:13-44, asm/start-linux-x64.c:1-25 *)
Definition ldw (s : mach) (a : Z) : res Z :=
  if a mod 8 =? 0 then match words s a with Some v => Ok v | None => Fault end else Fault.
(* for asm/jmp-x64.c:13-44, asm/start-linux-x64.c:1-25 *)
Definition stw (s : mach) (a v : Z) : res mach :=
  if a mod 8 =? 0 then
    match words s a with
    | Some _ => Ok (mkm (regs s) (zf s) (fun x => if x =? a then Some v else words s x))
    | None => Fault
    end
  else Fault.

(* the instructions; [o] is a displacement; for asm/jmp-x64.c:13-44, asm/start-linux-x64.c:1-25 *)
Inductive instr :=
| Mov (s d : rg)               (* mov s,d *)
| MovI (i : Z) (d : rg)        (* movq $i,d *)
| Load (o : Z) (b d : rg)      (* mov o(b),d *)
| Store (s : rg) (o : Z) (b : rg) (* mov s,o(b) *)
| Lea (o : Z) (b d : rg)       (* lea o(b),d *)
| LeaX (o : Z) (b i d : rg)    (* leaq o(b,i,8),d *)
| Test (r : rg)                (* test r,r *)
| Jnz (n : nat)                (* jnz over the next n instructions *)
| Inc (r : rg)
| Clear (r : rg)               (* xor r,r; xorl of the lower half clears all of it *)
| Pop (d : rg)
| Call                         (* call of the C function behind *)
| Jmp (r : rg)                 (* jmp *r *)
| Ret
| Syscall.

(* how a piece of code is left: return or jump to an address, call of the C function
   (what follows in the list is the rest), system call;
   asm/jmp-x64.c:13-44, asm/start-linux-x64.c:1-25 *)
Inductive leave := LGoto (a : Z) (s : mach) | LCall (s : mach) (k : list instr) | LSys (s : mach) (k : list instr).

(* one run through a list of instructions (there are no jumps back).  [ra] is the address
   behind a call.  asm/jmp-x64.c:13-44, asm/start-linux-x64.c:1-25 *)
Fixpoint run (ra : Z) (skip : nat) (p : list instr) (s : mach) : res leave :=
  match p with
  | [] => Fault
  | i :: k =>
      match skip with
      | S n => run ra n k s
      | O =>
          match i with
          | Mov a d => run ra 0 k (setr d (regs s a) s)
          | MovI v d => run ra 0 k (setr d v s)
          | Load o b d => let* v := ldw s (u64 (regs s b + o)) in run ra 0 k (setr d v s)
          | Store a o b => let* s := stw s (u64 (regs s b + o)) (regs s a) in run ra 0 k s
          | Lea o b d => run ra 0 k (setr d (u64 (regs s b + o)) s)
          | LeaX o b x d => run ra 0 k (setr d (u64 (regs s b + 8 * regs s x + o)) s)
          | Test r => run ra 0 k (mkm (regs s) (regs s r =? 0) (words s))
          | Jnz n => run ra (if zf s then 0 else n) k s
          | Inc r => let s := setr r (u64 (regs s r + 1)) s in
                     run ra 0 k (mkm (regs s) (regs s r =? 0) (words s))
          | Clear r => let s := setr r 0 s in run ra 0 k (mkm (regs s) true (words s))
          | Pop d => let* v := ldw s (regs s RSP) in
                     run ra 0 k (setr d v (setr RSP (u64 (regs s RSP + 8)) s))
          | Call => let s := setr RSP (u64 (regs s RSP - 8)) s in
                    let* s := stw s (regs s RSP) ra in Ok (LCall s k)
          | Jmp r => Ok (LGoto (regs s r) s)
          | Ret => let* v := ldw s (regs s RSP) in Ok (LGoto v (setr RSP (u64 (regs s RSP + 8)) s))
          | Syscall => Ok (LSys s k)
          end
      end
  end.

(* asm/jmp-x64.c:32-44, setjmp and _setjmp *)
Definition setjmp_code : list instr := [
  Store RBX 0 RDI; Store RBP 8 RDI; Store R12 16 RDI; Store R13 24 RDI; Store R14 32 RDI;
  Store R15 40 RDI; Lea 8 RSP RDX; Store RDX 48 RDI; Load 0 RSP RDX; Store RDX 56 RDI;
  Clear RAX; Ret].
(* asm/jmp-x64.c:13-28, longjmp and _longjmp *)
Definition longjmp_code : list instr := [
  Mov RSI RAX; Test RAX; Jnz 1; Inc RAX;
  Load 0 RDI RBX; Load 8 RDI RBP; Load 16 RDI R12; Load 24 RDI R13; Load 32 RDI R14;
  Load 40 RDI R15; Load 48 RDI RDX; Mov RDX RSP; Load 56 RDI RDX; Jmp RDX].
(* asm/start-linux-x64.c:3-19, without mini_globals *)
Definition start_code : list instr := [
  Clear RBP; Pop RDI; Mov RSP RSI; Mov RDI RAX; LeaX 8 RSI RDI RDX; Call;
  Mov RAX RDI; MovI 60 RAX; Syscall].
