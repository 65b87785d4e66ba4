(* Specification for PageProps.v. *)
From Verif Require Import Base PageModel.

(* what the kernel guarantees for the address that it chooses: page aligned user
   addresses that were not mapped before *)
Definition kernel_ok (choose : Z -> Z + Z) (pg : pages) : Prop := forall len, 0 < len ->
  match choose len with
  | inl a => 4096 <= a /\ a mod 4096 = 0 /\ a + len <= 140737488351232 /\
             (forall x, a / 4096 <= x < (a + len + 4095) / 4096 -> pg x = None)
  | inr e => 1 <= e <= 133
  end.
(* n readable and writable pages from the address p on, one inaccessible page directly
   in front of them and one directly behind *)
Definition guarded (pg : pages) (p n : Z) : Prop :=
  p mod 4096 = 0 /\ pg (p / 4096 - 1) = Some 0 /\ pg (p / 4096 + n) = Some 0 /\
  forall x, p / 4096 <= x < p / 4096 + n -> pg x = Some 3.
