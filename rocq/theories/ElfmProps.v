(* C170: ELF structures and macros.  C171: structures of signals, resources and names. *)
From Coq Require Import String.
From Verif Require Import Base BaseLemmas DirModel AbiModel AbiSpec AbiProofs ElfmModel ElfmSpec.
Local Open Scope list_scope.

Definition elf_structures : list (ctype * table) :=
  [(Elf32_Ehdr, f_ehdr32); (Elf64_Ehdr, f_ehdr64); (Elf32_Shdr, f_shdr32); (Elf64_Shdr, f_shdr64); (Elf32_Chdr, f_chdr32); (Elf64_Chdr, f_chdr64); (Elf32_Sym, f_sym32); (Elf64_Sym, f_sym64);
   (Elf32_Rel, f_rel32); (Elf64_Rel, f_rel64); (Elf32_Rela, f_rela32); (Elf64_Rela, f_rela64); (Elf32_Phdr, f_phdr32); (Elf64_Phdr, f_phdr64); (Elf32_Dyn, f_dyn32); (Elf64_Dyn, f_dyn64);
   (Elf_Verdef, f_verdef); (Elf_Verdaux, f_verdaux); (Elf_Verneed, f_verneed); (Elf_Vernaux, f_vernaux); (Elf32_auxv_t, f_auxv32); (Elf64_auxv_t, f_auxv64); (Elf_Nhdr, f_nhdr)].
Definition process_structures : list (ctype * table) :=
  [(siginfo, k_siginfo); (sigaction, k_sigaction); (rusage, k_rusage); (rlimit, k_rlimit); (utsname, k_utsname); (tms, k_tms); (inotify_event, k_inotify);
   (seccomp_data, k_seccomp_data); (seccomp_notif, k_seccomp_notif); (seccomp_notif_resp, k_seccomp_resp)].

Definition row_fits (t : ctype) (r : string * Z * Z) : bool :=
  let '(f, o, n) := r in
  match member t f with Some (o', n') => (o' =? o) && (n' =? n) && (0 <=? o) && ((0 <? n) || (n =? 0) && (o mod 8 =? 0)) && (o + n <=? bits t) | None => false end.
Definition fits (s : ctype * table) : bool := forallb (row_fits (fst s)) (rows (snd s)) && (bits (fst s) =? whole (snd s)) && (bits (fst s) mod 8 =? 0).
Lemma all_fit : forallb fits (elf_structures ++ process_structures) = true.
Proof. vm_compute. reflexivity. Qed.
Lemma fit t k f o n : In (t, k) (elf_structures ++ process_structures) -> In (f, o, n) (rows k) ->
  member t f = Some (o, n) /\ 0 <= o /\ (0 < n \/ n = 0 /\ o mod 8 = 0) /\ o + n <= bits t /\ bits t = whole k /\ bits t mod 8 = 0.
Proof.
  intros H1 H2. pose proof all_fit as A. rewrite forallb_forall in A. specialize (A _ H1). unfold fits in A. cbn [fst snd] in A.
  apply andb_true_iff in A as [A A3]. apply andb_true_iff in A as [A A2]. rewrite forallb_forall in A. specialize (A _ H2). unfold row_fits in A.
  destruct (member t f) as [[o' n']|]; [|discriminate]. apply andb_true_iff in A as [A B4]. apply andb_true_iff in A as [A B3]. apply andb_true_iff in A as [A B2]. apply andb_true_iff in A as [A B1].
  apply Z.eqb_eq in A, B1, A2, A3. subst. repeat split; try lia.
Qed.
(* p->f reads the number in the place of f; p->f = v puts v there and changes no other bit; sizeof is the size of the table *)
Definition accesses (t : ctype) (k : table) : Prop :=
  bits t = whole k /\
  forall f o n, In (f, o, n) (rows k) -> forall m p, byte_mem m ->
    (forall v, 0 <= v < 2 ^ n -> holds m p o n v -> get_member m p t f = Ok v) /\
    (forall v, room m p (sizeof t) -> exists m', set_member m p t f v = Ok m' /\ holds m' p o n v /\ forall i, i < o \/ o + n <= i -> mbit m' p i = mbit m p i).
Lemma access t k : In (t, k) (elf_structures ++ process_structures) -> accesses t k.
Proof.
  intros H1. split.
  { pose proof all_fit as A. rewrite forallb_forall in A. specialize (A _ H1). unfold fits in A. cbn [fst snd] in A. apply andb_true_iff in A as [A _]. apply andb_true_iff in A as [_ A]. lia. }
  intros f o n H2 m p Hm. destruct (fit t k f o n H1 H2) as (M & O & N & E & _ & D). split.
  - intros v Hv H. eapply get_holds; eauto.
  - intros v R. apply set_holds; auto. intros i Hi. unfold mbit. destruct (m (p + (o + i) / 8)) eqn:F; [discriminate|]. exfalso. apply (R (p + (o + i) / 8)); [|exact F].
    unfold sizeof. pose proof (Z.div_mod (bits t) 8). assert (0 <= (o + i) / 8) by (apply Z.div_pos; lia). assert ((o + i) / 8 < bits t / 8) by (apply Z.div_lt_upper_bound; lia). lia.
Qed.

(* ---- C170 ---- *)
Theorem C170_structures : forall t k, In (t, k) elf_structures -> accesses t k.
Proof. intros t k H. apply access. apply in_or_app. now left. Qed.
Print Assumptions C170_structures.
Ltac Zify.zify_post_hook ::= Z.div_mod_to_equations.
Lemma pack a b k : 0 <= k -> 0 <= b < 2 ^ k -> Z.shiftr (Z.shiftl a k + b) k = a /\ Z.land (Z.shiftl a k + b) (Z.ones k) = b.
Proof.
  intros Hk Hb. rewrite Z.shiftl_mul_pow2, Z.shiftr_div_pow2, Z.land_ones by lia. split.
  - rewrite Z.add_comm, Z.div_add by lia. rewrite Z.div_small by lia. lia.
  - rewrite Z.add_comm, Z.mod_add by lia. apply Z.mod_small. lia.
Qed.
(* what is packed into an info field is found there again; the macros for the two classes *)
Theorem C170_symbols : forall bind type, 0 <= bind < 16 -> 0 <= type < 16 ->
  exists info, ELF_ST_INFO bind type = Ok info /\ 0 <= info < 256 /\ ELF_ST_BIND info = bind /\ ELF_ST_TYPE info = type.
Proof.
  intros b t Hb Ht. unfold ELF_ST_INFO. destruct (Z.ltb_spec b 0); [lia|]. change 15 with (Z.ones 4). rewrite (Z.land_ones t), (Z.mod_small t) by (change (2 ^ 4) with 16; lia).
  assert (R : 0 <= Z.shiftl b 4 < 256 - 15) by (rewrite Z.shiftl_mul_pow2 by lia; change (2 ^ 4) with 16; lia).
  rewrite iop_ok by (unfold INT_MIN, INT_MAX; lia). rewrite bind_Ok. rewrite iop_ok by (unfold INT_MIN, INT_MAX; lia). eexists. split; [reflexivity|]. split; [lia|].
  unfold ELF_ST_BIND, ELF_ST_TYPE. unfold ubyte. rewrite Z.mod_small by lia. change 15 with (Z.ones 4). apply pack; [lia|change (2 ^ 4) with 16; lia].
Qed.
Print Assumptions C170_symbols.
Theorem C170_relocations : forall sym type,
  (0 <= sym < 2 ^ 24 -> 0 <= type < 2 ^ 8 -> ELF32_R_SYM (ELF32_R_INFO sym type) = sym /\ ELF32_R_TYPE (ELF32_R_INFO sym type) = type /\ 0 <= ELF32_R_INFO sym type < 2 ^ 32) /\
  (0 <= sym < 2 ^ 32 -> 0 <= type < 2 ^ 32 -> ELF64_R_SYM (ELF64_R_INFO sym type) = sym /\ ELF64_R_TYPE (ELF64_R_INFO sym type) = type /\ 0 <= ELF64_R_INFO sym type < 2 ^ 64).
Proof.
  intros s t. split; intros Hs Ht.
  - assert (E : ELF32_R_INFO s t = Z.shiftl s 8 + t).
    { unfold ELF32_R_INFO. change 255 with (Z.ones 8). rewrite (Z.land_ones t), (Z.mod_small t), Z.shiftl_mul_pow2 by lia. change (2 ^ 8) with 256 in *. change (2 ^ 24) with 16777216 in Hs. rewrite (u32_small (s * 256)) by lia. apply u32_small. lia. }
    rewrite E. destruct (pack s t 8) as [P1 P2]; [lia|lia|]. unfold ELF32_R_SYM, ELF32_R_TYPE. change 255 with (Z.ones 8). split; [exact P1|]. split; [exact P2|]. rewrite Z.shiftl_mul_pow2 by lia. lia.
  - assert (E : ELF64_R_INFO s t = Z.shiftl s 32 + t).
    { unfold ELF64_R_INFO. rewrite Z.shiftl_mul_pow2 by lia. rewrite (u64_small (s * 2 ^ 32)) by lia. apply u64_small. lia. }
    rewrite E. destruct (pack s t 32) as [P1 P2]; [lia|lia|]. unfold ELF64_R_SYM, ELF64_R_TYPE. change 4294967295 with (Z.ones 32). split; [exact P1|]. split; [exact P2|]. rewrite Z.shiftl_mul_pow2 by lia. lia.
Qed.
Print Assumptions C170_relocations.
Theorem C170_moves : forall sym size, 0 <= size < 2 ^ 8 ->
  (0 <= sym < 2 ^ 24 -> ELF_M_SYM (ELF32_M_INFO sym size) = sym /\ ELF_M_SIZE (ELF32_M_INFO sym size) = size) /\
  (0 <= sym < 2 ^ 56 -> ELF_M_SYM (ELF64_M_INFO sym size) = sym /\ ELF_M_SIZE (ELF64_M_INFO sym size) = size).
Proof.
  intros s t Ht. assert (U : ubyte t = t) by (unfold ubyte; apply Z.mod_small; change (2 ^ 8) with 256 in Ht; lia).
  assert (P : ELF_M_SYM (Z.shiftl s 8 + t) = s /\ ELF_M_SIZE (Z.shiftl s 8 + t) = t).
  { destruct (pack s t 8) as [P1 P2]; [lia|lia|]. split; [exact P1|]. unfold ELF_M_SIZE, ubyte. rewrite Z.land_ones in P2 by lia. exact P2. }
  split; intros Hs.
  - replace (ELF32_M_INFO s t) with (Z.shiftl s 8 + t); [exact P|]. unfold ELF32_M_INFO. rewrite U, Z.shiftl_mul_pow2 by lia. symmetry. rewrite (u32_small (s * 2 ^ 8)) by lia. apply u32_small. lia.
  - replace (ELF64_M_INFO s t) with (Z.shiftl s 8 + t); [exact P|]. unfold ELF64_M_INFO. rewrite U, Z.shiftl_mul_pow2 by lia. symmetry. rewrite (u64_small (s * 2 ^ 8)) by lia. apply u64_small. lia.
Qed.
Print Assumptions C170_moves.
(* the other way round: an info field that was read is composed of its parts, so different ones differ in a part *)
Theorem C170_parts : (forall info, 0 <= info < 2 ^ 8 -> ELF_ST_INFO (ELF_ST_BIND info) (ELF_ST_TYPE info) = Ok info) /\
  (forall info, 0 <= info < 2 ^ 32 -> ELF32_R_INFO (ELF32_R_SYM info) (ELF32_R_TYPE info) = info) /\
  (forall info, 0 <= info < 2 ^ 64 -> ELF64_R_INFO (ELF64_R_SYM info) (ELF64_R_TYPE info) = info).
Proof.
  split; [|split]; intros i Hi.
  - unfold ELF_ST_INFO, ELF_ST_BIND, ELF_ST_TYPE, ubyte. change (2 ^ 8) with 256 in Hi. rewrite (Z.mod_small i) by lia. change 15 with (Z.ones 4). rewrite !Z.land_ones, Z.shiftr_div_pow2, Z.mod_mod by (change (2 ^ 4) with 16; lia).
    change (2 ^ 4) with 16. destruct (Z.ltb_spec (i / 16) 0); [lia|]. rewrite Z.shiftl_mul_pow2 by lia. change (2 ^ 4) with 16.
    rewrite iop_ok by (unfold INT_MIN, INT_MAX; lia). rewrite bind_Ok. rewrite iop_ok by (unfold INT_MIN, INT_MAX; lia). f_equal. lia.
  - unfold ELF32_R_INFO, ELF32_R_SYM, ELF32_R_TYPE. change 255 with (Z.ones 8). rewrite !Z.land_ones, Z.shiftr_div_pow2, Z.shiftl_mul_pow2, Z.mod_mod by lia. change (2 ^ 8) with 256.
    rewrite (u32_small (i / 256 * 256)) by lia. rewrite u32_small by lia. lia.
  - unfold ELF64_R_INFO, ELF64_R_SYM, ELF64_R_TYPE. change 4294967295 with (Z.ones 32). rewrite !Z.land_ones, Z.shiftr_div_pow2, Z.shiftl_mul_pow2 by lia. 
    rewrite (u64_small (i / 2 ^ 32 * 2 ^ 32)) by lia. rewrite u64_small by lia. lia.
Qed.
Print Assumptions C170_parts.
(* the visibility is in the lowest two bits of st_other, whatever the other bits are *)
Theorem C170_visibility : forall v rest, 0 <= v < 4 -> ELF_ST_VISIBILITY (4 * rest + v) = v.
Proof.
  intros v r Hv. unfold ELF_ST_VISIBILITY. change 3 with (Z.ones 2). rewrite Z.land_ones by lia. change (2 ^ 2) with 4. lia.
Qed.
Print Assumptions C170_visibility.
Example C170_case : In (Elf64_Sym, f_sym64) elf_structures /\ In ("st_value"%string, 64, 64) (rows f_sym64) /\
  get_member (mem_of [(1000, [1; 0; 0; 0; 18; 0; 7; 0; 239; 190; 0; 0; 0; 0; 0; 0])]) 1000 Elf64_Sym "st_value" = Ok 48879 /\
  get_member (mem_of [(1000, [1; 0; 0; 0; 18; 0; 7; 0; 239; 190; 0; 0; 0; 0; 0; 0])]) 1000 Elf64_Sym "st_info" = Ok 18 /\ ELF_ST_BIND 18 = 1 /\ ELF_ST_TYPE 18 = 2 /\
  ELF64_R_INFO 5 7 = 21474836487 /\ ELF_ST_VISIBILITY 254 = 2.
Proof. split; [cbn; tauto|]. split; [cbn; tauto|]. repeat split. Qed.

(* ---- C171 ---- *)
Theorem C171_structures : forall t k, In (t, k) process_structures -> accesses t k.
Proof. intros t k H. apply access. apply in_or_app. now right. Qed.
Print Assumptions C171_structures.
Example C171_case : In (siginfo, k_siginfo) process_structures /\ In ("_sifields._sigchld._status"%string, 192, 32) (rows k_siginfo) /\ sizeof siginfo = 128 /\ sizeof utsname = 390 /\
  get_member (mem_of [(1000, [17; 0; 0; 0; 0; 0; 0; 0; 1; 0; 0; 0; 9; 9; 9; 9; 210; 4; 0; 0; 232; 3; 0; 0; 3; 0; 0; 0])]) 1000 siginfo "_sifields._sigchld._status" = Ok 3 /\
  get_member (mem_of [(1000, [17; 0; 0; 0; 0; 0; 0; 0; 1; 0; 0; 0; 9; 9; 9; 9; 210; 4; 0; 0; 232; 3; 0; 0; 3; 0; 0; 0])]) 1000 siginfo "_sifields._sigchld._pid" = Ok 1234.
Proof. split; [cbn; tauto|]. split; [cbn; tauto|]. repeat split. Qed.
