(* C164: elftrunc cuts a static ELF file behind its last loadable segment. *)
From Verif Require Import Base BaseLemmas ShrinkModel ElftModel ElftSpec ElftProofs.
Local Open Scope list_scope.

Lemma list_dec_refl (l : list Z) (X : Type) (x y : X) : (if list_eq_dec Z.eq_dec l l then x else y) = x.
Proof. destruct (list_eq_dec Z.eq_dec l l); [reflexivity|contradiction]. Qed.
Lemma list_dec_ne (l l' : list Z) (X : Type) (x y : X) : l <> l' -> (if list_eq_dec Z.eq_dec l l' then x else y) = y.
Proof. destruct (list_eq_dec Z.eq_dec l l'); [contradiction|reflexivity]. Qed.
Lemma out_name_ok name : zlen name <= 1014 -> out_name name = trunc_name name.
Proof. intros H. unfold out_name, trunc_name. now rewrite firstn_all2 by (unfold zlen in H; lia). Qed.

(* main as far as it does not depend on the class *)
Lemma main_ok F class f fuel K d name rest : (forall i, read_fails K i = false) -> elf F class f -> 16 <= header F -> d name = Some f -> zlen rest <= 1 ->
  exists buf, elftrunc fuel K d (name :: rest) =
    (let* r := trunc (class =? 2) fuel K f buf 1 in
     let '(c, o) := r in
     let d1 := match o with Some out => set_file d (out_name name) (Some out) | None => d end in
     match c, rest with
     | 0, [dst] => if list_eq_dec Z.eq_dec dst (out_name name) then Ok (0, d1)
                   else Ok (0, set_file (set_file d1 dst (d1 (out_name name))) (out_name name) None)
     | _, _ => Ok (c, d1)
     end).
Proof.
  intros R E Hh Hd Hr. pose proof (complete _ _ _ E) as C. pose proof (magic _ _ _ E) as M.
  assert (Zb : zlen (part f 0 16) = 16) by (apply zlen_part; lia).
  exists (part f 0 16 ++ repeat 0 (Z.to_nat (4096 - zlen (part f 0 16)))). unfold elftrunc.
  destruct (Z.ltb_spec 1 (zlen rest)); [lia|]. rewrite Hd, (rd_ok K f R).
  assert (P5 : part (part f 0 16) 0 5 = part f 0 5) by (apply part_part; lia).
  rewrite M in P5. destruct (part f 0 16) as [|b0 [|b1 [|b2 [|b3 [|b4 r]]]]] eqn:Ep; try discriminate P5.
  injection P5 as -> -> -> -> ->. cbn [app firstn nth]. rewrite list_dec_refl. reflexivity.
Qed.

(* the result of the copy under its name, or renamed *)
Definition delivered (d d' : dir) (name : list Z) (rest : list (list Z)) (c : list Z) :=
  match rest with
  | [dst] => d' dst = Some c /\ (dst <> trunc_name name -> d' (trunc_name name) = None) /\ forall x, x <> dst -> x <> trunc_name name -> d' x = d x
  | _ => with_file d d' (trunc_name name) c
  end.
Lemma deliver d name rest c : zlen name <= 1014 -> zlen rest <= 1 ->
  exists d', (let d1 := set_file d (out_name name) (Some c) in
     match rest with
     | [dst] => if list_eq_dec Z.eq_dec dst (out_name name) then Ok (0, d1)
                   else Ok (0, set_file (set_file d1 dst (d1 (out_name name))) (out_name name) None)
     | _ => Ok (0, d1)
     end) = Ok (0, d') /\ delivered d d' name rest c.
Proof.
  intros Hn Hr. rewrite out_name_ok by exact Hn. destruct rest as [|dst [|x rest]].
  - eexists. split; [reflexivity|]. split; [unfold set_file; apply list_dec_refl|]. intros x Hx. unfold set_file. now apply list_dec_ne.
  - cbv zeta. destruct (list_eq_dec Z.eq_dec dst (trunc_name name)) as [->|N].
    + eexists. split; [reflexivity|]. split; [unfold set_file; apply list_dec_refl|]. split; [intros Q; now destruct Q|].
      intros x Hx _. unfold set_file. now apply list_dec_ne.
    + eexists. split; [reflexivity|]. cbn [delivered]. unfold set_file. split; [rewrite list_dec_ne by exact N; now rewrite !list_dec_refl|].
      split; [intros _; apply list_dec_refl|]. intros x H1 H2. rewrite !list_dec_ne by assumption. reflexivity.
  - exfalso. unfold zlen in Hr. cbn [length] in Hr. lia.
Qed.

(* the two formats at once *)
Section Both.
Variables (is64 : bool) (F : format) (class : Z).
Let L := if is64 then lay64 else lay32.
Hypothesis SF : same_format L F.
Lemma trunc_ok fuel K f buf n : good K -> elf F class f -> ~ dynamic F f -> last_load F f n -> header F <= n <= zlen f -> (length f < fuel)%nat ->
  trunc is64 fuel K f buf 1 = Ok (0, Some (firstn (Z.to_nat (header F)) (clear L (part f 0 (header F))) ++ part f (header F) (n - header F))).
Proof.
  intros G E ND (U & i0 & Hi0 & T0 & E0) Hn Hf. destruct (G) as (R & _ & Cr). unfold trunc. fold L.
  rewrite (header_ok L F K f class SF R E 1). rewrite (phoff_ok L F K f class SF R E), bind_Ok, (phnum_ok L F K f class SF R E), bind_Ok.
  rewrite (seek_ok F f class E). pose proof (nn F f class E (at_phnum F) 2) as Nn. fold (phnum F f) in Nn.
  pose proof (small _ _ _ E) as Sm. pose proof (complete _ _ _ E) as Co.
  replace (phoff F f) with (phoff F f + phdr F * 0) by lia.
  destruct (scan_static L F K f class SF R E (Z.to_nat (phnum F f)) 2 0 0 []) as (n' & i' & -> & Le & Up & At); [lia|lia| | | |].
  - pose proof (r_phdr _ _ SF). change (zlen []) with 0. lia.
  - intros j Hj. split; intros T; apply ND; exists j; split; try lia; auto.
  - intros j Hj T. specialize (U j Hj T). lia.
  - assert (n' = n) as ->.
    { specialize (Up i0 Hi0 T0). rewrite E0 in Up. destruct At as [->|(j & Hj & Tj & <-)]; [pose proof (r_phnum _ _ SF); lia|]. specialize (U j Hj Tj). lia. }
    rewrite bind_Ok, Cr. assert (Zh : zlen (part f 0 (header F)) = header F) by (apply zlen_part; pose proof (r_phnum _ _ SF); lia). rewrite Zh.
    assert (Un : uaddr L (n - header F) = n - header F).
    { unfold uaddr. rewrite (s_addr _ _ SF). apply Z.mod_small. pose proof (r_phnum _ _ SF). lia. }
    rewrite Un, (wr_ok K G). cbn [app].
    assert (Fu : (Z.to_nat (n - header F) < fuel)%nat) by (pose proof (r_phnum _ _ SF); unfold zlen in *; lia).
    destruct is64; [rewrite (copy64_ok K f G)|rewrite (copy32_ok K f G)]; try rewrite bind_Ok; try (pose proof (r_phnum _ _ SF); lia); reflexivity.
Qed.
Lemma trunc_dynamic fuel K f buf : (forall i, read_fails K i = false) -> elf F class f -> dynamic F f -> trunc is64 fuel K f buf 1 = Ok (3, None).
Proof.
  intros R E (j & Hj & T). unfold trunc. fold L.
  rewrite (header_ok L F K f class SF R E 1). rewrite (phoff_ok L F K f class SF R E), bind_Ok, (phnum_ok L F K f class SF R E), bind_Ok.
  rewrite (seek_ok F f class E). replace (phoff F f) with (phoff F f + phdr F * 0) by lia.
  rewrite (scan_dynamic L F K f class SF R E); try lia; [reflexivity|pose proof (r_phdr _ _ SF); change (zlen []) with 0; lia|exists j; auto].
Qed.
End Both.

Lemma firstn_app_z (a b : list Z) n : zlen a = n -> firstn (Z.to_nat n) (a ++ b) = a.
Proof. intros <-. unfold zlen. rewrite Nat2Z.id, firstn_app, Nat.sub_diag, firstn_all. cbn [firstn]. apply app_nil_r. Qed.
Lemma cleared64 f : 64 <= zlen f -> firstn 64 (clear lay64 (part f 0 64)) = part f 0 40 ++ repeat 0 8 ++ part f 48 12 ++ repeat 0 4.
Proof.
  intros H. unfold clear, part, zlen in *. cbn [o_shoff o_shnum o_shstrndx lay64 addr Z.to_nat Pos.to_nat Pos.iter_op Init.Nat.add skipn].
  do 64 (destruct f as [|? f]; [exfalso; cbn [length] in H; lia|]). reflexivity.
Qed.
Lemma cleared32 f : 52 <= zlen f -> firstn 52 (clear lay32 (part f 0 52)) = part f 0 32 ++ repeat 0 4 ++ part f 36 12 ++ repeat 0 4.
Proof.
  intros H. unfold clear, part, zlen in *. cbn [o_shoff o_shnum o_shstrndx lay32 addr Z.to_nat Pos.to_nat Pos.iter_op Init.Nat.add skipn].
  do 52 (destruct f as [|? f]; [exfalso; cbn [length] in H; lia|]). reflexivity.
Qed.

(* A static file of 64 bits: the copy has the bytes up to the end of the last loadable segment, without
   the section headers.  Partial: no errors of the kernel, the segments lie in the file and reach
   beyond the header; see the refutations. *)
Theorem C164_elf64_partial : forall fuel K d name rest f n, good K -> d name = Some f -> zlen name <= 1014 -> zlen rest <= 1 ->
  elf elf64 2 f -> ~ dynamic elf64 f -> last_load elf64 f n -> 64 <= n <= zlen f -> (length f < fuel)%nat ->
  exists d', elftrunc fuel K d (name :: rest) = Ok (0, d') /\ delivered d d' name rest (truncated64 f n).
Proof.
  intros fuel K d name rest f n G Hd Hn Hr E ND LL Hb Hf.
  destruct (main_ok elf64 2 f fuel K d name rest (proj1 G) E) as (buf & ->); [cbn; lia|exact Hd|exact Hr|].
  change (2 =? 2) with true. rewrite (trunc_ok true elf64 2 same64 fuel K f buf n) by auto. rewrite bind_Ok. change (header elf64) with 64.
  change (Z.to_nat 64) with 64%nat. rewrite cleared64 by lia. rewrite <- !app_assoc.
  destruct (deliver d name rest (truncated64 f n) Hn Hr) as (d' & E' & D). exists d'. split; [|exact D]. rewrite <- E'. destruct rest as [|? [|? ?]]; reflexivity.
Qed.
Print Assumptions C164_elf64_partial.
(* the same for 32 bits *)
Theorem C164_elf32_partial : forall fuel K d name rest f n, good K -> d name = Some f -> zlen name <= 1014 -> zlen rest <= 1 ->
  elf elf32 1 f -> ~ dynamic elf32 f -> last_load elf32 f n -> 52 <= n <= zlen f -> (length f < fuel)%nat ->
  exists d', elftrunc fuel K d (name :: rest) = Ok (0, d') /\ delivered d d' name rest (truncated32 f n).
Proof.
  intros fuel K d name rest f n G Hd Hn Hr E ND LL Hb Hf.
  destruct (main_ok elf32 1 f fuel K d name rest (proj1 G) E) as (buf & ->); [cbn; lia|exact Hd|exact Hr|].
  change (1 =? 2) with false. rewrite (trunc_ok false elf32 1 same32 fuel K f buf n) by auto. rewrite bind_Ok. change (header elf32) with 52.
  change (Z.to_nat 52) with 52%nat. rewrite cleared32 by lia. rewrite <- !app_assoc.
  destruct (deliver d name rest (truncated32 f n) Hn Hr) as (d' & E' & D). exists d'. split; [|exact D]. rewrite <- E'. destruct rest as [|? [|? ?]]; reflexivity.
Qed.
Print Assumptions C164_elf32_partial.
(* a file that needs the dynamic linker is refused and nothing is changed *)
Theorem C164_dynamic : forall fuel K d name rest f, (forall i, read_fails K i = false) -> d name = Some f -> zlen rest <= 1 ->
  elf elf64 2 f /\ dynamic elf64 f \/ elf elf32 1 f /\ dynamic elf32 f -> elftrunc fuel K d (name :: rest) = Ok (3, d).
Proof.
  intros fuel K d name rest f R Hd Hr [[E D]|[E D]].
  - destruct (main_ok elf64 2 f fuel K d name rest R E) as (buf & ->); [cbn; lia|exact Hd|exact Hr|]. change (2 =? 2) with true. rewrite (trunc_dynamic true elf64 2 same64) by auto.
    destruct rest as [|? [|? ?]]; reflexivity.
  - destruct (main_ok elf32 1 f fuel K d name rest R E) as (buf & ->); [cbn; lia|exact Hd|exact Hr|]. change (1 =? 2) with false. rewrite (trunc_dynamic false elf32 1 same32) by auto.
    destruct rest as [|? [|? ?]]; reflexivity.
Qed.
Print Assumptions C164_dynamic.
(* so is a file that is no ELF file, whatever the kernel does *)
Theorem C164_other : forall fuel K d name rest f, d name = Some f -> zlen rest <= 1 -> part f 0 4 <> [127; 69; 76; 70] -> elftrunc fuel K d (name :: rest) = Ok (2, d).
Proof.
  intros fuel K d name rest f Hd Hr N. unfold elftrunc. destruct (Z.ltb_spec 1 (zlen rest)); [lia|]. rewrite Hd. unfold rd.
  destruct (read_fails K 0); [reflexivity|]. change (read_at f 0 16) with (part f 0 16). destruct (part f 0 16) as [|b r] eqn:Ep; [reflexivity|].
  rewrite list_dec_ne; [reflexivity|]. rewrite <- Ep. clear b r Ep. intros C. apply N. unfold part in *. change (Z.to_nat 16) with 16%nat in *.
  change (Z.to_nat 4) with 4%nat. change (Z.to_nat 0) with 0%nat in *. cbn [skipn] in *.
  assert (Q : firstn 4 (firstn 16 f) = firstn 4 f) by (rewrite firstn_firstn; reflexivity).
  destruct f as [|b0 [|b1 [|b2 [|b3 r]]]]; cbn [firstn app] in *; try discriminate C; exact C.
Qed.
Print Assumptions C164_other.

(* a file of 130 bytes: header, one segment of the bytes 0..125, the name of a section *)
Definition ehdr64 (phnum : Z) : list Z := [127; 69; 76; 70; 2; 1; 1; 0] ++ repeat 0 8 ++ [2; 0; 62; 0; 1; 0; 0; 0] ++ le_bytes 8 4194424 ++ le_bytes 8 64 ++ le_bytes 8 126 ++
  repeat 0 4 ++ [64; 0; 56; 0; phnum; 0; 64; 0; 5; 0; 4; 0].
Definition phdr64 (type offset filesz : Z) : list Z := le_bytes 4 type ++ le_bytes 4 5 ++ le_bytes 8 offset ++ repeat 0 16 ++ le_bytes 8 filesz ++ repeat 0 16.
Definition file164 (type : Z) : list Z := ehdr64 1 ++ phdr64 type 0 126 ++ [1; 2; 3; 4; 5; 6; 7; 8; 9; 10].
Definition quiet : behaviour := {| read_fails := fun _ => false; takes := fun _ n => n; creates := true |}.
Definition dir1 (f : list Z) : dir := fun x => if list_eq_dec Z.eq_dec x [97] then Some f else None.
Lemma elf164 type : 0 <= type < 256 -> elf elf64 2 (file164 type).
Proof.
  intros H. assert (M : forall x, 0 <= x < 256 -> x mod 256 = x) by (intros; now apply Z.mod_small).
  assert (D : type / 256 = 0) by (apply Z.div_small; lia).
  constructor.
  - unfold file164, phdr64. rewrite !Forall_app. assert (T : Forall (fun b => 0 <= b < 256) (le_bytes 4 type)).
    { cbn [le_bytes]. rewrite D. repeat constructor; try (vm_compute; discriminate); rewrite M by lia; lia. }
    repeat split; try exact T; apply Forall_forall; intros x Hx; vm_compute in Hx; intuition lia.
  - reflexivity.
  - vm_compute. discriminate.
  - vm_compute. discriminate.
  - vm_compute. reflexivity.
  - vm_compute. reflexivity.
Qed.
Example C164_case : good quiet /\ elf elf64 2 (file164 1) /\ ~ dynamic elf64 (file164 1) /\ last_load elf64 (file164 1) 126 /\
  match elftrunc 200 quiet (dir1 (file164 1)) [[97]; [98]] with
  | Ok (0, d) => d [98] = Some (firstn 40 (ehdr64 1) ++ repeat 0 8 ++ [0; 0; 0; 0; 64; 0; 56; 0; 1; 0; 64; 0; 0; 0; 0; 0] ++ phdr64 1 0 126 ++ [1; 2; 3; 4; 5; 6]) /\
      d [97] = Some (file164 1)
  | _ => False end.
Proof.
  assert (One : forall i, 0 <= i < phnum elf64 (file164 1) -> i = 0) by (intros i Hi; change (phnum elf64 (file164 1)) with 1 in Hi; lia).
  split; [repeat split|]. split; [apply elf164; lia|]. split; [|split].
  - intros (i & Hi & T). rewrite (One i Hi) in T. vm_compute in T. intuition discriminate.
  - split.
    + intros i Hi _. rewrite (One i Hi). vm_compute. discriminate.
    + exists 0. vm_compute. repeat split; discriminate.
  - vm_compute. split; reflexivity.
Qed.
Example C164_dynamic_case : dynamic elf64 (file164 3) /\ elf elf64 2 (file164 3).
Proof. split; [exists 0; vm_compute; split; [split; [discriminate|reflexivity]|now right]|apply elf164; lia]. Qed.

(* a file whose only segment ends in the header (here it is empty): the copy is the whole file and the
   exit code 2 *)
Theorem C164_small_refuted : exists f n d', elf elf64 2 f /\ ~ dynamic elf64 f /\ last_load elf64 f n /\ n < 64 /\
  elftrunc 200 quiet (dir1 f) [[97]] = Ok (2, d') /\ d' (trunc_name [97]) = Some (truncated64 f (zlen f)).
Proof.
  set (f := ehdr64 1 ++ phdr64 1 0 0 ++ [1; 2; 3; 4; 5; 6; 7; 8; 9; 10]). exists f, 0.
  assert (One : forall i, 0 <= i < phnum elf64 f -> i = 0) by (intros i Hi; change (phnum elf64 f) with 1 in Hi; lia).
  destruct (elftrunc 200 quiet (dir1 f) [[97]]) as [[c d']| |] eqn:E; [|vm_compute in E; discriminate E|vm_compute in E; discriminate E].
  exists d'. split; [|split; [|split; [|split; [lia|split]]]].
  - constructor; try (vm_compute; (reflexivity || discriminate)). subst f. apply Forall_forall. intros x Hx. vm_compute in Hx. intuition lia.
  - intros (i & Hi & T). rewrite (One i Hi) in T. vm_compute in T. intuition discriminate.
  - split; [intros i Hi _; rewrite (One i Hi); vm_compute; discriminate|exists 0; vm_compute; repeat split; discriminate].
  - vm_compute in E. injection E as <- <-. reflexivity.
  - vm_compute in E. injection E as <- <-. vm_compute. reflexivity.
Qed.
Print Assumptions C164_small_refuted.
(* a full disk: the exit code is 0, the copy is incomplete *)
Theorem C164_disk_refuted : exists K f n d', (forall i, read_fails K i = false) /\ creates K = true /\ elf elf64 2 f /\ ~ dynamic elf64 f /\ last_load elf64 f n /\ 64 <= n <= zlen f /\
  elftrunc 200 K (dir1 f) [[97]] = Ok (0, d') /\ d' (trunc_name [97]) <> Some (truncated64 f n).
Proof.
  set (K := {| read_fails := fun _ => false; takes := fun j n => if (j =? 0)%nat then n else 0; creates := true |}).
  destruct C164_case as (_ & E1 & E2 & E3 & _).
  destruct (elftrunc 200 K (dir1 (file164 1)) [[97]]) as [[c d']| |] eqn:E; [|vm_compute in E; discriminate E|vm_compute in E; discriminate E].
  exists K, (file164 1), 126, d'. split; [reflexivity|]. split; [reflexivity|]. split; [exact E1|]. split; [exact E2|]. split; [exact E3|].
  split; [vm_compute; split; discriminate|]. vm_compute in E. injection E as <- <-. split; [reflexivity|]. vm_compute. discriminate.
Qed.
Print Assumptions C164_disk_refuted.

(* a file of 32 bits: header, one segment of the bytes 0..n-1, ten bytes *)
Definition file32 (n : Z) : list Z := [127; 69; 76; 70; 1; 1; 1; 0] ++ repeat 0 8 ++ [2; 0; 3; 0; 1; 0; 0; 0] ++ le_bytes 4 134512724 ++ le_bytes 4 52 ++ le_bytes 4 90 ++
  repeat 0 4 ++ [52; 0; 32; 0; 1; 0; 40; 0; 5; 0; 4; 0] ++
  le_bytes 4 1 ++ le_bytes 4 0 ++ repeat 0 8 ++ le_bytes 4 n ++ repeat 0 12 ++ [1; 2; 3; 4; 5; 6; 7; 8; 9; 10].
Definition holds32 f n := elf elf32 1 f /\ ~ dynamic elf32 f /\ last_load elf32 f n.
Ltac file32_ok := 
  match goal with |- holds32 ?f _ =>
    assert (One : forall i, 0 <= i < phnum elf32 f -> i = 0) by (intros i Hi; change (phnum elf32 f) with 1 in Hi; lia);
    split; [constructor; try (vm_compute; (reflexivity || discriminate)); apply Forall_forall; intros x Hx; vm_compute in Hx; intuition lia|
    split; [intros (i & Hi & T); rewrite (One i Hi) in T; vm_compute in T; intuition discriminate|
    split; [intros i Hi _; rewrite (One i Hi); vm_compute; discriminate|exists 0; vm_compute; repeat split; discriminate]]] end.
Example C164_case32 : holds32 (file32 90) 90 /\
  match elftrunc 200 quiet (dir1 (file32 90)) [[97]] with
  | Ok (0, d) => d (trunc_name [97]) = Some (truncated32 (file32 90) 90) /\ d [97] = Some (file32 90)
  | _ => False end.
Proof. split; [file32_ok|vm_compute; split; reflexivity]. Qed.
(* a segment that is not in the file completely: the copy is short, the exit code is 0 *)
Theorem C164_short_refuted : exists f n d', holds32 f n /\ zlen f < n /\ elftrunc 200 quiet (dir1 f) [[97]] = Ok (0, d') /\ d' (trunc_name [97]) = Some (truncated32 f (zlen f)).
Proof.
  destruct (elftrunc 200 quiet (dir1 (file32 120)) [[97]]) as [[c d']| |] eqn:E; [|vm_compute in E; discriminate E|vm_compute in E; discriminate E].
  exists (file32 120), 120, d'. split; [file32_ok|]. split; [reflexivity|]. vm_compute in E. injection E as <- <-. split; reflexivity.
Qed.
Print Assumptions C164_short_refuted.
(* n is unsigned in trunc32: a read that fails is not noticed, and uninitialised memory is used *)
Theorem C164_read32_refuted : exists K f n, holds32 f n /\ n <= zlen f /\ (forall j m, takes K j m = m) /\ elftrunc 200 K (dir1 f) [[97]] = Fault.
Proof.
  exists {| read_fails := fun i => (i =? 1)%nat; takes := fun _ n => n; creates := true |}, (file32 90), 90. split; [file32_ok|].
  split; [vm_compute; discriminate|]. split; [reflexivity|]. vm_compute. reflexivity.
Qed.
Print Assumptions C164_read32_refuted.
