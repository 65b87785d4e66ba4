(* C132-C135: terminal settings, isatty, process groups, names of pseudo terminals. *)
From Coq Require Import String.
From Verif Require Import Base BaseLemmas ConvModel ConvSpec ConvProofs ConvProofs3 PrintModel PrintSpec PrintProofs3 ProcSpec ProcProofs TermModel TermSpec TermProofs.
Local Open Scope list_scope.

(* ---- C132: tcgetattr and tcsetattr ---- *)
(* what tcgetattr saved is restored by tcsetattr *)
Theorem C132_restore : forall T e fd t s opt, T fd = Some t -> 0 <= opt <= 2 ->
  let (r, saved) := tcgetattr T e fd s in r = 0 /\ (forall x, 60 <= x -> saved x = s x) /\
  exists T' t', tcsetattr T e fd opt saved = Ok (0, T') /\ T' fd = Some t' /\ same_tty t t' /\ forall x, x <> fd -> T' x = T x.
Proof.
  intros T e fd t s opt Ht Ho. unfold tcgetattr, tcsetattr. rewrite Ht. split; [reflexivity|]. split; [intros; apply geta_rest; lia|].
  unfold TCSETA. replace ((21510 <=? 21510 + opt) && (21510 + opt <=? 21510 + 2)) with true by lia.
  do 2 eexists. split; [reflexivity|]. cbv beta. rewrite Z.eqb_refl. split; [reflexivity|]. split; [apply restore|].
  intros x X. destruct (Z.eqb_spec x fd); congruence.
Qed.
Print Assumptions C132_restore.
(* and also if the settings were changed by others in between: the settings of the time of
   tcgetattr come back, except for the upper halves of the flags and the control characters
   from 8 on *)
Theorem C132_restore_later : forall T T2 e fd t t2 s opt, T fd = Some t -> T2 fd = Some t2 -> 0 <= opt <= 2 ->
  let (_, saved) := tcgetattr T e fd s in
  exists T' t', tcsetattr T2 e fd opt saved = Ok (0, T') /\ T' fd = Some t' /\
    k_iflag t' mod 65536 = k_iflag t mod 65536 /\ k_oflag t' mod 65536 = k_oflag t mod 65536 /\
    k_cflag t' mod 65536 = k_cflag t mod 65536 /\ k_lflag t' mod 65536 = k_lflag t mod 65536 /\ k_line t' = k_line t /\
    forall i, 0 <= i < 8 -> k_cc t' i = k_cc t i.
Proof.
  intros T T2 e fd t t2 s opt Ht Ht2 Ho. unfold tcgetattr, tcsetattr. rewrite Ht, Ht2.
  unfold TCSETA. replace ((21510 <=? 21510 + opt) && (21510 + opt <=? 21510 + 2)) with true by lia.
  do 2 eexists. split; [reflexivity|]. cbv beta. rewrite Z.eqb_refl. split; [reflexivity|].
  unfold kernel_seta. cbn [k_iflag k_oflag k_cflag k_lflag k_line k_cc]. rewrite geta_iflag, geta_oflag, geta_cflag, geta_lflag, geta_line. unfold low16.
  do 4 (split; [lia|]). split; [reflexivity|]. intros i Hi. replace ((0 <=? i) && (i <? 8)) with true by lia. apply geta_cc. lia.
Qed.
Print Assumptions C132_restore_later.
(* the only part of a flag that is where it belongs *)
Theorem C132_fields_partial : forall T e fd t s, T fd = Some t ->
  get32 (snd (tcgetattr T e fd s)) 0 mod 65536 = k_iflag t mod 65536.
Proof.
  intros T e fd t s Ht. unfold tcgetattr. rewrite Ht. cbn [snd]. unfold get32. rewrite geta_iflag. lia.
Qed.
Print Assumptions C132_fields_partial.
Definition tty1 : tty := {| k_iflag := 17664; k_oflag := 5; k_cflag := 191; k_lflag := 35387; k_line := 0;
  k_cc := fun i => nth (Z.to_nat i) [3; 28; 127; 21; 4; 0; 1; 0; 17; 19; 26] 0; k_pgrp := 77 |}.
Definition T1 : ttys := fun fd => if fd =? 0 then Some tty1 else None.
Example C132_case : T1 0 = Some tty1 /\ tty_ok tty1 /\ fst (tcgetattr T1 (-25) 0 (fun _ => 0)) = 0 /\ fst (tcgetattr T1 (-25) 1 (fun _ => 0)) = -25.
Proof.
  split; [reflexivity|]. split; [|split; reflexivity]. repeat (split; [vm_compute; split; [discriminate|reflexivity]|]). intro i. cbn [k_cc tty1].
  assert (A : forall n, is_byte (nth n [3; 28; 127; 21; 4; 0; 1; 0; 17; 19; 26] 0)) by (intro n; do 11 (destruct n; [cbn; unfold is_byte; lia|]); destruct n; cbn; unfold is_byte; lia).
  apply A.
Qed.
(* for a usual terminal the fields are wrong: the output flags are in c_iflag and c_oflag holds
   the control and local flags *)
Theorem C132_fields_refuted : exists T fd t, T fd = Some t /\ tty_ok t /\ forall e s, ~ shows t (snd (tcgetattr T e fd s)) /\
  get32 (snd (tcgetattr T e fd s)) 0 = k_iflag t + 65536 * k_oflag t /\
  get32 (snd (tcgetattr T e fd s)) 4 = k_cflag t + 65536 * k_lflag t.
Proof.
  exists T1, 0, tty1. split; [reflexivity|]. split; [apply C132_case|]. intros e s. unfold tcgetattr. cbn [T1 Z.eqb snd].
  assert (E0 : get32 (kernel_geta tty1 s) 0 = k_iflag tty1 + 65536 * k_oflag tty1) by (unfold get32; change (0 + 2) with 2; rewrite geta_iflag, geta_oflag; reflexivity).
  assert (E4 : get32 (kernel_geta tty1 s) 4 = k_cflag tty1 + 65536 * k_lflag tty1) by (unfold get32; change (4 + 2) with 6; rewrite geta_cflag, geta_lflag; reflexivity).
  split; [|split; [exact E0|exact E4]]. intros [A _]. rewrite E0 in A. discriminate.
Qed.
Print Assumptions C132_fields_refuted.
(* tcsetattr with a struct that says "no output processing, no echo" leaves both on *)
Theorem C132_set_refuted : exists T fd t s, T fd = Some t /\ tty_ok t /\ struct_ok s /\
  Z.testbit (get32 s 4) 0 = false /\ Z.testbit (get32 s 12) 3 = false /\
  forall e opt, 0 <= opt <= 2 -> exists T' t', tcsetattr T e fd opt s = Ok (0, T') /\ T' fd = Some t' /\
    Z.testbit (k_oflag t') 0 = true /\ Z.testbit (k_lflag t') 3 = true.
Proof.
  exists T1, 0, tty1, (fun x => if (x =? 2) || (x =? 6) then 9 else 0). split; [reflexivity|]. split; [apply C132_case|].
  split; [intro x; unfold is_byte; destruct ((x =? 2) || (x =? 6)); lia|]. split; [reflexivity|]. split; [reflexivity|].
  intros e opt Ho. unfold tcsetattr. cbn [T1 Z.eqb]. unfold TCSETA. replace ((21510 <=? 21510 + opt) && (21510 + opt <=? 21510 + 2)) with true by lia.
  do 2 eexists. split; [reflexivity|]. split; [reflexivity|]. split; reflexivity.
Qed.
Print Assumptions C132_set_refuted.

(* ---- C133: cfmakeraw ---- *)
Theorem C133_makeraw : forall s, struct_ok s -> let s' := cfmakeraw s in
  changes (get32 s 0) (get32 s' 0) raw_iflag [] /\ changes (get32 s 4) (get32 s' 4) raw_oflag [] /\
  changes (get32 s 8) (get32 s' 8) raw_cflag_off raw_cflag_on /\ changes (get32 s 12) (get32 s' 12) raw_lflag [] /\
  s' (17 + 6) = 1 /\ s' (17 + 5) = 0 /\ forall x, 16 <= x -> x <> 17 + 6 -> x <> 17 + 5 -> s' x = s x.
Proof.
  intros s S. cbv zeta. destruct (makeraw_fields s S) as (E0 & E4 & E8 & E12 & M & V & K). rewrite E0, E4, E8, E12.
  split; [apply clear_changes; [vm_compute; split; [discriminate|reflexivity]|reflexivity]|].
  split; [apply clear_changes; [vm_compute; split; [discriminate|reflexivity]|reflexivity]|].
  split; [apply cflag_changes|].
  split; [apply clear_changes; [vm_compute; split; [discriminate|reflexivity]|reflexivity]|].
  split; [exact M|]. split; [exact V|]. unfold VMIN, VTIME. intros x X X1 X2. apply K; lia.
Qed.
Print Assumptions C133_makeraw.
Example C133_case : let s := fun x => nth (Z.to_nat x) [0; 69; 0; 0; 5; 0; 0; 0; 191; 0; 0; 0; 59; 138; 0; 0; 0; 3; 28; 127; 21; 4; 0; 9] 0 in
  get32 s 12 = 35387 /\ get32 (cfmakeraw s) 12 = 2608 /\ get32 (cfmakeraw s) 8 = 191 /\ get32 (cfmakeraw s) 4 = 4.
Proof. repeat split; vm_compute; reflexivity. Qed.
(* the usual sequence does not make a terminal raw: echo, canonical mode, signals and output
   processing stay as they are, for every terminal; the line discipline is changed instead *)
Theorem C133_sequence_refuted : forall T e fd t s opt, T fd = Some t -> tty_ok t -> struct_ok s -> 0 <= opt <= 2 ->
  exists T' t', tcsetattr T e fd opt (cfmakeraw (snd (tcgetattr T e fd s))) = Ok (0, T') /\ T' fd = Some t' /\
    k_lflag t' = k_lflag t /\ k_oflag t' = k_oflag t /\ Z.testbit (k_line t') 4 = true /\ Z.testbit (k_line t') 5 = true.
Proof.
  intros T e fd t s opt Ht Ok1 S Ho. unfold tcgetattr, tcsetattr. rewrite Ht. cbn [snd].
  unfold TCSETA. replace ((21510 <=? 21510 + opt) && (21510 + opt <=? 21510 + 2)) with true by lia.
  do 2 eexists. split; [reflexivity|]. cbv beta. rewrite Z.eqb_refl. split; [reflexivity|]. cbn [kernel_seta k_lflag k_oflag k_line].
  pose proof (geta_struct t s Ok1 S) as G. destruct (makeraw_fields _ G) as (E0 & E4 & E8 & _).
  assert (B : forall s o, struct_ok s -> get16 s (o + 2) = Z.shiftr (get32 s o) 16).
  { intros s0 o S0. rewrite Z.shiftr_div_pow2 by lia. change (2 ^ 16) with 65536. unfold get32, get16.
    pose proof (S0 o). pose proof (S0 (o + 1)). pose proof (S0 (o + 2)). pose proof (S0 (o + 2 + 1)). unfold is_byte in *. lia. }
  assert (C : struct_ok (cfmakeraw (kernel_geta t s))).
  { unfold cfmakeraw. cbv zeta. repeat (apply struct_set1; [|unfold is_byte; lia]). repeat apply struct_put32. exact G. }
  assert (L : get16 (cfmakeraw (kernel_geta t s)) 6 = k_lflag t mod 65536).
  { change 6 with (4 + 2). rewrite B, E4 by auto. rewrite <- geta_lflag with (s := s). change 6 with (4 + 2). rewrite B by auto.
    apply Z.bits_inj'. intros n Hn. rewrite !Z.shiftr_spec, clear_bit by lia. change OPOST with (2 ^ 0). rewrite Z.pow2_bits_eqb by lia.
    destruct (Z.eqb_spec 0 (n + 16)); [lia|]. apply andb_true_r. }
  assert (O : get16 (cfmakeraw (kernel_geta t s)) 2 = k_oflag t mod 65536).
  { change 2 with (0 + 2). rewrite B, E0 by auto. rewrite <- geta_oflag with (s := s). change 2 with (0 + 2). rewrite B by auto.
    apply Z.bits_inj'. intros n Hn. rewrite !Z.shiftr_spec, clear_bit by lia.
    rewrite (mask_bits (ors _) (fun k => (k =? 0) || (k =? 1) || (k =? 3) || (k =? 5) || (k =? 6) || (k =? 7) || (k =? 8) || (k =? 10)));
      [|vm_compute; split; [discriminate|reflexivity]|reflexivity|intros k K; rewrite !eqb_ne by lia; reflexivity|lia].
    rewrite !eqb_ne by lia. apply andb_true_r. }
  rewrite L, O, !low16_mod. split; [reflexivity|]. split; [reflexivity|].
  assert (N : forall k, 0 <= k < 8 -> Z.testbit (cfmakeraw (kernel_geta t s) 8) k = Z.testbit (get32 (cfmakeraw (kernel_geta t s)) 8) k).
  { intros k K. replace (cfmakeraw (kernel_geta t s) 8) with (get32 (cfmakeraw (kernel_geta t s)) 8 mod 2 ^ 8).
    - apply Z.mod_pow2_bits_low. lia.
    - change (2 ^ 8) with 256. unfold get32, get16. pose proof (C 8). unfold is_byte in *. lia. }
  rewrite !N, E8 by lia. split; rewrite Z.lor_spec; apply orb_true_r.
Qed.
Print Assumptions C133_sequence_refuted.
(* of the flags only those of the input become raw *)
Theorem C133_sequence_partial : forall T e fd t s opt, T fd = Some t -> tty_ok t -> struct_ok s -> 0 <= opt <= 2 ->
  exists T' t', tcsetattr T e fd opt (cfmakeraw (snd (tcgetattr T e fd s))) = Ok (0, T') /\ T' fd = Some t' /\
    changes (k_iflag t) (k_iflag t') raw_iflag [].
Proof.
  intros T e fd t s opt Ht Ok1 S Ho. unfold tcgetattr, tcsetattr. rewrite Ht. cbn [snd].
  unfold TCSETA. replace ((21510 <=? 21510 + opt) && (21510 + opt <=? 21510 + 2)) with true by lia.
  do 2 eexists. split; [reflexivity|]. cbv beta. rewrite Z.eqb_refl. split; [reflexivity|]. cbn [kernel_seta k_iflag].
  pose proof (geta_struct t s Ok1 S) as G. destruct (makeraw_fields _ G) as (E0 & _).
  assert (C : struct_ok (cfmakeraw (kernel_geta t s))).
  { unfold cfmakeraw. cbv zeta. repeat (apply struct_set1; [|unfold is_byte; lia]). repeat apply struct_put32. exact G. }
  assert (D : changes (get32 (kernel_geta t s) 0) (get32 (cfmakeraw (kernel_geta t s)) 0) raw_iflag [])
    by (rewrite E0; apply clear_changes; [vm_compute; split; [discriminate|reflexivity]|reflexivity]).
  assert (L : forall s0 k, struct_ok s0 -> 0 <= k < 16 -> Z.testbit (get16 s0 0) k = Z.testbit (get32 s0 0) k).
  { intros s0 k S0 K. rewrite <- (Z.mod_pow2_bits_low (get32 s0 0) 16) by lia. f_equal. change (2 ^ 16) with 65536. unfold get32, get16.
    pose proof (S0 0). pose proof (S0 (0 + 1)). unfold is_byte in *. lia. }
  assert (N : 0 <= get16 (cfmakeraw (kernel_geta t s)) 0 < 65536) by (unfold get16; pose proof (C 0); pose proof (C (0 + 1)); unfold is_byte in *; lia).
  destruct D as (D1 & _ & D3). split; [|split; [intros k []|]].
  - intros k I. assert (0 <= k < 16) by (unfold raw_iflag in I; cbn [In] in I; lia). rewrite low16_bits by lia. replace (k <? 16) with true by lia.
    rewrite L by auto. apply D1. exact I.
  - intros k K I1 I2. rewrite low16_bits by lia. destruct (Z.ltb_spec k 16); [|reflexivity]. rewrite L by (auto; lia). rewrite D3 by auto.
    rewrite <- L by (auto; lia). rewrite geta_iflag. apply (Z.mod_pow2_bits_low _ 16). lia.
Qed.
Print Assumptions C133_sequence_partial.
Example C133_sequence_case : T1 0 = Some tty1 /\ Z.testbit (k_lflag tty1) 3 = true /\ struct_ok (fun _ => 0).
Proof. split; [reflexivity|]. split; [reflexivity|]. intro. unfold is_byte. lia. Qed.

(* ---- C134: isatty and the foreground process group ---- *)
Theorem C134_isatty : forall T e fd term, e < 0 -> (isatty T e fd term = 1 <-> exists t, T fd = Some t) /\ (isatty T e fd term = 0 <-> T fd = None).
Proof.
  intros T e fd term He. unfold isatty, tcgetattr. destruct (T fd) as [t|]; cbn [fst].
  - split; split; intro H; try discriminate; eauto.
  - destruct (Z.eqb_spec e 0); [lia|]. split; split; intro H; auto; try discriminate. destruct H; discriminate.
Qed.
Print Assumptions C134_isatty.
Theorem C134_pgrp : forall ok T e fd p g, e < 0 ->
  (forall t, T fd = Some t -> tcgetpgrp T e fd g = k_pgrp t) /\ (T fd = None -> tcgetpgrp T e fd g = -1) /\
  let (r, T') := tcsetpgrp ok T e fd p in
  (r = 0 -> tcgetpgrp T' e fd g = p /\ forall x, x <> fd -> T' x = T x) /\ (r <> 0 -> r = e /\ T' = T) /\
  (r = 0 <-> ok p = true /\ exists t, T fd = Some t).
Proof.
  intros ok T e fd p g He. unfold tcgetpgrp, tcsetpgrp. split; [intros t ->; reflexivity|]. split; [intros ->; destruct (Z.ltb_spec e 0); [reflexivity|lia]|].
  destruct (T fd) as [t|] eqn:Et.
  - destruct (ok p) eqn:Eo.
    + cbv beta. rewrite Z.eqb_refl. split; [intros _; split; [reflexivity|]|].
      * intros x X. destruct (Z.eqb_spec x fd); congruence.
      * split; [congruence|]. split; eauto.
    + split; [lia|]. split; [auto|]. split; [lia|]. intros [A _]. congruence.
  - split; [lia|]. split; [auto|]. split; [lia|]. intros [_ [t A]]. congruence.
Qed.
Print Assumptions C134_pgrp.
Example C134_case : isatty T1 (-25) 0 (fun _ => 7) = 1 /\ isatty T1 (-25) 5 (fun _ => 7) = 0 /\ tcgetpgrp T1 (-25) 0 9 = 77 /\
  fst (tcsetpgrp (fun _ => true) T1 (-25) 0 78) = 0.
Proof. repeat split. Qed.

(* ---- C135: ptsname_r and ptsname ---- *)
(* Partial: the buffer holds the whole name, whatever len says *)
Theorem C135_ptsname_r_partial : forall fuel mini_buf tmp0 m fmt buf len n s, 0 <= n <= INT_MAX -> pts_name n s ->
  str_at m fmt (txt "/dev/pts/%d") -> apart fmt 12 buf (zlen s + 1) -> room m buf (zlen s + 1) -> buf <> 0 -> 33 <= mini_buf -> (40 <= fuel)%nat ->
  exists m', ptsname_r fuel mini_buf tmp0 m fmt buf len 0 n = Ok (PtsRet m' (if zlen s <? len then 0 else 34)) /\
    bytes_at m' buf (s ++ [0]) /\ same_outside m m' buf (zlen s + 1).
Proof.
  intros fuel mb tmp0 m fmt buf len n s H [l [N ->]] F A R B M Fu.
  assert (LS : zlen (txt "/dev/pts/" ++ l) = 9 + zlen l) by (rewrite zlen_app; reflexivity). rewrite LS in *.
  replace (9 + zlen l + 1) with (10 + zlen l) in * by lia.
  destruct (pts_print tmp0 m buf mb fmt n l fuel H N F A R M Fu) as (m' & E & B1 & S1). unfold ptsname_r. cbv zeta.
  change (negb (0 =? 0)) with false. cbv iota. rewrite E, bind_Ok. exists m'. rewrite <- app_assoc. split; [|split; auto].
  destruct (Z.eqb_spec buf 0); [congruence|]. do 2 f_equal. destruct (Z.leb_spec len (9 + zlen l)), (Z.ltb_spec (9 + zlen l) len); try reflexivity; lia.
Qed.
Print Assumptions C135_ptsname_r_partial.
(* an error of the ioctl: nothing is written *)
Theorem C135_error : forall fuel mini_buf tmp0 m fmt buf len r n, INT_MIN < r < 0 ->
  ptsname_r fuel mini_buf tmp0 m fmt buf len r n = Ok (PtsRet m (- r)) /\ ptsname fuel mini_buf tmp0 m fmt buf r n = Ok (PtsRet m 0).
Proof.
  intros fuel mb tmp0 m fmt buf len r n H. unfold ptsname, ptsname_r. destruct (Z.eqb_spec r 0); [lia|]. cbn [negb]. cbv zeta.
  rewrite s32_small by (unfold INT_MIN, INT_MAX in *; lia). split; [reflexivity|]. rewrite bind_Ok. destruct (Z.eqb_spec (- r) 0); [lia|reflexivity].
Qed.
Print Assumptions C135_error.
(* the static buffer of ptsname is large enough for every number *)
Theorem C135_ptsname : forall fuel mini_buf tmp0 m fmt buf n, 0 <= n <= INT_MAX -> buf <> 0 ->
  str_at m fmt (txt "/dev/pts/%d") -> apart fmt 12 buf 22 -> room m buf 22 -> 33 <= mini_buf -> (40 <= fuel)%nat ->
  exists m' s, ptsname fuel mini_buf tmp0 m fmt buf 0 n = Ok (PtsRet m' buf) /\ pts_name n s /\
    bytes_at m' buf (s ++ [0]) /\ same_outside m m' buf 22.
Proof.
  intros fuel mb tmp0 m fmt buf n H B F A R M Fu. destruct (uitodec_numeral n) as (l & N & L & _); [unfold INT_MAX in H; lia|].
  set (s := txt "/dev/pts/" ++ l). assert (P : pts_name n s) by (exists l; auto). assert (LS : zlen s = 9 + zlen l) by (unfold s; rewrite zlen_app; reflexivity).
  nneg l. destruct (C135_ptsname_r_partial fuel mb tmp0 m fmt buf 22 n s H P F) as (m' & E & B1 & S1); auto.
  - unfold apart in *. lia.
  - eapply room_sub; [exact R|lia|lia].
  - exists m', s. unfold ptsname. rewrite E, bind_Ok. destruct (Z.ltb_spec (zlen s) 22); [|lia]. split; [reflexivity|]. split; [exact P|]. split; [exact B1|].
    eapply same_outside_weaken; [exact S1|lia|lia].
Qed.
Print Assumptions C135_ptsname.
Definition m135 : mem := mem_of [(100, repeat 170 30); (300, txt "/dev/pts/%d" ++ [0])].
Example C135_case : str_at m135 300 (txt "/dev/pts/%d") /\ room m135 100 22 /\ pts_name 12 (txt "/dev/pts/12") /\
  match ptsname 100 1024 (fun _ => 7) m135 300 100 0 12 with Ok (PtsRet m' p) => p = 100 /\ m' 110 = Some 50 | _ => False end.
Proof.
  split; [apply strb_ok; reflexivity|]. split; [apply room_check; reflexivity|].
  split; [exists [49; 50]; split; [|reflexivity]; split; [repeat constructor; cbn; lia|split; [reflexivity|split; [discriminate|cbn; lia]]]|].
  vm_compute. split; reflexivity.
Qed.
(* with len = 5 the whole name is written: bytes behind the buffer are changed *)
Theorem C135_overflow_refuted : exists m buf len n fmt, str_at m fmt (txt "/dev/pts/%d") /\ room m buf len /\ 0 <= n <= INT_MAX /\
  match ptsname_r 100 1024 (fun _ => 7) m fmt buf len 0 n with
  | Ok (PtsRet m' r) => r = 34 /\ m' (buf + len + 1) <> m (buf + len + 1) | _ => False end.
Proof.
  exists m135, 100, 5, 3, 300. split; [apply strb_ok; reflexivity|]. split; [apply room_check; reflexivity|]. split; [unfold INT_MAX; lia|].
  vm_compute. split; [reflexivity|discriminate].
Qed.
Print Assumptions C135_overflow_refuted.
(* a null pointer, for which line 23 provides, is written to *)
Theorem C135_null_refuted : exists m fmt, str_at m fmt (txt "/dev/pts/%d") /\ m 0 = None /\ ptsname_r 100 1024 (fun _ => 7) m fmt 0 20 0 3 = Fault.
Proof. exists m135, 300. split; [apply strb_ok; reflexivity|]. split; reflexivity. Qed.
Print Assumptions C135_null_refuted.
