(* C177: pseudo terminals: posix_openpt, grantpt, unlockpt. *)
From Coq Require Import String.
From Verif Require Import Base BaseLemmas ConvSpec PrintSpec PrintProofs3 ProcSpec ProcProofs PathModel PathProofs2 StripModel StripProps TmplModel TmplProps AbiModel TermModel TermSpec TermProofs TermProps PtyModel.
Local Open Scope list_scope.

(* the kernel can tell the slave by the name that ptsname gives *)
Lemma chars_txt s : chars s = txt s.
Proof. induction s as [|c s IH]; cbn [chars txt]; [reflexivity|now rewrite IH]. Qed.
Lemma digit10 b : 0 <= digval b < 10 -> 48 <= b <= 57.
Proof.
  unfold digval. destruct ((48 <=? b) && (b <=? 57)) eqn:A; [lia|]. destruct ((65 <=? b) && (b <=? 90)) eqn:B; [lia|].
  destruct ((97 <=? b) && (b <=? 122)) eqn:C; lia.
Qed.
Lemma pts_of_name n s : pts_name n s -> pts_of s = Some n.
Proof.
  intros (l & (D & V & Ne & Z0) & ->). unfold pts_of. rewrite <- (chars_txt "/dev/pts/").
  assert (F : first [] (chars "/dev/pts/") l (chars "/dev/pts/" ++ l)) by (split; [reflexivity|intros; cbn [length]; lia]).
  rewrite (after_first _ _ _ _ F). rewrite begins_app.
  assert (A : forallb (fun b => (48 <=? b) && (b <=? 57)) l = true).
  { apply forallb_forall. intros b I. apply (proj1 (Forall_forall _ _) D) in I. apply digit10 in I. lia. }
  rewrite A. cbn [andb]. destruct l as [|c l]; [congruence|]. replace (eqs (c :: l) []) with false by reflexivity. cbn [negb andb]. cbn [hd] in Z0.
  assert (B : negb (begins (chars "0") (c :: l)) || eqs (c :: l) (chars "0") = true).
  { change (chars "0") with [48]. cbn [begins]. destruct (Z.eqb_spec 48 c) as [<-|]; [|reflexivity].
    specialize (Z0 eq_refl). rewrite Z0. reflexivity. }
  rewrite B, V. reflexivity.
Qed.

(* the bits rw- for the owner and -w- for the group *)
Definition granted (mode : Z) : Prop := Z.testbit mode 8 = true /\ Z.testbit mode 7 = true /\ Z.testbit mode 4 = true.
(* grantpt: the owner may read and write the slave and the group may write to it; no other slave, no
   descriptor and no lock changes *)
Theorem C177_grantpt_partial : forall fuel mini_buf tmp0 fmt buf e fd pty m k n mode lock,
  open_fds k fd = Some (Master n) -> slaves k n = Some (mode, lock) -> 0 <= n <= INT_MAX -> 0 <= ptmx k < 4096 -> buf <> 0 ->
  str_at m fmt (txt "/dev/pts/%d") -> apart fmt 12 buf 22 -> room m buf 22 -> 33 <= mini_buf -> (40 <= fuel)%nat ->
  exists m' k' mode', grantpt fuel mini_buf tmp0 fmt buf e fd pty m k = Ok (Some (m', 0, k')) /\ same_outside m m' buf 22 /\
    slaves k' n = Some (mode', lock) /\ granted mode' /\ (forall i, Z.testbit (ptmx k) i = true -> Z.testbit mode' i = true) /\
    (forall i, i <> 8 -> i <> 7 -> i <> 4 -> Z.testbit mode' i = Z.testbit (ptmx k) i) /\
    (forall x, x <> n -> slaves k' x = slaves k x) /\ open_fds k' = open_fds k /\ ptmx k' = ptmx k.
Proof.
  intros fuel mb tmp0 fmt buf e fd pty m k n mode lock Hf Hs Hn Hm Hb F A R M Fu.
  destruct (C135_ptsname fuel mb tmp0 m fmt buf n Hn Hb F A R M Fu) as (m' & s & E & P & B & S).
  set (mo := Z.lor (Z.lor (Z.lor (Z.lor S_IFCHR (ptmx k)) S_IRUSR) S_IWUSR) S_IWGRP).
  assert (T : forall i, Z.testbit (Z.land mo 4095) i = (Z.testbit (ptmx k) i || (i =? 8) || (i =? 7) || (i =? 4))%bool).
  { intros i. destruct (Z.ltb_spec i 0) as [Hi|Hi]; [rewrite !Z.testbit_neg_r by lia; symmetry; replace (i =? 8) with false by lia; replace (i =? 7) with false by lia; replace (i =? 4) with false by lia; reflexivity|].
    rewrite Z.land_spec. unfold mo. rewrite !Z.lor_spec.
    change S_IFCHR with (2 ^ 13). change S_IRUSR with (2 ^ 8). change S_IWUSR with (2 ^ 7). change S_IWGRP with (2 ^ 4). change 4095 with (Z.ones 12).
    rewrite !Z.pow2_bits_eqb by lia. rewrite Z.testbit_ones_nonneg by lia.
    destruct (Z.ltb_spec i 12) as [H|H].
    - rewrite Bool.andb_true_r. replace (13 =? i) with false by lia. rewrite (Z.eqb_sym 8 i), (Z.eqb_sym 7 i), (Z.eqb_sym 4 i). reflexivity.
    - rewrite Bool.andb_false_r. replace (i =? 8) with false by lia. replace (i =? 7) with false by lia. replace (i =? 4) with false by lia.
      rewrite !Bool.orb_false_r. destruct (Z.eq_dec (ptmx k) 0) as [->|N]; [now rewrite Z.testbit_0_l|].
      symmetry. apply Z.bits_above_log2; [lia|]. apply Z.lt_le_trans with 12; [|lia]. apply Z.log2_lt_pow2; lia. }
  exists m', (set_slave n (Z.land mo 4095, lock) k), (Z.land mo 4095). split.
  - unfold grantpt, k_fstat, k_number. rewrite Hf. cbn [Z.ltb Z.compare]. rewrite E, bind_Ok. destruct (Z.eqb_spec buf 0); [congruence|].
    assert (Rs : read_str fuel m' buf = Ok s).
    { apply read_str_ok.
      - destruct P as (l & (D & _ & _ & _) & Es). apply bytes_at_app in B. apply str_at_intro; [apply B| |apply B].
        rewrite Es. apply Forall_app. split; [apply Forall_forall; intros x I; cbn in I; intuition; subst; lia|].
        apply Forall_forall. intros x I. apply (proj1 (Forall_forall _ _) D) in I. apply digit10 in I. lia.
      - destruct P as (l & N & ->). assert (L := numeral_len n l Hn N). rewrite app_length. change (length (txt "/dev/pts/")) with 9%nat. unfold zlen in L. lia. }
    rewrite Rs, !bind_Ok. unfold k_chmod. rewrite (pts_of_name n s P), Hs. reflexivity.
  - split; [exact S|]. unfold set_slave. cbn [slaves open_fds ptmx]. rewrite Z.eqb_refl. split; [reflexivity|]. split; [|split; [|split; [|split; [|split; reflexivity]]]].
    + unfold granted. rewrite !T. cbn [Z.eqb Pos.eqb]. rewrite !Bool.orb_true_r. repeat split.
    + intros i H. rewrite T, H. reflexivity.
    + intros i H8 H7 H4. rewrite T. replace (i =? 8) with false by lia. replace (i =? 7) with false by lia. replace (i =? 4) with false by lia. now rewrite !Bool.orb_false_r.
    + intros x Hx. destruct (Z.eqb_spec x n); [congruence|reflexivity].
Qed.
Print Assumptions C177_grantpt_partial.
(* a descriptor that is not a master: -1, nothing changes *)
Theorem C177_error : forall fuel mini_buf tmp0 fmt buf e fd pty m k, INT_MIN < e < 0 -> (forall n, open_fds k fd <> Some (Master n)) ->
  grantpt fuel mini_buf tmp0 fmt buf e fd pty m k = Ok (Some (m, -1, k)) /\ unlockpt e fd k = (e, k).
Proof.
  intros fuel mb tmp0 fmt buf e fd pty m k He H. unfold grantpt, unlockpt, k_lock, k_fstat, k_number.
  destruct (open_fds k fd) as [[n|n]|] eqn:O; [destruct (H n eq_refl)| |].
  - split; [|reflexivity]. destruct (slaves k n) as [[mo l]|].
    + cbn [Z.ltb Z.compare]. destruct (C135_error fuel mb tmp0 m fmt buf 22 e pty He) as [_ ->]. rewrite !bind_Ok. cbn [Z.eqb]. rewrite bind_Ok. cbn [k_chmod].
      destruct (Z.ltb_spec e 0); [reflexivity|lia].
    + destruct (Z.ltb_spec e 0); [reflexivity|lia].
  - split; [|reflexivity]. destruct (Z.ltb_spec e 0); [reflexivity|lia].
Qed.
Print Assumptions C177_error.
(* the slave of a new master can be opened by its name as soon as it is unlocked, and not before *)
Theorem C177_pair : forall e fd fd2 n n2 flags k s, pts_name n s -> e <> fd2 ->
  let '(r, k1) := posix_openpt e fd n flags k in r = fd /\ open_fds k1 fd = Some (Master n) /\ k_open e fd2 n2 s k1 = (e, k1) /\
  let '(r, k2) := unlockpt e fd k1 in r = 0 /\ (forall x, x <> n -> slaves k2 x = slaves k x) /\
  exists k3, k_open e fd2 n2 s k2 = (fd2, k3) /\ open_fds k3 fd2 = Some (Slave n).
Proof.
  intros e fd fd2 n n2 flags k s P He. unfold posix_openpt, k_open. replace (eqs (chars "/dev/ptmx") (chars "/dev/ptmx")) with true by reflexivity.
  cbv iota zeta. assert (Np : eqs s (chars "/dev/ptmx") = false). { destruct P as (l & _ & ->). reflexivity. }
  rewrite Np, (pts_of_name n s P). unfold set_fd, set_slave. cbn [slaves open_fds ptmx]. rewrite !Z.eqb_refl. split; [reflexivity|]. split; [reflexivity|]. split; [reflexivity|].
  unfold unlockpt, k_lock. cbn [slaves open_fds ptmx]. rewrite !Z.eqb_refl. unfold set_slave. cbn [slaves open_fds ptmx Z.eqb negb]. rewrite Z.eqb_refl. split; [reflexivity|]. split.
  - intros x Hx. destruct (Z.eqb_spec x n); [congruence|reflexivity].
  - eexists. split; [reflexivity|]. unfold set_fd. cbn [open_fds]. now rewrite Z.eqb_refl.
Qed.
Print Assumptions C177_pair.

Definition k177 : ptys := snd (posix_openpt (-1) 5 12 2 (mkp 438 (fun _ => None) (fun _ => None))).
Example C177_case : open_fds k177 5 = Some (Master 12) /\ slaves k177 12 = Some (400, true) /\ str_at m135 300 (txt "/dev/pts/%d") /\ room m135 100 22 /\
  apart 300 12 100 22 /\ pts_name 12 (txt "/dev/pts/12") /\
  match grantpt 100 1024 (fun _ => 7) 300 100 (-1) 5 0 m135 k177 with Ok (Some (_, r, k')) => r = 0 /\ slaves k' 12 = Some (438, true) | _ => False end.
Proof.
  split; [reflexivity|]. split; [reflexivity|]. split; [exact (proj1 C135_case)|]. split; [exact (proj1 (proj2 C135_case))|]. split; [unfold apart; lia|].
  split; [exact (proj1 (proj2 (proj2 C135_case)))|]. vm_compute. split; reflexivity.
Qed.

(* The full claim: afterwards only the owner may read and only the owner and the group may write.  It is
   false: grantpt adds the rights of /dev/ptmx, which everybody may read and write (0666), to the slave;
   the kernel had created it with 0620 *)
Theorem C177_mode_refuted : forall fuel mini_buf tmp0 fmt buf e fd pty m k n lock,
  open_fds k fd = Some (Master n) -> slaves k n = Some (400, lock) -> 0 <= n <= INT_MAX -> ptmx k = 438 -> buf <> 0 ->
  str_at m fmt (txt "/dev/pts/%d") -> apart fmt 12 buf 22 -> room m buf 22 -> 33 <= mini_buf -> (40 <= fuel)%nat ->
  exists m' k' mode', grantpt fuel mini_buf tmp0 fmt buf e fd pty m k = Ok (Some (m', 0, k')) /\ slaves k' n = Some (mode', lock) /\
    Z.testbit 400 2 = false /\ Z.testbit 400 1 = false /\ Z.testbit mode' 2 = true /\ Z.testbit mode' 1 = true.
Proof.
  intros fuel mb tmp0 fmt buf e fd pty m k n lock Hf Hs Hn Hm Hb F A R M Fu.
  destruct (C177_grantpt_partial fuel mb tmp0 fmt buf e fd pty m k n 400 lock Hf Hs Hn ltac:(lia) Hb F A R M Fu) as (m' & k' & mode' & E & _ & S & _ & T & _).
  exists m', k', mode'. split; [exact E|]. split; [exact S|]. split; [reflexivity|]. split; [reflexivity|]. rewrite Hm in T. split; apply T; reflexivity.
Qed.
Print Assumptions C177_mode_refuted.
