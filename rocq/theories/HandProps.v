(* C141, C142: fdopen, freopen, opendir, closedir. *)
From Verif Require Import Base BaseLemmas StreamModel StreamSpec StreamProofs StreamProofs2 StreamProps HandModel.
Ltac Zify.zify_post_hook ::= Z.div_mod_to_equations.

(* ---- C141: fdopen, freopen ---- *)
(* fdopen after a history of fopen and fclose (see C45): a slot that is not in use gets the
   descriptor, the others are left alone *)
Theorem C141_fdopen_partial : forall n t l fd mode t' a,
  history (fun l a => (forall b e, In (b, e) l -> b <= a) \/ (exists e, In (a + 1, e) l)) n t l -> 
  fdopen t fd mode = Ok (t', Some a) -> 0 <= fd < 4194304 ->
  ~ In a (map fst l) /\ 3 <= a < 16 /\ fileno (slot t' a) = fd /\ forall b, b <> a -> slot t' b = slot t b.
Proof.
  intros n t l fd mode t' a H E Hfd. unfold fdopen in E. destruct (fopen_flags mode); [|discriminate].
  destruct (fopen_slot_inv _ _ _ _ _ _ (history_inv n t l H) E) as (a' & Ea & A1 & A2 & A3 & _).
  destruct (fd <? 0); [discriminate Ea|]. injection Ea as <-. split; [exact A2|]. split; [exact A1|]. split.
  - rewrite A3, Z.eqb_refl. unfold fileno. change 0x3fffff with (Z.ones 22). rewrite Z.land_ones by lia. unfold u32. change (2 ^ 22) with 4194304. lia.
  - intros b Hb. rewrite A3. destruct (Z.eqb_spec b a); congruence.
Qed.
Print Assumptions C141_fdopen_partial.
(* and it succeeds as long as there were at most twelve fopen; a mode that is none of r, w, a, or
   a negative descriptor gives a null pointer *)
Theorem C141_fdopen_result_partial : forall n t l fd mode,
  history (fun l a => (forall b e, In (b, e) l -> b <= a) \/ (exists e, In (a + 1, e) l)) n t l -> (n <= 12)%nat ->
  exists t' o, fdopen t fd mode = Ok (t', o) /\
    ((exists a, o = Some a) <-> 0 <= fd /\ exists c r, mode = c :: r /\ (c = 114 \/ c = 119 \/ c = 97)).
Proof.
  intros n t l fd mode H Hn. pose proof (history_inv n t l H) as I. unfold fdopen.
  assert (M : (exists c r, mode = c :: r /\ (c = 114 \/ c = 119 \/ c = 97)) <-> fopen_flags mode <> None).
  { split.
    - intros (c & r & -> & [->|[->| ->]]); unfold fopen_flags; cbn [Z.eqb Pos.eqb]; discriminate.
    - destruct mode as [|c r]; [intro K; contradiction|]. cbn [fopen_flags]. intro K. exists c, r. split; [reflexivity|].
      destruct (Z.eqb_spec c 114); [auto|]. destruct (Z.eqb_spec c 119); [auto|]. destruct (Z.eqb_spec c 97); [auto|contradiction]. }
  destruct (fopen_flags mode) as [fl|].
  - destruct (fopen_total n t l fd I Hn) as (t' & o & E). exists t', o. split; [exact E|]. destruct (fopen_slot_inv _ _ _ _ _ _ I E) as (a & -> & _).
    destruct (Z.ltb_spec fd 0).
    + split; [intros [? ?]; discriminate|lia].
    + split; [intros _; split; [lia|]; apply M; discriminate|eauto].
  - exists t, None. split; [reflexivity|]. split; [intros [? ?]; discriminate|]. intros [_ K]. apply M in K. contradiction.
Qed.
Print Assumptions C141_fdopen_result_partial.
(* freopen with a name: the descriptor of the stream is closed, the file opened with the flags of
   C76, and the stream has the new descriptor; nothing else changes *)
Theorem C141_freopen_partial : forall t name mode f r fd fl, 0 <= f < 16 -> slot t f = fd -> 0 <= fd < 4194304 -> name <> 0 -> fopen_flags mode = Some fl -> r < 4194304 ->
  exists t', freopen t name mode f r = Ok (t', [Close fd; Open name fl], if 0 <=? r then Some f else None) /\
    (0 <= r -> fileno (slot t' f) = r) /\ pstream t' = pstream t /\ forall b, b <> f -> slot t' b = slot t b.
Proof.
  intros t name mode f r fd fl Hf Hs Hfd Hn Hm Hr. unfold freopen. rewrite Hm, sget_ok, bind_Ok by lia. destruct (Z.eqb_spec name 0); [contradiction|]. cbn [negb].
  assert (FN : forall v, 0 <= v < 4194304 -> fileno v = v).
  { intros v V. unfold fileno. change 0x3fffff with (Z.ones 22). rewrite Z.land_ones by lia. unfold u32. change (2 ^ 22) with 4194304. lia. }
  rewrite Hs, FN by lia. unfold sset. replace ((0 <=? f) && (f <? 16)) with true by lia. rewrite bind_Ok.
  destruct (Z.ltb_spec r 0); eexists; (split; [replace (0 <=? r) with (negb (r <? 0)) by lia; destruct (Z.ltb_spec r 0); try lia; reflexivity|]); cbn [slot pstream];
    rewrite Z.eqb_refl; (split; [intro; try apply FN; lia|]); (split; [reflexivity|]); intros b Hb; destruct (Z.eqb_spec b f); congruence.
Qed.
Print Assumptions C141_freopen_partial.
Example C141_case : freopen {| slot := fun a => if a =? 4 then 7 else a; pstream := 5 |} 900 [119] 4 3 =
  Ok ({| slot := fun x => if x =? 4 then 3 else if x =? 4 then 7 else x; pstream := 5 |}, [Close 7; Open 900 577], Some 4) /\
  (exists t', fdopen streams_init 9 [114] = Ok (t', Some 3)).
Proof. split; [reflexivity|]. eexists. reflexivity. Qed.
(* freopen(NULL, mode, F), which is to change the mode of F: F is closed and becomes standard input *)
Theorem C141_null_refuted : forall t f mode fl, 0 <= f < 16 -> fopen_flags mode = Some fl -> forall r,
  exists t', freopen t 0 mode f r = Ok (t', [Close (fileno (slot t f))], Some f) /\ fileno (slot t' f) = 0.
Proof.
  intros t f mode fl Hf Hm r. unfold freopen. rewrite Hm, sget_ok, bind_Ok by lia. cbn [Z.eqb negb]. unfold sset. replace ((0 <=? f) && (f <? 16)) with true by lia.
  rewrite bind_Ok. eexists. split; [reflexivity|]. cbn [slot]. rewrite Z.eqb_refl. reflexivity.
Qed.
Print Assumptions C141_null_refuted.
(* after a failing freopen the slot keeps the error number; fclose closes descriptor 4194302 then *)
Theorem C141_failed_refuted : exists t, slot t 4 = 7 /\ exists t', freopen t 900 [114] 4 (-2) = Ok (t', [Close 7; Open 900 0], None) /\
  exists t'', fclose t' 4 = Ok (t'', 4194302).
Proof.
  exists {| slot := fun a => if a =? 4 then 7 else if a <? 3 then a else 0; pstream := 6 |}. split; [reflexivity|]. eexists. split; [reflexivity|]. eexists. vm_compute. reflexivity.
Qed.
Print Assumptions C141_failed_refuted.

(* ---- C142: opendir, closedir ---- *)
(* any sequence of opendir and closedir: hs are the directories that are open, with their
   descriptors.  malloc returns 0 or an address that is not in use, open an error or an unused
   descriptor; only open directories are closed; and other parts of the program may change
   anything else in between *)
Inductive history : world -> list (Z * Z) -> Prop :=
| h_start w : history w []
| h_open w hs p r w' d : history w hs -> (p = 0 \/ w_block w p = false) -> (r < 0 \/ w_fd w r = false) ->
    opendir w p r = Ok (w', d) -> history w' (if d =? 0 then hs else (d, r) :: hs)
| h_close w hs l1 l2 d fd w' ret : history w hs -> hs = l1 ++ (d, fd) :: l2 -> closedir w d = Ok (w', ret) -> history w' (l1 ++ l2)
| h_other w hs w' : history w hs -> (forall d fd, In (d, fd) hs -> w_block w' d = true /\ w_fd w' fd = true /\ dirfd w' d = fd) -> history w' hs.
Definition good (w : world) (hs : list (Z * Z)) : Prop :=
  NoDup (map fst hs) /\ NoDup (map snd hs) /\ forall d fd, In (d, fd) hs -> w_block w d = true /\ w_fd w fd = true /\ dirfd w d = fd.
Lemma set_b_same f x v : set_b f x v x = v. Proof. unfold set_b. now rewrite Z.eqb_refl. Qed.
Lemma set_b_other f x v y : y <> x -> set_b f x v y = f y. Proof. intro. unfold set_b. destruct (Z.eqb_spec y x); congruence. Qed.
Lemma open_cases w p r : (p = 0 \/ w_block w p = false) -> exists w' d, opendir w p r = Ok (w', d) /\
  (d <> 0 -> d = p /\ 0 <= r /\ dirfd w' d = r /\ (forall x, w_block w' x = set_b (w_block w) p true x) /\ (forall x, w_fd w' x = set_b (w_fd w) r true x) /\
     (forall x, x <> p -> w_dir w' x = w_dir w x) /\ w_dir w' p = (r, 0, 0)) /\
  (d = 0 -> (p = 0 \/ r < 0) /\ (forall x, w_block w' x = w_block w x) /\ (forall x, w_fd w' x = w_fd w x) /\ forall x, w_dir w' x = w_dir w x).
Proof.
  intro Hp. unfold opendir, w_malloc. destruct (Z.eqb_spec p 0) as [->|Np].
  - exists w, 0. split; [reflexivity|]. split; [congruence|]. intros _. auto.
  - destruct Hp as [Hp|Hp]; [contradiction|]. unfold opendirp, w_open. destruct (Z.ltb_spec r 0).
    + cbn [Z.eqb]. unfold w_free. cbn [w_block w_fd w_dir]. rewrite set_b_same, bind_Ok. do 2 eexists. split; [reflexivity|]. split; [congruence|]. intros _. cbn [w_block w_fd w_dir].
      split; [auto|]. split; [|auto]. intro x. destruct (Z.eq_dec x p) as [->|]; [rewrite set_b_same; congruence|]. rewrite !set_b_other by auto. reflexivity.
    + destruct (Z.eqb_spec p 0); [contradiction|]. do 2 eexists. split; [reflexivity|]. split; [|congruence]. intros _. unfold dirfd. cbn [w_block w_fd w_dir]. rewrite Z.eqb_refl.
      repeat split; auto; try lia. intros x X. destruct (Z.eqb_spec x p); congruence.
Qed.
Lemma close_ok w d fd : w_block w d = true -> w_fd w fd = true -> dirfd w d = fd -> exists w', closedir w d = Ok (w', 0) /\
  (forall x, w_block w' x = set_b (w_block w) d false x) /\ (forall x, w_fd w' x = set_b (w_fd w) fd false x) /\ forall x, w_dir w' x = w_dir w x.
Proof.
  intros B F D. unfold closedir, w_close. rewrite D, F. unfold w_free. cbn [w_block w_fd w_dir]. rewrite B, bind_Ok. eexists. split; [reflexivity|]. auto.
Qed.
Lemma history_good w hs : history w hs -> good w hs.
Proof.
  intro H. induction H as [w|w hs p r w' d H IH Hp Hr E|w hs l1 l2 d fd w' ret H IH -> E|w hs w' H IH K].
  - split; [constructor|]. split; [constructor|]. intros d fd [].
  - destruct IH as (N1 & N2 & K). destruct (open_cases w p r Hp) as (w1 & d1 & E1 & S & F). rewrite E in E1. injection E1 as -> ->. destruct (Z.eqb_spec d1 0) as [->|Nd].
    + destruct (F eq_refl) as (_ & F1 & F2 & F3). split; [exact N1|]. split; [exact N2|]. intros d fd I. destruct (K d fd I) as (K1 & K2 & K3). rewrite F1, F2. unfold dirfd in *. rewrite F3. auto.
    + destruct (S Nd) as (-> & R & S1 & S2 & S3 & S4 & _). destruct Hp as [Hp|Hp]; [contradiction|]. destruct Hr as [Hr|Hr]; [lia|]. split; [|split].
      * cbn [map fst]. constructor; [|exact N1]. intro I. apply in_map_iff in I as ((d & fd) & E1 & I). cbn in E1. subst d. apply K in I. destruct I; congruence.
      * cbn [map snd]. constructor; [|exact N2]. intro I. apply in_map_iff in I as ((d & fd) & E1 & I). cbn in E1. subst fd. apply K in I. destruct I as (_ & I & _); congruence.
      * intros d fd [I|I].
        -- injection I as <- <-. rewrite S2, S3, !set_b_same. auto.
        -- destruct (K d fd I) as (K1 & K2 & K3). assert (d <> p) by congruence. assert (fd <> r) by congruence. rewrite S2, S3, !set_b_other by auto. unfold dirfd in *. rewrite S4 by auto. auto.
  - destruct IH as (N1 & N2 & K). destruct (K d fd) as (K1 & K2 & K3); [apply in_or_app; right; left; reflexivity|].
    destruct (close_ok w d fd K1 K2 K3) as (w1 & E1 & S1 & S2 & S3). rewrite E in E1. injection E1 as -> ->.
    rewrite map_app in N1, N2. cbn [map fst snd] in N1, N2. pose proof (NoDup_remove_2 _ _ _ N1) as M1. pose proof (NoDup_remove_2 _ _ _ N2) as M2.
    split; [rewrite map_app; exact (NoDup_remove_1 _ _ _ N1)|]. split; [rewrite map_app; exact (NoDup_remove_1 _ _ _ N2)|].
    intros d' fd' I. destruct (K d' fd') as (J1 & J2 & J3); [apply in_app_or in I as [I|I]; apply in_or_app; [left|right; right]; exact I|].
    assert (d' <> d) by (intros ->; apply M1; rewrite <- map_app; apply in_map_iff; exists (d, fd'); auto).
    assert (fd' <> fd) by (intros ->; apply M2; rewrite <- map_app; apply in_map_iff; exists (d', fd); auto).
    rewrite S1, S2, !set_b_other by auto. unfold dirfd in *. rewrite S3. auto.
  - destruct IH as (N1 & N2 & _). split; [exact N1|]. split; [exact N2|exact K].
Qed.
(* In every history: opendir returns a handle exactly if there is memory and the directory can be
   opened, with the new descriptor and an empty buffer, else it keeps nothing; closedir succeeds,
   frees the block and closes the descriptor of its directory; nothing else changes. *)
Theorem C142_directories : forall w hs, history w hs ->
  (forall p r, p = 0 \/ w_block w p = false -> r < 0 \/ w_fd w r = false -> exists w' d, opendir w p r = Ok (w', d) /\
     (d <> 0 <-> p <> 0 /\ 0 <= r) /\
     (forall x, w_block w' x = if negb (d =? 0) && (x =? d) then true else w_block w x) /\
     (forall x, w_fd w' x = if negb (d =? 0) && (x =? r) then true else w_fd w x) /\
     (d <> 0 -> dirfd w' d = r /\ w_dir w' d = (r, 0, 0))) /\
  (forall d fd, In (d, fd) hs -> dirfd w d = fd /\ exists w', closedir w d = Ok (w', 0) /\
     (forall x, w_block w' x = if x =? d then false else w_block w x) /\
     (forall x, w_fd w' x = if x =? fd then false else w_fd w x)).
Proof.
  intros w hs H. destruct (history_good w hs H) as (_ & _ & K). split.
  - intros p r Hp Hr. destruct (open_cases w p r Hp) as (w' & d & E & S & F). exists w', d. split; [exact E|]. destruct (Z.eq_dec d 0) as [->|Nd].
    + destruct (F eq_refl) as (C & F1 & F2 & F3). cbn [Z.eqb negb andb]. split; [|split; [exact F1|split; [exact F2|congruence]]]. split; [congruence|]. intros [? ?]. destruct C; lia.
    + destruct (S Nd) as (-> & R & S1 & S2 & S3 & S4 & S5). destruct (Z.eqb_spec p 0); [contradiction|]. cbn [negb andb]. split; [split; auto|]. split; [exact S2|]. split; [exact S3|]. auto.
  - intros d fd I. destruct (K d fd I) as (K1 & K2 & K3). split; [exact K3|]. destruct (close_ok w d fd K1 K2 K3) as (w' & E & S1 & S2 & _). exists w'. auto.
Qed.
Print Assumptions C142_directories.
Definition w142 : world := {| w_fd := fun x => (0 <=? x) && (x <? 3); w_block := fun _ => false; w_dir := fun _ => (0, 0, 0) |}.
Example C142_case : exists w, history w [(900, 4); (800, 3)].
Proof.
  eexists. refine (h_open _ [(800, 3)] 900 4 _ 900 (h_open w142 [] 800 3 _ 800 (h_start _) _ _ _) _ _ _); first [right; reflexivity | reflexivity].
Qed.
