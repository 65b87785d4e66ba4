From Verif Require Import Base BaseLemmas ShrinkModel ElftModel ElftSpec.
Local Open Scope list_scope.

Lemma le_get_number n : forall l, le_get n l = number (firstn n l).
Proof. induction n as [|n IH]; intros [|b l]; cbn [le_get firstn number fold_right]; try reflexivity. now rewrite IH. Qed.
Lemma fld_num l pos n : fld l pos n = num l pos (Z.of_nat n).
Proof. unfold fld, num, part. rewrite le_get_number, Nat2Z.id. reflexivity. Qed.
Lemma zlen_part f pos n : 0 <= pos -> 0 <= n -> pos + n <= zlen f -> zlen (part f pos n) = n.
Proof. intros. unfold part, zlen in *. rewrite firstn_length, skipn_length. lia. Qed.
Lemma part_part f a n pos m : 0 <= a -> 0 <= pos -> 0 <= m -> pos + m <= n -> part (part f a n) pos m = part f (a + pos) m.
Proof.
  intros. unfold part. rewrite skipn_firstn_comm, firstn_firstn.
  replace (Nat.min (Z.to_nat m) (Z.to_nat n - Z.to_nat pos)) with (Z.to_nat m) by lia. f_equal.
  replace (Z.to_nat (a + pos)) with (Z.to_nat a + Z.to_nat pos)%nat by lia. generalize (Z.to_nat a) as x. intros x. clear.
  revert f. induction x as [|x IH]; intros [|b f]; cbn [skipn Nat.add]; try reflexivity; [now destruct (Z.to_nat pos)|apply IH].
Qed.
Lemma num_part f a n pos m : 0 <= a -> 0 <= pos -> 0 <= m -> pos + m <= n -> num (part f a n) pos m = num f (a + pos) m.
Proof. intros. unfold num. now rewrite part_part. Qed.
Lemma part_app f a n m : 0 <= a -> 0 <= n -> 0 <= m -> part f a n ++ part f (a + n) m = part f a (n + m).
Proof.
  intros. unfold part. rewrite !Z2Nat.inj_add by lia. generalize (Z.to_nat a) as x, (Z.to_nat n) as y, (Z.to_nat m) as z. clear. intros x y z.
  revert f. induction x as [|x IH]; intros f; cbn [Nat.add skipn].
  - revert f. induction y as [|y IH]; intros [|b f]; cbn [Nat.add skipn firstn app]; try reflexivity; [now rewrite firstn_nil|f_equal; apply IH].
  - destruct f as [|b f]; [now rewrite !firstn_nil|apply IH].
Qed.
Lemma part_all f n : zlen f <= n -> part f 0 n = f.
Proof. intros. unfold part. cbn [skipn Z.to_nat]. apply firstn_all2. unfold zlen in *. lia. Qed.
Lemma part_nil f a : part f a 0 = [].
Proof. reflexivity. Qed.
Lemma number_bound l : Forall (fun b => 0 <= b < 256) l -> 0 <= number l < 256 ^ zlen l.
Proof.
  unfold number, zlen. induction 1 as [|b l Hb _ IH]; cbn [fold_right length]; [cbn; lia|]. rewrite Nat2Z.inj_succ, Z.pow_succ_r by lia. lia.
Qed.
Lemma Forall_part (P : Z -> Prop) f a n : Forall P f -> Forall P (part f a n).
Proof. intros H. unfold part. apply Forall_forall. intros x Hx. rewrite Forall_forall in H. apply H. rewrite <- (firstn_skipn (Z.to_nat a) f). apply in_or_app. right. rewrite <- (firstn_skipn (Z.to_nat n) (skipn _ f)). apply in_or_app. now left. Qed.
Lemma num_nonneg f a n : Forall (fun b => 0 <= b < 256) f -> 0 <= num f a n.
Proof. intros H. apply number_bound, Forall_part, H. Qed.

(* model and specification speak of the same format *)
Record same_format (L : lay) (F : format) : Prop := {
  s_eh : eh_size L = header F; s_ph : ph_size L = phdr F; s_addr : Z.of_nat (addr L) = width F; s_phoff : o_phoff L = at_phoff F; s_phnum : o_phnum L = at_phnum F;
  s_off : o_offset L = at_offset F; s_filesz : o_filesz L = at_filesz F;
  r_phdr : 4 <= phdr F; r_width : 0 < width F; r_phoff : 0 <= at_phoff F /\ at_phoff F + width F <= header F; r_phnum : 0 <= at_phnum F /\ at_phnum F + 2 <= header F;
  r_off : 0 <= at_offset F /\ at_offset F + width F <= phdr F; r_filesz : 0 <= at_filesz F /\ at_filesz F + width F <= phdr F }.
Lemma same64 : same_format lay64 elf64.
Proof. constructor; cbn; lia. Qed.
Lemma same32 : same_format lay32 elf32.
Proof. constructor; cbn; lia. Qed.

Section Read.
Variables (L : lay) (F : format) (K : behaviour) (f : list Z) (class : Z).
Hypothesis (SF : same_format L F) (R : forall i, read_fails K i = false) (E : elf F class f).
Lemma nn a n : 0 <= num f a n.
Proof. apply num_nonneg, E. Qed.
Lemma rd_ok i pos n : rd K f i pos n = Some (part f pos n).
Proof. unfold rd. rewrite R. reflexivity. Qed.
Lemma field_ok l pos n : 0 <= pos -> pos + Z.of_nat n <= zlen l -> field l pos n = Ok (num l pos (Z.of_nat n)).
Proof. intros. unfold field. destruct (Z.leb_spec (pos + Z.of_nat n) (zlen l)); [|lia]. now rewrite fld_num. Qed.

Lemma header_ok i (X : Type) (none nil : X) (some : list Z -> X) :
  match rd K f i 0 (eh_size L) with None => none | Some [] => nil | Some eh => some eh end = some (part f 0 (header F)).
Proof.
  rewrite rd_ok, (s_eh _ _ SF). pose proof (complete _ _ _ E). pose proof (r_phnum _ _ SF).
  assert (Z1 : zlen (part f 0 (header F)) = header F) by (apply zlen_part; lia).
  destruct (part f 0 (header F)); [change (zlen []) with 0 in Z1; lia|reflexivity].
Qed.
Lemma phoff_ok : field (part f 0 (header F)) (o_phoff L) (addr L) = Ok (phoff F f).
Proof.
  destruct SF. pose proof (complete _ _ _ E). rewrite field_ok, num_part; rewrite ?zlen_part; rewrite ?s_phoff0, ?s_addr0; try lia. reflexivity.
Qed.
Lemma phnum_ok : field (part f 0 (header F)) (o_phnum L) 2 = Ok (phnum F f).
Proof.
  destruct SF. pose proof (complete _ _ _ E). rewrite field_ok, num_part; rewrite ?zlen_part; rewrite ?s_phnum0; try (change (Z.of_nat 2) with 2); try lia. reflexivity.
Qed.
Lemma seek_ok n : seek n (phoff F f) = phoff F f.
Proof.
  unfold seek. pose proof (near _ _ _ E). pose proof (nn (at_phoff F) (width F)). fold (phoff F f) in *.
  rewrite s32_small by (unfold INT_MIN, INT_MAX; lia). destruct (Z.ltb_spec (phoff F f) 0); [lia|reflexivity].
Qed.

(* one step of the loop over the program headers *)
Lemma step k i idx len ph : 0 <= idx < phnum F f -> (zlen ph <= phdr F) ->
  let pos := phoff F f + phdr F * idx in
  let ph' := part f pos (phdr F) in
  scan L K f (S k) i pos len ph =
    if (ptype F f idx =? 2) || (ptype F f idx =? 3) then Ok None
    else scan L K f k (S i) (phoff F f + phdr F * (idx + 1))
           (if ptype F f idx =? 1 then if len <? uaddr L (pend F f idx) then uaddr L (pend F f idx) else len else len) ph'.
Proof.
  intros Hi Hp pos ph'. pose proof (nn (at_phoff F) (width F)) as P0. fold (phoff F f) in P0. pose proof (r_phdr _ _ SF). pose proof (table _ _ _ E).
  assert (P1 : 0 <= pos) by (subst pos; lia).
  assert (P2 : pos + phdr F <= zlen f) by (subst pos; nia).
  assert (Zp : zlen ph' = phdr F) by (apply zlen_part; lia).
  cbn [scan]. rewrite rd_ok, (s_ph _ _ SF). fold ph'.
  assert (Sk : ph' ++ skipn (length ph') ph = ph').
  { rewrite skipn_all2; [apply app_nil_r|]. unfold zlen in *. lia. }
  destruct ph' as [|b r] eqn:Ep; [change (zlen []) with 0 in Zp; lia|]. rewrite Sk, <- Ep in *. clear b r Ep Sk.
  destruct SF. rewrite (field_ok ph' 0 4) by (change (Z.of_nat 4) with 4; lia). rewrite bind_Ok. subst ph'.
  change (Z.of_nat 4) with 4. rewrite num_part by lia. rewrite Z.add_0_r. fold pos. change (num f pos 4) with (ptype F f idx).
  destruct ((ptype F f idx =? 2) || (ptype F f idx =? 3)); [reflexivity|].
  replace (pos + zlen (part f pos (phdr F))) with (phoff F f + phdr F * (idx + 1)) by (rewrite Zp; subst pos; ring).
  destruct (ptype F f idx =? 1); [|reflexivity].
  rewrite !field_ok by lia. rewrite !bind_Ok, s_off0, s_filesz0, s_addr0, !num_part by lia.
  reflexivity.
Qed.
Lemma scan_dynamic k : forall i idx len ph, 0 <= idx -> idx + Z.of_nat k = phnum F f -> zlen ph <= phdr F ->
  (exists j, idx <= j < phnum F f /\ (ptype F f j = 2 \/ ptype F f j = 3)) ->
  scan L K f k i (phoff F f + phdr F * idx) len ph = Ok None.
Proof.
  induction k as [|k IH]; intros i idx len ph H0 Hk Hp (j & Hj & Ht); [lia|]. rewrite step by lia.
  destruct ((ptype F f idx =? 2) || (ptype F f idx =? 3)) eqn:T; [reflexivity|]. apply IH; try lia.
  - rewrite zlen_part; [lia| | |].
    + pose proof (nn (at_phoff F) (width F)) as P0. fold (phoff F f) in P0. pose proof (r_phdr _ _ SF). lia.
    + pose proof (r_phdr _ _ SF). lia.
    + pose proof (table _ _ _ E). pose proof (r_phdr _ _ SF). nia.
  - exists j. split; [|exact Ht]. assert (j <> idx) by (intros ->; destruct Ht as [Ht|Ht]; rewrite Ht in T; discriminate). lia.
Qed.
Lemma scan_static k : forall i idx len ph, 0 <= idx -> idx + Z.of_nat k = phnum F f -> zlen ph <= phdr F ->
  (forall j, idx <= j < phnum F f -> ptype F f j <> 2 /\ ptype F f j <> 3) ->
  (forall j, idx <= j < phnum F f -> ptype F f j = 1 -> pend F f j < 2 ^ (8 * width F)) ->
  exists n i', scan L K f k i (phoff F f + phdr F * idx) len ph = Ok (Some (n, i')) /\ len <= n /\
    (forall j, idx <= j < phnum F f -> ptype F f j = 1 -> pend F f j <= n) /\
    (n = len \/ exists j, idx <= j < phnum F f /\ ptype F f j = 1 /\ pend F f j = n).
Proof.
  induction k as [|k IH]; intros i idx len ph H0 Hk Hp Hs Hb.
  { exists len, i. split; [reflexivity|]. split; [lia|]. split; [lia|now left]. }
  rewrite step by lia. destruct (Hs idx) as [T2 T3]; [lia|]. destruct (Z.eqb_spec (ptype F f idx) 2) as [?|_]; [contradiction|].
  destruct (Z.eqb_spec (ptype F f idx) 3) as [?|_]; [contradiction|]. cbn [orb].
  set (len1 := if ptype F f idx =? 1 then _ else len).
  assert (U : ptype F f idx = 1 -> uaddr L (pend F f idx) = pend F f idx).
  { intros T. unfold uaddr. rewrite (s_addr _ _ SF). apply Z.mod_small. split; [|apply Hb; [lia|exact T]]. unfold pend. apply Z.add_nonneg_nonneg; apply nn. }
  destruct (IH (S i) (idx + 1) len1 (part f (phoff F f + phdr F * idx) (phdr F))) as (n & i' & Ea & Le & Up & At); [lia|lia| | | |].
  - rewrite zlen_part; [lia| | |].
    + pose proof (nn (at_phoff F) (width F)) as P0. fold (phoff F f) in P0. pose proof (r_phdr _ _ SF). lia.
    + pose proof (r_phdr _ _ SF). lia.
    + pose proof (table _ _ _ E). pose proof (r_phdr _ _ SF). nia.
  - intros j Hj. apply Hs. lia.
  - intros j Hj. apply Hb. lia.
  - exists n, i'. split; [exact Ea|].
    assert (L1 : len <= len1 /\ (ptype F f idx = 1 -> pend F f idx <= len1) /\ (len1 = len \/ ptype F f idx = 1 /\ pend F f idx = len1)).
    { subst len1. destruct (Z.eqb_spec (ptype F f idx) 1) as [T|T]; [rewrite U by exact T; destruct (Z.ltb_spec len (pend F f idx)); intuition lia|]. intuition lia. }
    destruct L1 as (L1 & L2 & L3). split; [lia|]. split.
    + intros j Hj Tj. destruct (Z.eq_dec j idx) as [->|N]; [specialize (L2 Tj); lia|apply Up; [lia|exact Tj]].
    + destruct At as [->|(j & Hj & Aj)].
      * destruct L3 as [->|[T L3]]; [now left|]. right. exists idx. split; [lia|]. split; [exact T|exact L3].
      * right. exists j. split; [lia|exact Aj].
Qed.
End Read.

(* the copy loops *)
Section Copy.
Variables (K : behaviour) (f : list Z).
Hypothesis (G : good K).
Lemma wr_ok j b out : wr K j b out = out ++ b.
Proof. destruct G as (_ & T & _). unfold wr. rewrite T. unfold zlen. now rewrite Nat2Z.id, firstn_all. Qed.
Lemma chunk pos len : 0 <= pos -> 0 < len -> pos + len <= zlen f -> exists n, 0 < n <= 4096 /\ zlen (part f pos 4096) = n /\
  firstn (Z.to_nat (Z.min len n)) (part f pos 4096) = part f pos (Z.min len n) /\ n = Z.min 4096 (zlen f - pos).
Proof.
  intros H0 H1 H2. exists (Z.min 4096 (zlen f - pos)). split; [lia|]. split; [|split; [|reflexivity]].
  - unfold part, zlen in *. rewrite firstn_length, skipn_length. lia.
  - unfold part. rewrite firstn_firstn. f_equal. lia.
Qed.
Lemma copy64_ok fuel : forall i j pos len out, 0 <= pos -> 0 <= len -> pos + len <= zlen f -> (Z.to_nat len < fuel)%nat ->
  copy64 fuel K f i j pos len out = Ok (0, out ++ part f pos len).
Proof.
  induction fuel as [|fuel IH]; intros i j pos len out H0 H1 H2 Hf; [lia|]. cbn [copy64]. destruct (Z.eqb_spec len 0) as [->|N].
  { rewrite part_nil, app_nil_r. reflexivity. }
  destruct G as (R & _ & _). rewrite (rd_ok K f R). destruct (chunk pos len) as (n & Hn & Zn & Fn & Mn); try lia.
  destruct (part f pos 4096) as [|b r] eqn:Ep; [change (zlen []) with 0 in Zn; lia|]. rewrite <- Ep in *. clear b r Ep. rewrite Zn, Fn, wr_ok.
  destruct (Z.min_spec len n) as [[C ->]|[C ->]].
  - rewrite Z.sub_diag. destruct fuel as [|fuel]; [lia|]. cbn [copy64]. reflexivity.
  - rewrite IH by lia. rewrite <- app_assoc. rewrite part_app by lia. repeat f_equal. lia.
Qed.
Lemma copy32_ok fuel : forall i j pos len buf out, 0 <= pos -> 0 <= len -> pos + len <= zlen f -> (Z.to_nat len < fuel)%nat ->
  copy32 fuel K f i j pos len buf out = Ok (0, out ++ part f pos len).
Proof.
  induction fuel as [|fuel IH]; intros i j pos len buf out H0 H1 H2 Hf; [lia|]. cbn [copy32]. destruct (Z.eqb_spec len 0) as [->|N].
  { rewrite part_nil, app_nil_r. reflexivity. }
  destruct G as (R & _ & _). rewrite (rd_ok K f R). destruct (chunk pos len) as (n & Hn & Zn & Fn & Mn); try lia.
  destruct (part f pos 4096) as [|b r] eqn:Ep; [change (zlen []) with 0 in Zn; lia|]. rewrite <- Ep in *. clear b r Ep. rewrite Zn, Fn, wr_ok.
  destruct (Z.min_spec len n) as [[C ->]|[C ->]].
  - rewrite Z.sub_diag. destruct fuel as [|fuel]; [lia|]. cbn [copy32]. reflexivity.
  - rewrite IH by lia. rewrite <- app_assoc. rewrite part_app by lia. repeat f_equal. lia.
Qed.
End Copy.
