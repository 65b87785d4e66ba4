(* C51, C79, C80, C81: the user and group databases. *)
From Coq Require Import ZifyBool.
From Verif Require Import Base BaseLemmas StrModel ConvSpec UserModel UserSpec UserProofs UserProofs2 UserProofs3 UserProofs4 UserProofs5 UserProofs6 UserProofs7.

(* ---- C51: tokens ---- *)
(* A field ends at ':' or newline, which is replaced by NUL (or is NUL already); the result
   is the field as a string, *p points behind the separator, no other byte is changed. *)
Theorem C51_token_s : forall fuel m fe p fld c r, bytes_at m p (fld ++ c :: r) -> text [58; 10] fld -> c = 58 \/ c = 10 \/ c = 0 ->
  p + zlen fld < fe -> (length fld + 1 < fuel)%nat ->
  exists m', token_s fuel m fe p = Ok (m', p, p + zlen fld + 1) /\ str_at m' p fld /\ same_outside m m' (p + zlen fld) 1.
Proof.
  intros fuel m fe p fld c r B T C Hp Hf. destruct (gtok fe fld fuel m p c r B T C Hp Hf) as (m' & E & O & B'). exists m'. split; [exact E|]. split; [|exact O].
  apply (bytes_str m' p fld []); [exact B'|]. now apply (text_range [58; 10]).
Qed.
Print Assumptions C51_token_s.
(* A number up to INT_MAX gets its decimal value. *)
Theorem C51_token_i_partial : forall fuel m fe p ds c r, bytes_at m p (ds ++ c :: r) -> number ds -> c = 58 \/ c = 10 ->
  p + zlen ds < fe -> (length ds < fuel)%nat -> token_i fuel m fe p = Ok (value 10 ds, p + zlen ds + 1).
Proof. intros fuel m fe p ds c r B N C Hp Hf. apply (toki fe ds fuel m p c r); auto. now apply masked_bytes. Qed.
Print Assumptions C51_token_i_partial.
(* uid 4294967294 is a signed overflow *)
Theorem C51_token_i_refuted : exists m p ds r, bytes_at m p (ds ++ 58 :: r) /\ digits 10 ds /\ value 10 ds = 4294967294 /\
  forall fuel, (19 < fuel)%nat -> token_i fuel m (p + 20) p = Fault.
Proof.
  exists (mem_of [(100, [52; 50; 57; 52; 57; 54; 55; 50; 57; 52; 58])]), 100, [52; 50; 57; 52; 57; 54; 55; 50; 57; 52], [].
  split; [vm_compute; repeat split|]. split; [repeat (apply Forall_cons; [vm_compute; split; congruence|]); apply Forall_nil|]. split; [reflexivity|].
  intros fuel H. do 20 (destruct fuel as [|fuel]; [exfalso; lia|]). reflexivity.
Qed.
Print Assumptions C51_token_i_refuted.

(* ---- C51: histories of lookups ---- *)
(* Any sequence of getpwnam, getpwuid, getpwent and setpwent gives the right answers.
   Missing: databases with equal names or uids, getpwnam after the file has been opened but
   before any call has found an entry, and endpwent. *)
Theorem C51_lookup_partial : forall fuel m a es cs qs,
  let n := zlen (passwd_file es) in
  Forall well_formed es -> es <> [] -> n <= INT_MAX -> 0 < a -> n < Z.of_nat fuel ->
  NoDup (map e_name es) -> NoDup (map uid_of es) ->
  Forall2 (asks m a (page_end n)) cs qs -> (forall l, In (QName l) qs -> (length l < fuel)%nat) ->
  (forall pre l post, qs = pre ++ QName l :: post -> Forall (eq QRewind) pre \/ exists e, In (Some e) (answers es es pre)) ->
  exists rs, pwrun fuel (Some (a, passwd_file es)) (pws0 m) cs = Ok rs /\ Forall2 answered rs (answers es es qs).
Proof.
  intros fuel m a es cs qs n W Hne Hmax Ha Hf Hn Hu A Hl H.
  apply (run_ok m a es fuel Ha Hne W Hmax Hf Hn Hu qs cs (pws0 m) false es None); auto.
  - split; [reflexivity|]. cbn. auto.
  - intros pre l post E. destruct (H pre l post E) as [K|K]; auto.
Qed.
Print Assumptions C51_lookup_partial.

(* "a::0:3:::", "bb:x:70:3::/:s" *)
Definition ex_es : list entry := [mkentry [97] [] [48] [51] [] [] []; mkentry [98; 98] [120] [55; 48] [51] [] [47] [115]].
Ltac strn := repeat (split; [vm_compute; reflexivity|]; split; [lia|]); vm_compute; reflexivity.
Ltac askn := split; [strn|]; split; [vm_compute; discriminate|]; left; vm_compute; discriminate.
Lemma ex_wf : Forall well_formed ex_es.
Proof.
  repeat (apply Forall_cons; [unfold well_formed; cbn [e_name e_passwd e_uid e_gid e_gecos e_dir e_shell]; split; [discriminate|]; repeat split; repeat (apply Forall_cons; [vm_compute; intuition (congruence || discriminate)|]); try apply Forall_nil; vm_compute; congruence|]); apply Forall_nil.
Qed.
Example C51_lookup_ex : let m := mem_of [(100, [98; 98; 0])] in let qs := [QNext; QName [98; 98]; QUid 9; QNext; QNext; QUid 70; QRewind; QNext] in
  let cs := [CEnt; CNam 100; CUid 9; CEnt; CEnt; CUid 70; CSet; CEnt] in
  NoDup (map e_name ex_es) /\ NoDup (map uid_of ex_es) /\ Forall2 (asks m 5000 (page_end (zlen (passwd_file ex_es)))) cs qs /\
  (forall pre l post, qs = pre ++ QName l :: post -> Forall (eq QRewind) pre \/ exists e, In (Some e) (answers ex_es ex_es pre)) /\
  match pwrun 40 (Some (5000, passwd_file ex_es)) (pws0 m) cs with
  | Ok rs => map (fun r => (snd r, pw_uid (s_pw (fst r)))) rs = [(true, 0); (true, 70); (false, 70); (true, 70); (false, 70); (true, 70); (false, 70); (true, 0)]
  | _ => False
  end.
Proof.
  cbv zeta. split; [repeat constructor; cbn; intuition discriminate|]. split; [repeat constructor; vm_compute; intuition discriminate|]. split; [|split].
  - repeat (apply Forall2_cons; [try exact I; try reflexivity|]); [|apply Forall2_nil]. askn.
  - intros pre l post E. destruct pre as [|q pre]; [discriminate|]. right. exists (mkentry [97] [] [48] [51] [] [] []). injection E as <- _. left. reflexivity.
  - vm_compute. reflexivity.
Qed.

(* After an unsuccessful first lookup the next getpwnam reads through a null pointer. *)
Theorem C51_null_refuted : exists m a es p l, Forall well_formed es /\ NoDup (map e_name es) /\ NoDup (map uid_of es) /\ 0 < a /\ asks m a 4096 (CNam p) (QName l) /\
  forall fuel, (39 < fuel)%nat -> pwrun fuel (Some (a, passwd_file es)) (pws0 m) [CNam p; CNam p] = Fault.
Proof.
  exists (mem_of [(100, [99; 0])]), 5000, ex_es, 100, [99]. split; [exact ex_wf|]. split; [repeat constructor; cbn; intuition discriminate|]. split; [repeat constructor; vm_compute; intuition discriminate|]. split; [lia|]. split.
  - askn.
  - intros fuel H. do 40 (destruct fuel as [|fuel]; [exfalso; lia|]). reflexivity.
Qed.
Print Assumptions C51_null_refuted.
(* With two entries of the same uid, getpwuid does not return the first one after getpwnam
   has returned the other. *)
Theorem C51_first_refuted : exists m a es cs qs, Forall well_formed es /\ NoDup (map e_name es) /\ 0 < a /\ Forall2 (asks m a 4096) cs qs /\
  forall fuel, (39 < fuel)%nat -> exists rs, pwrun fuel (Some (a, passwd_file es)) (pws0 m) cs = Ok rs /\ ~ Forall2 answered rs (answers es es qs).
Proof.
  exists (mem_of [(100, [98; 0])]), 5000, [mkentry [97] [] [48] [51] [] [] []; mkentry [98] [] [48] [51] [] [] []], [CNam 100; CUid 0], [QName [98]; QUid 0]. split.
  { repeat (apply Forall_cons; [unfold well_formed; cbn [e_name e_passwd e_uid e_gid e_gecos e_dir e_shell]; split; [discriminate|]; repeat split; repeat (apply Forall_cons; [vm_compute; intuition (congruence || discriminate)|]); try apply Forall_nil; vm_compute; congruence|]); apply Forall_nil. }
  split; [repeat constructor; cbn; intuition discriminate|]. split; [lia|]. split.
  - repeat (apply Forall2_cons; [try exact I; try reflexivity|]); [|apply Forall2_nil]. askn.
  - intros fuel H. do 40 (destruct fuel as [|fuel]; [exfalso; lia|]). eexists. split; [reflexivity|]. intros K. inversion K as [|? ? ? ? _ K2]; subst. inversion K2 as [|? ? ? ? K3 _]; subst.
    destruct K3 as [_ [K3 _]]. cbn [e_name str_at] in K3. destruct K3 as [K3 _]. vm_compute in K3. discriminate.
Qed.
Print Assumptions C51_first_refuted.
(* After endpwent and a lookup that finds nothing, getpwuid returns the old entry, whose
   strings are not mapped any more. *)
Theorem C51_end_refuted : exists m a b es p q, Forall well_formed es /\ 0 < a /\ 0 < b /\ apart a 4096 b 4096 /\ asks m a 4096 (CNam p) (QName [97]) /\ asks m b 4096 (CNam q) (QName [99]) /\
  forall fuel, (39 < fuel)%nat -> exists s1 s2, getpwnam fuel (Some (a, passwd_file es)) (pws0 m) p = Ok (s1, true) /\
  getpwnam fuel (Some (b, passwd_file es)) (endpwent s1) q = Ok (s2, false) /\
  getpwuid fuel (Some (b, passwd_file es)) s2 0 = Ok (s2, true) /\ s_m s2 (pw_name (s_pw s2)) = None.
Proof.
  exists (mem_of [(100, [97; 0]); (200, [99; 0])]), 5000, 10000, ex_es, 100, 200. split; [exact ex_wf|]. split; [lia|]. split; [lia|]. split; [left; lia|]. split; [|split].
  - askn.
  - askn.
  - intros fuel H. do 40 (destruct fuel as [|fuel]; [exfalso; lia|]). do 2 eexists. split; [reflexivity|]. split; [reflexivity|]. split; reflexivity.
Qed.
Print Assumptions C51_end_refuted.

(* ---- C79: the group database ---- *)
(* Any sequence of getgrnam, getgrgid, getgrent and setgrent (getgrent only after getgrent,
   setgrent or at the start) gives the right answers; a group without members has one member
   with an empty name.  Missing: equal names or gids, groups with 64 or more members, gids
   above INT_MAX, and files whose pointer table does not fit behind them in the last page. *)
Theorem C79_lookup_partial : forall fuel m a xs cs qs ans,
  let n := zlen (group_file xs) in
  Forall well_formed_group xs -> xs <> [] -> Forall (fun x => zlen (x_members x) < 64) xs ->
  n + 8 * zlen xs <= page_end n -> 0 < a -> a + n < 2 ^ 64 -> n <= INT_MAX -> n + 2 < Z.of_nat fuel ->
  NoDup (map x_name xs) -> NoDup (map gid_of xs) ->
  Forall2 (gasks m a (page_end n)) cs qs -> (forall l, In (QGName l) qs -> (length l < fuel)%nat) ->
  ganswers xs (Some xs) qs = Some ans ->
  exists rs, grrun fuel (Some (a, group_file xs)) (grs0 m) cs = Ok rs /\ Forall2 ganswered rs ans.
Proof.
  intros fuel m a xs cs qs ans n W Hne F Ht Ha H64 Hmax Hf Hn Hg A Hl E.
  destruct (grun_ok m a xs fuel Ha Hne W F Hmax Hf Ht H64 Hn Hg qs cs (grs0 m) (Some xs) ans) as (rs & E' & R & _); auto.
  - left. auto.
  - exists rs. auto.
Qed.
Print Assumptions C79_lookup_partial.

(* "a::3:b,cc", "dd:x:70:b" *)
Definition ex_xs : list gentry := [mkgentry [97] [] [51] [[98]; [99; 99]]; mkgentry [100; 100] [120] [55; 48] [[98]]].
Ltac wfg := repeat (apply Forall_cons; [unfold well_formed_group; cbn [x_name x_passwd x_gid x_members]; split; [discriminate|];
  repeat split; repeat (apply Forall_cons; [vm_compute; intuition (congruence || discriminate)|]); try apply Forall_nil; try (vm_compute; congruence);
  repeat (apply Forall_cons; [split; [discriminate|]; repeat (apply Forall_cons; [vm_compute; intuition (congruence || discriminate)|]); apply Forall_nil|]); apply Forall_nil|]); apply Forall_nil.
Lemma ex_gwf : Forall well_formed_group ex_xs.
Proof. wfg. Qed.
Example C79_lookup_ex : let m := mem_of [(100, [100; 100; 0])] in let qs := [QGNext; QGNext; QGNext; QGName [100; 100]; QGid 9; QGid 3; QGRewind; QGNext] in
  let cs := [GEnt; GEnt; GEnt; GNam 100; GGidc 9; GGidc 3; GSet; GEnt] in let n := zlen (group_file ex_xs) in
  Forall (fun x => zlen (x_members x) < 64) ex_xs /\ n + 8 * zlen ex_xs <= page_end n /\ NoDup (map x_name ex_xs) /\ NoDup (map gid_of ex_xs) /\
  Forall2 (gasks m 5000 (page_end n)) cs qs /\
  (exists ans, ganswers ex_xs (Some ex_xs) qs = Some ans) /\
  match grrun 40 (Some (5000, group_file ex_xs)) (grs0 m) cs with
  | Ok rs => map (fun r => (snd r, gr_gid (g_gr (fst r)))) rs = [(true, 3); (true, 70); (false, 70); (true, 70); (false, 70); (true, 3); (false, 3); (true, 3)]
  | _ => False
  end.
Proof.
  cbv zeta. split; [repeat constructor|]. split; [vm_compute; congruence|]. split; [repeat constructor; cbn; intuition discriminate|]. split; [repeat constructor; vm_compute; intuition discriminate|]. split; [|split].
  - repeat (apply Forall2_cons; [try exact I; try reflexivity|]); [|apply Forall2_nil]. askn.
  - eexists. reflexivity.
  - vm_compute. reflexivity.
Qed.

Lemma f2_nil (A B : Type) (R : A -> B -> Prop) l : Forall2 R l [] -> l = [].
Proof. inversion 1. reflexivity. Qed.
(* A group without members gets a member with an empty name. *)
Theorem C79_members_refuted : exists m a x, well_formed_group x /\ x_members x = [] /\ 0 < a /\
  forall fuel, (39 < fuel)%nat -> exists s, getgrent fuel (Some (a, group_file [x])) (grs0 m) = Ok (s, true) /\ ~ gholds (g_m s) (g_gr s) x.
Proof.
  exists (fun _ => None), 5000, (mkgentry [97] [] [51] []). split; [|split; [reflexivity|split; [lia|]]].
  - assert (W : Forall well_formed_group [mkgentry [97] [] [51] []]) by wfg. now apply Forall_cons_iff in W.
  - intros fuel H. do 40 (destruct fuel as [|fuel]; [exfalso; lia|]). eexists. split; [reflexivity|]. intros (_ & _ & _ & K). apply f2_nil in K. vm_compute in K. discriminate.
Qed.
Print Assumptions C79_members_refuted.

Lemma rdn_fault : forall k m p z, p <= z < p + Z.of_nat k -> m z = None -> rdn k m p = Fault.
Proof.
  induction k as [|k IH]; intros m p z Hz N; [lia|]. cbn [rdn]. unfold load. destruct (m p) eqn:E; [|reflexivity]. rewrite bind_Ok.
  assert (p <> z) by congruence. now rewrite (IH m (p + 1) z) by (auto; lia).
Qed.
Lemma page_fault fuel a x m : well_formed_group x -> 0 < a -> zlen (gline x) + 2 < Z.of_nat fuel -> zlen (gline x) <= INT_MAX ->
  (exists z, a + zlen (gline x) <= z < a + zlen (gline x) + 8 /\ map_file m a (gline x) z = None) ->
  getgrent fuel (Some (a, gline x)) (grs0 m) = Fault.
Proof.
  intros W Ha Hf Hmax (z & Hz & N). cut4 x. pose proof (gline_pos x) as Hpos. set (n := zlen (gline x)) in *.
  assert (En : s32 n = n) by (apply s32_small; unfold INT_MAX, INT_MIN in *; lia).
  destruct (heads fuel (a + n) x (map_file m a (gline x)) a 58 58 (joined (x_members x) ++ [10])) as (m1 & m2 & E1 & (b & Eb & Nb) & E2 & E3 & O & _); auto; [|unfold zlen in *; lia|unfold zlen in *; lia|].
  { pose proof (map_bytes m a (gline x)) as K. unfold gline in K at 2. exact K. }
  unfold getgrent. cbn [grs0 g_db g_m g_gr u_file u_p u_p2 u_size Z.eqb]. unfold userdb_open. cbn [u_file Z.eqb negb]. fold n. rewrite En. cbv zeta.
  unfold next_group. cbn [g_m g_db g_gr u_file u_p u_p2 u_size]. replace (a + n <=? a) with false by lia.
  rewrite E1, bind_Ok. unfold load. rewrite Eb, bind_Ok, Nb, E2, bind_Ok, E3, bind_Ok. unfold rd64. rewrite (rdn_fault 8 m2 (a + n) z); [reflexivity|lia|].
  rewrite <- N. apply O. lia.
Qed.
(* If the file ends less than 8 bytes in front of the end of a page, and the next page is
   not mapped, getgrent faults. *)
Theorem C79_page_refuted : exists a xs, Forall well_formed_group xs /\ xs <> [] /\ NoDup (map x_name xs) /\ NoDup (map gid_of xs) /\ 0 < a /\
  forall fuel, zlen (group_file xs) + 2 < Z.of_nat fuel -> getgrent fuel (Some (a, group_file xs)) (grs0 (fun _ => None)) = Fault.
Proof.
  set (x := mkgentry [97] (repeat 120 4086) [51] []). exists 4096, [x].
  assert (Wx : well_formed_group x).
  { unfold well_formed_group. cbn [x x_name x_passwd x_gid x_members]. split; [discriminate|]. split; [repeat (apply Forall_cons; [vm_compute; intuition (congruence || discriminate)|]); apply Forall_nil|]. split.
    - apply Forall_forall. intros c Hc. apply repeat_spec in Hc. subst c. split; [lia|]. cbn. lia.
    - split; [split; [repeat (apply Forall_cons; [vm_compute; intuition congruence|]); apply Forall_nil|vm_compute; congruence]|apply Forall_nil]. }
  assert (Wl : Forall well_formed_group [x]) by (constructor; [exact Wx|constructor]).
  split; [exact Wl|]. split; [discriminate|]. split; [repeat constructor; cbn; tauto|]. split; [repeat constructor; cbn; tauto|]. split; [lia|].
  intros fuel Hf. assert (L : zlen (group_file [x]) = 4092) by (vm_compute; reflexivity). rewrite L in Hf.
  assert (E : group_file [x] = gline x) by (cbn [group_file flat_map]; apply app_nil_r). rewrite E in *.
  apply page_fault; [exact Wx|lia|lia|unfold INT_MAX; lia|]. exists 8192. split; [lia|]. rewrite map_out; [reflexivity|]. rewrite L. unfold page_end. change ((4092 + 4095) / 4096 * 4096) with 4096. lia.
Qed.
Print Assumptions C79_page_refuted.
(* With two groups of the same gid, getgrgid does not return the first one (its name begins with 97) after getgrnam
   has returned the other (its name begins with 98). *)
Theorem C79_first_refuted : exists m a xs p, Forall well_formed_group xs /\ NoDup (map x_name xs) /\ 0 < a /\ gasks m a 4096 (GNam p) (QGName [98]) /\
  option_map x_name (find (fun x => gid_of x =? 3) xs) = Some [97] /\
  forall fuel, (39 < fuel)%nat ->
  match getgrnam fuel (Some (a, group_file xs)) (grs0 m) p with
  | Ok (s1, true) => match getgrgid fuel (Some (a, group_file xs)) s1 3 with Ok (s2, true) => g_m s2 (gr_name (g_gr s2)) = Some 98 | _ => False end
  | _ => False
  end.
Proof.
  exists (mem_of [(100, [98; 0])]), 5000, [mkgentry [97] [] [51] [[120]]; mkgentry [98] [] [51] [[120]]], 100.
  split; [wfg|]. split; [repeat constructor; cbn; intuition discriminate|]. split; [lia|]. split; [askn|]. split; [reflexivity|].
  intros fuel H. do 40 (destruct fuel as [|fuel]; [exfalso; lia|]). vm_compute. reflexivity.
Qed.
Print Assumptions C79_first_refuted.
(* A group with 64 members is not found, and neither are the groups behind it. *)
Theorem C79_many_refuted : exists m a xs, Forall well_formed_group xs /\ NoDup (map x_name xs) /\ NoDup (map gid_of xs) /\ 0 < a /\ In 3 (map gid_of xs) /\ In 7 (map gid_of xs) /\
  forall fuel, (199 < fuel)%nat ->
  match getgrgid fuel (Some (a, group_file xs)) (grs0 m) 3 with Ok (_, b) => b = false | _ => False end /\
  match getgrgid fuel (Some (a, group_file xs)) (grs0 m) 7 with Ok (_, b) => b = false | _ => False end.
Proof.
  exists (fun _ => None), 5000, [mkgentry [97] [] [51] (repeat [98] 64); mkgentry [99] [] [55] [[98]]].
  split; [|split; [repeat constructor; cbn; intuition discriminate|]; split; [repeat constructor; vm_compute; intuition discriminate|]; split; [lia|]; split; [left; reflexivity|]; split; [right; left; reflexivity|]].
  - cbn [repeat]. wfg.
  - intros fuel H. do 200 (destruct fuel as [|fuel]; [exfalso; clear -H; lia|]). clear H. split; vm_compute; reflexivity.
Qed.
Print Assumptions C79_many_refuted.

(* ---- C80: getusergroups ---- *)
(* Less than max groups have the member l: their gids are stored in the order of the file
   and their number is returned.  Otherwise the first max gids are stored and the result is
   -1 (even if there are exactly max).  Missing: as in C79. *)
Theorem C80_usergroups_partial : forall fuel m a xs p l max,
  let n := zlen (group_file xs) in let gs := groups_of xs l in
  Forall well_formed_group xs -> xs <> [] -> Forall (fun x => zlen (x_members x) < 64) xs ->
  n + 8 * zlen xs <= page_end n -> 0 < a -> a + n < 2 ^ 64 -> n <= INT_MAX -> n + 2 < Z.of_nat fuel ->
  NoDup (map x_name xs) -> NoDup (map gid_of xs) -> m 0 = None ->
  str_at m p l -> l <> [] -> zlen l <= INT_MAX -> apart p (zlen l + 1) a (page_end n) -> 0 <= max ->
  forall cs qs ans rs, Forall2 (gasks m a (page_end n)) cs qs -> (forall l, In (QGName l) qs -> (length l < fuel)%nat) ->
  ganswers xs (Some xs) qs = Some ans -> grrun fuel (Some (a, group_file xs)) (grs0 m) cs = Ok rs ->
  exists s', getusergroups fuel (Some (a, group_file xs)) (last (map fst rs) (grs0 m)) p max =
    Ok (s', firstn (Z.to_nat max) gs, if zlen gs <? max then zlen gs else -1).
Proof.
  intros fuel m a xs p l max n gs W Hne F Ht Ha H64 Hmax Hf Hn Hg M0 S Hl Hll Ap Hm cs qs ans rs A Hq E R.
  destruct (grun_ok m a xs fuel Ha Hne W F Hmax Hf Ht H64 Hn Hg qs cs (grs0 m) (Some xs) ans) as (rs' & E' & _ & G); auto.
  - left. auto.
  - assert (rs' = rs) by congruence. subst rs'. 
    apply (getusergroups_ok m a xs fuel) with (pos := None); auto.
Qed.
Print Assumptions C80_usergroups_partial.
Example C80_usergroups_ex : let m := mem_of [(100, [98; 0])] in
  str_at m 100 [98] /\ groups_of ex_xs [98] = [3; 70] /\
  match getusergroups 40 (Some (5000, group_file ex_xs)) (grs0 m) 100 3 with Ok (_, l, r) => l = [3; 70] /\ r = 2 | _ => False end /\
  match getusergroups 40 (Some (5000, group_file ex_xs)) (grs0 m) 100 1 with Ok (_, l, r) => l = [3] /\ r = -1 | _ => False end.
Proof. cbv zeta. split; [strn|]. split; [reflexivity|]. split; vm_compute; auto. Qed.
(* Exactly max groups fit, but the result is -1. *)
Theorem C80_exact_refuted : exists m a xs p l max, Forall well_formed_group xs /\ str_at m p l /\ 0 < a /\ apart p (zlen l + 1) a 4096 /\
  zlen (groups_of xs l) = max /\ forall fuel, (39 < fuel)%nat -> exists s, getusergroups fuel (Some (a, group_file xs)) (grs0 m) p max = Ok (s, groups_of xs l, -1).
Proof.
  exists (mem_of [(100, [98; 0])]), 5000, ex_xs, 100, [98], 2. split; [exact ex_gwf|]. split; [strn|]. split; [lia|]. split; [left; vm_compute; congruence|]. split; [reflexivity|].
  intros fuel H. do 40 (destruct fuel as [|fuel]; [exfalso; lia|]). eexists. reflexivity.
Qed.
Print Assumptions C80_exact_refuted.

(* ---- C81: getgrouplist ---- *)
(* With room for one more gid than needed the list has the user's groups and group itself,
   once.  Missing: as in C79, and smaller arrays. *)
Theorem C81_grouplist_partial : forall fuel m a xs p l group ngroups,
  let n := zlen (group_file xs) in let gs := groups_of xs l in
  Forall well_formed_group xs -> Forall (fun x => zlen (x_members x) < 64) xs ->
  n + 8 * zlen xs <= page_end n -> 0 < a -> a + n < 2 ^ 64 -> n <= INT_MAX -> n + 2 < Z.of_nat fuel ->
  m 0 = None ->
  str_at m p l -> l <> [] -> zlen l <= INT_MAX -> apart p (zlen l + 1) a (page_end n) ->
  zlen gs + 1 < ngroups ->
  exists s' r, getgrouplist fuel (Some (a, group_file xs)) (grs0 m) p group ngroups = Ok (s', r, zlen r) /\
    (In group gs -> r = gs) /\ (~ In group gs -> r = gs ++ [group]).
Proof.
  intros fuel m a xs p l group ngroups n gs W F Ht Ha H64 Hmax Hf M0 S Hl Hll Ap Hng. nneg gs.
  destruct (getusergroups_ok m a xs fuel Ha W F Hmax Hf Ht H64 M0 (grs0 m) None p l ngroups) as (s' & E); auto; [left; auto|lia|].
  fold gs in E. unfold getgrouplist. rewrite E, bind_Ok. replace (zlen gs <? ngroups) with true by lia. rewrite firstn_all2 by (unfold zlen in *; lia).
  replace (0 <=? zlen gs) with true by lia. cbn [andb]. destruct (existsb (Z.eqb group) gs) eqn:Ex.
  - exists s', gs. split; [reflexivity|]. split; [auto|]. intros K. exfalso. apply K. apply existsb_exists in Ex. destruct Ex as (y & Hy & Ey). replace group with y by lia. exact Hy.
  - replace (ngroups - 1 <=? zlen gs) with false by lia. replace (zlen gs <? 0) with false by lia. exists s', (gs ++ [group]). split; [now rewrite zlen_app|].
    split; [|auto]. intros K. assert (existsb (Z.eqb group) gs = true) by (apply existsb_exists; exists group; split; [exact K|lia]). congruence.
Qed.
Print Assumptions C81_grouplist_partial.
Example C81_grouplist_ex : let m := mem_of [(100, [98; 0])] in
  match getgrouplist 40 (Some (5000, group_file ex_xs)) (grs0 m) 100 7 4 with Ok (_, l, r) => l = [3; 70; 7] /\ r = 3 | _ => False end /\
  match getgrouplist 40 (Some (5000, group_file ex_xs)) (grs0 m) 100 70 4 with Ok (_, l, r) => l = [3; 70] /\ r = 2 | _ => False end.
Proof. cbv zeta. split; vm_compute; auto. Qed.
(* The array has exactly the room needed: -1; it is too small: group is written in front of it. *)
Theorem C81_small_refuted : exists m a xs p l group, Forall well_formed_group xs /\ str_at m p l /\ 0 < a /\ apart p (zlen l + 1) a 4096 /\ ~ In group (groups_of xs l) /\
  forall fuel, (39 < fuel)%nat ->
  (exists s, getgrouplist fuel (Some (a, group_file xs)) (grs0 m) p group (zlen (groups_of xs l) + 1) = Ok (s, groups_of xs l, -1)) /\
  getgrouplist fuel (Some (a, group_file xs)) (grs0 m) p group (zlen (groups_of xs l)) = Fault.
Proof.
  exists (mem_of [(100, [98; 0])]), 5000, ex_xs, 100, [98], 7. split; [exact ex_gwf|]. split; [strn|]. split; [lia|]. split; [left; vm_compute; congruence|]. split; [cbn; intuition discriminate|].
  intros fuel H. do 40 (destruct fuel as [|fuel]; [exfalso; lia|]). split; [eexists|]; reflexivity.
Qed.
Print Assumptions C81_small_refuted.
