(* C41, C42: qsort and bsearch. *)
From Verif Require Import Base BaseLemmas SortModel SortSpec SortProofs.

(* ---- C41 ---- *)
(* any comparison at all: terminates, touches only the array, permutes it *)
Theorem C41_permutes : forall comp m base w arr fuel, 0 < w <= INT_MAX -> array_at m base w arr ->
  2 * (w * zlen arr) + w <= LONG_MAX -> 3 * zlen arr + 1 <= LONG_MAX -> (length arr + 1 < fuel)%nat ->
  exists m' arr', qsort comp fuel m base (zlen arr) w = Ok m' /\ array_at m' base w arr'
    /\ Permutation arr arr' /\ same_outside m m' base (w * zlen arr).
Proof.
  intros comp m base w arr fuel Hw A HL HL3 Hf.
  destruct (qsort_ok comp base w Hw fuel m arr A HL HL3 Hf) as (m' & arr' & E & A' & P & S & _). eauto 7.
Qed.
Print Assumptions C41_permutes.
(* a comparison that is a total preorder on the elements: sorted *)
Theorem C41_sorts : forall comp m base w arr fuel, 0 < w <= INT_MAX -> array_at m base w arr ->
  2 * (w * zlen arr) + w <= LONG_MAX -> 3 * zlen arr + 1 <= LONG_MAX -> (length arr + 1 < fuel)%nat ->
  total_preorder comp arr ->
  exists m' arr', qsort comp fuel m base (zlen arr) w = Ok m' /\ array_at m' base w arr'
    /\ Permutation arr arr' /\ sorted comp arr' /\ same_outside m m' base (w * zlen arr).
Proof.
  intros comp m base w arr fuel Hw A HL HL3 Hf T.
  destruct (qsort_ok comp base w Hw fuel m arr A HL HL3 Hf) as (m' & arr' & E & A' & P & S & D). exists m', arr'. auto 7.
Qed.
Print Assumptions C41_sorts.
(* the limit on the width is needed: swap takes the width as an int, so two elements
   of 2^32 bytes are never exchanged *)
Lemma bytes_repeat m b n : forall a, (forall x, a <= x < a + Z.of_nat n -> m x = Some b) -> bytes_at m a (repeat b n).
Proof.
  induction n as [|n IH]; intros a H; cbn [repeat bytes_at]; auto. split; [apply H; lia|]. apply IH. intros. apply H. lia.
Qed.
Theorem C41_wide_refuted : exists comp m base w arr, 0 < w /\ array_at m base w arr /\
  2 * (w * zlen arr) + w <= LONG_MAX /\ 3 * zlen arr + 1 <= LONG_MAX /\ total_preorder comp arr /\
  ~ sorted comp arr /\ forall fuel, (2 < fuel)%nat -> qsort comp fuel m base (zlen arr) w = Ok m.
Proof.
  set (w := 4294967296).
  assert (exists n, Z.of_nat n = w) as (n & Hn) by (exists (Z.to_nat w); apply Z2Nat.id; unfold w; lia).
  set (m := (fun x => if x <? 1000 + w then Some 1 else Some 0) : mem).
  set (comp := fun x y : list Z => hd 0 x - hd 0 y).
  assert (N0 : exists k, n = S k) by (exists (Nat.pred n); unfold w in Hn; destruct n; [discriminate|reflexivity]).
  assert (B1 : bytes_at m 1000 (repeat 1 n)).
  { apply bytes_repeat. intros x Hx. unfold m. destruct (Z.ltb_spec x (1000 + w)); auto; lia. }
  assert (B2 : bytes_at m (1000 + w) (repeat 0 n)).
  { apply bytes_repeat. intros x Hx. unfold m. destruct (Z.ltb_spec x (1000 + w)); auto; lia. }
  assert (L1 : zlen (repeat 1 n) = w) by (rewrite zlen_repeat; lia).
  assert (L2 : zlen (repeat 0 n) = w) by (rewrite zlen_repeat; lia).
  assert (A : array_at m 1000 w ([] ++ repeat 1 n :: [] ++ repeat 0 n :: [])).
  { split; [|repeat constructor; auto]. cbn [app concat]. rewrite app_nil_r. apply bytes_at_app. rewrite L1. auto. }
  assert (C : comp (repeat 1 n) (repeat 0 n) = 1).
  { destruct N0 as [k ->]. reflexivity. }
  assert (Sw : forall a b, swap m a b w = Ok m).
  { intros. unfold swap. replace (s32 w) with 0 by reflexivity. reflexivity. }
  assert (G : forall fuel, (2 < fuel)%nat -> qsort comp fuel m 1000 2 w = Ok m).
  { intros [|[|[|f]]] Hf; try lia. unfold qsort. clear Hf.
    replace (lop (w * 2)) with (Ok (w * 2)) by reflexivity. rewrite bind_Ok.
    replace (gap_up (S (S (S f))) 2 0) with (Ok 4) by reflexivity. rewrite bind_Ok.
    pose proof (call_comp_ok comp 1000 w m [] _ [] _ [] A) as CC. rewrite C in CC.
    change (zlen (@nil (list Z))) with 0 in CC. replace (w * (0 + 1 + 0)) with w in CC by lia. rewrite Z.mul_0_r, Z.add_0_r in CC.
    assert (SI : forall g, sift comp (S g) m 1000 w w 0 = Ok m).
    { intro g. cbn [sift]. rewrite Z.add_0_l, CC, bind_Ok. change (1 <=? 0) with false. cbv iota.
      rewrite Sw, bind_Ok. reflexivity. }
    assert (PS : forall g h, pass comp (S (S g)) (S h) m 1000 w w (w * 2) w = Ok m).
    { intros g h. cbn [pass]. replace (w <? w * 2) with true by reflexivity. rewrite Z.sub_diag.
      replace (lop 0) with (Ok 0) by reflexivity. rewrite bind_Ok, SI, bind_Ok.
      replace (lop (w + w)) with (Ok (w + w)) by reflexivity. rewrite bind_Ok.
      replace (w + w <? w * 2) with false by reflexivity. reflexivity. }
    cbn [passes]. change (4 ÷ 3) with 1. change (1 =? 0) with false. cbv iota.
    replace (lop (w * 1)) with (Ok w) by reflexivity. rewrite bind_Ok, PS, bind_Ok. reflexivity. }
  exists comp, m, 1000, w, [repeat 1 n; repeat 0 n]. split; [reflexivity|]. split; [exact A|].
  change (zlen [repeat 1 n; repeat 0 n]) with 2. split; [unfold w, LONG_MAX; lia|]. split; [unfold LONG_MAX; lia|].
  split; [unfold comp; split; intros; lia|]. split; [|exact G].
  intro S. specialize (S 0%nat 1%nat _ _ ltac:(lia) eq_refl eq_refl). rewrite C in S. lia.
Qed.
Print Assumptions C41_wide_refuted.
(* little endian numbers of 3 bytes *)
Definition cmp3 (x y : list Z) : Z :=
  let v l := match l with [a; b; c] => a + 256 * b + 65536 * c | _ => 0 end in v x - v y.
Example C41_case : let arr := [[9; 0; 0]; [1; 1; 0]; [0; 0; 0]; [255; 0; 0]; [9; 0; 0]; [3; 2; 1]; [1; 0; 0]] in
  let m := mem_of [(1000, concat arr)] in
  array_at m 1000 3 arr /\ total_preorder cmp3 arr /\
  match qsort cmp3 10 m 1000 7 3 with
  | Ok m' => map (fun i => m' (1000 + 3 * i)) [0; 1; 2; 3; 4; 5; 6] = map Some [0; 1; 9; 9; 255; 1; 3]
  | _ => False
  end.
Proof.
  cbn zeta. split; [split; [cbn; repeat split|repeat constructor]|]. split; [|vm_compute; reflexivity].
  split; intros; unfold cmp3 in *; lia.
Qed.

(* ---- C42 ---- *)
(* cmpk e is what the comparison of the key with the element e returns *)
Theorem C42_bsearch : forall cmpk m base w arr fuel, 0 < w -> 0 < base -> array_at m base w arr ->
  w * zlen arr <= LONG_MAX -> zlen arr <= LONG_MAX -> partitioned cmpk arr -> (length arr < fuel)%nat ->
  exists r, bsearch cmpk fuel m base (zlen arr) w = Ok r /\
    ((exists i e, nth_error arr i = Some e /\ cmpk e = 0 /\ r = base + w * Z.of_nat i)
     \/ (r = 0 /\ Forall (fun e => cmpk e <> 0) arr)).
Proof.
  intros cmpk m base w arr fuel Hw Hb A HL HL2 P Hf.
  destruct (bsearch_ok cmpk base w Hw m fuel [] arr []) as (r & E & R); cbn [app]; rewrite ?app_nil_r in *; auto.
  change (zlen []) with 0 in E. rewrite Z.mul_0_r, Z.add_0_r in E. exists r. split; auto.
Qed.
Print Assumptions C42_bsearch.
(* so it finds one iff there is one *)
Theorem C42_iff : forall cmpk m base w arr fuel, 0 < w -> 0 < base -> array_at m base w arr ->
  w * zlen arr <= LONG_MAX -> zlen arr <= LONG_MAX -> partitioned cmpk arr -> (length arr < fuel)%nat ->
  exists r, bsearch cmpk fuel m base (zlen arr) w = Ok r /\ (r <> 0 <-> exists e, In e arr /\ cmpk e = 0).
Proof.
  intros cmpk m base w arr fuel Hw Hb A HL HL2 P Hf.
  destruct (C42_bsearch cmpk m base w arr fuel Hw Hb A HL HL2 P Hf) as (r & E & R). exists r. split; auto.
  destruct R as [(i & e & Hn & He & ->)|[-> Hall]]; split; intro H.
  - exists e. split; auto. eapply nth_error_In; eauto.
  - nia.
  - congruence.
  - destruct H as (e & Hi & He). rewrite Forall_forall in Hall. exfalso. eapply Hall; eauto.
Qed.
Print Assumptions C42_iff.
(* an array sorted by the same comparison, which is a preorder and antisymmetric in sign *)
Theorem C42_sorted : forall cmp key m base w arr fuel, 0 < w -> 0 < base -> array_at m base w arr ->
  w * zlen arr <= LONG_MAX -> zlen arr <= LONG_MAX -> (length arr < fuel)%nat ->
  total_preorder cmp (key :: arr) -> (forall e, In e arr -> Z.sgn (cmp e key) = - Z.sgn (cmp key e)) ->
  sorted cmp arr ->
  exists r, bsearch (cmp key) fuel m base (zlen arr) w = Ok r /\ (r <> 0 <-> exists e, In e arr /\ cmp key e = 0).
Proof.
  intros cmp key m base w arr fuel Hw Hb A HL HL2 Hf [T1 T2] AS S. apply C42_iff; auto.
  intros i j x y Hij Hx Hy. pose proof (S i j x y Hij Hx Hy) as L.
  apply nth_error_In in Hx. apply nth_error_In in Hy.
  pose proof (T2 key x y) as K1. pose proof (T2 x y key) as K2.
  pose proof (AS x Hx) as A1. pose proof (AS y Hy) as A2. cbn [In] in *.
  specialize (K1 ltac:(auto) ltac:(auto) ltac:(auto)). specialize (K2 ltac:(auto) ltac:(auto) ltac:(auto) L).
  destruct (Z.sgn_spec (cmp key x)) as [?|[?|?]], (Z.sgn_spec (cmp key y)) as [?|[?|?]],
    (Z.sgn_spec (cmp x key)) as [?|[?|?]], (Z.sgn_spec (cmp y key)) as [?|[?|?]]; lia.
Qed.
Print Assumptions C42_sorted.
Example C42_case : let arr := [[1; 0; 0]; [9; 0; 0]; [9; 0; 0]; [255; 0; 0]; [1; 1; 0]] in
  let m := mem_of [(1000, concat arr)] in
  array_at m 1000 3 arr /\ sorted cmp3 arr /\ total_preorder cmp3 ([255; 0; 0] :: arr) /\
  bsearch (cmp3 [255; 0; 0]) 10 m 1000 5 3 = Ok 1009 /\ bsearch (cmp3 [8; 0; 0]) 10 m 1000 5 3 = Ok 0.
Proof.
  cbn zeta. split; [split; [cbn; repeat split|repeat constructor]|]. split; [|split; [split; intros; unfold cmp3 in *; lia|split; reflexivity]].
  intros i j x y Hij Hx Hy.
  do 5 (destruct i as [|i]; [do 5 (destruct j as [|j]; [try lia; cbn in *; inversion Hx; inversion Hy; subst; vm_compute; discriminate|]); destruct j; discriminate|]).
  destruct i; discriminate.
Qed.
