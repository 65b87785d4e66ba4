(* Properties C20-C23 and C67: malloc, free, realloc. *)
From Verif Require Import Base BaseLemmas AllocModel AllocSpec AllocProofs AllocProofs2 AllocProofs3.

Lemma rounded_bsize n : rounded n = 4 * bsize n.
Proof. unfold rounded, bsize. lia. Qed.

(* ---- C20: live blocks are disjoint, inside the buffer, and keep their contents ---- *)
Theorem C20_heap_safe : forall N w ops,
  N mod 4 = 0 -> 4 <= N < 1073741824 -> good_ops ops ->
  exists s L, arun false N (init_alloc N w) ops = Ok (s, L) /\ view_ok N (words s) L.
Proof.
  intros N w ops H1 H2 Hg. destruct (run_ok N H1 H2 false w ops Hg) as (s & bs & L & E & HV); [discriminate|].
  exists s, L. split; auto. eapply vinv_view; eauto.
Qed.
Print Assumptions C20_heap_safe.
(* every block handed out by malloc enters the program's view with the size asked for *)
Theorem C20_malloc_size : forall N s L n s' L',
  astep false N (Ok (s, L)) (OMalloc n) = Ok (s', L') -> 0 <= n ->
  L' = L \/ exists p l, L' = (p, l) :: L /\ zlen l = n /\ malloc N s n = Ok (s', p).
Proof.
  intros N s L n s' L' H Hn. unfold astep in H. rewrite bind_Ok in H.
  destruct (malloc N s n) as [[s1 p]| |] eqn:E; cbn [bind] in H; try discriminate.
  destruct (p =? 0); inversion H; auto. right. subst. eexists p, _. split; [reflexivity|]. split; auto.
  rewrite zlen_map. unfold zlen. rewrite seq_length. lia.
Qed.
Print Assumptions C20_malloc_size.

Definition zeros : Z -> Z := fun _ => 0.
(* three blocks, a write, the middle one freed, and one more block *)
Definition ops1 : list aop :=
  [OMalloc 5; OMalloc 12; OMalloc 1; OWrite 2036 4 77; OFree 2020; OMalloc 9; OWrite 1996 8 3].
Example C20_case : good_ops ops1 /\
  match arun false 2048 (init_alloc 2048 zeros) ops1 with
  | Ok (_, L) => map (fun e => (fst e, zlen (snd e))) L = [(1996, 9); (2012, 1); (2036, 5)]
  | _ => False
  end.
Proof.
  split; [|vm_compute; reflexivity].
  intros n H. unfold ops1 in H. cbn [In] in H. unfold INT_MAX.
  repeat (destruct H as [H|H]; [try discriminate H; inversion H; lia|]). destruct H.
Qed.

(* ---- C21: freeing everything gives the whole buffer back ---- *)
Theorem C21_all_freed : forall N w ops s,
  N mod 4 = 0 -> 4 <= N < 1073741824 -> good_ops ops ->
  arun false N (init_alloc N w) ops = Ok (s, []) -> msz s = msz (init_alloc N w).
Proof.
  intros N w ops s H1 H2 Hg E. destruct (run_vinv N H1 H2 w ops s [] Hg E) as (bs & HV).
  eapply vinv_empty; eauto.
Qed.
Print Assumptions C21_all_freed.
(* so that malloc answers as it did at the start *)
Theorem C21_same_answers : forall N w ops s n,
  N mod 4 = 0 -> 4 <= N < 1073741824 -> good_ops ops -> 1 <= n <= INT_MAX - 8 ->
  arun false N (init_alloc N w) ops = Ok (s, []) ->
  exists s1 s2 p, malloc N s n = Ok (s1, p) /\ malloc N (init_alloc N w) n = Ok (s2, p) /\ msz s1 = msz s2.
Proof.
  intros N w ops s n H1 H2 Hg Hn E. pose proof (C21_all_freed N w ops s H1 H2 Hg E) as Em.
  destruct (run_vinv N H1 H2 w ops s [] Hg E) as (bs & HV).
  destruct (vinv_malloc N H1 H2 s bs [] n HV Hn) as [(A & B)|(A & w' & B & _)];
  destruct (vinv_malloc N H1 H2 _ _ _ n (vinv_init N H1 H2 w) Hn) as [(C & D)|(C & w'' & D & _)];
    rewrite B, D; rewrite Em in *; try lia; eexists _, _, _; repeat split.
  exact Em.
Qed.
Print Assumptions C21_same_answers.
(* four blocks freed in the order 2, 3, 1, 4 *)
Definition ops2 : list aop :=
  [OMalloc 5; OMalloc 12; OMalloc 1; OMalloc 100; OFree 2020; OFree 2012; OFree 2036; OFree 1908].
Example C21_case :
  match arun false 2048 (init_alloc 2048 zeros) ops2 with
  | Ok (s, L) => msz s = 2044 /\ L = []
  | _ => False
  end.
Proof. vm_compute. auto. Qed.

(* ---- C22: malloc fails exactly when the space is short, and then changes nothing ---- *)
Theorem C22_malloc_fails : forall N w ops s L n,
  N mod 4 = 0 -> 4 <= N < 1073741824 -> good_ops ops ->
  arun false N (init_alloc N w) ops = Ok (s, L) -> 1 <= n <= INT_MAX - 8 ->
  exists s' p, malloc N s n = Ok (s', p) /\
    (p = 0 <-> msz s - rounded n < 64) /\
    (p = 0 -> s' = s) /\
    (p <> 0 -> msz s' = msz s - rounded n /\ p = msz s' + 4).
Proof.
  intros N w ops s L n H1 H2 Hg E Hn. destruct (run_vinv N H1 H2 w ops s L Hg E) as (bs & HV).
  rewrite rounded_bsize. destruct (vinv_malloc N H1 H2 s bs L n HV Hn) as [(A & B)|(A & w' & B & _)];
    rewrite B; eexists _, _; (split; [reflexivity|]); cbn [msz]; repeat split; intros; auto; lia.
Qed.
Print Assumptions C22_malloc_fails.
(* both outcomes occur: 128 byte buffer *)
Example C22_case :
  match malloc 128 (init_alloc 128 zeros) 57 with Ok (_, p) => p = 0 | _ => False end /\
  match malloc 128 (init_alloc 128 zeros) 56 with Ok (_, p) => p = 68 | _ => False end.
Proof. vm_compute. auto. Qed.

(* ---- C23: realloc ---- *)
(* Partial: holds when the block grows, shrinks to no less than half or to no more than a
   quarter, with room for another block; all is kept when it stays in place (at most a
   quarter), otherwise the first 8 bytes and half of the old block are. *)
Theorem C23_realloc_partial : forall N w ops s L p l n,
  N mod 4 = 0 -> 4 <= N < 1073741824 -> good_ops ops ->
  arun false N (init_alloc N w) ops = Ok (s, L) -> In (p, l) L -> 1 <= n <= INT_MAX - 16 ->
  (4 * rounded n <= rounded (zlen l) \/ rounded (zlen l) <= 2 * rounded n) ->
  64 <= msz s - (rounded n + 4) ->
  exists s' q l', realloc false N s p n = Ok (s', q) /\ zlen l' = n /\
    (forall k, (k < length l)%nat -> Z.of_nat k < n ->
       4 * rounded n <= rounded (zlen l) \/ Z.of_nat k < 8 \/ 2 * Z.of_nat k < rounded (zlen l) -> nth k l' 0 = nth k l 0) /\
    view_ok N (words s') ((q, l') :: remove p L).
Proof.
  intros N w ops s L p l n H1 H2 Hg E Hin Hn Hk Hm. destruct (run_vinv N H1 H2 w ops s L Hg E) as (bs & HV).
  rewrite !rounded_bsize in *.
  destruct (realloc_ok N H1 H2 s bs L p l n HV Hin Hn) as (s' & q & l' & A & B & C & D); [lia|lia|].
  exists s', q, l'. split; auto. split; auto. split; auto. intros k K1 K2 K3. apply C; auto.
  unfold copied_part. assert (Z.of_nat k < zlen l) by (unfold zlen; lia). unfold bsize in *. lia.
Qed.
Print Assumptions C23_realloc_partial.
Example C23_case :
  match arun false 2048 (init_alloc 2048 zeros) [OMalloc 40; OMalloc 8; OWrite 1992 7 5] with
  | Ok (s, L) => map fst L = [1992; 2004] /\ 64 <= msz s - (rounded 200 + 4)
  | _ => False
  end.
Proof. vm_compute. split; [reflexivity|discriminate]. Qed.

(* growing a 12 byte block to 16 loses its ninth byte *)
Theorem C23_prefix_refuted : exists N w ops s L p l n s' q k,
  good_ops ops /\ arun false N (init_alloc N w) ops = Ok (s, L) /\ In (p, l) L /\ zlen l <= n /\
  realloc false N s p n = Ok (s', q) /\ q <> 0 /\
  (k < length l)%nat /\ getb (words s') (q + Z.of_nat k) <> nth k l 0.
Proof.
  exists 2048, zeros, [OMalloc 12; OWrite 2032 8 65]. eexists _, _, 2032, _, 16, _, _, 8%nat.
  split; [|split; [vm_compute; reflexivity|split; [left; reflexivity|split; [vm_compute; discriminate|
    split; [vm_compute; reflexivity|split; [discriminate|split; [vm_compute; lia|vm_compute; discriminate]]]]]]].
  intros n [H|[H|[]]]; inversion H. unfold INT_MAX. lia.
Qed.
Print Assumptions C23_prefix_refuted.
(* shrinking a block of 396 bytes to 104 overwrites a neighbouring live block *)
Theorem C23_others_refuted : exists N w ops s L p l n s' q p2 l2 k,
  good_ops ops /\ arun false N (init_alloc N w) ops = Ok (s, L) /\ In (p, l) L /\ 1 <= n < zlen l /\
  realloc false N s p n = Ok (s', q) /\ In (p2, l2) L /\ p2 <> p /\
  (k < length l2)%nat /\ getb (words s') (p2 + Z.of_nat k) <> nth k l2 0.
Proof.
  exists 2048, zeros, [OMalloc 396; OMalloc 40; OWrite 1604 0 66]. eexists _, _, 1648, _, 104, _, _, 1604, _, 0%nat.
  split; [|split; [vm_compute; reflexivity|split; [right; left; reflexivity|split; [vm_compute; auto with zarith|
    split; [vm_compute; reflexivity|split; [left; reflexivity|split; [discriminate|split; [vm_compute; lia|vm_compute; discriminate]]]]]]]].
  - intros n [H|[H|[H|[]]]]; inversion H; unfold INT_MAX; lia.
  - split; [discriminate|reflexivity].
Qed.
Print Assumptions C23_others_refuted.
(* on failure p is not valid any more: the next malloc hands the same bytes out again *)
Theorem C23_failure_refuted : exists N w ops s L p l n s' s'' ,
  good_ops ops /\ arun false N (init_alloc N w) ops = Ok (s, L) /\ In (p, l) L /\
  realloc false N s p n = Ok (s', 0) /\ malloc N s' (zlen l) = Ok (s'', p).
Proof.
  exists 128, zeros, [OMalloc 40]. eexists _, _, 84, _, 1000, _, _.
  split; [|split; [vm_compute; reflexivity|split; [left; reflexivity|split; [vm_compute; reflexivity|vm_compute; reflexivity]]]].
  intros n [H|[]]; inversion H; unfold INT_MAX; lia.
Qed.
Print Assumptions C23_failure_refuted.
(* or realloc writes through the null pointer that malloc returned *)
Theorem C23_null_refuted : exists N w ops s L p l n,
  good_ops ops /\ arun false N (init_alloc N w) ops = Ok (s, L) /\ In (p, l) L /\ 1 <= n <= INT_MAX - 16 /\
  realloc false N s p n = Fault.
Proof.
  exists 256, zeros, [OMalloc 100]. eexists _, _, 152, _, 120.
  split; [|split; [vm_compute; reflexivity|split; [left; reflexivity|split; [|vm_compute; reflexivity]]]].
  - intros n [H|[]]; inversion H; unfold INT_MAX; lia.
  - unfold INT_MAX; lia.
Qed.
Print Assumptions C23_null_refuted.

(* ---- C67: no signed overflow in free ---- *)
(* Partial: when blocks are freed in reverse order of allocation *)
Theorem C67_no_overflow_partial : forall N w ops,
  N mod 4 = 0 -> 4 <= N < 1073741824 -> good_ops ops ->
  lifo true N (Ok (init_alloc N w, [])) ops ->
  exists s L, arun true N (init_alloc N w) ops = Ok (s, L) /\ view_ok N (words s) L.
Proof.
  intros N w ops H1 H2 Hg Hl. destruct (run_ok N H1 H2 true w ops Hg) as (s & bs & L & E & HV); [auto|].
  exists s, L. split; auto. eapply vinv_view; eauto.
Qed.
Print Assumptions C67_no_overflow_partial.
Example C67_case : lifo true 2048 (Ok (init_alloc 2048 zeros, []))
  [OMalloc 5; OMalloc 12; OFree 2020; OMalloc 40; OFree 1992; OFree 2036].
Proof.
  repeat (split; [intros p s L H; try discriminate H; inversion H; subst; vm_compute; intro E; inversion E; eexists _, _; reflexivity|]).
  exact I.
Qed.
(* Exactly: the additions overflow iff some free is for a live block p such that the
   memory just before it and the memory just behind it are both freed already (gap_before,
   gap_behind speak of the addresses and lengths of the live blocks only); otherwise
   the strict run gives what the wrapping one gives, and the heap is right. *)
Theorem C67_exact_partial : forall N w ops,
  N mod 4 = 0 -> 4 <= N < 1073741824 -> good_ops ops ->
  (arun true N (init_alloc N w) ops = Fault <->
   exists pre p post s L l, ops = pre ++ OFree p :: post /\
     arun false N (init_alloc N w) pre = Ok (s, L) /\ In (p, l) L /\ gap_before L p /\ gap_behind N L p l) /\
  (arun true N (init_alloc N w) ops <> Fault ->
   exists s L, arun true N (init_alloc N w) ops = Ok (s, L) /\ arun false N (init_alloc N w) ops = Ok (s, L) /\
     view_ok N (words s) L).
Proof.
  intros N w ops H1 H2 Hg.
  destruct (run_exact N H1 H2 ops _ _ _ (vinv_init N H1 H2 w) Hg) as [(A & B)|(A & s & bs & L & B & C & D)].
  - split; [split; [intros _; exact A|intros _; exact B]|]. intro H. exfalso. apply H. exact B.
  - split; [split|].
    + intro H. enough (@Ok (ast * view) (s, L) = Fault) by discriminate. rewrite <- B. exact H.
    + intro H. exfalso. exact (A H).
    + intros _. exists s, L. split; [exact B|]. split; [exact C|]. eapply vinv_view; eauto.
Qed.
Print Assumptions C67_exact_partial.
(* freed in the order of allocation, and in a mixed order: no overflow; the middle one last: overflow *)
Example C67_exact_case :
  let run l := match arun true 2048 (init_alloc 2048 zeros) ([OMalloc 8; OMalloc 8; OMalloc 8; OMalloc 8] ++ map OFree l) with
               | Ok (_, L) => Some (length L) | _ => None end in
  run [2036; 2024; 2012; 2000] = Some 0%nat /\ run [2024; 2036; 2000; 2012] = Some 0%nat /\
  run [2036; 2012; 2024] = None.
Proof. vm_compute. auto. Qed.
(* freeing a block between two free ones adds two negative ints *)
Theorem C67_refuted : exists N w ops,
  good_ops ops /\ arun true N (init_alloc N w) ops = Fault /\
  exists s L, arun false N (init_alloc N w) ops = Ok (s, L) /\ view_ok N (words s) L.
Proof.
  pose (ops := [OMalloc 8; OMalloc 8; OMalloc 8; OMalloc 8; OFree 2036; OFree 2012; OFree 2024]).
  assert (Hg : good_ops ops).
  { intros n H. cbn [ops In] in H. unfold INT_MAX.
    repeat (destruct H as [H|H]; [try discriminate H; inversion H; lia|]). destruct H. }
  exists 2048, zeros, ops. split; [exact Hg|]. split; [vm_compute; reflexivity|].
  apply C20_heap_safe; auto; lia.
Qed.
Print Assumptions C67_refuted.
