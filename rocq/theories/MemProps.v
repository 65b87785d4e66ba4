(* Properties C14-C18 and C24: block operations. *)
From Verif Require Import Base BaseLemmas StrSpec MemModel MemSpec MemProofs StrProps.

(* ---- C14 memcpy, memset ---- *)
Theorem C14_memcpy : forall fuel m d s n,
  room m s n -> room m d n -> apart d n s n -> 0 <= n <= INT_MAX -> (Z.to_nat n < fuel)%nat ->
  exists m', memcpy fuel m d s n = Ok (m', d) /\ copied m m' d s n.
Proof. exact memcpy_ok. Qed.
Print Assumptions C14_memcpy.
Theorem C14_memcpy_optimized : forall fuel m d s n,
  room m s n -> room m d n -> apart d n s n -> 0 <= n <= INT_MAX -> (Z.to_nat n < fuel)%nat ->
  exists m', memcpy_opt fuel m d s n = Ok (m', d) /\ copied m m' d s n.
Proof. exact memcpy_opt_ok. Qed.
Print Assumptions C14_memcpy_optimized.
Theorem C14_memset : forall fuel m s c n,
  room m s n -> 0 <= n <= INT_MAX -> (Z.to_nat n < fuel)%nat ->
  exists m', memset fuel m s c n = Ok (m', s) /\
    (forall i, 0 <= i < n -> m' (s + i) = Some (c mod 256)) /\ same_outside m m' s n.
Proof. exact memset_ok. Qed.
Print Assumptions C14_memset.
Example C14_case :
  let m := mem_of [(100, [1; 2; 3; 4; 5; 6; 7; 8; 0; 10; 11]); (111, repeat 0 11)] in
  room m 100 11 /\ room m 111 11 /\ apart 111 11 100 11 /\
  (let* (m', _) := memcpy_opt 20 m 111 100 11 in load m' 121) = Ok 11.
Proof. conc. Qed.

(* ---- C15 memmove ---- *)
(* Partial: dest does not start inside src. *)
Theorem C15_memmove_partial : forall fuel m d s n,
  room m s n -> room m d n -> 0 <= n <= INT_MAX -> (d <= s \/ s + n <= d) ->
  (Z.to_nat n < fuel)%nat ->
  exists m', memmove fuel m d s n = Ok (m', d) /\ copied m m' d s n.
Proof. exact memmove_ok. Qed.
Print Assumptions C15_memmove_partial.
(* moving up by one inside a region replicates the first byte *)
Theorem C15_refuted : exists m d s n m',
  room m s n /\ room m d n /\ memmove 9 m d s n = Ok (m', d) /\ ~ copied m m' d s n.
Proof.
  pose (m := mem_of [(100, [1; 2; 3; 4])]).
  destruct (memmove 9 m 101 100 3) as [[m' r]| |] eqn:E; [|vm_compute in E; discriminate..].
  exists m, 101, 100, 3, m'. split; [apply room_check; reflexivity|].
  split; [apply room_check; reflexivity|]. split.
  - rewrite E. repeat f_equal. vm_compute in E. congruence.
  - intros [H _]. specialize (H 1 ltac:(lia)). vm_compute in E. inversion E. subst m'.
    vm_compute in H. discriminate.
Qed.
Print Assumptions C15_refuted.
Example C15_case :
  let m := mem_of [(100, [1; 2; 3; 4])] in
  room m 101 3 /\ room m 100 3 /\ (100 <= 101 \/ 101 + 3 <= 100) /\
  (let* (m', _) := memmove 9 m 100 101 3 in load m' 102) = Ok 4.
Proof. repeat split; try (apply room_check; reflexivity); try reflexivity. lia. Qed.

(* ---- C16 memcmp: equality ---- *)
Theorem C16_memcmp : forall a b fuel m p q,
  bytes_at m p a -> bytes_at m q b -> length a = length b ->
  Forall (fun x => 0 <= x <= 255) a -> Forall (fun x => 0 <= x <= 255) b ->
  a <> [] -> (length a <= fuel)%nat ->
  exists r, memcmp fuel m p q (zlen a) = Ok r /\ (r = 0 <-> a = b) /\
            memcmp fuel m q p (zlen a) = Ok (- r).
Proof. exact memcmp_eq. Qed.
Print Assumptions C16_memcmp.
Example C16_case :
  let m := mem_of [(100, [1; 200; 3]); (103, [1; 200; 4])] in
  bytes_at m 100 [1; 200; 3] /\ bytes_at m 103 [1; 200; 4] /\ memcmp 9 m 100 103 3 = Ok (-1).
Proof. conc. Qed.

(* ---- C17 memcmp: order ---- *)
(* Partial: bytes below 128 and n >= 1. *)
Theorem C17_memcmp_order_partial : forall a b fuel m p q,
  bytes_at m p a -> bytes_at m q b -> length a = length b ->
  Forall (fun x => 0 <= x < 128) a -> Forall (fun x => 0 <= x < 128) b ->
  a <> [] -> (length a <= fuel)%nat ->
  memcmp fuel m p q (zlen a) = Ok (lexcmp a b).
Proof. exact memcmp_ascii. Qed.
Print Assumptions C17_memcmp_order_partial.
(* 0xC8 sorts before 'a', and n = 0 gives -1 *)
Theorem C17_refuted : exists m p q x y,
  bytes_at m p [x] /\ bytes_at m q [y] /\ y < x <= 255 /\ memcmp 9 m p q 1 = Ok (-1) /\
  memcmp 9 m p p 0 = Ok (-1).
Proof. exists (mem_of [(100, [200]); (101, [97])]), 100, 101, 200, 97. conc. Qed.
Print Assumptions C17_refuted.
Example C17_case :
  let m := mem_of [(100, [1; 20; 3]); (103, [1; 2; 4])] in
  bytes_at m 100 [1; 20; 3] /\ bytes_at m 103 [1; 2; 4] /\ lexcmp [1; 20; 3] [1; 2; 4] = 1 /\
  memcmp 9 m 100 103 3 = Ok 1.
Proof. conc. Qed.

(* ---- C18 memchr ---- *)
Theorem C18_memchr : forall l fuel m p c,
  bytes_at m p l -> (length l < fuel)%nat ->
  (forall i, first_index (eq c) l i -> memchr fuel m p c (zlen l) = Ok (p + Z.of_nat i)) /\
  (~ In c l -> memchr fuel m p c (zlen l) = Ok 0).
Proof. exact memchr_ok. Qed.
Print Assumptions C18_memchr.
Example C18_case :
  let m := mem_of [(100, [1; 0; 200])] in
  bytes_at m 100 [1; 0; 200] /\ memchr 9 m 100 200 3 = Ok 102 /\ memchr 9 m 100 7 3 = Ok 0.
Proof. conc. Qed.

(* ---- C24 calloc ---- *)
(* Partial: only the first size bytes are zeroed, which is all for nmemb <= 1;
   in the plain (opt = false) and the mini_OPTIMIZATIONS build. *)
Theorem C24_calloc_partial : forall opt fuel (malloc : mem -> Z -> mem * Z) m nmemb size m1 p,
  int_ok (size * nmemb) = true -> malloc m (size * nmemb) = (m1, p) ->
  (p <> 0 -> room m1 p size) -> 0 <= size -> (Z.to_nat size < fuel)%nat ->
  exists m', calloc opt fuel malloc m nmemb size = Ok (m', p) /\
    (p <> 0 -> (forall i, 0 <= i < size -> m' (p + i) = Some 0) /\ same_outside m1 m' p size).
Proof. exact calloc_ok. Qed.
Print Assumptions C24_calloc_partial.
(* calloc(2,1) leaves the second byte as it was *)
Theorem C24_refuted : exists (malloc : mem -> Z -> mem * Z) m opt_m plain_m p,
  room (fst (malloc m 2)) p 2 /\
  calloc false 9 malloc m 2 1 = Ok (plain_m, p) /\ plain_m (p + 1) = Some 9 /\
  calloc true 9 malloc m 2 1 = Ok (opt_m, p) /\ opt_m (p + 1) = Some 9.
Proof.
  exists exact_malloc, (mem_of []).
  destruct (calloc true 9 exact_malloc (mem_of []) 2 1) as [[o po]| |] eqn:E1;
    [|vm_compute in E1; discriminate..].
  destruct (calloc false 9 exact_malloc (mem_of []) 2 1) as [[q pq]| |] eqn:E2;
    [|vm_compute in E2; discriminate..].
  exists o, q, 200.
  split; [apply room_check; reflexivity|].
  vm_compute in E1, E2. inversion E1. inversion E2. subst. repeat split.
Qed.
Print Assumptions C24_refuted.
Example C24_case : int_ok (3 * 1) = true /\ exact_malloc (mem_of []) 3 = (fst (exact_malloc (mem_of []) 3), 200) /\
  room (fst (exact_malloc (mem_of []) 3)) 200 3.
Proof. repeat split. apply room_check; reflexivity. Qed.
