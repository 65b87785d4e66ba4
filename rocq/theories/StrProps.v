(* Properties C01-C13 and C19: string functions. *)
From Verif Require Import Base BaseLemmas StrModel StrSpec StrProofs StrProofs2 StrProofs3.

(* hypotheses about concrete memories in the examples *)
Ltac conc := repeat split; try reflexivity; try (vm_compute; congruence);
  try (unfold apart; vm_compute; intuition congruence); try (apply room_check; reflexivity);
  try (repeat constructor; vm_compute; intuition congruence).

(* ---- C01 strlen, strnlen ---- *)
Theorem C01_strlen : forall s fuel m p,
  str_at m p s -> p <> 0 -> zlen s <= INT_MAX -> (length s < fuel)%nat ->
  strlen fuel m p = Ok (zlen s).
Proof. exact strlen_ok. Qed.
Print Assumptions C01_strlen.
Theorem C01_strlen_null : forall fuel m, strlen fuel m 0 = Ok 0.
Proof. reflexivity. Qed.
Print Assumptions C01_strlen_null.
(* only the first max bytes (or up to the terminator) have to be readable *)
Theorem C01_strnlen : forall s fuel m p max,
  src_ok m p s max -> p <> 0 -> 1 <= max <= INT_MAX -> (length s < fuel)%nat ->
  strnlen fuel m p max = Ok (Z.min (zlen s) max).
Proof. exact strnlen_src. Qed.
Print Assumptions C01_strnlen.
Example C01_case :
  str_at (mem_of [(100, [104; 200; 33; 0])]) 100 [104; 200; 33] /\
  src_ok (mem_of [(100, [104; 200])]) 100 [104; 200; 33] 2 /\
  strnlen 9 (mem_of [(100, [104; 200])]) 100 2 = Ok 2.
Proof. conc. Qed.

(* ---- C02 strcpy, stpcpy ---- *)
Theorem C02_strcpy : forall s fuel m dest src,
  str_at m src s -> room m dest (zlen s + 1) -> apart dest (zlen s + 1) src (zlen s + 1) ->
  (length s < fuel)%nat ->
  exists m', strcpy fuel m dest src = Ok (m', dest) /\
             str_at m' dest s /\ same_outside m m' dest (zlen s + 1).
Proof. exact strcpy_ok. Qed.
Print Assumptions C02_strcpy.
Theorem C02_stpcpy : forall s fuel m dest src,
  str_at m src s -> room m dest (zlen s + 1) -> apart dest (zlen s + 1) src (zlen s + 1) ->
  (length s < fuel)%nat ->
  exists m', stpcpy fuel m dest src = Ok (m', dest + zlen s) /\
             str_at m' dest s /\ same_outside m m' dest (zlen s + 1).
Proof. exact strcpy_loop_ok. Qed.
Print Assumptions C02_stpcpy.
Example C02_case :
  let m := mem_of [(100, [104; 105; 0]); (103, [7; 7; 7])] in
  str_at m 100 [104; 105] /\ room m 103 3 /\ apart 103 3 100 3.
Proof. conc. Qed.

(* ---- C03 strcat, strncat ---- *)
Theorem C03_strcat : forall a b fuel m dest src,
  str_at m dest a -> str_at m src b -> dest <> 0 -> zlen a <= INT_MAX ->
  room m dest (zlen a + zlen b + 1) ->
  apart dest (zlen a + zlen b + 1) src (zlen b + 1) ->
  (length a < fuel)%nat -> (length b < fuel)%nat ->
  exists m', strcat fuel m dest src = Ok (m', dest) /\
             str_at m' dest (a ++ b) /\ same_outside m m' dest (zlen a + zlen b + 1).
Proof. exact strcat_ok. Qed.
Print Assumptions C03_strcat.
Theorem C03_strncat : forall a b fuel m dest src n,
  str_at m dest a -> src_ok m src b n -> 0 <= n ->
  room m dest (zlen a + Z.min n (zlen b) + 1) ->
  apart dest (zlen a + Z.min n (zlen b) + 1) src (Z.min n (zlen b + 1)) ->
  (length a < fuel)%nat -> (length b < fuel)%nat ->
  exists m', strncat fuel m dest src n = Ok (m', dest) /\
             str_at m' dest (a ++ firstn (Z.to_nat n) b) /\
             same_outside m m' dest (zlen a + Z.min n (zlen b) + 1).
Proof. exact strncat_ok. Qed.
Print Assumptions C03_strncat.
Example C03_case :
  let m := mem_of [(100, [104; 105; 0; 9; 9; 9]); (106, [104; 105; 106])] in
  str_at m 100 [104; 105] /\ src_ok m 106 [104; 105; 106] 3 /\ room m 100 6 /\ apart 100 6 106 3.
Proof. conc. Qed.

(* ---- C04 strlcpy ---- *)
Theorem C04_strlcpy : forall s fuel m dest src n,
  src_ok m src s (n - 1) -> 1 <= n <= INT_MAX ->
  room m dest n -> apart dest n src (Z.min (n - 1) (zlen s + 1)) ->
  (length s + 1 < fuel)%nat ->
  exists m', strlcpy fuel m dest src n = Ok (m', dest) /\
     str_at m' dest (firstn (Z.to_nat (n - 1)) s) /\
     same_outside m m' dest (Z.min n (zlen s + 1)).
Proof. exact strlcpy_ok. Qed.
Print Assumptions C04_strlcpy.
Example C04_case :
  let m := mem_of [(100, [104; 105]); (102, [9; 9; 9])] in
  src_ok m 100 [104; 105; 106] 2 /\ room m 102 3 /\ apart 102 3 100 2.
Proof. conc. Qed.

(* ---- C05 strncpy, stpncpy ---- *)
(* Partial: src must be readable one byte further than the property allows
   (strncpy: up to its terminator; stpncpy: src[n]). *)
Theorem C05_strncpy_partial : forall s fuel m dest src n,
  str_at m src s -> 0 <= n -> room m dest n -> apart dest n src (zlen s + 1) ->
  (length s < fuel)%nat -> (Z.to_nat n < fuel)%nat ->
  exists m', strncpy fuel m dest src n = Ok (m', dest) /\
             bytes_at m' dest (padded s n) /\ same_outside m m' dest n.
Proof. exact strncpy_ok. Qed.
Print Assumptions C05_strncpy_partial.
Theorem C05_stpncpy_partial : forall s fuel m dest src n,
  src_ok m src s (n + 1) -> 0 <= n -> room m dest n ->
  apart dest n src (Z.min (n + 1) (zlen s + 1)) ->
  (length s < fuel)%nat -> (Z.to_nat n < fuel)%nat ->
  exists m', stpncpy fuel m dest src n = Ok (m', dest + Z.min n (zlen s)) /\
             bytes_at m' dest (padded s n) /\ same_outside m m' dest n.
Proof. exact stpncpy_ok. Qed.
Print Assumptions C05_stpncpy_partial.
(* a source of exactly n bytes without terminator is over-read by one byte *)
Theorem C05_refuted : exists s m dest src n,
  src_ok m src s n /\ 0 <= n /\ room m dest n /\ apart dest n src (zlen s + 1) /\
  forall fuel, (9 < fuel)%nat -> strncpy fuel m dest src n = Fault /\ stpncpy fuel m dest src n = Fault.
Proof.
  exists [104; 105], (mem_of [(100, [104; 105]); (110, [9; 9])]), 110, 100, 2. conc.
  all: do 10 (destruct fuel as [|fuel]; [exfalso; lia|]); reflexivity.
Qed.
Print Assumptions C05_refuted.
Example C05_case :
  let m := mem_of [(100, [104; 105; 0]); (103, [9; 9; 9; 9])] in
  str_at m 100 [104; 105] /\ room m 103 4 /\ apart 103 4 100 3 /\ padded [104; 105] 4 = [104; 105; 0; 0].
Proof. conc. Qed.

(* ---- C06 strcmp, strncmp ---- *)
Theorem C06_strcmp : forall a b fuel m p q,
  str_at m p a -> str_at m q b -> zlen a <= INT_MAX -> (length a < fuel)%nat ->
  exists r, strcmp fuel m p q = Ok r /\ Z.sgn r = lexcmp a b.
Proof. exact strcmp_ok. Qed.
Print Assumptions C06_strcmp.
Theorem C06_strncmp : forall a b fuel m p q n,
  src_ok m p a n -> src_ok m q b n -> 0 <= n <= INT_MAX -> (length a < fuel)%nat ->
  exists r, strncmp fuel m p q n = Ok r /\
            Z.sgn r = lexcmp (firstn (Z.to_nat n) a) (firstn (Z.to_nat n) b).
Proof. exact strncmp_ok. Qed.
Print Assumptions C06_strncmp.
Theorem C06_total_order : forall a b c,
  lexcmp b a = - lexcmp a b /\ (lexcmp a b = 0 <-> a = b) /\
  (lexcmp a b <= 0 -> lexcmp b c <= 0 -> lexcmp a c <= 0).
Proof.
  exact (fun a b c => conj (lexcmp_antisym a b) (conj (lexcmp_eq a b) (lexcmp_trans a b c))).
Qed.
Print Assumptions C06_total_order.
Example C06_case :
  let m := mem_of [(100, [104; 200; 0]); (110, [104; 105; 106; 0])] in
  str_at m 100 [104; 200] /\ str_at m 110 [104; 105; 106] /\ strcmp 9 m 100 110 = Ok 95 /\
  strncmp 9 m 100 110 1 = Ok 0.
Proof. conc. Qed.

(* ---- C07 strcasecmp, strncasecmp ---- *)
(* Partial: both strings made of bytes on which bit-5 folding is ASCII folding,
   and for strncasecmp n not smaller than the length of the first string; the
   order is only claimed for strings of equal length. *)
Theorem C07_strcasecmp_partial : forall a b fuel m p q,
  str_at m p a -> str_at m q b -> Forall foldable a -> Forall foldable b ->
  zlen a <= INT_MAX -> (length a < fuel)%nat ->
  exists r, strcasecmp fuel m p q = Ok r /\ casecmp_res a b r.
Proof. exact strcasecmp_ok. Qed.
Print Assumptions C07_strcasecmp_partial.
Theorem C07_strncasecmp_partial : forall a b fuel m p q n,
  str_at m p a -> str_at m q b -> Forall foldable a -> Forall foldable b ->
  1 <= n -> zlen a <= n <= INT_MAX -> (length a < fuel)%nat ->
  exists r, strncasecmp fuel m p q n = Ok r /\ casecmp_res a b r.
Proof. exact strncasecmp_ok. Qed.
Print Assumptions C07_strncasecmp_partial.
(* "[" and "{" compare equal *)
Theorem C07_folding_refuted : exists m p q a b,
  str_at m p a /\ str_at m q b /\ map ascii_lower a <> map ascii_lower b /\
  strcasecmp 9 m p q = Ok 0.
Proof.
  exists (mem_of [(100, [91; 0]); (110, [123; 0])]), 100, 110, [91], [123]. conc.
Qed.
Print Assumptions C07_folding_refuted.
(* both strcasecmp("a","ab") and strcasecmp("ab","a") are 1 *)
Theorem C07_antisym_refuted : exists m p q a b,
  str_at m p a /\ str_at m q b /\ strcasecmp 9 m p q = Ok 1 /\ strcasecmp 9 m q p = Ok 1.
Proof.
  exists (mem_of [(100, [97; 0]); (110, [97; 98; 0])]), 100, 110, [97], [97; 98]. conc.
Qed.
Print Assumptions C07_antisym_refuted.
(* strncasecmp("ab","ac",1) is 1 although the first bytes are equal *)
Theorem C07_strncasecmp_refuted : exists m p q a b n,
  str_at m p a /\ str_at m q b /\
  map ascii_lower (firstn (Z.to_nat n) a) = map ascii_lower (firstn (Z.to_nat n) b) /\
  strncasecmp 9 m p q n = Ok 1.
Proof.
  exists (mem_of [(100, [97; 98; 0]); (110, [97; 99; 0])]), 100, 110, [97; 98], [97; 99], 1. conc.
Qed.
Print Assumptions C07_strncasecmp_refuted.
Example C07_case :
  let m := mem_of [(100, [97; 66; 48; 0]); (110, [65; 98; 48; 0])] in
  str_at m 100 [97; 66; 48] /\ str_at m 110 [65; 98; 48] /\ Forall foldable [97; 66; 48] /\
  strcasecmp 9 m 100 110 = Ok 0.
Proof. conc. Qed.

(* ---- C08 strchr, strchrnul, strrchr ---- *)
(* Partial: c below 128 (plain char is signed), and c <> 0 for strrchr. *)
Theorem C08_strchr_partial : forall s fuel m p c,
  str_at m p s -> 0 <= c < 128 -> (length s < fuel)%nat ->
  (c = 0 -> strchr fuel m p c = Ok (p + zlen s)) /\
  (forall i, first_index (eq c) s i -> strchr fuel m p c = Ok (p + Z.of_nat i)) /\
  (c <> 0 -> ~ In c s -> strchr fuel m p c = Ok 0).
Proof. exact strchr_ok. Qed.
Print Assumptions C08_strchr_partial.
Theorem C08_strchrnul_partial : forall s fuel m p c,
  str_at m p s -> 0 <= c < 128 -> (length s < fuel)%nat ->
  (forall i, first_index (eq c) s i -> strchrnul fuel m p c = Ok (p + Z.of_nat i)) /\
  (~ In c s -> strchrnul fuel m p c = Ok (p + zlen s)).
Proof. exact strchrnul_spec. Qed.
Print Assumptions C08_strchrnul_partial.
Theorem C08_strrchr_partial : forall s fuel m p c,
  str_at m p s -> 0 < p -> 1 <= c < 128 -> (length s < fuel)%nat ->
  (forall i, last_index (eq c) s i -> strrchr fuel m p c = Ok (p + Z.of_nat i)) /\
  (~ In c s -> strrchr fuel m p c = Ok 0).
Proof. exact strrchr_ok. Qed.
Print Assumptions C08_strrchr_partial.
(* strchr("\xe9", 0xe9) is 0; strrchr("a", 0) is 0 *)
Theorem C08_refuted : exists m p c q,
  str_at m p [c] /\ 128 <= c <= 255 /\ strchr 9 m p c = Ok 0 /\
  str_at m q [97] /\ strrchr 9 m q 0 = Ok 0.
Proof.
  exists (mem_of [(100, [233; 0]); (110, [97; 0])]), 100, 233, 110. conc.
Qed.
Print Assumptions C08_refuted.
Example C08_case :
  let m := mem_of [(100, [97; 98; 97; 99; 0])] in
  str_at m 100 [97; 98; 97; 99] /\ first_index (eq 97) [97; 98; 97; 99] 0 /\
  last_index (eq 97) [97; 98; 97; 99] 2 /\ strrchr 9 m 100 97 = Ok 102.
Proof.
  cbn zeta. split; [conc|]. split; [|split; [|reflexivity]].
  - split; [exists 97; auto|]. intros j b Hj. lia.
  - split; [exists 97; auto|]. intros j b Hj E. do 4 (destruct j as [|j]; [lia || (cbn in E; congruence)|]).
    destruct j; discriminate.
Qed.

(* ---- C09 strstr ---- *)
(* Partial: the searched string is not empty. *)
Theorem C09_strstr_partial : forall l w fuel m big little, l <> [] ->
  str_at m big l -> str_at m little w -> (length l + length w < fuel)%nat ->
  (exists i, strstr fuel m big little = Ok (big + Z.of_nat i) /\
             occurs_at w l i /\ forall j, (j < i)%nat -> ~ occurs_at w l j) \/
  (strstr fuel m big little = Ok 0 /\ forall j, ~ occurs_at w l j).
Proof. exact strstr_ok. Qed.
Print Assumptions C09_strstr_partial.
(* strstr("", "a") reads behind the terminator of "" *)
Theorem C09_refuted : exists m big little w,
  str_at m big [] /\ str_at m little w /\
  forall fuel, (9 < fuel)%nat -> strstr fuel m big little = Fault.
Proof.
  exists (mem_of [(100, [0]); (110, [97; 0])]), 100, 110, [97]. conc.
  intros fuel Hf. do 10 (destruct fuel as [|fuel]; [exfalso; lia|]); reflexivity.
Qed.
Print Assumptions C09_refuted.
Example C09_case :
  let m := mem_of [(100, [97; 97; 98; 0]); (110, [97; 98; 0])] in
  str_at m 100 [97; 97; 98] /\ str_at m 110 [97; 98] /\ strstr 9 m 100 110 = Ok 101.
Proof. conc. Qed.

(* ---- C10 strcspn ---- *)
Theorem C10_strcspn : forall D s fuel m p d,
  str_at m p s -> str_at m d D -> zlen s <= INT_MAX -> (length D + length s < fuel)%nat ->
  exists n, strcspn fuel m p d = Ok (Z.of_nat n) /\ span_len (fun b => ~ In b D) s n.
Proof. exact strcspn_ok. Qed.
Print Assumptions C10_strcspn.
(* the OPTIMIZE build computes the same *)
Theorem C10_strcspn_optimized : forall D s fuel m p d,
  str_at m p s -> str_at m d D -> (length D + length s < fuel)%nat ->
  strcspn_opt fuel m p d = strcspn fuel m p d.
Proof. exact strcspn_opt_eq. Qed.
Print Assumptions C10_strcspn_optimized.
Example C10_case :
  let m := mem_of [(100, [97; 98; 44; 0]); (110, [59; 44; 0])] in
  str_at m 100 [97; 98; 44] /\ str_at m 110 [59; 44] /\ strcspn 9 m 100 110 = Ok 2 /\
  strcspn_opt 9 m 100 110 = Ok 2.
Proof. conc. Qed.

(* ---- C11 strspn ---- *)
(* Partial: for a non-empty s the result never exceeds the span; it is the span
   when the first accepted character does not occur after the first byte of s. *)
Theorem C11_strspn_partial : forall A s fuel m p d,
  str_at m p s -> str_at m d A -> s <> [] -> zlen s <= INT_MAX ->
  (length s * S (length A) < fuel)%nat ->
  exists n, strspn fuel m p d = Ok (Z.of_nat n) /\ (n <= length s)%nat /\
            Forall (fun b => In b A) (firstn n s) /\
            (~ In (hd 0 A) (tl s) -> span_len (fun b => In b A) s n).
Proof. exact strspn_le. Qed.
Print Assumptions C11_strspn_partial.
(* strspn("aa","a") is 1; strspn("","") reads behind the strings *)
Theorem C11_refuted : exists m p d e,
  str_at m p [97; 97] /\ str_at m d [97] /\ strspn 9 m p d = Ok 1 /\
  span_len (fun b => In b [97]) [97; 97] 2 /\
  str_at m e [] /\ strspn 9 m e e = Fault.
Proof.
  exists (mem_of [(100, [97; 97; 0]); (110, [97; 0]); (120, [0])]), 100, 110, 120. conc.
  exists [97; 97], []. conc.
Qed.
Print Assumptions C11_refuted.
Example C11_case :
  let m := mem_of [(100, [97; 98; 98; 44; 0]); (110, [97; 98; 0])] in
  str_at m 100 [97; 98; 98; 44] /\ str_at m 110 [97; 98] /\ ~ In (hd 0 [97; 98]) [98; 98; 44] /\
  strspn 99 m 100 110 = Ok 3.
Proof. conc. Qed.

(* ---- C12 strpbrk ---- *)
(* Partial: right when s is empty or its first byte is in the set. *)
Theorem C12_strpbrk_partial : forall D s fuel m p d,
  str_at m p s -> str_at m d D -> 0 < d -> (length D < fuel)%nat ->
  (s = [] \/ first_index (fun b => In b D) s 0) ->
  strpbrk fuel m p d = Ok (if s then 0 else p).
Proof. exact (fun D s fuel m p d H1 H2 H3 H4 _ => strpbrk_exact D s fuel m p d H1 H2 H3 H4). Qed.
Print Assumptions C12_strpbrk_partial.
(* on every non-empty s whose first byte is not in the set the result is wrong *)
Theorem C12_refuted : forall D s fuel m p d,
  str_at m p s -> s <> [] -> str_at m d D -> 0 < d -> (length D < fuel)%nat ->
  ~ In (hd 0 s) D -> strpbrk fuel m p d = Ok p.
Proof.
  intros D s fuel m p d H1 Hne H2 H3 H4 _. rewrite (strpbrk_exact D s fuel m p d); auto.
  now destruct s.
Qed.
Print Assumptions C12_refuted.
Example C12_case :
  let m := mem_of [(100, [97; 98; 0]); (110, [98; 0])] in
  str_at m 100 [97; 98] /\ str_at m 110 [98] /\ ~ In 97 [98] /\ strpbrk 9 m 100 110 = Ok 100.
Proof. conc. Qed.

(* ---- C13 strtok_r ---- *)
(* [strtok_all] is the client loop; [fields] says what the tokens have to be. *)
Theorem C13_strtok : forall D s fuel calls m p d last,
  str_at m p s -> str_at m d D -> apart p (zlen s) d (zlen D + 1) -> 0 < p ->
  (length s < calls)%nat -> (length s + length D + 1 < fuel)%nat ->
  exists m' ts, fields (fun x => In x D) p s ts /\
     strtok_all calls fuel m p d last = Ok (m', map fst ts, 0) /\
     Forall (fun t => str_at m' (fst t) (snd t)) ts /\ nulled D m m' p (zlen s) /\
     strtok_r fuel m' 0 d 0 = Ok (m', 0, 0).
Proof. exact strtok_ok. Qed.
Print Assumptions C13_strtok.
Example C13_case :
  let m := mem_of [(100, [44; 97; 44; 44; 98; 98; 0]); (110, [44; 59; 0])] in
  str_at m 100 [44; 97; 44; 44; 98; 98] /\ str_at m 110 [44; 59] /\ apart 100 6 110 3 /\
  (let* (r, last) := strtok_all 9 20 m 100 110 0 in Ok (snd r, last)) = Ok ([101; 104], 0).
Proof. conc. Qed.

(* ---- C19 strdup, strndup ---- *)
(* Partial: strdup is right if malloc(strlen(s)) happens to return a block with
   one byte more than requested; strndup is right if n >= strlen(s). *)
Theorem C19_strdup_partial : forall s fuel (malloc : mem -> Z -> mem * Z) m p,
  str_at m p s -> p <> 0 -> zlen s <= INT_MAX -> (length s < fuel)%nat ->
  (let (m1, d) := malloc m (zlen s) in d = 0 \/ good_block m m1 d (zlen s + 1) p (zlen s + 1)) ->
  exists m' d, strdup fuel malloc m p = Ok (m', d) /\ snd (malloc m (zlen s)) = d /\
    (d <> 0 -> str_at m' d s /\ same_outside (fst (malloc m (zlen s))) m' d (zlen s + 1)).
Proof. exact strdup_ok. Qed.
Print Assumptions C19_strdup_partial.
Theorem C19_strndup_partial : forall s fuel (malloc : mem -> Z -> mem * Z) m p maxlen,
  str_at m p s -> p <> 0 -> zlen s < INT_MAX -> zlen s <= maxlen -> (length s < fuel)%nat ->
  (let (m1, d) := malloc m (zlen s + 1) in d = 0 \/ good_block m m1 d (zlen s + 1) p (zlen s + 1)) ->
  exists m' d, strndup fuel malloc m p maxlen = Ok (m', d) /\ snd (malloc m (zlen s + 1)) = d /\
    (d <> 0 -> str_at m' d s /\ same_outside (fst (malloc m (zlen s + 1))) m' d (zlen s + 1)).
Proof. exact strndup_whole. Qed.
Print Assumptions C19_strndup_partial.
(* with a malloc that returns a good block of exactly the requested size, strdup
   writes behind it, and so does strndup when it truncates *)
Definition exact_malloc : mem -> Z -> mem * Z :=
  fun m n => (fun x => if (200 <=? x) && (x <? 200 + n) then Some 9 else m x, 200).
Theorem C19_refuted : exists m p s,
  str_at m p s /\
  good_block m (fst (exact_malloc m 3)) (snd (exact_malloc m 3)) 3 p 4 /\
  good_block m (fst (exact_malloc m 2)) (snd (exact_malloc m 2)) 2 p 4 /\
  forall fuel, (9 < fuel)%nat ->
    strdup fuel exact_malloc m p = Fault /\ strndup fuel exact_malloc m p 1 = Fault.
Proof.
  exists (mem_of [(100, [97; 98; 99; 0])]), 100, [97; 98; 99].
  split; [conc|]. split; [|split].
  3: intros fuel Hf; do 10 (destruct fuel as [|fuel]; [exfalso; lia|]); split; reflexivity.
  all: split; [discriminate|]; split; [apply room_check; reflexivity|];
    split; [unfold apart; vm_compute; intuition congruence|];
    intros a Ha; unfold exact_malloc; cbn [fst snd] in *;
    destruct (Z.leb_spec 200 a); [lia|reflexivity].
Qed.
Print Assumptions C19_refuted.
Example C19_case :
  let m := mem_of [(100, [97; 98; 99; 0])] in
  str_at m 100 [97; 98; 99] /\
  good_block m (fst (exact_malloc m 4)) (snd (exact_malloc m 4)) 4 100 4.
Proof.
  split; [conc|]. split; [discriminate|]. split; [apply room_check; reflexivity|].
  split; [unfold apart; vm_compute; intuition congruence|].
  intros a Ha; unfold exact_malloc; cbn [fst snd] in *. destruct (Z.leb_spec 200 a); [lia|reflexivity].
Qed.
