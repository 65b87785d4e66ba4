(* C52, C60: dirname, basename and where. *)
From Verif Require Import Base BaseLemmas PathModel PathSpec PathProofs PathProofs2 PathProofs3.

(* ---- C52 ---- *)
(* path_split relates every path to exactly one directory and one last component *)
Theorem C52_total : forall s, exists d b, path_split s d b /\ forall d' b', path_split s d' b' -> d' = d /\ b' = b.
Proof.
  intros s. destruct (path_split_total s) as (d & b & H). exists d, b. split; [exact H|]. intros d' b' H'. now apply (path_split_fun s).
Qed.
Print Assumptions C52_total.
Theorem C52_dirname : forall fuel m p s d b, p <> 0 -> str_at m p s -> zlen s <= INT_MAX -> path_split s d b -> (length s < fuel)%nat ->
  exists m' r, dirname fuel m p = Ok (m', r) /\ gives m' r d /\ same_outside m m' p (zlen s).
Proof.
  intros fuel m p s d b H1 H2 H3 H4 H5. destruct (dirname_ok fuel m p s d b H1 H2 H3 H4 H5) as (m' & r & E1 & E2 & _ & E3). eauto.
Qed.
Print Assumptions C52_dirname.
Theorem C52_dirname_null : forall fuel m, dirname fuel m 0 = Ok (m, Dot) /\ basename fuel m 0 = Ok (m, Dot).
Proof. intros. split; reflexivity. Qed.
Print Assumptions C52_dirname_null.
(* "/usr//lib/" *)
Example C52_dirname_ex : let s := [47; 117; 115; 114; 47; 47; 108; 105; 98; 47] in let m := mem_of [(100, s ++ [0])] in
  str_at m 100 s /\ zlen s <= INT_MAX /\ path_split s [47; 117; 115; 114] [108; 105; 98] /\ (length s < 99)%nat.
Proof.
  split; [vm_compute; repeat split; discriminate|]. split; [discriminate|]. split; [|cbn; lia].
  apply (ps_dir [47; 117; 115; 114] 1 [108; 105; 98] 1); [discriminate|discriminate|]. split; [discriminate|]. cbn. intuition discriminate.
Qed.

(* Missing: a trailing slash behind a path of one component without any other slash, and
   more than two trailing slashes. *)
Theorem C52_basename_partial : forall fuel m p s d b, p <> 0 -> str_at m p s -> path_split s d b -> (length s < fuel)%nat ->
  last s 0 <> slash \/ (exists n, s = slashes n) \/ (exists u c n, s = u ++ [slash] ++ c ++ slashes n /\ component c /\ (n <= 2)%nat) ->
  exists m' r, basename fuel m p = Ok (m', r) /\ gives m' r b /\ same_outside m m' p (zlen s).
Proof. exact basename_ok. Qed.
Print Assumptions C52_basename_partial.
(* every path that is left out is answered wrongly *)
Theorem C52_basename_single_refuted : forall fuel m p c n, p <> 0 -> component c -> str_at m p (c ++ slashes (S n)) -> (length (c ++ slashes (S n)) < fuel)%nat ->
  path_split (c ++ slashes (S n)) [46] c /\ exists r, basename fuel m p = Ok (m, r) /\ gives m r [slash] /\ ~ gives m r c.
Proof.
  intros fuel m p c n Hp C Hs Hf. split; [now apply ps_plain|]. now apply (basename_single fuel m p c n).
Qed.
Print Assumptions C52_basename_single_refuted.
Theorem C52_basename_trailing_refuted : forall fuel m p u c n, p <> 0 -> component c -> str_at m p (u ++ [slash] ++ c ++ slashes (3 + n)) ->
  (length (u ++ [slash] ++ c ++ slashes (3 + n)) < fuel)%nat ->
  (exists d, path_split (u ++ [slash] ++ c ++ slashes (3 + n)) d c) /\
  exists m' r, basename fuel m p = Ok (m', r) /\ gives m' r (c ++ slashes (1 + n)).
Proof.
  intros fuel m p u c n Hp C Hs Hf. split; [now apply split_trailing|]. now apply (basename_many fuel m p u c n).
Qed.
Print Assumptions C52_basename_trailing_refuted.
Example C52_basename_ex : let s := [117; 115; 114; 47; 108; 105; 98; 47; 47] in let m := mem_of [(100, s ++ [0])] in
  str_at m 100 s /\ path_split s [117; 115; 114] [108; 105; 98] /\ (length s < 99)%nat /\
  (exists u c n, s = u ++ [slash] ++ c ++ slashes n /\ component c /\ (n <= 2)%nat).
Proof.
  assert (component [108; 105; 98]) by (split; [discriminate|]; cbn; intuition discriminate).
  split; [vm_compute; repeat split; discriminate|]. split; [apply (ps_dir [117; 115; 114] 0 [108; 105; 98] 2); auto; discriminate|].
  split; [cbn; lia|]. exists [117; 115; 114], [108; 105; 98], 2%nat. auto.
Qed.
Example C52_basename_refuted_ex : let m := mem_of [(100, [97; 47; 0]); (200, [47; 97; 47; 47; 47; 0])] in
  str_at m 100 ([97] ++ slashes 1) /\ str_at m 200 ([] ++ [slash] ++ [97] ++ slashes (3 + 0)) /\ component [97].
Proof. split; [vm_compute; repeat split; discriminate|]. split; [vm_compute; repeat split; discriminate|]. split; [discriminate|]. cbn. intuition discriminate. Qed.

(* ---- C60 ---- *)
(* Missing: values of PATH with empty entries. *)
Theorem C60_where_partial : forall fuel access m default path file buf n dirs f,
  dirs <> [] -> Forall entry dirs -> str_at m (if path =? 0 then default else path) (joined dirs) -> str_at m file f ->
  apart (if path =? 0 then default else path) (zlen (joined dirs) + 1) buf n -> apart file (zlen f + 1) buf n -> room m buf n ->
  Forall (fun d => zlen d + zlen f + 2 <= n) dirs -> (2 * length (joined dirs) + length f + 1 <= fuel)%nat ->
  exists m', same_outside m m' buf n /\
    match first_hit access dirs f with
    | Some s => where_ fuel access m default path file buf = Ok (m', 1) /\ str_at m' buf s
    | None => where_ fuel access m default path file buf = Ok (m', 0)
    end.
Proof. intros. unfold where_. now apply where_ok. Qed.
Print Assumptions C60_where_partial.
(* PATH=":/b" (the current directory, then /b): the first name tried is "://b/f" *)
Theorem C60_empty_entry_refuted : exists access m path file buf f m',
  str_at m path [58; 47; 98] /\ str_at m file f /\ access ([47; 98; 47] ++ f) = true /\ room m buf 100 /\
  where_ 99 access m 0 path file buf = Ok (m', 0).
Proof.
  exists (fun s => if list_eq_dec Z.eq_dec s [47; 98; 47; 102] then true else false),
    (mem_of [(100, [58; 47; 98; 0]); (200, [102; 0]); (300, repeat 0 100)]), 100, 200, 300, [102].
  eexists. split; [vm_compute; repeat split; discriminate|]. split; [vm_compute; repeat split; discriminate|].
  split; [reflexivity|]. split; [apply room_check; reflexivity|]. vm_compute. reflexivity.
Qed.
Print Assumptions C60_empty_entry_refuted.
(* PATH="": reads behind the end of the string *)
Theorem C60_empty_path_refuted : exists m path file buf f, str_at m path [] /\ str_at m file f /\ room m buf 100 /\
  forall access fuel, where_ (S fuel) access m 0 path file buf = Fault.
Proof.
  exists (mem_of [(100, [0]); (200, [102; 0]); (300, repeat 0 100)]), 100, 200, 300, [102].
  split; [reflexivity|]. split; [vm_compute; repeat split; discriminate|]. split; [apply room_check; reflexivity|].
  intros access fuel. reflexivity.
Qed.
Print Assumptions C60_empty_path_refuted.
Example C60_where_ex : let m := mem_of [(100, [47; 97; 58; 47; 98; 0]); (200, [102; 0]); (300, repeat 0 100)] in
  let access := fun s => if list_eq_dec Z.eq_dec s [47; 98; 47; 102] then true else false in
  str_at m 100 (joined [[47; 97]; [47; 98]]) /\ Forall entry [[47; 97]; [47; 98]] /\ first_hit access [[47; 97]; [47; 98]] [102] = Some [47; 98; 47; 102] /\
  room m 300 100 /\ (exists m', where_ 99 access m 0 100 200 300 = Ok (m', 1)).
Proof.
  split; [vm_compute; repeat split; discriminate|]. split; [repeat constructor; try discriminate; cbn; intuition discriminate|].
  split; [reflexivity|]. split; [apply room_check; reflexivity|]. eexists. vm_compute. reflexivity.
Qed.
