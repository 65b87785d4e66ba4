(* Lemmas about strerror, perror and the positions of files. *)
From Coq Require Import ZifyBool.
From Verif Require Import Base BaseLemmas StrModel StrProofs StreamModel OutModel OutSpec OutProofs.

Lemma err_copy_ok l : forall m c, room m c (zlen l + 1) ->
  exists m', err_copy m c l = Ok m' /\ bytes_at m' c (l ++ [0]) /\ same_outside m m' c (zlen l + 1).
Proof.
  induction l as [|b l IH]; intros m c R; cbn [err_copy app].
  - rewrite (store_room _ _ _ _ _ R) by (change (zlen (@nil Z)) with 0; lia). exists (upd m c 0). split; [reflexivity|].
    split; [cbn [bytes_at]; split; [apply upd_same|exact I]|apply same_outside_upd; change (zlen (@nil Z)) with 0; lia].
  - rewrite zlen_cons in *. nneg l. rewrite (store_room _ _ _ _ _ R), bind_Ok by lia.
    destruct (IH (upd m c b) (c + 1)) as (m' & E & B & S); [apply room_upd, (room_sub _ _ _ _ _ R); lia|]. exists m'. split; [exact E|]. cbn [bytes_at]. split.
    + split; [|exact B]. rewrite S by lia. apply upd_same.
    + intros x Hx. rewrite S by lia. apply upd_other. lia.
Qed.

Lemma char_add_ok m p d q : m p = Some d -> 0 <= d + q < 256 -> 0 <= d < 128 -> char_add m p q = Ok (upd m p (d + q)).
Proof.
  intros H L D. unfold char_add. rewrite (load_some _ _ _ H), bind_Ok. unfold store. rewrite H. do 2 f_equal.
  assert (E : schar d = d) by (unfold schar; replace (d <? 128) with true by lia; reflexivity). rewrite E. unfold ubyte. apply Z.mod_small. lia.
Qed.

Definition err_head : list Z := firstn 14 err_text.
Lemma strerror_ok m e n : room m e 18 -> 0 <= n <= 999 ->
  exists m', strerror m e n = Ok (m', e) /\ str_at m' e (err_head ++ digits3 n) /\ same_outside m m' e 18.
Proof.
  intros R N. destruct (err_copy_ok err_text m e) as (m1 & E & B & S); [exact R|]. unfold strerror. rewrite E, bind_Ok.
  assert (Q1 : Z.quot n 100 = n / 100) by (apply Z.quot_div_nonneg; lia). assert (Q2 : Z.rem n 100 = n mod 100) by (apply Z.rem_mod_nonneg; lia).
  rewrite Q1, Q2. assert (Q3 : Z.quot (n mod 100) 10 = n mod 100 / 10) by (apply Z.quot_div_nonneg; lia). assert (Q4 : Z.rem (n mod 100) 10 = (n mod 100) mod 10) by (apply Z.rem_mod_nonneg; lia).
  rewrite Q3, Q4. unfold err_text in B. cbn [app bytes_at] in B.
  repeat match goal with H : _ /\ _ |- _ => destruct H end.
  repeat match goal with H : m1 ?a = Some _ |- _ => progress (ring_simplify a in H) end.
  rewrite (char_add_ok m1 (e + 14) 48) by (auto; lia). rewrite bind_Ok.
  rewrite (char_add_ok _ (e + 15) 48) by (rewrite ?upd_other by lia; auto; lia). rewrite bind_Ok.
  rewrite (char_add_ok _ (e + 16) 48) by (rewrite ?upd_other by lia; auto; lia). rewrite bind_Ok.
  eexists. split; [reflexivity|]. split.
  - unfold err_head, err_text, digits3. cbn [firstn app str_at].
    repeat match goal with |- context [upd _ _ _ ?a] => progress (ring_simplify a) end.
    replace (n mod 100 / 10) with (n / 10 mod 10) by lia. replace ((n mod 100) mod 10) with (n mod 10) by lia.
    repeat match goal with |- _ /\ _ => split end; try lia; try (rewrite ?upd_other by lia; first [assumption|apply upd_same]).
  - intros x Hx. rewrite !upd_other by lia. apply S. exact Hx.
Qed.

Lemma fputs_ok {W} (k : kernel W) content fuel m c f s w : takes_all k content -> string_at m c s -> zlen s <= INT_MAX -> (length s < fuel)%nat ->
  exists w', fputs k fuel m c f w = Ok (zlen s, w') /\ wrote content (fileno f) s w w'.
Proof.
  intros Ka [S0 S] L F. unfold fputs. rewrite (strlen_ok s), bind_Ok by auto. apply (write_all k content Ka); auto. apply str_at_bytes. exact S.
Qed.
Lemma perror_ok {W} (k : kernel W) content fuel m e n msg s w : takes_all k content -> room m e 18 -> e <> 0 -> 0 <= n <= 999 ->
  msg = 0 /\ s = [] \/ string_at m msg s -> zlen s <= INT_MAX -> (length s < fuel)%nat -> (17 < fuel)%nat ->
  exists m' w', perror k fuel m e n msg w = Ok (m', w') /\ wrote content 2 (s ++ err_head ++ digits3 n) w w' /\ same_outside m m' e 18.
Proof.
  intros Ka R E0 N C L F F'. unfold perror. destruct (strerror_ok m e n R N) as (m' & E & S & O). rewrite E.
  assert (A : exists w1, (if msg =? 0 then Ok w else let* c := load m msg in if c =? 0 then Ok w else let* r := fputs k fuel m msg 2 w in Ok (snd r)) = Ok w1 /\ wrote content 2 s w w1).
  { destruct C as [[-> ->]|St].
    - exists w. split; [reflexivity|apply wrote_nil].
    - pose proof St as [P0 P]. replace (msg =? 0) with false by lia. destruct s as [|c s].
      + cbn [str_at] in P. rewrite (load_some _ _ _ P), bind_Ok. cbn [Z.eqb]. exists w. split; [reflexivity|apply wrote_nil].
      + cbn [str_at] in P. destruct P as (P1 & P2 & P3). rewrite (load_some _ _ _ P1), bind_Ok. replace (c =? 0) with false by lia.
        destruct (fputs_ok k content fuel m msg 2 (c :: s) w Ka St L F) as (w1 & E1 & W1). rewrite E1, bind_Ok. exists w1. auto. }
  destruct A as (w1 & E1 & W1). rewrite E1, !bind_Ok. cbn [fst snd].
  destruct (fputs_ok k content fuel m' e 2 (err_head ++ digits3 n) w1 Ka) as (w2 & E2 & W2); [split; auto|vm_compute; discriminate|cbn; lia|].
  rewrite E2, bind_Ok. exists m', w2. split; [reflexivity|]. split; [|exact O]. eapply wrote_app; eauto.
Qed.

(* ---- positions ---- *)
Definition base_of (whence : Z) (o : ofile) : Z := if whence =? 0 then 0 else if whence =? 1 then opos o else osize o.
Lemma lseek_ok off whence o : whence = 0 \/ whence = 1 \/ whence = 2 -> INT_MIN <= off <= INT_MAX -> 0 <= base_of whence o + off <= INT_MAX ->
  lseek off whence o = (base_of whence o + off, mkof (base_of whence o + off) (osize o)).
Proof.
  intros C O T. unfold lseek. rewrite (s32_small off) by exact O.
  assert (E : klseek off whence o = (base_of whence o + off, mkof (base_of whence o + off) (osize o))).
  { unfold klseek, base_of in *. destruct C as [-> | [-> | ->]]; cbn in *;
    match goal with |- context [?a <? 0] => replace (a <? 0) with false by lia end; reflexivity. }
  rewrite E. cbn [fst snd]. rewrite s32_small by (unfold INT_MIN; lia). replace (base_of whence o + off <? 0) with false by lia. reflexivity.
Qed.
Lemma lseek_bad off whence o : whence = 0 \/ whence = 1 \/ whence = 2 -> INT_MIN <= off <= INT_MAX -> base_of whence o + off < 0 -> lseek off whence o = (-1, o).
Proof.
  intros C O T. unfold lseek. rewrite (s32_small off) by exact O.
  assert (E : klseek off whence o = (-22, o)).
  { unfold klseek, base_of in *. destruct C as [-> | [-> | ->]]; cbn in *;
    match goal with |- context [?a <? 0] => replace (a <? 0) with true by lia end; reflexivity. }
  rewrite E. reflexivity.
Qed.
Lemma mask_clear f l : feof {| word := Z.land f 4194303; input := l |} = 0.
Proof.
  unfold feof. cbn [word]. rewrite <- Z.land_assoc. change (Z.land 4194303 12582912) with 0. rewrite Z.land_0_r. reflexivity.
Qed.
Lemma fileno_mask f : fileno (Z.land f 4194303) = fileno f.
Proof.
  unfold fileno, u32. change 4294967296 with (2 ^ 32). rewrite <- !Z.land_ones by lia. rewrite <- !Z.land_assoc. change (Z.land 4194303 (Z.land (Z.ones 32) 4194303)) with 4194303.
  change (Z.land (Z.ones 32) 4194303) with 4194303. reflexivity.
Qed.
