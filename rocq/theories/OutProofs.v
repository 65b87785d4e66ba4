From Coq Require Import ZifyBool.
From Verif Require Import Base BaseLemmas StrModel StrSpec StrProofs StreamModel OutModel OutSpec.

Lemma fetch_ok l : forall m p, bytes_at m p l -> fetch (length l) m p = Ok l.
Proof.
  induction l as [|b l IH]; intros m p H; [reflexivity|]. destruct H as [H1 H2]. cbn [length fetch]. rewrite (load_some _ _ _ H1), bind_Ok, IH, bind_Ok by exact H2. reflexivity.
Qed.
Lemma write_ok {W} (k : kernel W) m fd p l w : bytes_at m p l -> zlen l <= INT_MAX -> write k m fd p (zlen l) w = Ok (k fd l w).
Proof.
  intros H L. nneg l. unfold write. rewrite s32_small by (unfold INT_MIN; lia). replace (zlen l <? 0) with false by lia. rewrite zlen_nat, fetch_ok, bind_Ok by exact H. reflexivity.
Qed.
Lemma len_ok s : forall fuel m p a, str_at m (p + a) s -> 0 <= a -> a + zlen s <= INT_MAX -> (length s < fuel)%nat -> len_loop fuel m p a = Ok (a + zlen s).
Proof.
  induction s as [|c s IH]; intros [|fuel] m p a H A L F; cbn [length] in F; try lia; cbn [len_loop str_at] in *.
  - rewrite (load_some _ _ _ H), bind_Ok. cbn. rewrite zlen_nil. f_equal. lia.
  - destruct H as (H1 & H2 & H3). rewrite (load_some _ _ _ H1), bind_Ok. replace (c =? 0) with false by lia. rewrite zlen_cons in *. nneg s.
    rewrite iop_ok, bind_Ok by (unfold INT_MIN; lia). rewrite IH; [f_equal; lia| |lia|lia|lia]. replace (p + (a + 1)) with (p + a + 1) by lia. exact H3.
Qed.

Section K.
Context {W : Type} (k : kernel W) (content : W -> Z -> list Z).
Hypothesis Ka : takes_all k content.

Lemma wrote_nil fd w : wrote content fd [] w w.
Proof. intros x. destruct (x =? fd); rewrite app_nil_r; reflexivity. Qed.
Lemma wrote_app fd l l' w w' w'' : wrote content fd l w w' -> wrote content fd l' w' w'' -> wrote content fd (l ++ l') w w''.
Proof. intros H H' x. rewrite (H' x), (H x). destruct (x =? fd); rewrite <- app_assoc; reflexivity. Qed.
Lemma write_all m fd p l w : bytes_at m p l -> zlen l <= INT_MAX -> exists w', write k m fd p (zlen l) w = Ok (zlen l, w') /\ wrote content fd l w w'.
Proof.
  intros H L. rewrite (write_ok k m fd p l w H L). destruct (Ka fd l w) as [E Wr]. destruct (k fd l w) as [r w']. cbn [fst snd] in *. subst r. exists w'. auto.
Qed.

Lemma dprints_ok fuel m fd : forall ss msgs p s tl ret w, Forall2 (string_at m) msgs ss -> string_at m p s ->
  0 <= ret -> ret + zlen s + zlen (concat ss) <= INT_MAX -> (length s < fuel)%nat -> Forall (fun s => (length s < fuel)%nat) ss ->
  exists w', dprints_loop k fuel m fd p (msgs ++ 0 :: tl) ret w = Ok (ret + zlen s + zlen (concat ss), w') /\ wrote content fd (s ++ concat ss) w w'.
Proof.
  induction ss as [|s' ss IH]; intros msgs p s tl ret w F S R L Fu Fs; nneg s; inversion F as [|p' ? ms ? S' F']; subst; cbn [app concat] in *.
  - rewrite zlen_nil in L. cbn [dprints_loop]. destruct S as [S0 S]. rewrite (len_ok s), bind_Ok by (rewrite ?Z.add_0_r; auto; lia).
    destruct (write_all m fd p s w (str_at_bytes _ _ _ S)) as (w' & E & Wr); [lia|]. rewrite Z.add_0_l, E, bind_Ok. cbn [fst snd].
    rewrite iop_ok, bind_Ok by (unfold INT_MIN; lia). cbn [Z.eqb]. exists w'. rewrite zlen_nil, app_nil_r. split; [do 2 f_equal; lia|exact Wr].
  - rewrite zlen_app in *. nneg s'. nneg (concat ss). cbn [dprints_loop]. destruct S as [S0 S]. rewrite (len_ok s), bind_Ok by (rewrite ?Z.add_0_r; auto; lia).
    destruct (write_all m fd p s w (str_at_bytes _ _ _ S)) as (w' & E & Wr); [lia|]. rewrite Z.add_0_l, E, bind_Ok. cbn [fst snd].
    rewrite iop_ok, bind_Ok by (unfold INT_MIN; lia). pose proof S' as [S0' _]. replace (p' =? 0) with false by lia. apply Forall_cons_iff in Fs. destruct Fs as [Fs1 Fs2].
    destruct (IH ms p' s' tl (ret + zlen s) w' F' S') as (w2 & E2 & Wr2); auto; try lia. exists w2. rewrite E2. split; [do 2 f_equal; lia|]. apply (wrote_app fd s (s' ++ concat ss) w w' w2); auto.
Qed.

(* pend: the literal text between p and a that is not yet written *)
Lemma fprintfs_ok m f fmt : forall is fuel a p pend args ret w,
  str_at m (fmt + a) (fmt_of is) -> Forall good_item is -> args_of (string_at m) is args ->
  bytes_at m (fmt + p) pend -> a = p + zlen pend -> 0 <= p -> 0 <= ret ->
  a + zlen (fmt_of is) < INT_MAX -> ret + zlen pend + zlen (out_of is) <= INT_MAX -> (length (fmt_of is) + length (out_of is) < fuel)%nat ->
  exists w', fprintfs_loop k fuel m f fmt a p args ret w = Ok (ret + zlen pend + zlen (out_of is), w') /\ wrote content (fileno f) (pend ++ out_of is) w w'.
Proof.
  induction is as [|i is IH]; intros [|fuel] a p pend args ret w S G A B Ea P0 R0 La Lr Fu; try (exfalso; lia); nneg pend.
  - cbn [fmt_of out_of flat_map] in *. cbn [fprintfs_loop str_at] in *. rewrite (load_some _ _ _ S), bind_Ok. cbn [Z.eqb]. rewrite zlen_nil in *.
    replace (a - p) with (zlen pend) by lia. destruct (write_all m (fileno f) (fmt + p) pend w B) as (w' & E & Wr); [lia|]. rewrite E, bind_Ok. cbn [fst snd].
    rewrite iop_ok, bind_Ok by (unfold INT_MIN; lia). exists w'. rewrite app_nil_r. split; [do 2 f_equal; lia|exact Wr].
  - cbn [fmt_of out_of flat_map] in *. fold (fmt_of is) in *. fold (out_of is) in *. rewrite !zlen_app in *. rewrite !app_length in *. nneg (fmt_of is). nneg (out_of is).
    apply Forall_cons_iff in G. destruct G as [Gi G]. cbn [fprintfs_loop]. destruct i as [c|s|c|c]; cbn [item_fmt item_out app str_at good_item length args_of] in *; rewrite ?zlen_cons, ?zlen_nil in *.
    + destruct S as (S1 & S2 & S3). rewrite (load_some _ _ _ S1), bind_Ok. replace (c =? 0) with false by lia. replace (c =? 37) with false by lia.
      rewrite iop_ok, bind_Ok by (unfold INT_MIN; lia).
      destruct (IH fuel (a + 1) p (pend ++ [c]) args ret w) as (w' & E & Wr); auto; rewrite ?zlen_app, ?zlen_cons, ?zlen_nil; try lia.
      * replace (fmt + (a + 1)) with (fmt + a + 1) by lia. exact S3.
      * apply bytes_at_app. split; [exact B|]. cbn. split; [|exact I]. replace (fmt + p + zlen pend) with (fmt + a) by lia. exact S1.
      * exists w'. rewrite E. rewrite zlen_app, zlen_cons, zlen_nil. split; [do 2 f_equal; lia|]. rewrite <- app_assoc in Wr. exact Wr.
    + destruct S as (S1 & S2 & T1 & T2 & S3). destruct A as (q & args' & -> & [Q0 Q] & A). rewrite (load_some _ _ _ S1), bind_Ok. cbn [Z.eqb Pos.eqb].
      rewrite iop_ok, bind_Ok by (unfold INT_MIN; lia). replace (fmt + (a + 1)) with (fmt + a + 1) by lia. rewrite (load_some _ _ _ T1), bind_Ok.
      rewrite iop_ok, bind_Ok by (unfold INT_MIN; lia). cbn [Z.eqb Pos.eqb]. nneg s. replace (a + 1 - 1 - p) with (zlen pend) by lia.
      destruct (write_all m (fileno f) (fmt + p) pend w B) as (w1 & E1 & Wr1); [lia|]. rewrite E1, bind_Ok. cbn [fst snd]. rewrite iop_ok, bind_Ok by (unfold INT_MIN; lia).
      unfold fputs. rewrite (strlen_ok s), bind_Ok by (auto; lia).
      destruct (write_all m (fileno f) q s w1 (str_at_bytes _ _ _ Q)) as (w2 & E2 & Wr2); [lia|]. rewrite E2, bind_Ok. cbn [fst snd]. rewrite iop_ok, bind_Ok by (unfold INT_MIN; lia).
      destruct (IH fuel (a + 1 + 1) (a + 1 + 1) [] args' (ret + zlen pend + zlen s) w2) as (w3 & E3 & Wr3); auto; rewrite ?zlen_nil; try lia.
      * replace (fmt + (a + 1 + 1)) with (fmt + a + 1 + 1) by lia. exact S3.
      * exists w3. rewrite E3, zlen_nil. split; [do 2 f_equal; lia|]. rewrite app_nil_l in Wr3. exact (wrote_app _ _ _ _ _ _ Wr1 (wrote_app _ _ _ _ _ _ Wr2 Wr3)).
    + destruct S as (S1 & S2 & T1 & T2 & S3). destruct A as (args' & -> & A). rewrite (load_some _ _ _ S1), bind_Ok. cbn [Z.eqb Pos.eqb].
      rewrite iop_ok, bind_Ok by (unfold INT_MIN; lia). replace (fmt + (a + 1)) with (fmt + a + 1) by lia. rewrite (load_some _ _ _ T1), bind_Ok.
      rewrite iop_ok, bind_Ok by (unfold INT_MIN; lia). cbn [Z.eqb Pos.eqb]. replace (a + 1 - 1 - p) with (zlen pend) by lia.
      destruct (write_all m (fileno f) (fmt + p) pend w B) as (w1 & E1 & Wr1); [lia|]. rewrite E1, bind_Ok. cbn [fst snd]. rewrite iop_ok, bind_Ok by (unfold INT_MIN; lia).
      destruct (Ka (fileno f) [ubyte c] w1) as [E2 Wr2]. rewrite zlen_cons, zlen_nil in E2. rewrite E2. rewrite iop_ok, bind_Ok by (unfold INT_MIN; lia).
      destruct (IH fuel (a + 1 + 1) (a + 1 + 1) [] args' (ret + zlen pend + 1) (snd (k (fileno f) [ubyte c] w1))) as (w3 & E3 & Wr3); auto; rewrite ?zlen_nil; try lia.
      * replace (fmt + (a + 1 + 1)) with (fmt + a + 1 + 1) by lia. exact S3.
      * exists w3. rewrite Z.add_0_l. rewrite E3, zlen_nil. split; [do 2 f_equal; lia|]. rewrite app_nil_l in Wr3. exact (wrote_app _ _ _ _ _ _ Wr1 (wrote_app _ _ _ _ _ _ Wr2 Wr3)).
    + destruct S as (S1 & S2 & T1 & T2 & S3). rewrite (load_some _ _ _ S1), bind_Ok. cbn [Z.eqb Pos.eqb].
      rewrite iop_ok, bind_Ok by (unfold INT_MIN; lia). replace (fmt + (a + 1)) with (fmt + a + 1) by lia. rewrite (load_some _ _ _ T1), bind_Ok.
      rewrite iop_ok, bind_Ok by (unfold INT_MIN; lia). replace (c =? 115) with false by lia. replace (c =? 99) with false by lia.
      destruct (IH fuel (a + 1 + 1) p (pend ++ [37; c]) args ret w) as (w' & E & Wr); auto; rewrite ?zlen_app, ?zlen_cons, ?zlen_nil; try lia.
      * replace (fmt + (a + 1 + 1)) with (fmt + a + 1 + 1) by lia. exact S3.
      * apply bytes_at_app. split; [exact B|]. cbn. replace (fmt + p + zlen pend) with (fmt + a) by lia. auto.
      * exists w'. rewrite E. rewrite zlen_app, !zlen_cons, zlen_nil. split; [do 2 f_equal; lia|]. rewrite <- app_assoc in Wr. exact Wr.
Qed.
End K.

(* ---- fwrite ---- *)
Lemma ferror_set f l : ferror {| word := Z.lor f 4194304; input := l |} = 1.
Proof.
  unfold ferror. cbn [word]. destruct (Z.eqb_spec (Z.land (Z.lor f 4194304) 12582912) 0) as [E|]; [|reflexivity]. exfalso.
  assert (T : Z.testbit (Z.land (Z.lor f 4194304) 12582912) 22 = false) by (rewrite E; reflexivity).
  rewrite Z.land_spec, Z.lor_spec in T. change (Z.testbit 4194304 22) with true in T. change (Z.testbit 12582912 22) with true in T. rewrite Bool.orb_true_r in T. discriminate.
Qed.
Lemma fileno_set f : fileno (Z.lor f 4194304) = fileno f.
Proof.
  unfold fileno, u32. apply Z.bits_inj'. intros n Hn. rewrite !Z.land_spec. destruct (Z.ltb_spec n 22) as [L|L].
  - change 4294967296 with (2 ^ 32). rewrite !Z.mod_pow2_bits_low by lia. rewrite Z.lor_spec. change 4194304 with (2 ^ 22). rewrite Z.pow2_bits_false by lia. now rewrite Bool.orb_false_r.
  - change 4194303 with (Z.ones 22). rewrite (Z.ones_spec_high 22 n) by lia. now rewrite !Bool.andb_false_r.
Qed.
Lemma fwrite_ok {W} (k : kernel W) content m size nmemb f : takes_some k content -> 0 < size <= INT_MAX -> nmemb <= INT_MAX ->
  forall fuel rest p a w, bytes_at m p rest -> zlen rest = (nmemb - a) * size -> 0 <= a -> a <= nmemb -> nmemb - a < Z.of_nat fuel ->
  exists n f' w' t, fwrite_loop k fuel m p size nmemb f a w = Ok (n, f', w') /\ a <= n <= nmemb /\
    wrote content (fileno f) (firstn (Z.to_nat ((n - a) * size)) rest ++ t) w w' /\
    (n = nmemb /\ t = [] /\ f' = f \/
     n < nmemb /\ f' = Z.lor f 4194304 /\ exists j, 0 <= j < size /\ t = firstn (Z.to_nat j) (skipn (Z.to_nat ((n - a) * size)) rest)).
Proof.
  intros Kt Hs Hn. induction fuel as [|fuel IH]; intros rest p a w B L A0 A1 Fu; [lia|]. cbn [fwrite_loop]. destruct (Z.ltb_spec a nmemb) as [LT|GE].
  - set (hd := firstn (Z.to_nat size) rest). set (tl := skipn (Z.to_nat size) rest). assert (Er : rest = hd ++ tl) by (symmetry; apply firstn_skipn).
    assert (Lh : zlen hd = size) by (unfold hd; rewrite zlen_firstn; nia). assert (Lt : zlen tl = (nmemb - (a + 1)) * size) by (rewrite Er, zlen_app in L; nia).
    assert (B2 : bytes_at m p hd /\ bytes_at m (p + size) tl) by (rewrite Er in B; apply bytes_at_app in B; rewrite Lh in B; exact B). destruct B2 as [B1 B2].
    assert (Wk : write k m (fileno f) p size w = Ok (k (fileno f) hd w)). { rewrite <- (write_ok k m (fileno f) p hd w B1) by lia. rewrite Lh. reflexivity. }
    rewrite Wk, bind_Ok. destruct (Z.eqb_spec (fst (k (fileno f) hd w)) size) as [E|NE]; cbn [negb].
    + rewrite iop_ok, bind_Ok by (unfold INT_MIN; lia).
      assert (W1 : wrote content (fileno f) hd w (snd (k (fileno f) hd w))).
      { destruct (Kt (fileno f) hd w) as [[E' _]|[_ H]]; [lia|]. rewrite E in H. rewrite firstn_all2 in H; [exact H|]. unfold zlen in Lh. lia. }
      destruct (IH tl (p + size) (a + 1) (snd (k (fileno f) hd w)) B2 Lt) as (n & f' & w' & t & E1 & N & W2 & D); [lia|lia|lia|].
      assert (EF : firstn (Z.to_nat ((n - a) * size)) rest = hd ++ firstn (Z.to_nat ((n - (a + 1)) * size)) tl).
      { rewrite Er at 1. rewrite firstn_app. rewrite firstn_all2 by (unfold zlen in Lh; nia). do 2 f_equal. unfold zlen in Lh. nia. }
      assert (ES : skipn (Z.to_nat ((n - a) * size)) rest = skipn (Z.to_nat ((n - (a + 1)) * size)) tl).
      { rewrite Er at 1. rewrite skipn_app. rewrite skipn_all2 by (unfold zlen in Lh; nia). cbn [app]. f_equal. unfold zlen in Lh. nia. }
      exists n, f', w', t. split; [exact E1|]. split; [lia|]. split; [|rewrite ES; exact D]. rewrite EF, <- app_assoc. exact (wrote_app content _ _ _ _ _ _ W1 W2).
    + exists a, (Z.lor f 4194304), (snd (k (fileno f) hd w)). replace (a - a) with 0 by lia. cbn [Z.mul Z.to_nat firstn skipn app].
      destruct (Kt (fileno f) hd w) as [[E' H]|[E' H]].
      * exists []. split; [reflexivity|]. split; [lia|]. split; [exact H|]. right. split; [exact LT|]. split; [reflexivity|]. exists 0. split; [lia|reflexivity].
      * exists (firstn (Z.to_nat (fst (k (fileno f) hd w))) hd). split; [reflexivity|]. split; [lia|]. split; [exact H|]. right. split; [exact LT|]. split; [reflexivity|].
        exists (fst (k (fileno f) hd w)). split; [lia|]. unfold hd at 2. rewrite firstn_firstn. f_equal. lia.
  - exists a, f, w, []. split; [reflexivity|]. split; [lia|]. replace (a - a) with 0 by lia. cbn. split; [apply wrote_nil|]. left. split; [lia|auto].
Qed.
