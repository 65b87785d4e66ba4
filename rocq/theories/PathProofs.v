From Verif Require Import Base BaseLemmas StrModel StrSpec StrProofs PathModel PathSpec.

(* ---- splitting strings ---- *)
Lemma slashes_snoc n : slashes (S n) = slashes n ++ [slash].
Proof. unfold slashes. now rewrite <- repeat_cons. Qed.
Lemma zlen_slashes n : zlen (slashes n) = Z.of_nat n.
Proof. unfold zlen, slashes. now rewrite repeat_length. Qed.
Lemma last_snoc {A} (l : list A) x d : last (l ++ [x]) d = x.
Proof. induction l as [|a l IH]; [reflexivity|]. cbn [app last]. rewrite IH. destruct l; reflexivity. Qed.
Lemma trailing s : exists t n, s = t ++ slashes n /\ (t = [] \/ last t 0 <> slash).
Proof.
  induction s as [|x s IH] using rev_ind; [exists [], 0%nat; auto|].
  destruct (Z.eq_dec x slash) as [->|Hx].
  - destruct IH as (t & n & -> & Ht). exists t, (S n). split; [|exact Ht]. rewrite slashes_snoc. now rewrite app_assoc.
  - exists (s ++ [x]), 0%nat. split; [now rewrite app_nil_r|]. right. now rewrite last_snoc.
Qed.
Lemma trailing_unique : forall n t n' t', t ++ slashes n = t' ++ slashes n' -> (t = [] \/ last t 0 <> slash) -> (t' = [] \/ last t' 0 <> slash) -> t = t' /\ n = n'.
Proof.
  induction n as [|n IH]; intros t n' t' E Ht Ht'.
  - destruct n' as [|n']; [cbn [slashes repeat] in E; rewrite !app_nil_r in E; auto|].
    rewrite slashes_snoc, app_assoc in E. cbn [slashes repeat] in E. rewrite app_nil_r in E. subst t. exfalso. destruct Ht as [Ht|Ht].
    + now apply app_eq_nil in Ht as [_ Ht].
    + now rewrite last_snoc in Ht.
  - destruct n' as [|n'].
    + rewrite slashes_snoc, app_assoc in E. cbn [slashes repeat] in E. rewrite app_nil_r in E. subst t'. exfalso. destruct Ht' as [Ht'|Ht'].
      * now apply app_eq_nil in Ht' as [_ Ht'].
      * now rewrite last_snoc in Ht'.
    + rewrite !slashes_snoc, !app_assoc in E. apply app_inj_tail in E as [E _]. destruct (IH _ _ _ E Ht Ht') as [-> ->]. auto.
Qed.
Lemma last_comp t : t <> [] -> last t 0 <> slash -> exists u c, t = u ++ c /\ component c /\ (u = [] \/ last u 0 = slash).
Proof.
  induction t as [|x t IH] using rev_ind; [congruence|]. intros _ Hl. rewrite last_snoc in Hl.
  destruct t as [|y t'] eqn:Et.
  - exists [], [x]. split; [reflexivity|]. split; [|auto]. split; [discriminate|]. intros [->|[]]. now apply Hl.
  - rewrite <- Et in *. destruct (Z.eq_dec (last t 0) slash) as [E|E].
    + exists t, [x]. split; [reflexivity|]. split; [|auto]. split; [discriminate|]. intros [->|[]]. now apply Hl.
    + destruct IH as (u & c & -> & [C1 C2] & Hu); [subst; discriminate|exact E|].
      exists u, (c ++ [x]). split; [now rewrite app_assoc|]. split; [|exact Hu]. split; [destruct c; discriminate|].
      rewrite in_app_iff. intros [H|[->|[]]]; [contradiction|now apply Hl].
Qed.
Lemma comp_last c : component c -> last c 0 <> slash.
Proof.
  intros [C1 C2]. destruct c as [|x c _] using rev_ind; [congruence|]. rewrite last_snoc. intros ->. apply C2, in_app_iff. right. now left.
Qed.
Lemma last_app_ne (a b : list Z) : b <> [] -> last (a ++ b) 0 = last b 0.
Proof. destruct b as [|x b _] using rev_ind; [congruence|]. intros _. now rewrite app_assoc, !last_snoc. Qed.

(* every path has a dirname and a basename *)
Lemma path_split_total s : exists d b, path_split s d b.
Proof.
  destruct (trailing s) as (t & n & -> & Ht). destruct t as [|x t'] eqn:Et.
  - destruct n as [|n]; [exists [46], [46]; apply ps_empty|exists [slash], [slash]; apply (ps_root n)].
  - rewrite <- Et in *. assert (Hne : t <> []) by (subst; discriminate). destruct Ht as [Ht|Ht]; [congruence|].
    destruct (last_comp t Hne Ht) as (u & c & -> & C & Hu). rewrite <- app_assoc.
    destruct (trailing u) as (d & k & -> & Hd). destruct k as [|k].
    + cbn [slashes repeat] in *. rewrite app_nil_r in *. destruct d as [|y d'] eqn:Ed; [exists [46], c; now apply ps_plain|].
      exfalso. destruct Hd as [Hd|Hd]; [discriminate|]. destruct Hu as [Hu|Hu]; [discriminate|congruence].
    + destruct d as [|y d'] eqn:Ed.
      * exists [slash], c. cbn [app]. now apply ps_top.
      * rewrite <- Ed in *. exists d, c. rewrite <- app_assoc. apply ps_dir; [subst; discriminate| |exact C]. destruct Hd as [Hd|Hd]; [subst; discriminate|exact Hd].
Qed.

(* ---- dirname ---- *)
Definition kind (sl : bool) (c : Z) : Prop := Bool.eqb (c =? 47) sl = true.
Lemma back_none m s sl : forall run fuel, run <> [] -> Forall (kind sl) run -> bytes_at m s run -> (length run < fuel)%nat ->
  back fuel m s (zlen run - 1) sl = Ok None.
Proof.
  induction run as [|x run IH] using rev_ind; [congruence|]. intros fuel _ F B Hf. destruct fuel as [|k]; [lia|]. cbn [back].
  apply Forall_app in F as [F1 F2]. apply Forall_cons_iff in F2 as [F2 _]. apply bytes_at_app in B as [B1 [B2 _]].
  rewrite zlen_app. change (zlen [x]) with 1. replace (s + (zlen run + 1 - 1)) with (s + zlen run) by lia.
  rewrite (load_some _ _ _ B2), bind_Ok. unfold kind in F2. rewrite F2. rewrite app_length in Hf. cbn [length] in Hf. nneg run.
  destruct run as [|y run'] eqn:Er; [reflexivity|]. rewrite <- Er in *.
  assert (0 < zlen run) by (subst; rewrite zlen_cons; match goal with |- 0 < zlen ?l + 1 => pose proof (zlen_nonneg l) end; lia).
  assert (zlen run + 1 - 1 =? 0 = false) as -> by lia. replace (zlen run + 1 - 1 - 1) with (zlen run - 1) by lia.
  apply IH; auto; [subst; discriminate|lia].
Qed.
Lemma back_some m s sl x pre : forall run fuel, Forall (kind sl) run -> ~ kind sl x -> bytes_at m s ((pre ++ [x]) ++ run) -> (length run < fuel)%nat ->
  back fuel m s (zlen pre + zlen run) sl = Ok (Some (zlen pre)).
Proof.
  induction run as [|y run IH] using rev_ind; intros fuel F Nx B Hf; (destruct fuel as [|k]; [lia|]); cbn [back]; nneg pre.
  - change (zlen (@nil Z)) with 0. rewrite app_nil_r in B. apply bytes_at_app in B as [_ [B _]]. rewrite Z.add_0_r.
    rewrite (load_some _ _ _ B), bind_Ok. unfold kind in Nx. destruct (Bool.eqb (x =? 47) sl); [congruence|reflexivity].
  - apply Forall_app in F as [F1 F2]. apply Forall_cons_iff in F2 as [F2 _]. rewrite app_assoc in B. pose proof B as B0. apply bytes_at_app in B as [B1 [B2 _]].
    rewrite !zlen_app in *. change (zlen [y]) with 1 in *. change (zlen [x]) with 1 in *. nneg run.
    replace (s + (zlen pre + (zlen run + 1))) with (s + (zlen pre + 1 + zlen run)) by lia. rewrite (load_some _ _ _ B2), bind_Ok. unfold kind in F2. rewrite F2.
    assert (zlen pre + (zlen run + 1) =? 0 = false) as -> by lia. replace (zlen pre + (zlen run + 1) - 1) with (zlen pre + zlen run) by lia.
    rewrite app_length in Hf. cbn [length] in Hf. apply IH; auto. lia.
Qed.
Lemma kind_slashes n : Forall (kind true) (slashes n).
Proof. induction n; [constructor|]. constructor; [reflexivity|assumption]. Qed.
Lemma kind_comp c : ~ In slash c -> Forall (kind false) c.
Proof. intros H. apply Forall_forall. intros x Hx. unfold kind. destruct (x =? 47) eqn:E; [|reflexivity]. apply Z.eqb_eq in E. subst. contradiction. Qed.
Lemma not_kind_true x : x <> slash -> ~ kind true x.
Proof. unfold kind, slash. intros H. destruct (x =? 47) eqn:E; [lia|discriminate]. Qed.
Lemma not_kind_false : ~ kind false slash.
Proof. discriminate. Qed.

Lemma snoc_view (l : list Z) : l <> [] -> exists i, l = i ++ [last l 0].
Proof. intros H. exists (removelast l). now apply app_removelast_last. Qed.
Lemma snoc_view2 (l : list Z) : l <> [] -> exists i x, l = i ++ [x] /\ last l 0 = x.
Proof. intros H. destruct (snoc_view l H) as [i E]. now exists i, (last l 0). Qed.

Lemma dirname_ok fuel m p s d b : p <> 0 -> str_at m p s -> zlen s <= INT_MAX -> path_split s d b -> (length s < fuel)%nat ->
  exists m' r, dirname fuel m p = Ok (m', r) /\ gives m' r d /\ (forall q, r = At q -> q = p) /\ same_outside m m' p (zlen s).
Proof.
  intros Hp Hs Hmax Hsp Hf. unfold dirname. assert (p =? 0 = false) as -> by lia.
  pose proof (str_at_bytes _ _ _ Hs) as HB. pose proof (str_at_range _ _ _ Hs) as HR.
  destruct s as [|c0 s0] eqn:Es.
  - assert (d = [46]).
    { clear - Hsp. remember [] as z eqn:Ez in Hsp. destruct Hsp as [ | n | c n C | k c n C | dd k c n D L C]; auto; try discriminate.
      apply app_eq_nil in Ez as [Ez _]. contradiction. }
    subst d. pose proof (str_at_end _ _ _ Hs) as He. change (zlen (@nil Z)) with 0 in *. rewrite Z.add_0_r in He.
    rewrite (load_some _ _ _ He), bind_Ok. change (0 =? 0) with true. cbv iota. do 2 eexists. split; [reflexivity|]. split; [reflexivity|]. split; [discriminate|]. apply same_outside_refl.
  - rewrite <- Es in *. assert (Hc0 : m p = Some c0) by (subst s; apply HB). assert (1 <= c0 <= 255) by (subst s; apply Forall_cons_iff in HR; apply HR).
    rewrite (load_some _ _ _ Hc0), bind_Ok. assert (c0 =? 0 = false) as -> by lia.
    rewrite (strlen_ok s) by auto. rewrite bind_Ok.
    assert (Hne : s <> []) by (subst; discriminate). clear c0 s0 Es Hc0 H.
    destruct Hsp as [ | n | c n C | k c n C | d k c n D L C].
    + congruence.
    + rewrite (back_none m p true) by (auto using kind_slashes; discriminate). rewrite bind_Ok.
      do 2 eexists. split; [reflexivity|]. split; [reflexivity|]. split; [discriminate|]. apply same_outside_refl.
    + pose proof C as [C1 C2]. destruct (snoc_view2 c C1) as (ci & x & Ec & Lc). pose proof (comp_last c C) as Hl. rewrite Lc in Hl.
      rewrite app_length in Hf.
      replace (zlen (c ++ slashes n) - 1) with (zlen ci + zlen (slashes n)) by (rewrite Ec, !zlen_app; change (zlen [x]) with 1; lia).
      rewrite (back_some m p true x ci) by (auto using kind_slashes, not_kind_true; try (now rewrite <- Ec); try lia). rewrite bind_Ok.
      apply bytes_at_app in HB as [HB _].
      replace (zlen ci) with (zlen c - 1) by (rewrite Ec, zlen_app; change (zlen [x]) with 1; lia).
      rewrite (back_none m p false) by (auto using kind_comp; lia). rewrite bind_Ok.
      do 2 eexists. split; [reflexivity|]. split; [reflexivity|]. split; [discriminate|]. apply same_outside_refl.
    + pose proof C as [C1 C2]. destruct (snoc_view2 c C1) as (ci & x & Ec & Lc). pose proof (comp_last c C) as Hl. rewrite Lc in Hl.
      rewrite !app_length in Hf. rewrite !app_assoc in HB.
      replace (zlen (slashes (S k) ++ c ++ slashes n) - 1) with (zlen (slashes (S k) ++ ci) + zlen (slashes n)) by (rewrite Ec, !zlen_app; change (zlen [x]) with 1; lia).
      rewrite (back_some m p true x (slashes (S k) ++ ci)) by (auto using kind_slashes, not_kind_true; try (rewrite <- (app_assoc _ ci), <- Ec; exact HB); try lia). rewrite bind_Ok.
      apply bytes_at_app in HB as [HB _]. rewrite slashes_snoc in HB.
      replace (zlen (slashes (S k) ++ ci)) with (zlen (slashes k) + zlen c) by (rewrite Ec, !zlen_app, !zlen_slashes; change (zlen [x]) with 1; lia).
      rewrite (back_some m p false slash (slashes k)) by (auto using kind_comp, not_kind_false; lia). rewrite bind_Ok.
      apply bytes_at_app in HB as [HB _]. rewrite <- slashes_snoc in HB.
      replace (zlen (slashes k)) with (zlen (slashes (S k)) - 1) by (rewrite !zlen_slashes; lia).
      rewrite (back_none m p true) by (auto using kind_slashes; try discriminate; try lia). rewrite bind_Ok.
      do 2 eexists. split; [reflexivity|]. split; [reflexivity|]. split; [discriminate|]. apply same_outside_refl.
    + pose proof C as [C1 C2]. destruct (snoc_view2 c C1) as (ci & x & Ec & Lc). pose proof (comp_last c C) as Hl. rewrite Lc in Hl.
      rewrite !app_length in Hf. rewrite !app_assoc in HB.
      replace (zlen (d ++ slashes (S k) ++ c ++ slashes n) - 1) with (zlen ((d ++ slashes (S k)) ++ ci) + zlen (slashes n)) by (rewrite Ec, !zlen_app; change (zlen [x]) with 1; lia).
      rewrite (back_some m p true x ((d ++ slashes (S k)) ++ ci)) by (auto using kind_slashes, not_kind_true; try (rewrite <- (app_assoc _ ci), <- Ec; exact HB); try lia). rewrite bind_Ok.
      apply bytes_at_app in HB as [HB _]. rewrite slashes_snoc, app_assoc in HB.
      replace (zlen ((d ++ slashes (S k)) ++ ci)) with (zlen (d ++ slashes k) + zlen c) by (rewrite Ec, !zlen_app, !zlen_slashes; change (zlen [x]) with 1; lia).
      rewrite (back_some m p false slash (d ++ slashes k)) by (auto using kind_comp, not_kind_false; lia). rewrite bind_Ok.
      apply bytes_at_app in HB as [HB _]. rewrite <- app_assoc, <- slashes_snoc in HB.
      destruct (snoc_view2 d D) as (di & y & Ed & Ld). rewrite Ld in L.
      replace (zlen (d ++ slashes k)) with (zlen di + zlen (slashes (S k))) by (rewrite Ed, !zlen_app, !zlen_slashes; change (zlen [y]) with 1; lia).
      rewrite (back_some m p true y di) by (auto using kind_slashes, not_kind_true; try (now rewrite <- Ed); try lia). rewrite bind_Ok.
      assert (Hdl : zlen di + 1 = zlen d) by (rewrite Ed, zlen_app; reflexivity). nneg di.
      assert (Hslash : m (p + zlen d) = Some slash) by (apply bytes_at_app in HB as [_ HB]; apply HB).
      rewrite (store_some m (p + (zlen di + 1)) slash 0) by (rewrite Hdl; exact Hslash). rewrite bind_Ok. rewrite Hdl.
      do 2 eexists. split; [reflexivity|]. split; [|split; [intros q Eq; congruence|]].
      * cbn [gives]. apply str_at_intro.
        -- apply bytes_at_upd; [apply bytes_at_app in HB; apply HB|lia].
        -- apply Forall_app in HR. apply HR.
        -- apply upd_same.
      * apply same_outside_upd. rewrite !zlen_app, !zlen_slashes. nneg c. nneg d. lia.
Qed.

(* ---- basename ---- *)
Definition chr (c : Z) : Prop := 1 <= c <= 255.
Lemma base_step m p c a b fuel : m p = Some c -> chr c ->
  base_loop (S fuel) m p a b = if c =? 47 then base_loop fuel m (p + 1) (if b + 1 <? p then b else a) p else base_loop fuel m (p + 1) a b.
Proof. intros H C. cbn [base_loop]. rewrite (load_some _ _ _ H), bind_Ok. unfold chr in C. assert (c =? 0 = false) as -> by lia. reflexivity. Qed.
Lemma base_comp m a b : forall c p fuel, ~ In slash c -> Forall chr c -> bytes_at m p c ->
  base_loop (length c + fuel) m p a b = base_loop fuel m (p + zlen c) a b.
Proof.
  induction c as [|x c IH]; intros p fuel N F B.
  - change (zlen (@nil Z)) with 0. now rewrite Z.add_0_r.
  - destruct B as [B1 B2]. apply Forall_cons_iff in F as [F1 F2]. cbn [length Nat.add]. rewrite (base_step m p x) by auto.
    assert (x =? 47 = false) as -> by (apply Z.eqb_neq; intros ->; apply N; now left).
    rewrite IH; auto; [zl; f_equal; lia|]. intros H. apply N. now right.
Qed.
Lemma base_slashes m : forall k a b p fuel, b < p -> bytes_at m p (slashes (S k)) ->
  base_loop (S k + fuel) m p a b = base_loop fuel m (p + Z.of_nat (S k)) (if b + 1 <? p then b else a) (p + Z.of_nat k).
Proof.
  induction k as [|k IH]; intros a b p fuel L B.
  - cbn [slashes repeat] in B. destruct B as [B _]. cbn [Nat.add]. rewrite (base_step m p slash) by (auto; unfold chr, slash; lia).
    change (slash =? 47) with true. cbv iota. f_equal; lia.
  - change (slashes (S (S k))) with (slash :: slashes (S k)) in B. destruct B as [B1 B2]. change (S (S k) + fuel)%nat with (S (S k + fuel)).
    rewrite (base_step m p slash) by (auto; unfold chr, slash; lia).
    change (slash =? 47) with true. cbv iota. rewrite IH by (auto; lia). assert (p + 1 <? p + 1 = false) as -> by lia.
    f_equal; lia.
Qed.
Lemma base_any m : forall u p a b fuel, b < p -> Forall chr u -> bytes_at m p u -> exists a' b',
  base_loop (length u + fuel) m p a b = base_loop fuel m (p + zlen u) a' b' /\ b' < p + zlen u /\ (u <> [] -> last u 0 = slash -> b' = p + zlen u - 1) /\ (u = [] -> b' = b) /\ (b <= b').
Proof.
  induction u as [|x u IH]; intros p a b fuel L F B.
  - exists a, b. change (zlen (@nil Z)) with 0. rewrite Z.add_0_r. split; [reflexivity|]. split; [lia|]. split; [congruence|]. split; [auto|lia].
  - destruct B as [B1 B2]. apply Forall_cons_iff in F as [F1 F2]. cbn [length Nat.add]. rewrite (base_step m p x) by auto.
    assert (Hz : zlen (x :: u) = zlen u + 1) by (zl; lia). rewrite Hz. replace (p + (zlen u + 1)) with (p + 1 + zlen u) by lia.
    destruct (x =? 47) eqn:E.
    + destruct (IH (p + 1) (if b + 1 <? p then b else a) p fuel ltac:(lia) F2 B2) as (a' & b' & E1 & E2 & E3 & E4 & E5).
      exists a', b'. split; [exact E1|]. split; [lia|]. split; [|split; [discriminate|lia]]. intros _ Hl. destruct u as [|y u'].
      * rewrite E4 by reflexivity. change (zlen (@nil Z)) with 0. lia.
      * rewrite E3; [lia|discriminate|exact Hl].
    + destruct (IH (p + 1) a b fuel ltac:(lia) F2 B2) as (a' & b' & E1 & E2 & E3 & E4 & E5).
      exists a', b'. split; [exact E1|]. split; [lia|]. split; [|split; [discriminate|lia]]. intros _ Hl. destruct u as [|y u'].
      * cbn [last] in Hl. unfold slash in Hl. lia.
      * rewrite E3; [lia|discriminate|exact Hl].
Qed.
Lemma base_end m p a b fuel : m p = Some 0 -> base_loop (S fuel) m p a b = Ok (p, a, b).
Proof. intros H. cbn [base_loop]. rewrite (load_some _ _ _ H), bind_Ok. reflexivity. Qed.

Lemma basename_root fuel m p n : p <> 0 -> str_at m p (slashes (S n)) -> (S n < fuel)%nat ->
  exists r, basename fuel m p = Ok (m, r) /\ gives m r [slash].
Proof.
  intros Hp Hs Hf. unfold basename. assert (p =? 0 = false) as -> by lia. pose proof (str_at_bytes _ _ _ Hs) as HB.
  pose proof (str_at_end _ _ _ Hs) as He. rewrite zlen_slashes in He.
  assert (Hc : m p = Some slash) by apply HB. rewrite (load_some _ _ _ Hc), bind_Ok. change (slash =? 0) with false. cbv iota.
  replace fuel with (S n + S (fuel - S n - 1))%nat by lia. rewrite base_slashes by (auto; lia). rewrite base_end by exact He. rewrite bind_Ok.
  assert (p - 1 + 1 <? p = false) as -> by lia. assert (1 <? p + Z.of_nat (S n) - (p + Z.of_nat n) = false) as -> by lia.
  assert (p + Z.of_nat n =? p - 1 = false) as -> by lia. rewrite Z.eqb_refl. eexists. split; [reflexivity|].
  cbn [gives]. apply str_at_intro.
  - replace (slashes (S n)) with (slashes n ++ [slash]) in HB by (now rewrite slashes_snoc). apply bytes_at_app in HB as [_ HB]. now rewrite zlen_slashes in HB.
  - constructor; [unfold slash; lia|constructor].
  - change (zlen [slash]) with 1. replace (p + Z.of_nat n + 1) with (p + Z.of_nat (S n)) by lia. exact He.
Qed.
Lemma basename_plain fuel m p u c : p <> 0 -> component c -> (u = [] \/ last u 0 = slash) -> str_at m p (u ++ c) -> (length (u ++ c) < fuel)%nat ->
  exists r, basename fuel m p = Ok (m, r) /\ gives m r c.
Proof.
  intros Hp [C1 C2] Hu Hs Hf. unfold basename. assert (p =? 0 = false) as -> by lia.
  pose proof (str_at_bytes _ _ _ Hs) as HB. pose proof (str_at_range _ _ _ Hs) as HR. pose proof (str_at_end _ _ _ Hs) as He.
  assert (Hc : exists x, m p = Some x /\ x <> 0).
  { destruct (u ++ c) as [|x r] eqn:E; [apply app_eq_nil in E as [_ E]; congruence|]. exists x. split; [apply HB|]. apply Forall_cons_iff in HR. lia. }
  destruct Hc as (x & Hc & Hx). rewrite (load_some _ _ _ Hc), bind_Ok. assert (x =? 0 = false) as -> by lia.
  apply bytes_at_app in HB as [HB1 HB2]. apply Forall_app in HR as [HR1 HR2]. rewrite app_length in Hf. rewrite zlen_app in He.
  replace fuel with (length u + (length c + S (fuel - length u - length c - 1)))%nat by lia.
  destruct (base_any m u p (p - 1) (p - 1) (length c + S (fuel - length u - length c - 1)) ltac:(lia) HR1 HB1) as (a & b & E1 & E2 & E3 & E4 & E5).
  rewrite E1, base_comp by auto. rewrite base_end by (rewrite <- He; f_equal; lia). rewrite bind_Ok.
  assert (Hb : b = p + zlen u - 1). { destruct Hu as [Hu|Hu]; [|destruct u as [|y u'] eqn:Eu; [|apply E3; [discriminate|exact Hu]]]; rewrite E4 by auto; subst; change (zlen (@nil Z)) with 0; lia. }
  assert (0 < zlen c) by (destruct c as [|y c']; [congruence|]; rewrite zlen_cons; pose proof (zlen_nonneg c'); lia).
  assert (1 <? p + zlen u + zlen c - b = true) as -> by lia. eexists. split; [reflexivity|]. cbn [gives].
  apply str_at_intro.
  - replace (b + 1) with (p + zlen u) by lia. exact HB2.
  - exact HR2.
  - rewrite <- He. f_equal. lia.
Qed.
Lemma basename_trail fuel m p u c n : p <> 0 -> component c -> (n = 1 \/ n = 2)%nat -> str_at m p (u ++ [slash] ++ c ++ slashes n) -> (length (u ++ [slash] ++ c ++ slashes n) < fuel)%nat ->
  exists m' r, basename fuel m p = Ok (m', r) /\ gives m' r c /\ same_outside m m' p (zlen (u ++ [slash] ++ c ++ slashes n)).
Proof.
  intros Hp [C1 C2] Hn Hs Hf. unfold basename. assert (p =? 0 = false) as -> by lia.
  pose proof (str_at_bytes _ _ _ Hs) as HB. pose proof (str_at_range _ _ _ Hs) as HR. pose proof (str_at_end _ _ _ Hs) as He.
  assert (Hc : exists x, m p = Some x /\ x <> 0).
  { destruct (u ++ [slash] ++ c ++ slashes n) as [|x r] eqn:E; [apply app_eq_nil in E as [_ E]; discriminate|]. exists x. split; [apply HB|]. apply Forall_cons_iff in HR. lia. }
  destruct Hc as (x & Hc & Hx). rewrite (load_some _ _ _ Hc), bind_Ok. assert (x =? 0 = false) as -> by lia.
  rewrite app_assoc in *. set (v := u ++ [slash]) in *.
  assert (Hv : v <> [] /\ last v 0 = slash) by (split; [unfold v; destruct u; discriminate|apply last_snoc]). destruct Hv as [V1 V2].
  assert (0 < zlen v) by (unfold v; rewrite zlen_app; change (zlen [slash]) with 1; pose proof (zlen_nonneg u); lia).
  apply bytes_at_app in HB as [HB1 HB2]. apply bytes_at_app in HB2 as [HB2 HB3]. apply Forall_app in HR as [HR1 HR2]. apply Forall_app in HR2 as [HR2 _].
  rewrite !app_length in Hf. rewrite !zlen_app, zlen_slashes in *.
  assert (Hnl : length (slashes n) = n) by apply repeat_length. rewrite Hnl in Hf.
  replace fuel with (length v + (length c + (n + S (fuel - length v - length c - n - 1))))%nat by lia.
  destruct (base_any m v p (p - 1) (p - 1) (length c + (n + S (fuel - length v - length c - n - 1))) ltac:(lia) HR1 HB1) as (a & b & E1 & E2 & E3 & _ & _).
  specialize (E3 V1 V2). assert (0 < zlen c) by (destruct c as [|y c']; [congruence|]; rewrite zlen_cons; pose proof (zlen_nonneg c'); lia).
  rewrite E1, base_comp by auto. destruct n as [|k]; [lia|]. rewrite base_slashes by (auto; lia). rewrite base_end by (rewrite <- He; f_equal; lia). rewrite bind_Ok.
  assert (b + 1 <? p + zlen v + zlen c = true) as -> by lia.
  assert (1 <? p + zlen v + zlen c + Z.of_nat (S k) - (p + zlen v + zlen c + Z.of_nat k) = false) as -> by lia.
  assert (p + zlen v + zlen c + Z.of_nat k =? p - 1 = false) as -> by lia.
  assert (b =? p - 1 = false) as -> by lia.
  destruct (snoc_view2 c C1) as (ci & y & Ec & Lc). assert (Hy : y <> slash) by (intros ->; apply C2; rewrite Ec, in_app_iff; right; now left).
  assert (Hcl : zlen c = zlen ci + 1) by (rewrite Ec, zlen_app; reflexivity).
  destruct Hn as [Hn|Hn]; injection Hn as ->.
  - assert (Hl : m (p + zlen v + zlen c + Z.of_nat 0 - 1) = Some y).
    { rewrite Ec in HB2. apply bytes_at_app in HB2 as [_ [HB2 _]]. rewrite <- HB2. f_equal. lia. }
    rewrite (load_some _ _ _ Hl), bind_Ok. assert (y =? 47 = false) as -> by (unfold slash in Hy; lia). rewrite bind_Ok.
    assert (Hz : m (p + zlen v + zlen c + Z.of_nat 0) = Some slash) by (rewrite Z.add_0_r; apply HB3).
    rewrite (store_some _ _ _ _ Hz), bind_Ok. do 2 eexists. split; [reflexivity|]. split.
    + cbn [gives]. replace (b + 1) with (p + zlen v) by lia. apply str_at_intro; [apply bytes_at_upd; [exact HB2|lia]|exact HR2|]. rewrite Z.add_0_r. apply upd_same.
    + apply same_outside_upd. lia.
  - assert (Hl : m (p + zlen v + zlen c + Z.of_nat 1 - 1) = Some slash) by (rewrite <- (proj1 HB3); f_equal; lia).
    rewrite (load_some _ _ _ Hl), bind_Ok. change (slash =? 47) with true. cbv iota. rewrite (store_some _ _ _ _ Hl), bind_Ok.
    assert (Hz : m (p + zlen v + zlen c + Z.of_nat 1) = Some slash) by (rewrite <- (proj1 (proj2 HB3)); f_equal; lia).
    rewrite (store_some _ _ slash) by (rewrite upd_other by lia; exact Hz). rewrite bind_Ok. do 2 eexists. split; [reflexivity|]. split.
    + cbn [gives]. replace (b + 1) with (p + zlen v) by lia. apply str_at_intro; [apply bytes_at_upd; [apply bytes_at_upd; [exact HB2|lia]|lia]|exact HR2|].
      rewrite upd_other by lia. replace (p + zlen v + zlen c + Z.of_nat 1 - 1) with (p + zlen v + zlen c) by lia. apply upd_same.
    + eapply same_outside_trans; apply same_outside_upd; lia.
Qed.
