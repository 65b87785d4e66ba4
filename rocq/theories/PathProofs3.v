From Verif Require Import Base BaseLemmas PathModel PathSpec PathProofs.

Definition norm (t : list Z) : Prop := t = [] \/ last t 0 <> slash.
Definition dir_of (d : list Z) (k : nat) : list Z :=
  match d, k with [], O => [46] | [], _ => [slash] | _, _ => d end.
Lemma app_comp_norm u c : component c -> norm (u ++ c).
Proof. intros C. right. rewrite last_app_ne by apply C. now apply comp_last. Qed.
Lemma split_view s d b : path_split s d b ->
  (exists n, s = slashes n /\ d = dir_of [] n /\ b = dir_of [] n) \/
  (exists e k n, s = ((e ++ slashes k) ++ b) ++ slashes n /\ component b /\ norm e /\ (k = 0%nat -> e = []) /\ d = dir_of e k).
Proof.
  intros [ | n | c n C | k c n C | e k c n D L C].
  - left. now exists 0%nat.
  - left. now exists (S n).
  - right. exists [], 0%nat, n. split; [reflexivity|]. split; [exact C|]. split; [now left|]. auto.
  - right. exists [], (S k), n. split; [now rewrite app_assoc|]. split; [exact C|]. split; [now left|]. split; auto.
  - right. exists e, (S k), n. split; [now rewrite !app_assoc|]. split; [exact C|]. split; [now right|]. split; [discriminate|]. destruct e; [congruence|reflexivity].
Qed.
Lemma comp_unique : forall c u u' c', u ++ c = u' ++ c' -> ~ In slash c -> ~ In slash c' -> (u = [] \/ last u 0 = slash) -> (u' = [] \/ last u' 0 = slash) -> u = u' /\ c = c'.
Proof.
  assert (A : forall u c', ~ In slash c' -> (u ++ c' = [] \/ last (u ++ c') 0 = slash) -> c' = []).
  { intros u c' N H. destruct c' as [|x c'' _] using rev_ind; [reflexivity|]. exfalso. rewrite app_assoc, last_snoc in H. destruct H as [H| ->].
    - apply app_eq_nil in H as [_ H]. discriminate.
    - apply N, in_app_iff. right. now left. }
  induction c as [|x c IH] using rev_ind; intros u u' c' E N N' Hu Hu'.
  - rewrite app_nil_r in E. subst u. apply A in Hu; [|exact N']. subst c'. now rewrite app_nil_r.
  - destruct c' as [|x' c'' _] using rev_ind.
    + rewrite app_nil_r in E. subst u'. apply A in Hu'; [|exact N]. destruct c; discriminate.
    + rewrite !app_assoc in E. apply app_inj_tail in E as [E ->]. rewrite in_app_iff in N, N'.
      destruct (IH u u' c'') as [-> ->]; auto.
Qed.
Lemma ends_slash e k : (k = 0%nat -> e = []) -> e ++ slashes k = [] \/ last (e ++ slashes k) 0 = slash.
Proof.
  destruct k as [|k]; intros H; [left; now rewrite H|]. right. rewrite slashes_snoc, app_assoc. apply last_snoc.
Qed.
Lemma path_split_fun s d b d' b' : path_split s d b -> path_split s d' b' -> d' = d /\ b' = b.
Proof.
  intros H H'. apply split_view in H. apply split_view in H'.
  destruct H as [(n & E & -> & ->)|(e & k & n & E & C & Ne & K & ->)]; destruct H' as [(n' & E' & -> & ->)|(e' & k' & n' & E' & C' & Ne' & K' & ->)]; subst s.
  - change (slashes n) with ([] ++ slashes n) in E'. change (slashes n') with ([] ++ slashes n') in E'.
    apply trailing_unique in E' as [_ ->]; auto.
  - change (slashes n) with ([] ++ slashes n) in E'. apply trailing_unique in E' as [E' _]; auto; [|now apply app_comp_norm].
    symmetry in E'. apply app_eq_nil in E' as [_ E']. now apply C' in E'.
  - change (slashes n') with ([] ++ slashes n') in E'. apply trailing_unique in E' as [E' _]; auto; [|now apply app_comp_norm].
    apply app_eq_nil in E' as [_ E']. now apply C in E'.
  - apply trailing_unique in E' as [E' _]; try now apply app_comp_norm.
    apply comp_unique in E' as [E' ->]; [|apply C|apply C'|now apply ends_slash|now apply ends_slash].
    apply trailing_unique in E' as [-> ->]; auto.
Qed.
Lemma split_trailing u c n : component c -> exists d, path_split (u ++ [slash] ++ c ++ slashes n) d c.
Proof.
  intros C. destruct (trailing u) as (e & k & -> & He). destruct e as [|x e'] eqn:Ee.
  - exists [slash]. replace (([] ++ slashes k) ++ [slash] ++ c ++ slashes n) with (slashes (S k) ++ c ++ slashes n) by (cbn [app]; now rewrite slashes_snoc, <- app_assoc).
    now apply ps_top.
  - rewrite <- Ee in *. exists e. replace ((e ++ slashes k) ++ [slash] ++ c ++ slashes n) with (e ++ slashes (S k) ++ c ++ slashes n) by (now rewrite slashes_snoc, <- !app_assoc).
    apply ps_dir; [subst; discriminate| |exact C]. destruct He as [He|He]; [subst; discriminate|exact He].
Qed.
Lemma last_slashes u n : last (u ++ slashes (S n)) 0 = slash.
Proof. rewrite slashes_snoc, app_assoc. apply last_snoc. Qed.

Lemma basename_ok fuel m p s d b : p <> 0 -> str_at m p s -> path_split s d b -> (length s < fuel)%nat ->
  last s 0 <> slash \/ (exists n, s = slashes n) \/ (exists u c n, s = u ++ [slash] ++ c ++ slashes n /\ component c /\ (n <= 2)%nat) ->
  exists m' r, basename fuel m p = Ok (m', r) /\ gives m' r b /\ same_outside m m' p (zlen s).
Proof.
  intros Hp Hs Hsp Hf H.
  assert (root : forall n, s = slashes n -> exists m' r, basename fuel m p = Ok (m', r) /\ gives m' r b /\ same_outside m m' p (zlen s)).
  { intros n ->. assert (Hb : b = dir_of [] n).
    { destruct n as [|n]; [destruct (path_split_fun _ _ _ _ _ ps_empty Hsp) as [_ ->]|destruct (path_split_fun _ _ _ _ _ (ps_root n) Hsp) as [_ ->]]; reflexivity. }
    subst b. destruct n as [|n].
    - exists m, Dot. split; [|split; [reflexivity|apply same_outside_refl]]. unfold basename. assert (p =? 0 = false) as -> by lia. cbn [slashes repeat str_at] in Hs.
      rewrite (load_some _ _ _ Hs), bind_Ok. reflexivity.
    - destruct (basename_root fuel m p n Hp Hs) as (r & E & G); [unfold slashes in Hf; rewrite repeat_length in Hf; exact Hf|].
      exists m, r. split; [exact E|]. split; [exact G|apply same_outside_refl]. }
  destruct (split_view _ _ _ Hsp) as [(n & E & _)|(e & k & n & E & C & Ne & K & _)]; [eauto|].
  assert (plain : n = 0%nat -> exists m' r, basename fuel m p = Ok (m', r) /\ gives m' r b /\ same_outside m m' p (zlen s)).
  { intros ->. cbn [slashes repeat] in E. rewrite app_nil_r in E. subst s.
    destruct (basename_plain fuel m p (e ++ slashes k) b Hp C (ends_slash e k K) Hs Hf) as (r & E & G). exists m, r. split; [exact E|]. split; [exact G|apply same_outside_refl]. }
  destruct H as [H|[[n' H]|(u & c & n' & E' & C' & L)]].
  - destruct n as [|n]; [auto|]. exfalso. apply H. rewrite E. apply last_slashes.
  - eauto.
  - pose proof E' as E2. rewrite E in E2. replace (u ++ [slash] ++ c ++ slashes n') with (((u ++ [slash]) ++ c) ++ slashes n') in E2 by (now rewrite !app_assoc).
    apply trailing_unique in E2 as [E2 ->]; try now apply app_comp_norm.
    apply comp_unique in E2 as [E2 ->]; [|apply C|apply C'|now apply ends_slash|right; apply last_snoc].
    destruct n' as [|n']; [auto|]. clear E plain root. subst s. apply basename_trail; auto. lia.
Qed.
Lemma basename_single fuel m p c n : p <> 0 -> component c -> str_at m p (c ++ slashes (S n)) -> (length (c ++ slashes (S n)) < fuel)%nat ->
  exists r, basename fuel m p = Ok (m, r) /\ gives m r [slash] /\ ~ gives m r c.
Proof.
  intros Hp [C1 C2] Hs Hf. unfold basename. assert (p =? 0 = false) as -> by lia.
  pose proof (str_at_bytes _ _ _ Hs) as HB. pose proof (str_at_range _ _ _ Hs) as HR. pose proof (str_at_end _ _ _ Hs) as He.
  assert (Hc : exists x, m p = Some x /\ x <> 0).
  { destruct (c ++ slashes (S n)) as [|x r] eqn:E; [apply app_eq_nil in E as [_ E]; discriminate|]. exists x. split; [apply HB|]. apply Forall_cons_iff in HR. lia. }
  destruct Hc as (x & Hc & Hx). rewrite (load_some _ _ _ Hc), bind_Ok. assert (x =? 0 = false) as -> by lia.
  pose proof HB as HB0. apply bytes_at_app in HB as [HB1 HB2]. apply Forall_app in HR as [HR1 HR2].
  rewrite app_length in Hf. rewrite zlen_app, zlen_slashes in He. assert (Hnl : length (slashes (S n)) = S n) by apply repeat_length. rewrite Hnl in Hf.
  replace fuel with (length c + (S n + S (fuel - length c - S n - 1)))%nat by lia. rewrite base_comp by auto. nneg c. rewrite base_slashes by (auto; lia).
  rewrite base_end by (rewrite <- He; f_equal; lia). rewrite bind_Ok.
  assert (0 < zlen c) by (destruct c as [|y c']; [congruence|]; rewrite zlen_cons; pose proof (zlen_nonneg c'); lia).
  assert (p - 1 + 1 <? p + zlen c = true) as -> by lia.
  assert (1 <? p + zlen c + Z.of_nat (S n) - (p + zlen c + Z.of_nat n) = false) as -> by lia.
  assert (p + zlen c + Z.of_nat n =? p - 1 = false) as -> by lia. rewrite Z.eqb_refl.
  assert (Hl : m (p + zlen c + Z.of_nat n) = Some slash).
  { rewrite slashes_snoc in HB2. apply bytes_at_app in HB2 as [_ [HB2 _]]. rewrite zlen_slashes in HB2. exact HB2. }
  eexists. split; [reflexivity|]. cbn [gives]. split.
  - apply str_at_intro; [split; [exact Hl|exact I]|constructor; [unfold slash; lia|constructor]|]. change (zlen [slash]) with 1. rewrite <- He. f_equal. lia.
  - intros G. destruct c as [|y c']; [congruence|]. destruct G as [G _]. rewrite Hl in G. injection G as <-. apply C2. now left.
Qed.
Lemma basename_many fuel m p u c n : p <> 0 -> component c -> str_at m p (u ++ [slash] ++ c ++ slashes (3 + n)) -> (length (u ++ [slash] ++ c ++ slashes (3 + n)) < fuel)%nat ->
  exists m' r, basename fuel m p = Ok (m', r) /\ gives m' r (c ++ slashes (1 + n)).
Proof.
  intros Hp [C1 C2] Hs Hf. unfold basename. assert (p =? 0 = false) as -> by lia. cbn [Nat.add] in *.
  pose proof (str_at_bytes _ _ _ Hs) as HB. pose proof (str_at_range _ _ _ Hs) as HR. pose proof (str_at_end _ _ _ Hs) as He.
  assert (Hc : exists x, m p = Some x /\ x <> 0).
  { destruct (u ++ [slash] ++ c ++ slashes (S (S (S n)))) as [|x r] eqn:E; [apply app_eq_nil in E as [_ E]; discriminate|]. exists x. split; [apply HB|]. apply Forall_cons_iff in HR. lia. }
  destruct Hc as (x & Hc & Hx). rewrite (load_some _ _ _ Hc), bind_Ok. assert (x =? 0 = false) as -> by lia.
  rewrite app_assoc in *. set (v := u ++ [slash]) in *.
  assert (Hv : v <> [] /\ last v 0 = slash) by (split; [unfold v; destruct u; discriminate|apply last_snoc]). destruct Hv as [V1 V2].
  assert (0 < zlen v) by (unfold v; rewrite zlen_app; change (zlen [slash]) with 1; pose proof (zlen_nonneg u); lia).
  apply bytes_at_app in HB as [HB1 HB2]. apply Forall_app in HR as [HR1 HR2].
  assert (HR3 : Forall chr (c ++ slashes (S n))).
  { apply Forall_app. apply Forall_app in HR2 as [HR2 HR3]. split; [exact HR2|]. rewrite !slashes_snoc in HR3. rewrite !slashes_snoc. apply Forall_app in HR3 as [HR3 _]. apply Forall_app in HR3 as [HR3 _]. exact HR3. }
  assert (HB3 : bytes_at m (p + zlen v) ((c ++ slashes (S n)) ++ [slash; slash])).
  { replace ((c ++ slashes (S n)) ++ [slash; slash]) with (c ++ slashes (S (S (S n)))); [exact HB2|]. rewrite (slashes_snoc (S (S n))), (slashes_snoc (S n)), <- !app_assoc. reflexivity. }
  apply bytes_at_app in HB3 as [HB3 [HB4 [HB5 _]]]. rewrite zlen_app, zlen_slashes in HB4, HB5.
  apply bytes_at_app in HB2 as [HB2 HB6]. apply Forall_app in HR2 as [HR2 _].
  rewrite !app_length in Hf. rewrite !zlen_app, zlen_slashes in *.
  assert (Hnl : length (slashes (S (S (S n)))) = S (S (S n))) by apply repeat_length. rewrite Hnl in Hf.
  replace fuel with (length v + (length c + (S (S (S n)) + S (fuel - length v - length c - S (S (S n)) - 1))))%nat by lia.
  destruct (base_any m v p (p - 1) (p - 1) (length c + (S (S (S n)) + S (fuel - length v - length c - S (S (S n)) - 1))) ltac:(lia) HR1 HB1) as (a & b & E1 & E2 & E3 & _ & _).
  specialize (E3 V1 V2). assert (0 < zlen c) by (destruct c as [|y c']; [congruence|]; rewrite zlen_cons; pose proof (zlen_nonneg c'); lia).
  rewrite E1, base_comp by auto. rewrite base_slashes by (auto; lia). rewrite base_end by (rewrite <- He; f_equal; lia). rewrite bind_Ok.
  assert (b + 1 <? p + zlen v + zlen c = true) as -> by lia.
  match goal with |- context [1 <? ?x] => assert (1 <? x = false) as -> by lia end.
  match goal with |- context [?x =? p - 1] => assert (x =? p - 1 = false) as -> by lia end.
  assert (b =? p - 1 = false) as -> by lia.
  assert (Hl : m (p + zlen v + zlen c + Z.of_nat (S (S n)) - 1) = Some slash) by (rewrite <- HB4; f_equal; lia).
  rewrite (load_some _ _ _ Hl), bind_Ok. change (slash =? 47) with true. cbv iota. rewrite (store_some _ _ _ _ Hl), bind_Ok.
  assert (Hz : m (p + zlen v + zlen c + Z.of_nat (S (S n))) = Some slash) by (rewrite <- HB5; f_equal; lia).
  rewrite (store_some _ _ slash) by (rewrite upd_other by lia; exact Hz). rewrite bind_Ok. do 2 eexists. split; [reflexivity|].
  cbn [gives]. replace (b + 1) with (p + zlen v) by lia. assert (Hzl : zlen (c ++ slashes (S n)) = zlen c + Z.of_nat (S n)) by (rewrite zlen_app, zlen_slashes; reflexivity).
  apply str_at_intro; [apply bytes_at_upd; [apply bytes_at_upd; [exact HB3|lia]|lia]|exact HR3|].
  rewrite upd_other by lia. rewrite Hzl. replace (p + zlen v + (zlen c + Z.of_nat (S n))) with (p + zlen v + zlen c + Z.of_nat (S (S n)) - 1) by lia. apply upd_same.
Qed.
