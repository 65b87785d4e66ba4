From Coq Require Import ZifyBool.
From Verif Require Import Base BaseLemmas SysModel MatchModel MextModel MtwoModel MtwoSpec MtwoProofs1.
From Verif Require MatchProofs MextProofs MextProofs3.
Ltac neqs := MatchProofs.neqs.

(* ---- single characters ---- *)
Definition char_ok (neg : bool) (t : test) (c : Z) : Prop :=
  match t with Cls _ => c <> 93 /\ neg = false | Word | NonWord => c < 160 | _ => True end.
Lemma bytewise (f g : Z -> bool) : forallb (fun n => Bool.eqb (f (Z.of_nat n)) (g (Z.of_nat n))) (seq 0 256) = true -> forall c, 0 <= c <= 255 -> f c = g c.
Proof. intros A c H. rewrite forallb_forall in A. specialize (A (Z.to_nat c)). rewrite Z2Nat.id in A by lia. apply Bool.eqb_prop, A, in_seq. lia. Qed.
Lemma digit_eq c : 0 <= c <= 255 -> isdigit (schar c) = digit c.
Proof. revert c. apply (bytewise (fun c => isdigit (schar c)) digit). vm_compute. reflexivity. Qed.
Lemma space_eq c : 0 <= c <= 255 -> isspace (schar c) = space c.
Proof. revert c. apply (bytewise (fun c => isspace (schar c)) space). vm_compute. reflexivity. Qed.
Lemma hex_eq c : 0 <= c <= 255 -> isdigit (schar c) || ((97 <=? schar c) && (schar c <=? 102)) || ((65 <=? schar c) && (schar c <=? 70)) = hex c.
Proof. revert c. apply (bytewise (fun c => isdigit (schar c) || ((97 <=? schar c) && (schar c <=? 102)) || ((65 <=? schar c) && (schar c <=? 70))) hex). vm_compute. reflexivity. Qed.
Lemma is_eq x c : 0 <= c <= 255 -> 0 <= x <= 127 -> (schar c =? x) = (c =? x).
Proof. intros H Hx. unfold schar. destruct (c <? 128) eqn:E; lia. Qed.
Lemma word_eq c : 0 <= c < 160 -> ((32 <=? schar c) && (schar c <=? 126)) || (160 <=? schar c) = word c.
Proof.
  intros H. pose proof (bytewise (fun c => (((32 <=? schar c) && (schar c <=? 126)) || (160 <=? schar c)) || (160 <=? c)) (fun c => word c || (160 <=? c)) ltac:(vm_compute; reflexivity) c ltac:(lia)) as A. cbv beta in A.
  replace (160 <=? c) with false in A by lia. rewrite !orb_false_r in A. exact A.
Qed.
Lemma nonword_eq c : 0 <= c < 160 -> (schar c <? 32) || ((126 <? schar c) && (schar c <? 160)) = negb (word c).
Proof.
  intros H. pose proof (bytewise (fun c => ((schar c <? 32) || ((126 <? schar c) && (schar c <? 160))) || (160 <=? c)) (fun c => negb (word c) || (160 <=? c)) ltac:(vm_compute; reflexivity) c ltac:(lia)) as A. cbv beta in A.
  replace (160 <=? c) with false in A by lia. rewrite !orb_false_r in A. exact A.
Qed.
Lemma item_test rec k m text c re t neg nm e : test_ok t -> 1 <= c <= 255 -> char_ok neg t c -> bytes_at m re (wtest t) -> (length (wtest t) <= k)%nat ->
  y_item rec k m text c re (hd 0 (wtest t)) neg nm e = if xorb neg (sat t c) then rec (text + 1) (re + zlen (wtest t)) nm e else Ok (0, e).
Proof.
  intros W C K B L. unfold y_item.
  assert (E2 : forall a b, a = 92 -> bytes_at m re [a; b] -> m (re + 1) = Some b) by (intros a b _ H; apply H).
  destruct t; cbn [wtest hd test_ok char_ok sat] in *; closed_eqb; cbn [orb]; cbv iota zeta; try (ld (E2 _ _ eq_refl B); unfold escape2; closed_eqb; cbv iota zeta).
  - pose proof (plain_ne _ W) as (?N & ?N & ?N & ?N & ?N & ?N & ?N & ?N & ?N & ?N & ?N & ?N & ?N & ?N & ?N & ?N & ?N). neqs. cbn [orb]. cbv iota. change (zlen [c0]) with 1. reflexivity.
  - destruct W as [W1 W2]. cbn [In] in W2.
    assert (c0 <> 0 /\ c0 <> 100 /\ c0 <> 68 /\ c0 <> 115 /\ c0 <> 83 /\ c0 <> 119 /\ c0 <> 87 /\ c0 <> 120 /\ c0 <> 110 /\ c0 <> 116) as (?N & ?N & ?N & ?N & ?N & ?N & ?N & ?N & ?N & ?N) by intuition lia.
    neqs. change (zlen [92; c0]) with 2. replace (re + 1 + 1) with (re + 2) by lia. reflexivity.
  - change (zlen [63]) with 1. destruct neg; reflexivity.
  - destruct K as [K ->]. rewrite xorb_false_l. cbn [bytes_at app] in B. destruct B as [_ B]. cbn [length] in L. rewrite app_length in L. cbn [length] in L.
    pose proof (MatchProofs.class_for_ok m c cs (re + 1) k W B ltac:(lia) ltac:(lia)) as HC. replace (c =? 93) with false in HC by lia. rewrite orb_false_r in HC.
    destruct (existsb (Z.eqb c) cs).
    + destruct HC as (a & b & E1 & E3 & E4 & ->). rewrite bind_Ok.
      assert (Hb : exists b', b = b' ++ [93] /\ cs = a ++ b').
      { destruct b as [|y b' _] using rev_ind; [congruence|]. rewrite app_assoc in E1. apply app_inj_tail in E1 as [E1 <-]. eauto. }
      destruct Hb as (b' & -> & ->). apply Forall_app in W as [W1 W2]. rewrite <- app_assoc in B. apply bytes_at_app in B as [_ B]. rewrite app_length in L.
      rewrite (MatchProofs.class_end_ok m b') by (auto; lia). rewrite bind_Ok. apply bytes_at_app in B as [_ [B _]]. ld B. closed_eqb. cbv iota.
      replace (re + 1 + zlen a + zlen b' + 1) with (re + zlen (91 :: (a ++ b') ++ [93])); [reflexivity|]. rewrite zlen_cons, !zlen_app. change (zlen [93]) with 1. lia.
    + rewrite HC, bind_Ok. reflexivity.
  - rewrite digit_eq by lia. change (zlen [92; 100]) with 2. replace (re + 1 + 1) with (re + 2) by lia. now destruct (xorb _ _).
  - rewrite digit_eq by lia. change (zlen [92; 68]) with 2. replace (re + 1 + 1) with (re + 2) by lia. now destruct (xorb _ _).
  - rewrite space_eq by lia. change (zlen [92; 115]) with 2. replace (re + 1 + 1) with (re + 2) by lia. now destruct (xorb _ _).
  - rewrite space_eq by lia. change (zlen [92; 83]) with 2. replace (re + 1 + 1) with (re + 2) by lia. now destruct (xorb _ _).
  - rewrite word_eq by lia. change (zlen [92; 119]) with 2. replace (re + 1 + 1) with (re + 2) by lia. now destruct (xorb _ _).
  - rewrite nonword_eq by lia. change (zlen [92; 87]) with 2. replace (re + 1 + 1) with (re + 2) by lia. now destruct (xorb _ _).
  - rewrite hex_eq by lia. change (zlen [92; 120]) with 2. replace (re + 1 + 1) with (re + 2) by lia. now destruct (xorb _ _).
  - rewrite is_eq by lia. change (zlen [92; 110]) with 2. replace (re + 1 + 1) with (re + 2) by lia. now destruct (xorb _ _).
  - rewrite is_eq by lia. change (zlen [92; 116]) with 2. replace (re + 1 + 1) with (re + 2) by lia. now destruct (xorb _ _).
  - rewrite space_eq by lia. reflexivity.
  - reflexivity.
  - reflexivity.
Qed.

(* ---- prefixes ---- *)
Definition y_rest (rec : Z -> Z -> Z -> ext2 -> res (Z * ext2)) (k : nat) (m : mem) (text t re c : Z) (neg : bool) (nm : Z) (e : ext2) : res (Z * ext2) :=
  if c =? 41 then
    let* r := call2 rec text (re + 1) e in
    let '(r, e) := r in Ok (if r =? 0 then 0 else text, e)
  else if c =? 125 then Ok (text, say e)
  else if c =? 123 then y_count rec k m text (re + 1) e
  else y_item rec k m text t re c neg nm e.
Lemma head_comma rec k m text t re sep c nm e : bytes_at m re (wcomma sep) -> m (re + zlen (wcomma sep)) = Some c -> (sep = false -> c <> 33 /\ c <> 44) ->
  y_head rec k m text t re nm e = y_rest rec k m text t (re + zlen (wcomma sep)) c false nm e.
Proof.
  intros B H N. unfold y_head. destruct sep; cbn [wcomma] in *.
  - destruct B as [B _]. ld B. closed_eqb. cbn [orb]. cbv iota zeta. change (zlen [44]) with 1 in *. ld H. reflexivity.
  - change (zlen (@nil Z)) with 0 in *. rewrite Z.add_0_r in *. ld H. destruct (N eq_refl) as [N1 N2]. neqs. cbn [orb]. cbv iota zeta. ld H. reflexivity.
Qed.
Lemma head_neg rec k m text t re c nm e : m re = Some 33 -> m (re + 1) = Some c -> y_head rec k m text t re nm e = y_rest rec k m text t (re + 1) c true nm e.
Proof. intros B H. unfold y_head. ld B. closed_eqb. cbn [orb]. cbv iota zeta. ld H. reflexivity. Qed.
Lemma rest_test rec k m text c re t neg nm e : test_ok t -> 1 <= c <= 255 -> char_ok neg t c -> bytes_at m re (wtest t) -> (length (wtest t) <= k)%nat ->
  y_rest rec k m text c re (hd 0 (wtest t)) neg nm e = if xorb neg (sat t c) then rec (text + 1) (re + zlen (wtest t)) nm e else Ok (0, e).
Proof.
  intros W C K B L. unfold y_rest. pose proof (wtest_hd t W) as H. cbv zeta in H. replace (hd 0 (wtest t) =? 41) with false by lia. replace (hd 0 (wtest t) =? 125) with false by lia. replace (hd 0 (wtest t) =? 123) with false by lia.
  now apply item_test.
Qed.
Lemma hd_byte m re l : bytes_at m re l -> l <> [] -> m re = Some (hd 0 l).
Proof. destruct l; [congruence|]. intros [H _] _. exact H. Qed.

(* ---- counted items ---- *)
Lemma yreset_id e : xreset (base e) = base e -> yreset e = e.
Proof. intros H. unfold yreset. rewrite H. destruct e; reflexivity. Qed.
Lemma count_call m rx sep t k : test_ok t -> bytes_at m rx (wcomma sep ++ wtest t ++ [125]) -> (length (wtest t) + 1 <= k)%nat ->
  forall ret c s e, str_at m ret (c :: s) -> char_ok false t c -> xreset (base e) = base e -> t <> Hash -> t <> Dollar ->
  call2 (y_loop k m) ret rx e = if sat t c && negb (isnil s) then Ok (ret + 1, say e) else Ok (0, e).
Proof.
  intros W B L ret c s e (H1 & H2 & H3) K Hst N1 N2. unfold call2. rewrite yreset_id by exact Hst. destruct k as [|k]; [lia|]. cbn [y_loop]. ld H1. replace (c =? 0) with false by lia. cbv iota.
  apply bytes_at_app in B as [B0 B]. apply bytes_at_app in B as [B1 [B2 _]].
  pose proof (wtest_hd t W) as Hh. cbv zeta in Hh. pose proof (wtest_len t) as Hl.
  assert (Hb : m (rx + zlen (wcomma sep)) = Some (hd 0 (wtest t))) by (apply hd_byte; [exact B1|]; destruct (wtest t); [cbn [length] in Hl; lia|discriminate]).
  rewrite (head_comma _ _ _ _ _ _ sep _ _ _ B0 Hb) by lia. rewrite rest_test by (auto; lia). rewrite xorb_false_l. destruct (sat t c); [|reflexivity]. cbn [andb].
  destruct k as [|k]; [lia|]. cbn [y_loop]. destruct s as [|x s]; cbn [isnil negb].
  - cbn [str_at] in H3. ld H3. closed_eqb. cbv iota. unfold y_end. ld B2. closed_eqb. cbv iota zeta. ld B2. closed_eqb. cbn [orb]. reflexivity.
  - destruct H3 as (H3 & H4 & _). ld H3. replace (x =? 0) with false by lia. unfold y_head. ld B2. closed_eqb. cbn [orb]. cbv iota zeta. ld B2. closed_eqb. cbv iota. reflexivity.
Qed.
Lemma rep_ok m rx sep t k : test_ok t -> bytes_at m rx (wcomma sep ++ wtest t ++ [125]) -> (length (wtest t) + 1 <= k)%nat -> t <> Hash -> t <> Dollar ->
  forall d s ret e fuel, s <> [] -> 0 < ret -> str_at m ret s -> Forall (char_ok false t) s -> xreset (base e) = base e -> (length s < fuel)%nat -> (d <= 9)%nat ->
  exists e', base e' = base e /\
  match cnt t d s with
  | Some (c :: r) => y_rep (fun ret e => call2 (y_loop k m) ret rx e) fuel (Z.of_nat d) ret e = Ok (ret + Z.of_nat d, 0, e')
  | _ => exists ret' n, 0 < n /\ y_rep (fun ret e => call2 (y_loop k m) ret rx e) fuel (Z.of_nat d) ret e = Ok (ret', n, e')
  end.
Proof.
  intros W B L N1 N2. induction d as [|d IH]; intros s ret e fuel Hne Hp Hs Hc Hst Hf Hd; (destruct fuel as [|fuel]; [lia|]); cbn [y_rep].
  - exists e. split; [reflexivity|]. cbn [cnt]. destruct s; [congruence|]. change (Z.of_nat 0) with 0. closed_eqb. cbv iota. rewrite Z.add_0_r. reflexivity.
  - replace (Z.of_nat (S d) =? 0) with false by lia. destruct s as [|c s]; [congruence|]. apply Forall_cons_iff in Hc as [Hc1 Hc2].
    rewrite (count_call m rx sep t k W B L ret c s e Hs Hc1 Hst N1 N2). cbn [cnt]. pose proof Hs as (H1 & H2 & H3).
    destruct (sat t c) eqn:Es; cbn [andb].
    2:{ exists e. split; [reflexivity|]. rewrite bind_Ok. cbv iota. closed_eqb. exists ret, (Z.of_nat (S d)). split; [lia|reflexivity]. }
    destruct s as [|x s'] eqn:Ess; cbn [isnil negb].
    { exists e. split; [reflexivity|]. rewrite bind_Ok. closed_eqb. cbv iota. destruct d as [|d]; cbn [cnt]; eexists ret, _; (split; [|reflexivity]); lia. }
    rewrite bind_Ok. rewrite <- Ess in *. pose proof (str_at_range _ _ _ Hs) as R.
    replace (ret + 1 =? 0) with false by lia.
    rewrite iop_ok by (unfold INT_MIN, INT_MAX; lia). rewrite bind_Ok. replace (Z.of_nat (S d) - 1) with (Z.of_nat d) by lia.
    destruct (IH s (ret + 1) (say (say (say (say (say e))))) fuel) as (e' & E1 & E2); [subst; discriminate|lia|exact H3|exact Hc2|exact Hst|cbn [length] in Hf; lia|lia|].
    exists e'. split; [exact E1|]. destruct (cnt t d s) as [[|y r]|]; [exact E2| |exact E2]. rewrite E2. do 3 f_equal. lia.
Qed.
