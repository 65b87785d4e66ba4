From Verif Require Import Base BaseLemmas SysModel MatchModel MatchSpec MatchProofs MatchProofs2 MatchProofs3.

Lemma matches_mono b p s : matches b p s -> b = false -> matches true p s.
Proof.
  induction 1 as [b|b i c p0 s Hs H IH|b p0 s H IH|b c p0 s H IH|b i p0 a s Hi Ha H IH|b i p0 Hi H IH|p0 s H IH]; intros Hb; try discriminate.
  - constructor.
  - now apply m_one.
  - apply m_star. auto.
  - now apply m_star_more.
  - now apply m_plus.
  - now apply m_end.
Qed.
Lemma matches_flag b p s : matches b p s -> first_real p <> Some At -> matches false p s.
Proof.
  induction 1 as [b|b i c p0 s Hs H IH|b p0 s H IH|b c p0 s H IH|b i p0 a s Hi Ha H IH|b i p0 Hi H IH|p0 s H IH]; intros Hb.
  - constructor.
  - now apply m_one.
  - apply m_star. auto.
  - now apply m_star_more.
  - now apply m_plus.
  - now apply m_end.
  - now cbn in Hb.
Qed.
Definition wrap (p : list item) (pos : Z) (s : list Z) : option cap :=
  match p with
  | At :: q | Star :: At :: q => match run q pos s with Some c => Some c | None => run p pos s end
  | _ => run p pos s
  end.
Lemma hdb_at2 p : Forall item_ok p -> (hdb p =? 64) = match p with At :: _ => true | _ => false end.
Proof.
  destruct p as [|i p]; [reflexivity|]. intros F. apply Forall_cons_iff in F as [F _].
  destruct i as [[] []| | | | | | | | ]; cbn [hdb write write1 app hd] in *; try reflexivity. apply plain_ne in F. lia.
Qed.
Lemma match_run fuel m text re st p s : Forall item_ok p -> str_at m text s -> str_at m re (pattern p) -> zlen s <= INT_MAX ->
  (length s + length (pattern p) < fuel)%nat -> match_ fuel m text re st = out st (wrap p text s).
Proof.
  intros F Hs Hre Hmax Hf. unfold match_, match0.
  assert (out_reset : forall r, out (reset st) r = out st r) by (intros [c|]; cbn [out]; rewrite ?put_reset, ?reset_reset; reflexivity).
  assert (P : m_loop fuel m text re (reset st) = out st (run p text s)) by (rewrite <- out_reset; apply m_loop_ok; auto; apply reset_reset).
  rewrite (load_some _ _ _ (hdb_at _ _ _ Hre)), bind_Ok.
  assert (Q : forall q r, Forall item_ok q -> str_at m (re + r) (pattern q) -> r <> 0 -> (length (pattern q) <= length (pattern p))%nat ->
     (if r =? 0 then m_loop fuel m text re (reset st) else
      let* a := m_loop fuel m text (re + r) (reset st) in let '(v, st1) := a in if v =? 1 then Ok (1, st1) else m_loop fuel m text re (reset st1)) =
     out st (match run q text s with Some c => Some c | None => run p text s end)).
  { intros q r Fq Hq Hr Hl. assert (r =? 0 = false) as -> by lia. rewrite (m_loop_ok q Fq s fuel m text (re + r) (reset st)) by (auto using reset_reset; lia). rewrite out_reset.
    destruct (run q text s) as [c|]; cbn [out]; rewrite bind_Ok; [reflexivity|]. change (0 =? 1) with false. cbv iota. rewrite reset_reset. exact P. }
  destruct p as [|i p]; [exact P|]. pose proof F as F0. apply Forall_cons_iff in F as [W F].
  assert (Hlen : forall j l, (length (pattern l) <= length (pattern (j :: l)))%nat) by (intros j l; unfold pattern; cbn [flat_map]; rewrite app_length; lia).
  assert (N : hdb (i :: p) <> 42 -> hdb (i :: p) <> 64 -> (if hdb (i :: p) =? 42 then let* d := load m (re + 1) in Ok (if d =? 64 then 2 else 0) else Ok (if hdb (i :: p) =? 64 then 1 else 0)) = Ok 0).
  { intros A B. now rewrite (proj2 (Z.eqb_neq _ _) A), (proj2 (Z.eqb_neq _ _) B). }
  pose proof (at_next _ _ _ _ Hre) as Hn.
  destruct i as [n s0| |cs| | | | | | ]; try (rewrite N by (cbn; try discriminate); rewrite bind_Ok; exact P).
  - rewrite N, bind_Ok; [exact P| |]; destruct n, s0; cbn; try discriminate; cbn in W; apply plain_ne in W; lia.
  - cbn [hdb write hd]. change (42 =? 42) with true. cbv iota. change (zlen (write Star)) with 1 in Hn. rewrite (load_some _ _ _ (hdb_at _ _ _ Hn)), bind_Ok, bind_Ok.
    rewrite hdb_at2 by exact F. destruct p as [|j p']; [exact P|]. destruct j; try exact P.
    apply Forall_cons_iff in F as [_ F]. apply at_next in Hn. change (zlen (write At)) with 1 in Hn. cbn [wrap].
    apply (Q p' 2); auto; [replace (re + 2) with (re + 1 + 1) by lia; exact Hn|lia|]. etransitivity; [apply (Hlen At)|apply Hlen].
  - cbn [hdb write hd]. change (64 =? 42) with false. change (64 =? 64) with true. cbv iota. rewrite bind_Ok. cbn [wrap]. apply (Q p 1); auto. lia.
Qed.

Lemma wrap_iff p pos s : Forall (fun c => 1 <= c <= 255) s -> supported p s -> (wrap p pos s <> None <-> matches true p s).
Proof.
  intros R (_ & S1 & S2 & S3 & SA & S4). assert (S : supp p s) by (split; [|split; [|split]]; assumption).
  assert (Q : forall i q, p = i :: q \/ p = Star :: i :: q -> first_real q <> Some At -> (run q pos s <> None <-> matches true q s)).
  { intros i q Hq Hfr. assert (Sq : supp q s) by (destruct Hq as [-> | ->]; [now apply supp_tail in S|apply supp_tail in S; now apply supp_tail in S]).
    rewrite (run_iff q pos s R Sq). split; [intros H; now apply (matches_mono _ _ _ H)|intros H; now apply (matches_flag _ _ _ H)]. }
  pose proof (run_iff p pos s R S) as P.
  assert (N : first_real p <> Some At -> (run p pos s <> None <-> matches true p s)).
  { intros Hfr. rewrite P. split; [intros H; now apply (matches_mono _ _ _ H)|intros H; now apply (matches_flag _ _ _ H)]. }
  assert (O : forall q, (match run q pos s with Some c => Some c | None => run p pos s end) <> None <-> run q pos s <> None \/ run p pos s <> None).
  { intros q. destruct (run q pos s) as [c|]; [split; [intros _; left; discriminate|intros _; discriminate]|]. split; [auto|intros [H|H]; [congruence|exact H]]. }
  destruct p as [|i p]; [apply N; exact SA|].
  destruct i; try (apply N; exact SA).
  - destruct p as [|j p]; [apply N; exact SA|]. destruct j; try (apply N; exact SA). cbn [wrap]. rewrite O. rewrite P, (Q At p) by auto. split.
    + intros [H|H]; [apply m_star, m_start, H|now apply (matches_mono _ _ _ H)].
    + intros H. inversion H as [|b i0 c p0 s0 Hs H1|b p0 s0 H1|b c p0 s0 H1|b i0 p0 a s0 Hi Ha H1|b i0 p0 Hi H1|p0 s0 H1]; subst.
      * discriminate.
      * inversion H1 as [|b i0 c p0 s0 Hs H2|b p0 s0 H2|b c p0 s0 H2|b i0 p0 a s0 Hi Ha H2|b i0 p0 Hi H2|p0 s0 H2]; subst.
        -- right. apply m_star. now apply m_one.
        -- destruct Hi; discriminate.
        -- destruct Hi; discriminate.
        -- now left.
      * right. now apply m_star_more.
      * destruct Hi; discriminate.
      * destruct Hi; discriminate.
  - cbn [wrap]. rewrite O. rewrite P, (Q At p) by auto. split.
    + intros [H|H]; [apply m_start, H|now apply (matches_mono _ _ _ H)].
    + intros H. inversion H as [|b i0 c p0 s0 Hs H1|b p0 s0 H1|b c p0 s0 H1|b i0 p0 a s0 Hi Ha H1|b i0 p0 Hi H1|p0 s0 H1]; subst.
      * right. now apply m_one.
      * destruct Hi; discriminate.
      * destruct Hi; discriminate.
      * now left.
Qed.

(* ---- what '%' stands for ---- *)
Lemma supp_app pre p s : supp (pre ++ p) s -> supp p s.
Proof. induction pre as [|i pre IH]; [auto|]. intros H. apply IH. now apply supp_tail in H. Qed.
Lemma run_cap post : forall pre pos s c, Forall (fun c => 1 <= c <= 255) s -> supp (pre ++ Take :: post) s -> ~ In Take pre -> run (pre ++ Take :: post) pos s = Some c ->
  exists a x b, s = a ++ x ++ b /\ matches false pre a /\ taken post x b /\ c = Some (pos + zlen a, zlen x).
Proof.
  induction pre as [|i pre IH]; intros pos s c R S N E.
  - cbn [app] in *. assert (Hne : s <> []).
    { intros ->. assert (M : matches false (Take :: post) []) by (apply (run_iff _ pos); [constructor|exact S|congruence]).
      apply plus_iff in M as (a & r & Ea & Ha & _); [|auto]. symmetry in Ea. apply app_eq_nil in Ea as [Ea _]. contradiction. }
    destruct s as [|y s]; [congruence|]. cbn [run] in E. destruct s as [|z s']; [discriminate|]. set (s := z :: s') in *.
    assert (CO : exists j, In j post /\ consumes j = true) by (destruct S as (_ & _ & C & _); apply (C [] Take post eq_refl (or_intror eq_refl))).
    assert (Hp : post <> []) by (destruct CO as (j & Hj & _); destruct post; [destruct Hj|discriminate]).
    destruct post as [|j post'] eqn:Ep; [congruence|]. rewrite <- Ep in *.
    rewrite (supp_final _ _ _ S eq_refl) in E. destruct (find (run post) false (pos + 1) s) as [[e cp]|] eqn:EF; [|discriminate].
    injection E as <-. apply find_some in EF as (a & r & Es & Hr & -> & E2 & E3). pose proof (supp_tail _ _ _ S) as S'.
    apply Forall_cons_iff in R as [Ry R]. assert (Rr : Forall (fun c => 1 <= c <= 255) r) by (rewrite Es in R; apply Forall_app in R; apply R).
    exists [], (y :: a), r. split; [cbn [app]; now rewrite Es|]. split; [constructor|]. split.
    + split; [discriminate|]. split.
      * apply (run_iff post (pos + 1 + zlen a)); [exact Rr| |congruence]. eapply supp_text; [exact S'|]. intros x Hx. right. rewrite Es. apply in_app_iff. auto.
      * intros x' b' Ex Hx' M. destruct x' as [|w x'']; [congruence|]. cbn [app] in Ex. injection Ex as <- Ex. rewrite !zlen_cons.
        destruct (Z_lt_le_dec (zlen x'') (zlen a)) as [L|L]; [|lia]. exfalso. rewrite <- Es in Ex.
        assert (Hb' : b' <> []) by (intros ->; now apply (consumes_ne _ CO) in M).
        assert (Rb : Forall (fun c => 1 <= c <= 255) b') by (rewrite Ex in R; apply Forall_app in R; apply R).
        assert (Sb : supp post b') by (eapply supp_text; [exact S'|]; intros x Hx; right; rewrite Ex; apply in_app_iff; auto).
        apply (run_iff post (pos + 1 + zlen x'') b' Rb Sb) in M. apply M. apply (E3 x'' b' Ex Hb'). unfold zlen in L. lia.
    + change (zlen (@nil Z)) with 0. rewrite zlen_cons. do 2 f_equal; lia.
  - cbn [app] in *. pose proof (supp_tail _ _ _ S) as S'. assert (N' : ~ In Take pre) by (intros H; apply N; now right).
    assert (Hi : i <> Take) by (intros ->; apply N; now left).
    destruct s as [|y s].
    { exfalso. assert (M : matches false (i :: pre ++ Take :: post) []) by (apply (run_iff _ pos); [constructor|exact S|congruence]).
      revert M. apply consumes_ne. exists Take. split; [right; apply in_app_iff; right; now left|reflexivity]. }
    apply Forall_cons_iff in R as [Ry R]. assert (S2 : supp (pre ++ Take :: post) s) by (eapply supp_text; [exact S'|intros; now right]).
    assert (Hne : pre ++ Take :: post <> []) by (destruct pre; discriminate).
    assert (FI : forall pos1 s1 e cp, Forall (fun c => 1 <= c <= 255) s1 -> supp (pre ++ Take :: post) s1 -> find (run (pre ++ Take :: post)) false pos1 s1 = Some (e, cp) ->
      exists a0 a x b, s1 = a0 ++ a ++ x ++ b /\ matches false pre a /\ taken post x b /\ cp = Some (pos1 + zlen a0 + zlen a, zlen x)).
    { intros pos1 s1 e cp R1 S1 EF. apply find_some in EF as (a0 & r & -> & Hr & -> & E2 & _). apply Forall_app in R1 as [_ R1].
      destruct (IH (pos1 + zlen a0) r cp R1) as (a & x & b & -> & M & T & ->); auto.
      { eapply supp_text; [exact S1|]. intros z Hz. apply in_app_iff. auto. }
      exists a0, a, x, b. auto. }
    destruct (fixed i) eqn:Fi.
    + rewrite run_fixed in E by exact Fi.
      assert (Hh : hit i y = sat i y) by (apply hit_sat; auto; destruct S as (_ & _ & _ & D); apply D; now left). rewrite Hh in E.
      destruct (sat i y) eqn:Es; [|discriminate]. destruct (IH _ _ _ R S2 N' E) as (a & x & b & -> & M & T & ->).
      exists (y :: a), x, b. split; [reflexivity|]. split; [now apply m_one|]. split; [exact T|]. rewrite zlen_cons. do 2 f_equal; lia.
    + pose proof (supp_final _ _ _ S Fi) as Fin. destruct i; try discriminate; try congruence.
      * cbn [run] in E. destruct (pre ++ Take :: post) as [|j p'] eqn:Ep; [congruence|]. rewrite <- Ep in *. rewrite Fin in E.
        destruct (find (run (pre ++ Take :: post)) false pos (y :: s)) as [[e cp]|] eqn:EF; [|discriminate]. injection E as <-.
        apply FI in EF as (a0 & a & x & b & Es & M & T & ->); [|now constructor|exact S'].
        exists (a0 ++ a), x, b. split; [now rewrite <- app_assoc|]. split; [apply star_iff; eauto|]. split; [exact T|]. rewrite zlen_app. cbn [snd]. do 2 f_equal; lia.
      * cbn [run] in E. destruct s as [|z s'] eqn:Es0; [discriminate|]. rewrite <- Es0 in *. destruct (pre ++ Take :: post) as [|j p'] eqn:Ep; [congruence|]. rewrite <- Ep in *. rewrite Fin in E.
        destruct (find (run (pre ++ Take :: post)) false (pos + 1) s) as [[e cp]|] eqn:EF; [|discriminate]. injection E as <-.
        apply FI in EF as (a0 & a & x & b & Es & M & T & ->); [|exact R|exact S2].
        exists (y :: a0 ++ a), x, b. split; [cbn [app]; now rewrite <- app_assoc, Es|]. split; [apply plus_iff; [auto|]; exists (y :: a0), a; split; [reflexivity|]; split; [discriminate|exact M]|].
        split; [exact T|]. rewrite zlen_cons, zlen_app. cbn [snd]. do 2 f_equal; lia.
Qed.

Lemma wrap_cap pre post pos s c : Forall (fun c => 1 <= c <= 255) s -> supported (pre ++ Take :: post) s -> ~ In Take pre -> wrap (pre ++ Take :: post) pos s = Some c ->
  exists a x b, s = a ++ x ++ b /\ matches true pre a /\ taken post x b /\ c = Some (pos + zlen a, zlen x).
Proof.
  intros R (_ & S1 & S2 & S3 & SA & S4) N E. assert (S : supp (pre ++ Take :: post) s) by (split; [|split; [|split]]; assumption).
  assert (P : run (pre ++ Take :: post) pos s = Some c -> exists a x b, s = a ++ x ++ b /\ matches true pre a /\ taken post x b /\ c = Some (pos + zlen a, zlen x)).
  { intros E1. destruct (run_cap post pre pos s c R S N E1) as (a & x & b & -> & M & T & ->). exists a, x, b. split; [reflexivity|]. split; [now apply (matches_mono _ _ _ M)|]. auto. }
  destruct pre as [|i pre]; [exact (P E)|]. destruct i; try exact (P E).
  - destruct pre as [|j pre]; [exact (P E)|]. destruct j; try exact (P E). cbn [app wrap] in E.
    destruct (run (pre ++ Take :: post) pos s) as [c1|] eqn:E1; [injection E as ->|exact (P E)]. cbn [app] in S. apply supp_tail in S. apply supp_tail in S.
    destruct (run_cap post pre pos s c R S) as (a & x & b & -> & M & T & ->); auto; [intros H; apply N; right; now right|].
    exists a, x, b. split; [reflexivity|]. split; [apply m_star, m_start; now apply (matches_mono _ _ _ M)|]. auto.
  - cbn [app wrap] in E. destruct (run (pre ++ Take :: post) pos s) as [c1|] eqn:E1; [injection E as ->|exact (P E)]. cbn [app] in S. apply supp_tail in S.
    destruct (run_cap post pre pos s c R S) as (a & x & b & -> & M & T & ->); auto; [intros H; apply N; now right|].
    exists a, x, b. split; [reflexivity|]. split; [apply m_start; now apply (matches_mono _ _ _ M)|]. auto.
Qed.

(* ---- glob patterns ---- *)
Definition item_of (c : Z) : item := if c =? 63 then Any else if c =? 42 then Star else One false (SLit c).
Lemma pattern_of p : pattern (map item_of p) = p.
Proof. induction p as [|c p IH]; [reflexivity|]. unfold pattern in *. cbn [map flat_map]. rewrite IH. unfold item_of. destruct (c =? 63) eqn:E; [cbn; f_equal; lia|]. destruct (c =? 42) eqn:E2; [cbn; f_equal; lia|reflexivity]. Qed.
Lemma glob_iff p : forall s, glob p s <-> matches false (map item_of p) s.
Proof.
  induction p as [|c p IH]; intros s.
  - cbn [map]. split; intros H; inversion H; constructor.
  - cbn [map]. unfold item_of at 1. destruct (c =? 63) eqn:E3; [|destruct (c =? 42) eqn:E2].
    + assert (c = 63) by lia. subst c. split; intros H.
      * inversion H; subst; [|lia]. apply m_one; [reflexivity|]. now apply IH.
      * inversion H as [|b i0 c p0 s0 Hs H1|b p0 s0 H1|b c p0 s0 H1|b i0 p0 a s0 Hi Ha H1|b i0 p0 Hi H1|p0 s0 H1]; subst; try (destruct Hi; discriminate). apply glob_any. now apply IH.
    + assert (c = 42) by lia. subst c. rewrite star_iff. split; intros H.
      * inversion H as [ | |a p0 s0 H1| ]; subst; [|lia]. exists a, s0. split; [reflexivity|]. now apply IH.
      * destruct H as (a & r & -> & M). apply glob_star. now apply IH.
    + split; intros H.
      * inversion H; subst; try lia. apply m_one; [cbn; now rewrite Z.eqb_refl|]. now apply IH.
      * inversion H as [|b i0 c0 p0 s0 Hs H1|b p0 s0 H1|b c0 p0 s0 H1|b i0 p0 a s0 Hi Ha H1|b i0 p0 Hi H1|p0 s0 H1]; subst; try (destruct Hi; discriminate).
        cbn in Hs. assert (c0 = c) by (destruct (c =? c0) eqn:Ec; [lia|discriminate]). subst c0. apply glob_lit; [lia|lia|]. now apply IH.
Qed.
Lemma glob_supported p s : Forall (fun c => plain c \/ c = 63 \/ c = 42) p -> (forall q, p <> q ++ [42; 42]) -> supported (map item_of p) s.
Proof.
  intros F NS.
  assert (K : forall i, In i (map item_of p) -> i = Any \/ i = Star \/ exists c, i = One false (SLit c) /\ plain c).
  { intros i Hi. apply in_map_iff in Hi as (c & <- & Hc). rewrite Forall_forall in F. specialize (F c Hc). unfold item_of.
    destruct (c =? 63) eqn:E; [auto|]. destruct (c =? 42) eqn:E2; [auto|]. right. right. exists c. split; [reflexivity|]. destruct F as [F|[F|F]]; [exact F|lia|lia]. }
  assert (NA : first_real (map item_of p) <> Some At).
  { assert (L : forall l, (forall i, In i l -> i <> At) -> first_real l <> Some At).
    { induction l as [|i l IHl]; intros H; [discriminate|]. specialize (IHl (fun j Hj => H j (or_intror Hj))). destruct i; cbn [first_real]; try discriminate; [exact IHl|]. exfalso. apply (H At); [now left|reflexivity]. }
    apply L. intros i Hi. destruct (K i Hi) as [-> | [-> | (c & -> & _)]]; discriminate. }
  assert (M : forall q i r, map item_of p = q ++ i :: r -> In i (map item_of p)) by (intros q i r ->; apply in_app_iff; right; now left).
  split; [|split; [|split; [|split; [|split]]]].
  - apply Forall_forall. intros i Hi. destruct (K i Hi) as [-> | [-> | (c & -> & Hc)]]; cbn; auto.
  - intros q E. apply map_eq_app in E as (l1 & l2 & -> & E1 & E2). destruct l2 as [|x [|y [|]]]; try discriminate. cbn [map] in E2. injection E2 as Ex Ey.
    assert (A : forall z, item_of z = Star -> z = 42) by (intros z; unfold item_of; destruct (z =? 63); [discriminate|]; destruct (z =? 42) eqn:E; [lia|discriminate]).
    apply A in Ex, Ey. subst. apply (NS l1). reflexivity.
  - intros q i r E Hi. exfalso. apply M in E. apply K in E. destruct E as [-> | [-> | (c & -> & _)]]; destruct Hi; discriminate.
  - intros q i r E Hi. exfalso. apply M in E. apply K in E. destruct E as [-> | [-> | (c & -> & _)]]; destruct Hi; discriminate.
  - destruct (map item_of p) as [|i l]; [exact NA|]. destruct i; try exact NA.
    + destruct l as [|j l]; [exact NA|]. destruct j; try exact NA. exfalso. destruct (K At) as [H|[H|(c & H & _)]]; [right; now left|discriminate..].
    + exfalso. destruct (K At) as [H|[H|(c & H & _)]]; [now left|discriminate..].
  - intros i c Hi _. apply K in Hi. destruct Hi as [-> | [-> | (x & -> & _)]]; auto.
Qed.
