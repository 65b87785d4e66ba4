From Verif Require Import Base BaseLemmas SysModel MatchModel MatchSpec MatchProofs MatchProofs2.
Ltac Zify.zify_post_hook ::= Z.div_mod_to_equations.

(* the conditions without the one on '@' *)
Definition text_ok (i : item) (c : Z) : Prop :=
  match i with
  | Class _ => c <> 93
  | Dollar => c <> 36
  | One n SWord | One n SNonWord => n = false /\ c < 160
  | _ => True
  end.
Definition supp (p : list item) (s : list Z) : Prop :=
  (forall q, p <> q ++ [Star; Star]) /\
  (forall q i r, p = q ++ i :: r -> i = Hash \/ i = Dollar -> r = [] /\ forall q', q <> q' ++ [Star]) /\
  (forall q i r, p = q ++ i :: r -> i = Plus \/ i = Take -> exists j, In j r /\ consumes j = true) /\
  (forall i c, In i p -> In c s -> text_ok i c).
Lemma supp_tail i p s : supp (i :: p) s -> supp p s.
Proof.
  intros (A & B & C & D). split; [|split; [|split]].
  - intros q ->. apply (A (i :: q)). reflexivity.
  - intros q j r -> Hj. destruct (B (i :: q) j r eq_refl Hj) as [B1 B2]. split; [exact B1|]. intros q' ->. apply (B2 (i :: q')). reflexivity.
  - intros q j r -> Hj. apply (C (i :: q) j r eq_refl Hj).
  - intros j c Hj. apply D. now right.
Qed.
Lemma supp_text p s s' : supp p s -> (forall c, In c s' -> In c s) -> supp p s'.
Proof. intros (A & B & C & D) H. split; [exact A|]. split; [exact B|]. split; [exact C|]. auto. Qed.

Lemma isdigit_chr c : 1 <= c <= 255 -> isdigit (schar c) = digit c.
Proof. intros H. unfold isdigit, digit, schar, u32. destruct (c <? 128) eqn:E; lia. Qed.
Lemma isspace_chr c : 1 <= c <= 255 -> isspace (schar c) = space c.
Proof. intros H. unfold isspace, space, schar. destruct (c <? 128) eqn:E; lia. Qed.
Lemma hit_sat i c : 1 <= c <= 255 -> fixed i = true -> text_ok i c -> hit i c = sat i c.
Proof.
  intros H F T. destruct i as [n s| |cs| | | | | | ]; try discriminate; cbn [hit sat text_ok] in *; auto.
  - destruct s; cbn [hit1 sat1]; rewrite ?isdigit_chr, ?isspace_chr by exact H; auto.
    + destruct T as [-> T]. rewrite !xorb_false_l. unfold word, schar. destruct (c <? 128) eqn:E; lia.
    + destruct T as [-> T]. rewrite !xorb_false_l. unfold word, schar. destruct (c <? 128) eqn:E; lia.
  - assert (c =? 93 = false) as -> by lia. apply orb_false_r.
  - now apply isspace_chr.
  - assert (c =? 36 = false) as -> by lia. reflexivity.
Qed.
Lemma star_iff p : forall s, matches false (Star :: p) s <-> exists a r, s = a ++ r /\ matches false p r.
Proof.
  intros s. split.
  - intros H. remember (Star :: p) as q eqn:Eq. remember false as b eqn:Eb. induction H as [b|b i c p0 s Hs H IH|b p0 s H IH|b c p0 s H IH|b i p0 a s Hi Ha H IH|b i p0 Hi H IH|p0 s H IH]; try discriminate.
    + injection Eq as -> ->. discriminate.
    + injection Eq as ->. exists [], s. subst b. auto.
    + destruct IH as (a & r & -> & Hr); auto. exists (c :: a), r. subst b. auto.
    + destruct Hi as [-> | ->]; discriminate.
    + destruct Hi as [-> | ->]; discriminate.
  - intros (a & r & -> & H). induction a as [|x a IH]; [now apply m_star|]. cbn [app]. now apply m_star_more.
Qed.
Lemma consumes_ne p : (exists j, In j p /\ consumes j = true) -> ~ matches false p [].
Proof.
  intros (j & Hj & Hc) H. remember false as b eqn:Eb. remember (@nil Z) as s eqn:Es. revert j Hj Hc.
  induction H as [b|b i c p0 s Hs H IH|b p0 s H IH|b c p0 s H IH|b i p0 a s Hi Ha H IH|b i p0 Hi H IH|p0 s H IH]; intros j Hj Hc; try discriminate.
  - destruct Hj.
  - destruct Hj as [<-|Hj]; [discriminate|]. eapply IH; eauto.
  - apply app_eq_nil in Es as [Es _]. contradiction.
  - destruct Hj as [<-|Hj]; [destruct Hi as [-> | ->]; discriminate|]. eapply IH; eauto.
Qed.
Lemma nullable p s : supp p s -> matches false p [] -> p = [] \/ p = [Star] \/ p = [Hash] \/ p = [Dollar].
Proof.
  destruct p as [|i p]; [auto|]. intros S H.
  destruct (consumes i) eqn:Ci; [exfalso; apply (consumes_ne (i :: p)); [exists i; split; [now left|exact Ci]|exact H]|].
  destruct i; try discriminate.
  - apply star_iff in H as (a & r & E & H). symmetry in E. apply app_eq_nil in E as [_ ->].
    destruct p as [|j p]; [auto|]. exfalso. destruct S as (A & B & _).
    clear a. revert H A B. induction p as [|j2 p IH] using rev_ind; intros H A B.
    + destruct j; try (apply (consumes_ne _) in H; [exact H|eexists; split; [now left|reflexivity]]).
      * apply (A []). reflexivity.
      * apply (proj2 (B [Star] Hash [] eq_refl (or_introl eq_refl)) []). reflexivity.
      * apply (proj2 (B [Star] Dollar [] eq_refl (or_intror eq_refl)) []). reflexivity.
    + clear IH. (* all items are stars, hashes or dollars *)
      assert (All : forall x, In x (j :: p ++ [j2]) -> consumes x = false).
      { intros x Hx. destruct (consumes x) eqn:Cx; [|reflexivity]. exfalso. apply (consumes_ne (j :: p ++ [j2])); [eauto|exact H]. }
      assert (Hpre : forall x, In x (j :: p) -> x = Star).
      { intros x Hx. assert (Cx : consumes x = false) by (apply All; rewrite app_comm_cons, in_app_iff; now left).
        apply in_split in Hx as (l1 & l2 & E). assert (E' : Star :: j :: p ++ [j2] = (Star :: l1) ++ x :: (l2 ++ [j2])) by (cbn [app]; rewrite (app_comm_cons p), E, <- app_assoc; reflexivity).
        destruct x; try discriminate; auto.
        - destruct (B _ _ _ E' (or_introl eq_refl)) as [B1 _]. destruct l2; discriminate.
        - destruct (B _ _ _ E' (or_intror eq_refl)) as [B1 _]. destruct l2; discriminate. }
      destruct (exists_last (l := j :: p) ltac:(discriminate)) as (l & x & El).
      assert (x = Star) by (apply Hpre; rewrite El, in_app_iff; right; now left). subst x.
      assert (E' : Star :: j :: p ++ [j2] = (Star :: l) ++ [Star; j2]) by (rewrite (app_comm_cons p), El, <- app_assoc; reflexivity).
      assert (C2 : consumes j2 = false) by (apply All; right; apply in_app_iff; right; now left).
      destruct j2; try discriminate.
      * apply (A (Star :: l)). exact E'.
      * apply (proj2 (B ((Star :: l) ++ [Star]) Hash [] ltac:(rewrite E', <- app_assoc; reflexivity) (or_introl eq_refl)) (Star :: l)). reflexivity.
      * apply (proj2 (B ((Star :: l) ++ [Star]) Dollar [] ltac:(rewrite E', <- app_assoc; reflexivity) (or_intror eq_refl)) (Star :: l)). reflexivity.
  - destruct S as (_ & B & _). destruct (B [] Hash p eq_refl (or_introl eq_refl)) as [-> _]. auto.
  - destruct S as (_ & B & _). destruct (B [] Dollar p eq_refl (or_intror eq_refl)) as [-> _]. auto.
Qed.
Lemma find_some f : forall s pos e cp, find f false pos s = Some (e, cp) ->
  exists a r, s = a ++ r /\ r <> [] /\ e = pos + zlen a /\ f e r = Some cp /\ forall a' r', s = a' ++ r' -> r' <> [] -> (length a' < length a)%nat -> f (pos + zlen a') r' = None.
Proof.
  induction s as [|c s IH]; intros pos e cp E; [discriminate|]. cbn [find] in E. destruct (f pos (c :: s)) as [r|] eqn:Ef.
  - injection E as <- <-. exists [], (c :: s). split; [reflexivity|]. split; [discriminate|]. change (zlen (@nil Z)) with 0. rewrite Z.add_0_r. split; [reflexivity|]. split; [exact Ef|].
    intros a' r' _ _ H. cbn in H. lia.
  - assert (E2 : find f false (pos + 1) s = Some (e, cp)) by (destruct s; [discriminate|exact E]). destruct (IH _ _ _ E2) as (a & r & -> & R1 & R2 & R3 & R4).
    exists (c :: a), r. split; [reflexivity|]. split; [exact R1|]. zl. split; [lia|]. split; [exact R3|]. intros a' r' E' Hr' Hl. destruct a' as [|y a'].
    + cbn [app] in E'. subst r'. change (zlen (@nil Z)) with 0. rewrite Z.add_0_r. exact Ef.
    + cbn [app] in E'. injection E' as <- E'. cbn [length] in Hl. specialize (R4 a' r' E' Hr' ltac:(lia)). zl. replace (pos + (zlen a' + 1)) with (pos + 1 + zlen a') by lia. exact R4.
Qed.
Lemma find_none f : forall s pos, find f false pos s = None -> forall a r, s = a ++ r -> r <> [] -> f (pos + zlen a) r = None.
Proof.
  induction s as [|c s IH]; intros pos E a r E' Hr; [symmetry in E'; apply app_eq_nil in E' as [_ E']; contradiction|]. cbn [find] in E. destruct (f pos (c :: s)) as [x|] eqn:Ef; [discriminate|].
  destruct a as [|y a]; cbn [app] in E'.
  - subst r. change (zlen (@nil Z)) with 0. now rewrite Z.add_0_r.
  - injection E' as <- E'. zl. replace (pos + (zlen a + 1)) with (pos + 1 + zlen a) by lia. destruct s as [|z s]; [symmetry in E'; apply app_eq_nil in E' as [_ E']; contradiction|].
    apply IH; auto.
Qed.
Lemma supp_final i p s : supp (i :: p) s -> fixed i = false -> final p = false.
Proof.
  intros (A & B & C & D) Fi. destruct i; try discriminate.
  - destruct p as [|[[] []| | | | | | | | ] []]; try reflexivity.
    + exfalso. apply (proj2 (B [Star] Hash [] eq_refl (or_introl eq_refl)) []). reflexivity.
    + exfalso. apply (proj2 (B [Star] Dollar [] eq_refl (or_intror eq_refl)) []). reflexivity.
  - destruct (C [] Plus p eq_refl (or_introl eq_refl)) as (j & Hj & Cj). destruct p as [|[[] []| | | | | | | | ] []]; try reflexivity; destruct Hj as [<-|[]]; discriminate.
  - destruct (C [] Take p eq_refl (or_intror eq_refl)) as (j & Hj & Cj). destruct p as [|[[] []| | | | | | | | ] []]; try reflexivity; destruct Hj as [<-|[]]; discriminate.
Qed.
Lemma fixed_iff i p c s : fixed i = true -> matches false (i :: p) (c :: s) <-> sat i c = true /\ matches false p s.
Proof.
  intros F. split.
  - intros H. inversion H as [|b i0 c0 p0 s0 Hs H1| | |b i0 p0 a s0 Hi Ha H1| | ]; subst; try discriminate; auto. exfalso. destruct Hi as [-> | ->]; discriminate.
  - intros [H1 H2]. now apply m_one.
Qed.
Lemma plus_iff i p s : i = Plus \/ i = Take -> matches false (i :: p) s <-> exists a r, s = a ++ r /\ a <> [] /\ matches false p r.
Proof.
  intros Hi. split.
  - intros H. inversion H as [|b i0 c0 p0 s0 Hs H1| | |b i0 p0 a s0 Hi0 Ha H1|b i0 p0 Hi0 H1| ]; subst.
    + destruct Hi as [-> | ->]; discriminate.
    + destruct Hi; discriminate.
    + destruct Hi; discriminate.
    + eauto.
    + exfalso. destruct Hi0 as [-> | ->]; destruct Hi; discriminate.
  - intros (a & r & -> & Ha & H). now apply m_plus.
Qed.

Lemma run_iff : forall p pos s, Forall (fun c => 1 <= c <= 255) s -> supp p s -> (run p pos s <> None <-> matches false p s).
Proof.
  induction p as [|i p IH]; intros pos s R S.
  - cbn [run]. destruct s; split; intros H; try congruence; [constructor|]. inversion H.
  - pose proof (supp_tail _ _ _ S) as S'. destruct s as [|c s].
    + cbn [run]. split.
      * intros H. destruct (ends (i :: p)) eqn:E; [|congruence]. clear H. unfold ends in E.
        destruct i; try discriminate.
        -- destruct p; [apply m_star, m_nil|discriminate].
        -- destruct S as (_ & B & _). destruct (B [] Hash p eq_refl (or_introl eq_refl)) as [-> _]. apply m_end; [auto|constructor].
        -- destruct S as (_ & B & _). destruct (B [] Dollar p eq_refl (or_intror eq_refl)) as [-> _]. apply m_end; [auto|constructor].
      * intros H. apply (nullable _ _ S) in H as [H|[H|[H|H]]]; try discriminate; injection H as -> ->; discriminate.
    + apply Forall_cons_iff in R as [Rc R]. destruct (fixed i) eqn:Fi.
      * rewrite run_fixed by exact Fi. rewrite (fixed_iff _ _ _ _ Fi).
        assert (Hh : hit i c = sat i c) by (apply hit_sat; auto; destruct S as (_ & _ & _ & D); apply D; now left). rewrite Hh.
        assert (S2 : supp p s) by (eapply supp_text; [exact S'|intros; now right]).
        destruct (sat i c); [rewrite (IH (pos + 1) s R S2); tauto|]. split; [congruence|intros [? _]; discriminate].
      * pose proof (supp_final _ _ _ S Fi) as Fin.
        assert (FI : forall pos s1, Forall (fun c => 1 <= c <= 255) s1 -> supp p s1 -> (find (run p) (final p) pos s1 <> None <-> exists a r, s1 = a ++ r /\ r <> [] /\ matches false p r)).
        { intros pos1 s1 R1 S1. rewrite Fin. split.
          - intros H. destruct (find (run p) false pos1 s1) as [[e cp]|] eqn:E; [|congruence]. apply find_some in E as (a & r & -> & E1 & E2 & E3 & _).
            exists a, r. split; [reflexivity|]. split; [exact E1|]. apply (IH e r); [apply Forall_app in R1; apply R1|eapply supp_text; [exact S1|intros; apply in_app_iff; auto]|congruence].
          - intros (a & r & -> & Hr & M) H. apply (find_none _ _ _ H a r eq_refl) in Hr. revert Hr. apply IH; [apply Forall_app in R1; apply R1|eapply supp_text; [exact S1|intros; apply in_app_iff; auto]|exact M]. }
        assert (OM : forall A B (f : A -> B) o, option_map f o <> None <-> o <> None) by (intros A B f o; destruct o; cbn; split; congruence).
        assert (S2 : supp p s) by (eapply supp_text; [exact S'|intros; now right]).
        assert (PL : i = Plus \/ i = Take -> (match s with [] => None | _ => find (run p) (final p) (pos + 1) s end <> None <-> matches false (i :: p) (c :: s)) /\ p <> []).
        { intros Hi. assert (CO : exists j, In j p /\ consumes j = true) by (destruct S as (_ & _ & C & _); apply (C [] i p eq_refl Hi)).
          split; [|destruct CO as (j & Hj & _); destruct p; [destruct Hj|discriminate]].
          rewrite (plus_iff _ _ _ Hi). pose proof (consumes_ne _ CO) as NN. destruct s as [|x s'] eqn:Es.
          - split; [congruence|]. intros (a & r & E & Ha & M). exfalso. destruct a as [|y a]; [congruence|]. injection E as _ E. symmetry in E. apply app_eq_nil in E as [_ ->]. contradiction.
          - rewrite <- Es in *. 
            rewrite (FI (pos + 1) s R S2). split.
            + intros (a & r & -> & Hr & M). exists (c :: a), r. split; [reflexivity|]. split; [discriminate|exact M].
            + intros (a & r & E & Ha & M). destruct a as [|y a]; [congruence|]. injection E as _ E. exists a, r. split; [exact E|]. split; [intros ->; contradiction|exact M]. }
        destruct i; try discriminate.
        -- cbn [run]. destruct p as [|j p'] eqn:Ep.
           ++ split; [|congruence]. intros _. apply star_iff. exists (c :: s), []. split; [now rewrite app_nil_r|constructor].
           ++ rewrite <- Ep in *. rewrite OM. rewrite (FI pos (c :: s)); [|now constructor|exact S']. rewrite star_iff. split.
              ** intros (a & r & E & _ & M). eauto.
              ** intros (a & r & E & M). exists a, r. split; [exact E|]. split; [|exact M]. intros ->. apply (nullable _ _ S') in M as [M|[M|[M|M]]].
                 --- subst p; discriminate.
                 --- destruct S as (A & _). apply (A []). now rewrite M.
                 --- rewrite M in Fin. discriminate.
                 --- rewrite M in Fin. discriminate.
        -- destruct (PL (or_introl eq_refl)) as [PL1 PL2]. rewrite <- PL1. cbn [run]. destruct s as [|x s']; [split; congruence|]. destruct p as [|j p']; [congruence|]. apply OM.
        -- destruct (PL (or_intror eq_refl)) as [PL1 PL2]. rewrite <- PL1. cbn [run]. destruct s as [|x s']; [split; congruence|]. destruct p as [|j p']; [congruence|].
           destruct (find _ _ _ _) as [[e cp]|]; split; congruence.
Qed.
