From Verif Require Import Base BaseLemmas PathModel PathSpec PathProofs.

Lemma keep_str m m' p s buf n : str_at m p s -> apart p (zlen s + 1) buf n -> same_outside m m' buf n -> str_at m' p s.
Proof. intros H A S. apply (str_at_ext m); [exact H|]. intros x Hx. apply S. unfold apart in A. lia. Qed.
Lemma grow_so m m1 p n a v : same_outside m m1 p n -> p <= a < p + n -> same_outside m (upd m1 a v) p n.
Proof. intros H Ha. eapply same_outside_trans; [exact H|apply same_outside_upd; exact Ha]. Qed.
Lemma grow_room m buf n a v : room m buf n -> room (upd m a v) buf n.
Proof. intros R x Hx. unfold upd. destruct (x =? a); [discriminate|]. now apply R. Qed.

Lemma read_str_ok : forall s fuel m p, str_at m p s -> (length s < fuel)%nat -> read_str fuel m p = Ok s.
Proof.
  induction s as [|x s IH]; intros fuel m p H Hf; (destruct fuel as [|k]; [cbn [length] in Hf; lia|]); cbn [read_str].
  - cbn [str_at] in H. rewrite (load_some _ _ _ H), bind_Ok. reflexivity.
  - destruct H as (H1 & H2 & H3). rewrite (load_some _ _ _ H1), bind_Ok. assert (x =? 0 = false) as -> by lia.
    cbn [length] in Hf. rewrite IH by (auto; lia). reflexivity.
Qed.
Lemma copy_name_ok : forall f fuel m p c, str_at m c f -> room m p (zlen f + 1) -> apart c (zlen f + 1) p (zlen f + 1) -> (length f < fuel)%nat ->
  exists m', copy_name fuel m p c = Ok m' /\ str_at m' p f /\ same_outside m m' p (zlen f + 1) /\ (forall y, m y <> None -> m' y <> None).
Proof.
  induction f as [|x f IH]; intros fuel m p c H R A Hf; (destruct fuel as [|k]; [cbn [length] in Hf; lia|]); cbn [copy_name].
  - change (zlen (@nil Z)) with 0 in *. cbn [str_at] in H. rewrite (load_some _ _ _ H), bind_Ok. rewrite (store_room m p (0 + 1)) by (auto; lia). rewrite bind_Ok.
    change (0 =? 0) with true. cbv iota. eexists. split; [reflexivity|]. split; [cbn [str_at]; apply upd_same|split; [apply same_outside_upd; lia|]]. intros y Hy. unfold upd. now destruct (y =? p).
  - rewrite zlen_cons in *. nneg f. destruct H as (H1 & H2 & H3). rewrite (load_some _ _ _ H1), bind_Ok. rewrite (store_room m p (zlen f + 1 + 1)) by (auto; lia). rewrite bind_Ok.
    assert (x =? 0 = false) as -> by lia. cbn [length] in Hf. unfold apart in A.
    destruct (IH k (upd m p x) (p + 1) (c + 1)) as (m' & E & S1 & S2 & S3).
    + apply str_at_upd; [exact H3|lia].
    + apply grow_room. intros y Hy. apply R. lia.
    + unfold apart. lia.
    + lia.
    + exists m'. split; [exact E|]. split; [cbn [str_at]; split; [|split; [exact H2|exact S1]]|split].
      * rewrite S2 by lia. apply upd_same.
      * intros y Hy. rewrite S2 by lia. apply upd_other. lia.
      * intros y Hy. apply S3. unfold upd. now destruct (y =? p).
Qed.

Section Where.
Variables (access : list Z -> bool) (file buf n : Z) (f : list Z).
Hypothesis Hfile : apart file (zlen f + 1) buf n.

Lemma where_dir : forall r pre fuel m path t, r <> [] -> ~ In 58 r -> Forall chr (pre ++ r) -> bytes_at m buf pre -> bytes_at m path r -> m (path + zlen r) = Some t ->
  (t = 58 \/ t = 0) -> str_at m file f -> apart path (zlen r + 1) buf n -> room m buf n -> zlen pre + zlen r + zlen f + 2 <= n ->
  (length pre + length r + length f + 1 + length r <= fuel)%nat ->
  exists m', same_outside m m' buf n /\ room m' buf n /\ str_at m' buf (pre ++ r ++ slash :: f) /\
    where_loop fuel access m file buf (buf + zlen pre) path =
      if access (pre ++ r ++ slash :: f) then Ok (m', 1)
      else if t =? 0 then Ok (m', 0) else where_loop (fuel - length r) access m' file buf buf (path + zlen r + 1).
Proof.
  induction r as [|x r IH]; intros pre fuel m path t Hne N C Hpre B Ht T Hf A R L Hk; [congruence|].
  rewrite zlen_cons in *. nneg pre. nneg r. nneg f. destruct B as [B1 B2]. unfold apart in A, Hfile. cbn [length] in Hk.
  destruct fuel as [|k]; [lia|]. cbn [where_loop]. rewrite (load_some _ _ _ B1), bind_Ok. rewrite (store_room m buf n) by (auto; lia). rewrite bind_Ok.
  set (m1 := upd m (buf + zlen pre) x).
  assert (S1 : same_outside m m1 buf n) by (apply same_outside_upd; lia).
  assert (R1 : room m1 buf n) by (apply grow_room; exact R).
  assert (P1 : bytes_at m1 buf (pre ++ [x])) by (apply bytes_at_app; split; [apply bytes_at_upd; [exact Hpre|lia]|split; [apply upd_same|exact I]]).
  assert (F1 : str_at m1 file f) by (eapply keep_str; [exact Hf|exact Hfile|exact S1]).
  destruct r as [|y r'] eqn:Er.
  - change (zlen (@nil Z)) with 0 in *. assert (Hn : m1 (path + 1) = Some t) by (rewrite S1 by lia; rewrite <- Ht; f_equal; lia).
    rewrite (load_some _ _ _ Hn), bind_Ok. assert ((t =? 58) || (t =? 0) = true) as -> by (destruct T as [-> | ->]; reflexivity).
    rewrite (store_room m1 buf n) by (auto; lia). rewrite bind_Ok.
    set (m2 := upd m1 (buf + zlen pre + 1) 47).
    assert (S2 : same_outside m m2 buf n) by (apply grow_so; [exact S1|lia]).
    destruct (copy_name_ok f (S k) m2 (buf + zlen pre + 1 + 1) file) as (m3 & E3 & G3 & S3 & K3).
    + eapply keep_str; [exact Hf|exact Hfile|exact S2].
    + intros z Hz. apply (grow_room m1 buf n); [exact R1|lia].
    + unfold apart. lia.
    + lia.
    + rewrite E3, bind_Ok.
      assert (S4 : same_outside m m3 buf n) by (intros z Hz; rewrite S3 by lia; apply S2; exact Hz).
      assert (G4 : str_at m3 buf (pre ++ [x] ++ slash :: f)).
      { apply str_at_iff in G3 as (G1 & G2 & G3). apply str_at_intro.
        - rewrite app_assoc. apply bytes_at_app. rewrite zlen_app. change (zlen [x]) with 1. split; [|split].
          + apply (bytes_at_ext m2); [apply bytes_at_upd; [exact P1|rewrite zlen_app; change (zlen [x]) with 1; lia]|]. intros z Hz. apply S3. rewrite zlen_app in Hz. change (zlen [x]) with 1 in Hz. lia.
          + rewrite S3 by lia. replace (buf + (zlen pre + 1)) with (buf + zlen pre + 1) by lia. apply upd_same.
          + replace (buf + (zlen pre + 1) + 1) with (buf + zlen pre + 1 + 1) by lia. exact G1.
        - rewrite app_assoc. apply Forall_app. split; [exact C|]. constructor; [unfold slash; lia|exact G2].
        - rewrite !zlen_app, !zlen_cons. change (zlen (@nil Z)) with 0. rewrite <- G3. f_equal. lia. }
      rewrite (read_str_ok (pre ++ [x] ++ slash :: f)); [|exact G4|rewrite !app_length; cbn [length]; lia]. rewrite bind_Ok.
      exists m3. split; [exact S4|]. split; [intros z Hz; apply K3; apply (grow_room m1 buf n); [exact R1|lia]|]. split; [exact G4|].
      assert (Hn3 : m3 (path + 1) = Some t) by (rewrite S4 by lia; rewrite <- Ht; f_equal; lia).
      rewrite (load_some _ _ _ Hn3), bind_Ok. cbn [length]. replace (S k - 1)%nat with k by lia. replace (path + (0 + 1) + 1) with (path + 1 + 1) by lia. reflexivity.
  - rewrite <- Er in *. assert (Hy : m1 (path + 1) = Some y) by (rewrite S1 by lia; rewrite Er in B2; apply B2).
    rewrite (load_some _ _ _ Hy), bind_Ok.
    assert (Cy : chr y) by (rewrite Er in C; apply Forall_app in C as [_ C]; apply Forall_cons_iff in C as [_ C]; apply Forall_cons_iff in C; apply C).
    assert (y <> 58) by (intros ->; apply N; rewrite Er; right; now left).
    unfold chr in Cy. assert ((y =? 58) || (y =? 0) = false) as -> by (apply orb_false_iff; lia).
    replace (pre ++ (x :: r) ++ slash :: f) with ((pre ++ [x]) ++ r ++ slash :: f) by (rewrite <- app_assoc; reflexivity).
    replace (buf + zlen pre + 1) with (buf + zlen (pre ++ [x])) by (rewrite zlen_app; change (zlen [x]) with 1; lia).
    destruct (IH (pre ++ [x]) k m1 (path + 1) t) as (m' & Q1 & Q0 & Q2 & Q3).
    + subst r; discriminate.
    + intros Hi. apply N. now right.
    + rewrite <- app_assoc. exact C.
    + exact P1.
    + apply (bytes_at_ext m); [exact B2|]. intros z Hz. apply S1. lia.
    + rewrite S1 by lia. rewrite <- Ht. f_equal. lia.
    + exact T.
    + exact F1.
    + unfold apart. lia.
    + exact R1.
    + rewrite zlen_app. change (zlen [x]) with 1. lia.
    + rewrite app_length. cbn [length]. lia.
    + exists m'. split; [eapply same_outside_trans; eassumption|]. split; [exact Q0|]. split; [exact Q2|]. rewrite Q3. cbn [length Nat.sub].
      replace (path + 1 + zlen r + 1) with (path + (zlen r + 1) + 1) by lia. reflexivity.
Qed.

Lemma where_ok : forall dirs fuel m path, dirs <> [] -> Forall entry dirs -> str_at m path (joined dirs) -> str_at m file f ->
  apart path (zlen (joined dirs) + 1) buf n -> room m buf n -> Forall (fun d => zlen d + zlen f + 2 <= n) dirs ->
  (2 * length (joined dirs) + length f + 1 <= fuel)%nat ->
  exists m', same_outside m m' buf n /\
    match first_hit access dirs f with
    | Some s => where_loop fuel access m file buf buf path = Ok (m', 1) /\ str_at m' buf s
    | None => where_loop fuel access m file buf buf path = Ok (m', 0)
    end.
Proof.
  induction dirs as [|d dirs IH]; intros fuel m path Hne E Hp Hf A R L Hk; [congruence|].
  apply Forall_cons_iff in E as [[E1 E2] E]. apply Forall_cons_iff in L as [L1 L]. cbn beta in L1. cbn [first_hit].
  pose proof (str_at_range _ _ _ Hp) as HR.
  assert (Hd : exists tl t, joined (d :: dirs) = d ++ tl /\ m (path + zlen d) = Some t /\ ((dirs = [] /\ t = 0 /\ tl = []) \/ (dirs <> [] /\ t = 58 /\ tl = 58 :: joined dirs))).
  { destruct dirs as [|d2 dirs'].
    - exists [], 0. cbn [joined] in *. split; [now rewrite app_nil_r|]. split; [now apply str_at_end|]. auto.
    - exists (58 :: joined (d2 :: dirs')), 58. split; [reflexivity|]. change (joined (d :: d2 :: dirs')) with (d ++ 58 :: joined (d2 :: dirs')) in Hp.
      split; [|right; split; [discriminate|auto]]. apply str_at_bytes in Hp. apply bytes_at_app in Hp as [_ [Hp _]]. exact Hp. }
  destruct Hd as (tl & t & EJ & Ht & HT). rewrite EJ in *. rewrite zlen_app, app_length in *. nneg tl. unfold apart in A.
  assert (HB : bytes_at m path d) by (apply str_at_bytes in Hp; apply bytes_at_app in Hp; apply Hp).
  destruct (where_dir d [] fuel m path t) as (m' & S' & R' & G' & Q); try assumption.
  - cbn [app]. apply Forall_app in HR. apply HR.
  - exact I.
  - destruct HT as [(_ & -> & _)|(_ & -> & _)]; auto.
  - unfold apart. lia.
  - cbn [length]. lia.
  - change (zlen (@nil Z)) with 0 in Q. rewrite Z.add_0_r in Q. cbn [app] in *.
    destruct (access (d ++ slash :: f)).
    { exists m'. split; [exact S'|]. split; [exact Q|exact G']. }
    destruct HT as [(-> & -> & ->)|(Hn & -> & ->)].
    { exists m'. split; [exact S'|]. exact Q. }
    change (58 =? 0) with false in Q. cbv iota in Q. rewrite zlen_cons in *. cbn [length] in Hk.
    destruct (IH (fuel - length d)%nat m' (path + zlen d + 1)) as (m'' & S'' & Q''); auto.
    + eapply keep_str; [|instantiate (1 := n); instantiate (1 := buf); nneg d; unfold apart; lia|exact S'].
      change (d ++ 58 :: joined dirs) with (d ++ [58] ++ joined dirs) in Hp, HR. rewrite app_assoc in Hp. apply str_at_app in Hp as [_ Hp]; [|rewrite app_assoc in HR; apply Forall_app in HR; apply HR].
      rewrite zlen_app in Hp. change (zlen [58]) with 1 in Hp. replace (path + zlen d + 1) with (path + (zlen d + 1)) by lia. exact Hp.
    + eapply keep_str; [exact Hf|exact Hfile|exact S'].
    + nneg d. unfold apart. lia.
    + lia.
    + exists m''. split; [eapply same_outside_trans; eassumption|]. destruct (first_hit access dirs f); [destruct Q'' as [Q1 Q2]; split; [now rewrite Q|exact Q2]|now rewrite Q].
Qed.
End Where.
