From Coq Require Import ZifyBool.
From Verif Require Import Base BaseLemmas SysModel MatchModel MatchSpec MatchProofs MatchProofs2 MextModel MextSpec.

(* ---- the code on lists ---- *)
Definition caps := list call.
Definition nmof (n : option Z) (nm : Z) : Z := match n with Some d => d | None => nm end.
Definition finalx (p : list xitem) : bool := match p with [XI false Hash] | [XI false Dollar] => true | _ => false end.
Definition endsx (p : list xitem) : bool :=
  match (match p with XI false Hash :: q | XI false Dollar :: q => q | _ => p end) with [] | [XI false Star] => true | _ => false end.
Fixpoint findx (f : Z -> list Z -> option caps) (last : bool) (pos : Z) (s : list Z) : option (Z * caps) :=
  match s with
  | [] => None
  | c :: s' =>
      match f pos s with
      | Some r => Some (pos, r)
      | None => match s' with [] => if last then Some (pos + 1, []) else None | _ => findx f last (pos + 1) s' end
      end
  end.
Fixpoint cnt (i : item) (d : nat) (s : list Z) : option (list Z) :=
  match d with
  | O => Some s
  | S d => match s with c :: s' => if hit i c then cnt i d s' else None | [] => None end
  end.
Fixpoint runx (p : list xitem) (nm pos : Z) (s : list Z) : option caps :=
  match p with
  | [] => match s with [] => Some [] | _ => None end
  | x :: p' =>
      match s with
      | [] => if endsx p then Some [] else None
      | c :: s' =>
          match x with
          | XI _ Star => match p' with [] => Some [] | _ => option_map snd (findx (runx p' 0) (finalx p') pos s) end
          | XI _ Plus => match s' with [] => None | _ => match p' with [] => Some [] | _ => option_map snd (findx (runx p' 0) (finalx p') (pos + 1) s') end end
          | XTake _ n =>
              match s' with
              | [] => None
              | _ =>
                  match p' with
                  | [] => Some [(nmof n nm, pos, zlen s)]
                  | _ => match findx (runx p' 0) (finalx p') (pos + 1) s' with Some (e, l) => Some ((nmof n nm, pos, e - pos) :: l) | None => None end
                  end
              end
          | XAmp _ n => runx p' (nmof n nm) (pos + 1) s'
          | XCount d _ i => match cnt i (Z.to_nat d) s with Some (c :: r) => runx p' nm (pos + d) (c :: r) | _ => None end
          | XI _ i => if hit i c then runx p' nm (pos + 1) s' else None
          end
      end
  end.
Definition first_cap (l : caps) : cap := match l with [] => None | (_, p, n) :: _ => Some (p, n) end.
Definition put_caps (e : ext) (l : caps) : ext :=
  {| pm := pm e; pmc := pmc e; stm := put_cap (stm e) (first_cap l); calls := if pm e then l ++ calls e else calls e |}.
Definition outx (e : ext) (r : option caps) : res (Z * ext) :=
  match r with Some l => Ok (1, put_caps e l) | None => Ok (0, e) end.

(* ---- the bytes of a pattern ---- *)
Definition hdx (p : list xitem) : Z := hd 0 (xpattern p).
Lemma hdx_at m re p : str_at m re (xpattern p) -> m re = Some (hdx p).
Proof. unfold hdx. destruct (xpattern p); cbn [str_at hd]; tauto. Qed.
Lemma xplain_ne c : xplain c -> c <> 0 /\ c <> 33 /\ c <> 63 /\ c <> 91 /\ c <> 35 /\ c <> 37 /\ c <> 43 /\ c <> 42 /\ c <> 92 /\ c <> 36 /\ c <> 38 /\ c <> 123 /\ c <> 125 /\ c <> 44.
Proof. intros [H N]. cbn [In] in N. intuition lia. Qed.
(* kinds of first bytes *)
Lemma hdx_cases x q : well_written (x :: q) ->
  let h := hdx (x :: q) in h <> 0 /\ h <> 125 /\
  (h = 42 <-> x = XI false Star) /\ (h = 35 <-> x = XI false Hash) /\ (h = 36 <-> x = XI false Dollar) /\ (h = 33 <-> exists s, x = XI false (One true s)).
Proof.
  intros [W _]. cbv zeta. unfold hdx, xpattern. cbn [flat_map].
  destruct x as [sep i|sep n|sep n|d sep i]; cbn [xwrite].
  - destruct W as [W1 W2]. destruct sep; cbn [comma app hd].
    + destruct (W2 eq_refl) as [W3 W4]. repeat split; try lia; try discriminate. intros [s [=]].
    + destruct i as [neg s| |cs| | | | | | ]; cbn [xitem_ok] in W1; try contradiction; cbn [write app hd]; try (repeat split; try lia; try discriminate; try (intros [=]; fail); try (intros [s [=]]; fail); auto; fail).
      destruct neg; cbn [app hd].
      * repeat split; try lia; try discriminate. eauto.
      * destruct s; cbn [write1 app hd]; try (repeat split; try lia; try discriminate; intros [s [=]]; fail).
        apply xplain_ne in W1. repeat split; try lia; try discriminate; try (intros [s [=]]).
  - destruct sep; cbn [comma app hd]; repeat split; try lia; try discriminate; intros [s [=]].
  - destruct sep; cbn [comma app hd]; repeat split; try lia; try discriminate; intros [s [=]].
  - cbn [app hd]. repeat split; try lia; try discriminate; intros [s [=]].
Qed.
Lemma at_nextx m re x p : str_at m re (xpattern (x :: p)) -> str_at m (re + zlen (xwrite x)) (xpattern p).
Proof.
  intros H. unfold xpattern in *. cbn [flat_map] in H. pose proof (str_at_range _ _ _ H) as R. apply str_at_app in H; [apply H|]. apply Forall_app in R. apply R.
Qed.
Lemma xw_pos x : 1 <= zlen (xwrite x).
Proof.
  destruct x as [sep i|sep n|sep n|d sep i]; cbn [xwrite]; rewrite ?zlen_app, ?zlen_cons; try (pose proof (zlen_nonneg (number n))); pose proof (zlen_nonneg (comma sep)).
  - pose proof (zlen_write i). lia.
  - lia.
  - lia.
  - change (zlen (@nil Z)) with 0. pose proof (zlen_write i). lia.
Qed.
Lemma finalx_at m re p : well_written p -> str_at m re (xpattern p) ->
  (let* c := load m re in if (c =? 35) || (c =? 36) then let* c := load m (re + 1) in Ok (c =? 0) else Ok false) = Ok (finalx p).
Proof.
  intros W H. rewrite (load_some _ _ _ (hdx_at _ _ _ H)), bind_Ok. destruct p as [|x p]; [reflexivity|]. destruct (hdx_cases x p W) as (_ & _ & _ & K1 & K2 & _). set (h := hdx (x :: p)) in *.
  assert (A : forall x', xwrite x' = [35] \/ xwrite x' = [36] -> x = x' -> (let* c := load m (re + 1) in Ok (c =? 0)) = Ok (match p with [] => true | _ => false end)).
  { intros x' Hx ->. apply at_nextx in H. replace (zlen (xwrite x')) with 1 in H by (destruct Hx as [-> | ->]; reflexivity). rewrite (load_some _ _ _ (hdx_at _ _ _ H)), bind_Ok. f_equal.
    destruct p as [|y p]; [reflexivity|]. destruct W as [_ W]. destruct (hdx_cases y p W) as [K _]. lia. }
  destruct (Z.eqb_spec h 35) as [E|N1]; cbn [orb].
  - apply K1 in E. rewrite (A (XI false Hash)) by auto. subst x. destruct p; reflexivity.
  - destruct (Z.eqb_spec h 36) as [E|N2].
    + apply K2 in E. rewrite (A (XI false Dollar)) by auto. subst x. destruct p; reflexivity.
    + f_equal. destruct x as [[] []| | | ]; try reflexivity; exfalso; tauto.
Qed.
Lemma put_caps_none e : xreset e = e -> put_caps e [] = e.
Proof. destruct e as [a b c d]. unfold xreset, put_caps. cbn. intros [= E]. rewrite put_none, E. destruct a; reflexivity. Qed.

Lemma xstar_loop_ok rec m re p e : well_written p -> str_at m re (xpattern p) -> xreset e = e ->
  forall s text fuel, s <> [] -> str_at m text s ->
  (forall t r, r <> [] -> str_at m t r -> (length r <= length s)%nat -> rec t e = outx e (runx p 0 t r)) -> (length s <= fuel)%nat ->
  xstar_loop rec fuel m text re e = match findx (runx p 0) (finalx p) text s with
    | Some (z, l) => Ok (true, z, put_caps e l) | None => Ok (false, text + zlen s, e) end.
Proof.
  intros F Hre Hst. induction s as [|c s IH]; intros text fuel Hne Hs Hrec Hf; [congruence|].
  cbn [length] in *. destruct fuel as [|k]; [lia|]. cbn [xstar_loop findx]. rewrite (Hrec text (c :: s)) by (auto; lia).
  destruct (runx p 0 text (c :: s)) as [r|]; cbn [outx]; rewrite bind_Ok; [change (1 =? 0) with false; reflexivity|]. change (0 =? 0) with true. cbv iota.
  destruct Hs as (H1 & H2 & H3). destruct s as [|x s'] eqn:Es.
  - cbn [str_at] in H3. rewrite (load_some _ _ _ H3), bind_Ok. change (0 =? 0) with true. cbv iota.
    pose proof (finalx_at m re p F Hre) as Hfin. rewrite (load_some _ _ _ (hdx_at _ _ _ Hre)), bind_Ok in *. rewrite bind_Ok in Hfin. zl. revert Hfin. destruct ((hdx p =? 35) || (hdx p =? 36)); intros Hfin.
    + destruct (load m (re + 1)) as [d| |]; cbn [bind] in *; try discriminate. injection Hfin as ->. destruct (finalx p); [rewrite put_caps_none by exact Hst|]; do 3 f_equal; lia.
    + injection Hfin as <-. reflexivity.
  - rewrite <- Es in *. assert (Hx : m (text + 1) = Some x /\ x <> 0) by (subst s; destruct H3 as (H3 & H4 & _); split; [exact H3|lia]). destruct Hx as [Hx Hx0].
    rewrite (load_some _ _ _ Hx), bind_Ok. assert (x =? 0 = false) as -> by lia.
    rewrite IH; [|subst; discriminate|exact H3|intros; apply Hrec; auto; lia|lia].
    destruct s; [discriminate|]. destruct (findx (runx p 0) (finalx p) (text + 1) (z :: s)) as [[z0 r]|]; [reflexivity|]. zl. do 3 f_equal. lia.
Qed.
Lemma tailx_ok k m text re nm e p : well_written p -> str_at m text [] -> str_at m re (xpattern p) -> xreset e = e ->
  x_loop (S k) m Outer text re nm e = outx e (runx p nm text []).
Proof.
  intros F Ht Hre Hst. cbn [x_loop str_at] in *. rewrite (load_some _ _ _ Ht), bind_Ok. change (0 =? 0) with true. cbv iota.
  rewrite (load_some _ _ _ (hdx_at _ _ _ Hre)), bind_Ok.
  assert (A : forall q re', well_written q -> str_at m re' (xpattern q) ->
    (let* c := load m re' in if c =? 0 then Ok (1, e) else if c =? 42 then let* c := load m (re' + 1) in Ok (if c =? 0 then 1 else 0, e) else Ok (0, e)) =
    outx e (if match q with [] | [XI false Star] => true | _ => false end then Some [] else None)).
  { intros q re' Fq Hq. rewrite (load_some _ _ _ (hdx_at _ _ _ Hq)), bind_Ok. destruct q as [|x q].
    - cbn [outx]. rewrite put_caps_none by exact Hst. reflexivity.
    - destruct (hdx_cases x q Fq) as (K0 & _ & K1 & _). set (h := hdx (x :: q)) in *. replace (h =? 0) with false by lia. destruct (Z.eqb_spec h 42) as [E|N].
      + apply K1 in E. subst x. apply at_nextx in Hq. change (zlen (xwrite (XI false Star))) with 1 in Hq. rewrite (load_some _ _ _ (hdx_at _ _ _ Hq)), bind_Ok. destruct q as [|y q].
        * cbn [outx]. rewrite put_caps_none by exact Hst. reflexivity.
        * destruct Fq as [_ Fq]. destruct (hdx_cases y q Fq) as (K2 & _). replace (hdx (y :: q) =? 0) with false by lia. reflexivity.
      + replace (match x :: q with [] | [XI false Star] => true | _ => false end) with false; [reflexivity|]. destruct x as [[] []| | | ]; try reflexivity. exfalso. tauto. }
  destruct p as [|x p]; [apply (A [] re); auto|]. cbn [runx]. unfold endsx.
  destruct (hdx_cases x p F) as (_ & _ & _ & K1 & K2 & _). set (h := hdx (x :: p)) in *. pose proof (at_nextx _ _ _ _ Hre) as Hn.
  destruct (Z.eqb_spec h 35) as [E|N1]; [apply K1 in E; subst x; cbn [orb]; apply (A p (re + 1)); [apply F|exact Hn]|].
  destruct (Z.eqb_spec h 36) as [E|N2]; [apply K2 in E; subst x; cbn [orb]; apply (A p (re + 1)); [apply F|exact Hn]|].
  cbn [orb]. cbv iota. rewrite (A (x :: p) re F Hre). f_equal.
  destruct x as [[] []| | | ]; try reflexivity; exfalso; tauto.
Qed.
