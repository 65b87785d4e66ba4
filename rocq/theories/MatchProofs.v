From Verif Require Import Base BaseLemmas SysModel MatchModel MatchSpec.

(* ---- the code on lists ---- *)
Definition cap := option (Z * Z).
Definition hit1 (neg : bool) (s : single) (c : Z) : bool :=
  match s with
  | SLit x | SEsc x => xorb neg (x =? c)
  | SDigit => xorb neg (isdigit (schar c))
  | SNonDigit => xorb neg (negb (isdigit (schar c)))
  | SSpace => xorb neg (isspace (schar c))
  | SNonSpace => xorb neg (negb (isspace (schar c)))
  | SWord => xorb neg ((32 <=? schar c) && (schar c <=? 126)) || (160 <=? schar c)
  | SNonWord => xorb neg (schar c <? 32) || ((126 <? schar c) && (schar c <? 160))
  end.
Definition hit (i : item) (c : Z) : bool :=
  match i with
  | One neg s => hit1 neg s c
  | Any => true
  | Class cs => existsb (Z.eqb c) cs || (c =? 93)
  | Hash => isspace (schar c)
  | At => c =? 10
  | Dollar => c =? 36
  | Star | Plus | Take => false
  end.
Definition final (p : list item) : bool := match p with [Hash] | [Dollar] => true | _ => false end.
Definition ends (p : list item) : bool :=
  match (match p with Hash :: q | Dollar :: q => q | _ => p end) with [] | [Star] => true | _ => false end.
Fixpoint find (f : Z -> list Z -> option cap) (last : bool) (pos : Z) (s : list Z) : option (Z * cap) :=
  match s with
  | [] => None
  | c :: s' =>
      match f pos s with
      | Some r => Some (pos, r)
      | None => match s' with [] => if last then Some (pos + 1, None) else None | _ => find f last (pos + 1) s' end
      end
  end.
Fixpoint run (p : list item) (pos : Z) (s : list Z) : option cap :=
  match p with
  | [] => match s with [] => Some None | _ => None end
  | i :: p' =>
      match s with
      | [] => if ends p then Some None else None
      | c :: s' =>
          match i with
          | Star => match p' with [] => Some None | _ => option_map snd (find (run p') (final p') pos s) end
          | Plus => match s' with [] => None | _ => match p' with [] => Some None | _ => option_map snd (find (run p') (final p') (pos + 1) s') end end
          | Take =>
              match s' with
              | [] => None
              | _ =>
                  match p' with
                  | [] => Some (Some (pos, zlen s))
                  | _ => match find (run p') (final p') (pos + 1) s' with Some (e, _) => Some (Some (pos, e - pos)) | None => None end
                  end
              end
          | _ => if hit i c then run p' (pos + 1) s' else None
          end
      end
  end.
Definition put_cap (st : tmatch) (c : cap) : tmatch :=
  match st with None => None | Some (p, _) => Some (match c with Some r => r | None => (p, 0) end) end.
Definition out (st : tmatch) (r : option cap) : res (Z * tmatch) :=
  match r with Some c => Ok (1, put_cap st c) | None => Ok (0, reset st) end.

Definition chr (c : Z) : Prop := 1 <= c <= 255.
Lemma class_for_ok m t : forall cs re fuel, Forall (fun c => 1 <= c <= 255 /\ c <> 93) cs -> bytes_at m re (cs ++ [93]) -> 1 <= t <= 255 -> (length cs < fuel)%nat ->
  if existsb (Z.eqb t) cs || (t =? 93) then exists a b, cs ++ [93] = a ++ b /\ b <> [] /\ ~ In 93 a /\ class_for fuel m re t = Ok (Some (re + zlen a))
  else class_for fuel m re t = Ok None.
Proof.
  induction cs as [|x cs IH]; intros re fuel F B T Hf; (destruct fuel as [|k]; [cbn [length] in Hf; lia|]); cbn [class_for app existsb orb] in *.
  - destruct B as [B _]. rewrite (load_some _ _ _ B), bind_Ok. change (93 =? 0) with false. cbn [orb]. rewrite (Z.eqb_sym 93 t). destruct (t =? 93) eqn:E.
    + exists [], [93]. split; [reflexivity|]. split; [discriminate|]. split; [auto|]. change (zlen (@nil Z)) with 0. now rewrite Z.add_0_r.
    + reflexivity.
  - destruct B as [B1 B2]. apply Forall_cons_iff in F as [[F1 F3] F2]. rewrite (load_some _ _ _ B1), bind_Ok. assert (x =? 0 = false) as -> by lia. cbn [orb].
    rewrite (Z.eqb_sym x t). destruct (t =? x) eqn:E; cbn [orb].
    + exists [], (x :: cs ++ [93]). split; [reflexivity|]. split; [discriminate|]. split; [auto|]. change (zlen (@nil Z)) with 0. now rewrite Z.add_0_r.
    + assert (x =? 93 = false) as -> by lia. cbn [length] in Hf. specialize (IH (re + 1) k F2 B2 T ltac:(lia)).
      destruct (existsb (Z.eqb t) cs || (t =? 93)); [|exact IH]. destruct IH as (a & b & E1 & E2 & E3 & E4). exists (x :: a), b. split; [cbn [app]; now rewrite E1|].
      split; [exact E2|]. split; [intros [H|H]; [lia|contradiction]|]. rewrite E4. zl. do 2 f_equal. lia.
Qed.
Lemma class_end_ok m : forall cs re fuel, Forall (fun c => 1 <= c <= 255 /\ c <> 93) cs -> bytes_at m re (cs ++ [93]) -> (length cs < fuel)%nat ->
  class_end fuel m re = Ok (re + zlen cs).
Proof.
  induction cs as [|x cs IH]; intros re fuel F B Hf; (destruct fuel as [|k]; [cbn [length] in Hf; lia|]); cbn [class_end app] in *; destruct B as [B1 B2]; rewrite (load_some _ _ _ B1), bind_Ok.
  - change (zlen (@nil Z)) with 0. rewrite Z.add_0_r. reflexivity.
  - apply Forall_cons_iff in F as [[F1 F3] F2]. assert ((x =? 0) || (x =? 93) = false) as -> by lia. cbn [length] in Hf. rewrite IH by (auto; lia). zl. f_equal. lia.
Qed.
Lemma text_end_ok m : forall s p fuel, str_at m p s -> (length s < fuel)%nat -> text_end fuel m p = Ok (p + zlen s).
Proof.
  induction s as [|x s IH]; intros p fuel H Hf; (destruct fuel as [|k]; [cbn [length] in Hf; lia|]); cbn [text_end str_at] in *.
  - rewrite (load_some _ _ _ H), bind_Ok. change (zlen (@nil Z)) with 0. now rewrite Z.add_0_r.
  - destruct H as (H1 & H2 & H3). rewrite (load_some _ _ _ H1), bind_Ok. assert (x =? 0 = false) as -> by lia. cbn [length] in Hf. rewrite IH by (auto; lia). zl. f_equal. lia.
Qed.

(* ---- the bytes of a pattern ---- *)
Definition hdb (p : list item) : Z := match p with [] => 0 | i :: _ => hd 0 (write i) end.
Lemma plain_ne c : plain c -> c <> 0 /\ c <> 33 /\ c <> 63 /\ c <> 91 /\ c <> 35 /\ c <> 64 /\ c <> 37 /\ c <> 43 /\ c <> 42 /\ c <> 92 /\ c <> 36.
Proof. intros [H N]. cbn [In] in N. intuition lia. Qed.
Lemma hdb_at m re p : str_at m re (pattern p) -> m re = Some (hdb p).
Proof.
  destruct p as [|i p]; [cbn; auto|]. unfold pattern. cbn [flat_map hdb].
  destruct i as [[] []| | | | | | | | ]; cbn [write write1 app hd str_at]; tauto.
Qed.
Lemma hdb_zero p : Forall item_ok p -> hdb p = 0 -> p = [].
Proof.
  destruct p as [|i p]; [auto|]. intros F. apply Forall_cons_iff in F as [F _].
  destruct i as [[] []| | | | | | | | ]; cbn [hdb write write1 app hd] in *; try discriminate. intros ->. cbn in F. destruct F as [F _]. lia.
Qed.
Lemma hdb_star p : Forall item_ok p -> hdb p = 42 -> exists q, p = Star :: q.
Proof.
  destruct p as [|i p]; [discriminate|]. intros F. apply Forall_cons_iff in F as [F _].
  destruct i as [[] []| | | | | | | | ]; cbn [hdb write write1 app hd] in *; try discriminate; [|eauto]. intros ->. apply plain_ne in F. lia.
Qed.
Lemma hdb_end p : Forall item_ok p -> (hdb p =? 35) || (hdb p =? 36) = match p with Hash :: _ | Dollar :: _ => true | _ => false end.
Proof.
  destruct p as [|i p]; [reflexivity|]. intros F. apply Forall_cons_iff in F as [F _].
  destruct i as [[] []| | | | | | | | ]; cbn [hdb write write1 app hd] in *; try reflexivity. apply plain_ne in F. lia.
Qed.
Lemma at_next m re i p : str_at m re (pattern (i :: p)) -> str_at m (re + zlen (write i)) (pattern p).
Proof.
  intros H. unfold pattern in *. cbn [flat_map] in H. pose proof (str_at_range _ _ _ H) as R. apply str_at_app in H; [apply H|]. apply Forall_app in R. apply R.
Qed.
Lemma zlen_write i : 1 <= zlen (write i).
Proof. destruct i as [[] []| | | | | | | | ]; cbn [write write1 app]; rewrite ?zlen_cons; try lia; match goal with |- context [zlen ?l] => pose proof (zlen_nonneg l) end; lia. Qed.
Lemma final_at m re p : Forall item_ok p -> str_at m re (pattern p) ->
  (let* c := load m re in if (c =? 35) || (c =? 36) then let* c := load m (re + 1) in Ok (c =? 0) else Ok false) = Ok (final p).
Proof.
  intros F H. rewrite (load_some _ _ _ (hdb_at _ _ _ H)), bind_Ok, hdb_end by exact F.
  destruct p as [|i p]; [reflexivity|]. apply Forall_cons_iff in F as [_ F].
  assert (A : forall i, zlen (write i) = 1 -> str_at m re (pattern (i :: p)) -> (let* c := load m (re + 1) in Ok (c =? 0)) = Ok (match p with [] => true | _ => false end)).
  { intros j Hj Hs. apply at_next in Hs. rewrite Hj in Hs. rewrite (load_some _ _ _ (hdb_at _ _ _ Hs)), bind_Ok. f_equal. destruct p as [|j' p']; [reflexivity|].
    apply Z.eqb_neq. intros E. apply hdb_zero in E; [discriminate|exact F]. }
  destruct i as [[] []| | | | | | | | ]; try reflexivity; cbn [final]; [rewrite (A Hash eq_refl H)|rewrite (A Dollar eq_refl H)]; destruct p; reflexivity.
Qed.
Lemma reset_reset st : reset (reset st) = reset st.
Proof. destruct st as [[]|]; reflexivity. Qed.
Lemma put_none st : put_cap st None = reset st.
Proof. destruct st as [[]|]; reflexivity. Qed.
Lemma put_reset st c : put_cap (reset st) c = put_cap st c.
Proof. destruct st as [[]|]; reflexivity. Qed.

Lemma star_loop_ok rec m re p st : Forall item_ok p -> str_at m re (pattern p) -> reset st = st ->
  forall s text fuel, s <> [] -> str_at m text s ->
  (forall t r, r <> [] -> str_at m t r -> (length r <= length s)%nat -> rec t st = out st (run p t r)) -> (length s <= fuel)%nat ->
  star_loop rec fuel m text re st = match find (run p) (final p) text s with
    | Some (e, c) => Ok (true, e, put_cap st c) | None => Ok (false, text + zlen s, st) end.
Proof.
  intros F Hre Hst. induction s as [|c s IH]; intros text fuel Hne Hs Hrec Hf; [congruence|].
  cbn [length] in *. destruct fuel as [|k]; [lia|]. cbn [star_loop find]. rewrite (Hrec text (c :: s)) by (auto; lia).
  destruct (run p text (c :: s)) as [r|]; cbn [out]; rewrite bind_Ok; [change (1 =? 0) with false; reflexivity|]. change (0 =? 0) with true. cbv iota.
  rewrite Hst. destruct Hs as (H1 & H2 & H3). destruct s as [|x s'] eqn:Es.
  - cbn [str_at] in H3. rewrite (load_some _ _ _ H3), bind_Ok. change (0 =? 0) with true. cbv iota.
    pose proof (final_at m re p F Hre) as Hfin. rewrite (load_some _ _ _ (hdb_at _ _ _ Hre)), bind_Ok in *. rewrite bind_Ok in Hfin. zl. revert Hfin. destruct ((hdb p =? 35) || (hdb p =? 36)); intros Hfin.
    + destruct (load m (re + 1)) as [d| |]; cbn [bind] in *; try discriminate. injection Hfin as ->. destruct (final p); [rewrite put_none, Hst|]; do 3 f_equal; lia.
    + injection Hfin as <-. reflexivity.
  - rewrite <- Es in *. assert (Hx : m (text + 1) = Some x /\ x <> 0) by (subst s; destruct H3 as (H3 & H4 & _); split; [exact H3|lia]). destruct Hx as [Hx Hx0].
    rewrite (load_some _ _ _ Hx), bind_Ok. assert (x =? 0 = false) as -> by lia.
    rewrite IH; [|subst; discriminate|exact H3|intros; apply Hrec; auto; lia|lia].
    destruct s; [discriminate|]. destruct (find (run p) (final p) (text + 1) (z :: s)) as [[e r]|]; [reflexivity|]. zl. do 3 f_equal. lia.
Qed.

Ltac closed_eqb := repeat match goal with |- context [?a =? ?b] =>
  let v := eval vm_compute in (a =? b) in match v with true => idtac | false => idtac end; change (a =? b) with v end.
Ltac nes c H := apply plain_ne in H; destruct H as (?N0 & ?N1 & ?N2 & ?N3 & ?N4 & ?N5 & ?N6 & ?N7 & ?N8 & ?N9 & ?N10).
Ltac neqs := repeat match goal with H : ?c <> ?k |- context [?c =? ?k] => rewrite (proj2 (Z.eqb_neq c k) H) end.
Definition fixed (i : item) : bool := match i with Star | Plus | Take => false | _ => true end.
Lemma single_step k m text re st t neg s p : m text = Some t -> chr t -> str_at m re (pattern (One neg s :: p)) -> item_ok (One neg s) ->
  m_loop (S k) m text re st = if hit1 neg s t then m_loop k m (text + 1) (re + zlen (write (One neg s))) st else Ok (0, st).
Proof.
  intros Ht T Hre W. unfold chr in T.
  assert (Hre0 : str_at m re ((if neg then [33] else []) ++ write1 s ++ pattern p)) by (unfold pattern in Hre; cbn [flat_map write] in Hre; rewrite <- app_assoc in Hre; exact Hre). clear Hre.
  set (n := if neg then 1 else 0). assert (Hz : zlen (write (One neg s)) = n + zlen (write1 s)) by (unfold n; cbn [write]; rewrite zlen_app; destruct neg; reflexivity).
  assert (Hs : str_at m (re + n) (write1 s ++ pattern p)) by (unfold n; destruct neg; [destruct Hre0 as (_ & _ & H)|rewrite Z.add_0_r]; assumption).
  cbn [m_loop].
  rewrite (load_some _ _ _ Ht), bind_Ok. assert (t =? 0 = false) as -> by lia.
  assert (HL : exists c0, m re = Some c0 /\ (c0 =? 33) = neg).
  { destruct neg; [exists 33; split; [apply Hre0|reflexivity]|]. cbn [app] in Hre0. destruct s; cbn [write1 app str_at] in Hre0; eexists; (split; [apply Hre0|try reflexivity]).
    cbn in W. apply plain_ne in W. lia. }
  destruct HL as (c0 & HL & E0). rewrite (load_some _ _ _ HL), bind_Ok, E0.
  assert ((if neg then re + 1 else re) = re + n) as -> by (unfold n; destruct neg; lia).
  assert (Ehit : forall x, (if xorb neg (negb (x =? t)) then Ok (0, st) else m_loop k m (text + 1) (re + zlen (write (One neg s))) st) =
            (if xorb neg (x =? t) then m_loop k m (text + 1) (re + zlen (write (One neg s))) st else Ok (0, st))) by (intros x; destruct neg, (x =? t); reflexivity).
  destruct s as [x|x| | | | | | ]; cbn [write1 app str_at] in Hs; destruct Hs as (H1 & H2 & H3);
    try (destruct H3 as (H3 & H4 & H5)); rewrite (load_some _ _ _ H1), bind_Ok.
  - cbn in W. nes x W. neqs. cbn [hit1]. replace (re + n + 1) with (re + zlen (write (One neg (SLit x)))) by (rewrite Hz; change (zlen (write1 (SLit x))) with 1; lia). apply Ehit.
  - closed_eqb. rewrite (load_some _ _ _ H3), bind_Ok. destruct W as [W1 W2]. cbn [In] in W2. unfold escape.
    assert (x <> 100 /\ x <> 68 /\ x <> 115 /\ x <> 83 /\ x <> 119 /\ x <> 87) as (A1 & A2 & A3 & A4 & A5 & A6) by intuition lia. neqs. assert (x =? 0 = false) as -> by lia. cbn [hit1].
    replace (re + n + 1 + 1) with (re + zlen (write (One neg (SEsc x)))) by (rewrite Hz; change (zlen (write1 (SEsc x))) with 2; lia). apply Ehit.
  - closed_eqb. rewrite (load_some _ _ _ H3), bind_Ok. unfold escape. closed_eqb. cbn [hit1]. replace (re + n + 1 + 1) with (re + zlen (write (One neg SDigit))) by (rewrite Hz; change (zlen (write1 SDigit)) with 2; lia). now destruct (xorb _ _).
  - closed_eqb. rewrite (load_some _ _ _ H3), bind_Ok. unfold escape. closed_eqb. cbn [hit1]. replace (re + n + 1 + 1) with (re + zlen (write (One neg SNonDigit))) by (rewrite Hz; change (zlen (write1 SNonDigit)) with 2; lia). now destruct (xorb _ _).
  - closed_eqb. rewrite (load_some _ _ _ H3), bind_Ok. unfold escape. closed_eqb. cbn [hit1]. replace (re + n + 1 + 1) with (re + zlen (write (One neg SSpace))) by (rewrite Hz; change (zlen (write1 SSpace)) with 2; lia). now destruct (xorb _ _).
  - closed_eqb. rewrite (load_some _ _ _ H3), bind_Ok. unfold escape. closed_eqb. cbn [hit1]. replace (re + n + 1 + 1) with (re + zlen (write (One neg SNonSpace))) by (rewrite Hz; change (zlen (write1 SNonSpace)) with 2; lia). now destruct (xorb _ _).
  - closed_eqb. rewrite (load_some _ _ _ H3), bind_Ok. unfold escape. closed_eqb. cbn [hit1]. replace (re + n + 1 + 1) with (re + zlen (write (One neg SWord))) by (rewrite Hz; change (zlen (write1 SWord)) with 2; lia). now destruct (orb _ _).
  - closed_eqb. rewrite (load_some _ _ _ H3), bind_Ok. unfold escape. closed_eqb. cbn [hit1]. replace (re + n + 1 + 1) with (re + zlen (write (One neg SNonWord))) by (rewrite Hz; change (zlen (write1 SNonWord)) with 2; lia). now destruct (orb _ _).
Qed.
