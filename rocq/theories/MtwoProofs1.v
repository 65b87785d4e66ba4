From Coq Require Import ZifyBool.
From Verif Require Import Base BaseLemmas SysModel MatchModel MextModel MtwoModel MtwoSpec.
From Verif Require MatchProofs MextProofs MextProofs3.
Ltac closed_eqb := MatchProofs.closed_eqb.

(* ---- the code on lists ---- *)
Notation caps := (list call).
Definition nmof (n : option Z) (nm : Z) : Z := match n with Some d => d | None => nm end.
Definition ends (p : list item) : bool := match p with [] => true | i :: q => ending i || match what i, q with Star, [] => true | _, _ => false end end.
Fixpoint find (f : Z -> list Z -> option caps) (pos : Z) (s : list Z) : option (Z * caps) :=
  match s with
  | [] => None
  | c :: s' => match f pos s with Some r => Some (pos, r) | None => find f (pos + 1) s' end
  end.
Fixpoint cnt (t : test) (d : nat) (s : list Z) : option (list Z) :=
  match d with
  | O => Some s
  | S d => match s with c :: s' => if sat t c then cnt t d s' else None | [] => None end
  end.
Definition wild (f : Z -> list Z -> option caps) (last : bool) (num : Z) (mp : option Z) (pos : Z) (s : list Z) : option caps :=
  if last then Some (match mp with Some q => [(num, q, pos + zlen s - q)] | None => [] end)
  else match find f pos s with
       | Some (z, l) => Some (match mp with Some q => (num, q, z - q) :: l | None => l end)
       | None => None
       end.
Definition isnil {A} (l : list A) : bool := match l with [] => true | _ => false end.
Fixpoint yrun (p : list item) (nm pos : Z) (s : list Z) : option caps :=
  match p with
  | [] => match s with [] => Some [] | _ => None end
  | i :: q =>
      match s with
      | [] => if ends p then Some [] else None
      | c :: s' =>
          match what i with
          | One neg t => if xorb neg (sat t c) then yrun q nm (pos + 1) s' else None
          | Amp n => yrun q (nmof n nm) (pos + 1) s'
          | Star => wild (yrun q 0) (isnil q) nm None pos s
          | Plus => if isnil s' then None else wild (yrun q 0) (isnil q) nm None (pos + 1) s'
          | Take n => if isnil s' then None else wild (yrun q 0) (isnil q) (nmof n nm) (Some pos) (pos + 1) s'
          | Count d _ t => match cnt t (Z.to_nat d) s with Some (c :: r) => yrun q 0 (pos + d) (c :: r) | _ => None end
          | Open | Close => yrun q 0 pos s
          end
      end
  end.
Notation put := MextProofs.put_caps.
(* the result of the code *)
Definition gives (e : ext2) (r : option caps) (v : res (Z * ext2)) : Prop :=
  exists o, match r with
            | Some l => exists z, 0 < z /\ v = Ok (z, mk2 (put (base e) l) o)
            | None => v = Ok (0, mk2 (base e) o)
            end.

(* ---- bytes of a pattern ---- *)
Definition hdp (p : list item) : Z := hd 0 (pattern p).
Lemma hdp_at m re p : str_at m re (pattern p) -> m re = Some (hdp p).
Proof. unfold hdp. destruct (pattern p); cbn [str_at hd]; tauto. Qed.
Lemma plain_ne c : plain c -> c <> 0 /\ c <> 33 /\ c <> 35 /\ c <> 36 /\ c <> 37 /\ c <> 38 /\ c <> 40 /\ c <> 41 /\ c <> 42 /\ c <> 43 /\ c <> 44 /\ c <> 63 /\ c <> 64 /\ c <> 91 /\ c <> 92 /\ c <> 123 /\ c <> 125.
Proof. intros [H N]. cbn [In] in N. intuition lia. Qed.
Lemma at_next m re i p : str_at m re (pattern (i :: p)) -> str_at m (re + zlen (write i)) (pattern p).
Proof. intros H. unfold pattern in *. cbn [flat_map] in H. pose proof (str_at_range _ _ _ H) as R. apply str_at_app in H; [apply H|]. apply Forall_app in R. apply R. Qed.
Lemma pattern_cons i p : pattern (i :: p) = write i ++ pattern p.
Proof. reflexivity. Qed.
(* the bytes of an item and what follows *)
Lemma at_item m re i p : str_at m re (pattern (i :: p)) -> bytes_at m re (write i) /\ str_at m (re + zlen (write i)) (pattern p).
Proof. intros H. split; [|now apply at_next]. apply str_at_bytes in H. rewrite pattern_cons in H. now apply bytes_at_app in H. Qed.
Lemma wtest_hd t : test_ok t -> let h := hd 0 (wtest t) in 1 <= h <= 255 /\ h <> 33 /\ h <> 44 /\ h <> 41 /\ h <> 125 /\ h <> 123 /\ h <> 40 /\ h <> 37 /\ h <> 38 /\ h <> 42 /\ h <> 43 /\
  (h = 35 <-> t = Hash) /\ (h = 36 <-> t = Dollar).
Proof.
  destruct t; cbn [test_ok wtest hd]; intros W; try (repeat split; (lia || discriminate || reflexivity)).
  pose proof (plain_ne _ W). destruct W as [W _]. repeat split; try lia; try discriminate.
Qed.
Lemma wtest_len t : (1 <= length (wtest t))%nat.
Proof. destruct t; cbn [wtest length]; lia. Qed.
Lemma wkind_ne k : wkind k <> [].
Proof. destruct k as [[] t| | | | | | | ]; try discriminate; destruct t; discriminate. Qed.
Lemma write_len i : (1 <= length (write i))%nat.
Proof. unfold write. rewrite app_length. pose proof (wkind_ne (what i)). destruct (wkind (what i)); [congruence|]. cbn [length]. lia. Qed.
Lemma gives_none e e' : base e' = base e -> gives e None (Ok (0, e')).
Proof. intros E. exists (out e'). rewrite <- E. destruct e'; reflexivity. Qed.
Lemma gives_nil e e' text : xreset (base e) = base e -> base e' = base e -> 0 < text -> gives e (Some []) (Ok (text, e')).
Proof. intros H E T. exists (out e'), text. split; [exact T|]. rewrite (MextProofs.put_caps_none _ H), <- E. destruct e'; reflexivity. Qed.
Lemma ends_at m text re e p : well_written p -> str_at m re (pattern p) -> 0 < text -> xreset (base e) = base e ->
  gives e (if ends p then Some [] else None) (y_end m text re e).
Proof.
  intros W Hre Ht Hst. assert (G0 : gives e None (Ok (0, e))) by now apply gives_none. assert (G1 : gives e (Some []) (Ok (text, e))) by now apply gives_nil. assert (G2 : gives e (Some []) (Ok (text, say e))) by now apply gives_nil. unfold y_end. ld (hdp_at _ _ _ Hre). destruct p as [|[k w] p].
  - change (hdp []) with 0. closed_eqb. cbv iota. cbn in Hre. ld Hre. closed_eqb. exact G1.
  - destruct (at_item _ _ _ _ Hre) as [HB Hn]. unfold write in HB, Hn. cbn [comma what] in *.
    assert (Hh : hdp (It k w :: p) = hd 0 (write (It k w))).
    { unfold hdp. rewrite pattern_cons. pose proof (write_len (It k w)). destruct (write (It k w)); [cbn [length] in *; lia|reflexivity]. }
    rewrite Hh. unfold write. cbn [comma what].
    apply bytes_at_app in HB as [HB0 HB]. rewrite zlen_app, Z.add_assoc in Hn.
    set (re' := re + zlen (wcomma k)) in *.
    assert (Hre' : (if hd 0 (wcomma k ++ wkind w) =? 44 then re + 1 else re) = re' /\ (k = true \/ hd 0 (wkind w) = hd 0 (wcomma k ++ wkind w))).
    { unfold re'. destruct k; cbn [wcomma app hd].
      - closed_eqb. split; [reflexivity|auto].
      - change (zlen (@nil Z)) with 0. split; [|auto]. replace (hd 0 (wkind w) =? 44) with false; [lia|]. destruct W as [W _]. cbn [what] in W. destruct w as [[] t| | | | | | | ]; cbn [wkind app hd]; try reflexivity.
        destruct W as [W _]. pose proof (wtest_hd t W) as K. cbv zeta in K. lia. }
    destruct Hre' as [-> _].
    assert (Hb : m re' = Some (hd 0 (wkind w))) by (pose proof (wkind_ne w); destruct (wkind w); [congruence|apply HB]).
    ld Hb. cbn [ends]. destruct W as [W _]. cbn [what] in W.
    destruct w as [neg t|n| | |n|d sep t| | ]; cbn [wkind app hd ending what] in *; closed_eqb; cbn [orb]; cbv iota; try exact G0.
    + destruct neg; cbn [app hd]; [closed_eqb; exact G0|]. destruct W as [W _]. pose proof (wtest_hd t W) as K. cbv zeta in K.
      destruct ((hd 0 (wtest t) =? 35) || (hd 0 (wtest t) =? 36)) eqn:E.
      * assert (T : t = Hash \/ t = Dollar) by (apply orb_prop in E as [E|E]; apply Z.eqb_eq in E; [left|right]; apply K; exact E).
        destruct T as [-> | ->]; exact G2.
      * replace (match t with Hash | Dollar => true | _ => false end || false) with false by (destruct t; try reflexivity; exfalso; cbn in E; discriminate).
        replace (hd 0 (wtest t) =? 0) with false by lia. replace (hd 0 (wtest t) =? 42) with false by lia. exact G0.
    + change (zlen [42]) with 1 in Hn. ld (hdp_at _ _ _ Hn). destruct p as [|j p].
      * change (hdp []) with 0. closed_eqb. exact G1.
      * replace (hdp (j :: p) =? 0) with false; [exact G0|]. unfold hdp. pose proof (str_at_range _ _ _ Hn) as R. rewrite pattern_cons in *. pose proof (write_len j). destruct (write j); [cbn [length] in *; lia|].
        cbn [app hd] in *. apply Forall_cons_iff in R as [R _]. lia.
Qed.
