From Verif Require Import Base BaseLemmas ConvModel ConvSpec ConvProofs ConvProofs2 ConvProofs3 ConvProofs4 ConvProofs6 PrintModel PrintSpec PrintProofs PrintProofs2.
Ltac Zify.zify_post_hook ::= Z.div_mod_to_equations.

(* ---- a number has one numeral ---- *)
Lemma digval_zero b : digval b = 0 -> b = 48.
Proof.
  unfold digval. destruct ((48 <=? b) && (b <=? 57)) eqn:A; [lia|].
  destruct ((65 <=? b) && (b <=? 90)) eqn:B; [lia|]. destruct ((97 <=? b) && (b <=? 122)) eqn:C; lia.
Qed.
Lemma value_pos base l : 0 < base -> digits base l -> l <> [] -> hd 0 l <> 48 -> 0 < value base l.
Proof.
  intros Hb D Hn Hh. destruct (Z.eq_dec (value base l) 0) as [E|]; [|pose proof (value_range base l Hb D); lia].
  pose proof (value_zero base l Hb D E) as F. destruct l as [|b l]; [congruence|]. apply Forall_cons_iff in F as [F _].
  apply digval_zero in F. cbn [hd] in Hh. lia.
Qed.
Definition lower (b : Z) : Prop := ~ (65 <= b <= 90).
Lemma digval_inj a b : lower a -> lower b -> 0 <= digval a -> digval a = digval b -> a = b.
Proof.
  unfold lower, digval. intros Ha Hb. 
  destruct ((48 <=? a) && (a <=? 57)) eqn:A1; destruct ((48 <=? b) && (b <=? 57)) eqn:B1; try lia;
  destruct ((65 <=? a) && (a <=? 90)) eqn:A2; destruct ((65 <=? b) && (b <=? 90)) eqn:B2; try lia;
  destruct ((97 <=? a) && (a <=? 122)) eqn:A3; destruct ((97 <=? b) && (b <=? 122)) eqn:B3; lia.
Qed.
Lemma numeral_unique_gen (P : Z -> Prop) base : (forall a b, P a -> P b -> 0 <= digval a -> digval a = digval b -> a = b) -> 1 < base -> forall l1 l2 v, numeral base v l1 -> numeral base v l2 -> Forall P l1 -> Forall P l2 -> l1 = l2.
Proof.
  intros Hinj Hb. induction l1 as [|d1 l1 IH] using rev_ind; intros l2 v (D1 & V1 & N1 & H1) (D2 & V2 & N2 & H2) L1 L2; [congruence|].
  destruct l2 as [|d2 l2 _] using rev_ind; [congruence|].
  rewrite value_snoc in V1, V2. apply Forall_app in D1 as [D1 D1']. apply Forall_app in D2 as [D2 D2'].
  apply Forall_cons_iff in D1' as [D1' _]. apply Forall_cons_iff in D2' as [D2' _].
  apply Forall_app in L1 as [L1 L1']. apply Forall_app in L2 as [L2 L2'].
  apply Forall_cons_iff in L1' as [L1' _]. apply Forall_cons_iff in L2' as [L2' _].
  assert (E : value base l1 = value base l2 /\ digval d1 = digval d2) by (apply (Z.div_mod_unique base); lia).
  destruct E as [E1 E2]. assert (d1 = d2) by (apply Hinj; auto; lia). subst d2. f_equal.
  assert (T1 : l1 <> [] -> hd 0 l1 <> 48).
  { intros Hn Hh. destruct l1 as [|x l1]; [congruence|]. cbn [hd app] in *. specialize (H1 Hh). destruct l1; discriminate H1. }
  assert (T2 : l2 <> [] -> hd 0 l2 <> 48).
  { intros Hn Hh. destruct l2 as [|x l2]; [congruence|]. cbn [hd app] in *. specialize (H2 Hh). destruct l2; discriminate H2. }
  destruct l1 as [|x l1]; destruct l2 as [|y l2]; [reflexivity| | |].
  - pose proof (value_pos base (y :: l2) ltac:(lia) D2 ltac:(discriminate) (T2 ltac:(discriminate))). change (value base []) with 0 in E1. lia.
  - pose proof (value_pos base (x :: l1) ltac:(lia) D1 ltac:(discriminate) (T1 ltac:(discriminate))). change (value base []) with 0 in E1. lia.
  - apply (IH (y :: l2) (value base (x :: l1))); auto.
    + split; [exact D1|]. split; [reflexivity|]. split; [discriminate|]. intros Hh. now apply T1 in Hh.
    + split; [exact D2|]. split; [now symmetry|]. split; [discriminate|]. intros Hh. now apply T2 in Hh.
Qed.
Definition upper (b : Z) : Prop := b < 97.
Lemma digval_inj_up a b : upper a -> upper b -> 0 <= digval a -> digval a = digval b -> a = b.
Proof.
  unfold upper, digval. intros Ha Hb. 
  destruct ((48 <=? a) && (a <=? 57)) eqn:A1; destruct ((48 <=? b) && (b <=? 57)) eqn:B1; try lia;
  destruct ((65 <=? a) && (a <=? 90)) eqn:A2; destruct ((65 <=? b) && (b <=? 90)) eqn:B2; try lia;
  destruct ((97 <=? a) && (a <=? 122)) eqn:A3; destruct ((97 <=? b) && (b <=? 122)) eqn:B3; lia.
Qed.
Lemma numeral_unique base : 1 < base -> forall l1 l2 v, numeral base v l1 -> numeral base v l2 -> Forall lower l1 -> Forall lower l2 -> l1 = l2.
Proof. intros Hb l1 l2 v. apply numeral_unique_gen; auto. exact digval_inj. Qed.
Lemma numeral_unique_up base : 1 < base -> forall l1 l2 v, numeral base v l1 -> numeral base v l2 -> Forall upper l1 -> Forall upper l2 -> l1 = l2.
Proof. intros Hb l1 l2 v. apply numeral_unique_gen; auto. exact digval_inj_up. Qed.
Lemma digits10_lower l : digits 10 l -> Forall lower l.
Proof. intros D. eapply Forall_impl; [|exact D]. intros b Hb. apply digit10 in Hb. unfold lower. lia. Qed.
Lemma numeral10_unique v l1 l2 : numeral 10 v l1 -> numeral 10 v l2 -> l1 = l2.
Proof. intros H1 H2. eapply (numeral_unique 10); eauto; try lia; apply digits10_lower; [apply H1|apply H2]. Qed.
Lemma signed10_unique v l1 l2 : signed_numeral 10 v l1 -> signed_numeral 10 v l2 -> l1 = l2.
Proof.
  unfold signed_numeral. destruct (v <? 0); [|apply numeral10_unique]. intros (r1 & -> & H1) (r2 & -> & H2). f_equal. eapply numeral10_unique; eauto.
Qed.
Lemma padded1 base v l : padded_numeral base v 1 l -> numeral base v l.
Proof.
  intros (D & V & W & H). split; [exact D|]. split; [exact V|]. split; [intros ->; change (zlen (@nil Z)) with 0 in W; lia|].
  intros Hh. specialize (H Hh). destruct l as [|x [|y l]]; [change (zlen (@nil Z)) with 0 in W; lia|cbn [hd] in Hh; now subst|].
  rewrite !zlen_cons in H. nneg l. lia.
Qed.

(* ---- exact output ---- *)
Definition sw_out (m : mem) (buf a b : Z) (rest o : list Z) (r : swres) : Prop :=
  match r with
  | SwSegv _ _ => False
  | SwGo m' a' b' args' stop _ => stop = true /\ a' = a /\ args' = rest /\ b' = b + zlen o /\
      bytes_at m' (buf + b) o /\ same_outside m m' (buf + b) (zlen o + 1) /\ mapped m m'
  end.
Lemma wrote_mapped m m' p l : wrote m m' p l -> mapped m m'.
Proof.
  intros [S O] x Hx. destruct (Z_le_dec p x) as [H1|H1]; [destruct (Z_lt_dec x (p + (zlen l + 1))) as [H2|H2]|].
  - destruct (Z.eq_dec x (p + zlen l)) as [->|Hne]; [rewrite (str_at_end _ _ _ S); discriminate|].
    apply str_at_bytes in S. destruct (nth_error l (Z.to_nat (x - p))) eqn:En.
    + apply (bytes_at_nth m' p l _ _ S) in En. replace (p + Z.of_nat (Z.to_nat (x - p))) with x in En by lia. rewrite En. discriminate.
    + apply nth_error_None in En. unfold zlen in *. lia.
  - rewrite O by lia. exact Hx.
  - rewrite O by lia. exact Hx.
Qed.

Lemma wrote_out m m' buf a b st rest o : wrote m m' (buf + b) o -> sw_out m buf a b rest o (SwGo m' a (b + zlen o) rest true st).
Proof.
  intros W. cbn [sw_out]. repeat (split; [reflexivity|]). split; [apply str_at_bytes, W|]. split; [apply W|]. eapply wrote_mapped; eauto.
Qed.
Lemma room_wr m buf size b k : room m buf size -> 0 <= b -> b + k < size -> room m (buf + b) (k + 1).
Proof. intros R H1 H2. apply (room_at m buf size); auto; lia. Qed.
Lemma upd_out m buf a b st rest c v : ubyte v = c -> sw_out m buf a b rest [c] (SwGo (upd m (buf + b) (ubyte v)) a (b + 1) rest true st).
Proof.
  intros <-. cbn [sw_out]. change (zlen [ubyte v]) with 1. repeat (split; [reflexivity|]). split; [|split; [apply same_outside_upd; lia|apply mapped_upd]].
  cbn [bytes_at]. split; [apply upd_same|exact I].
Qed.

Definition ok_int (strict : bool) (v : Z) : Prop := strict = true -> v <> INT_MIN.
Definition ok_uns (v : Z) : Prop := 0 < v.

(* a conversion without modifiers; o is its output *)
Lemma formats_keep iok uok m m' buf size items args out : same_outside m m' buf size ->
  formats iok uok m buf size items args out -> formats iok uok m' buf size items args out.
Proof.
  intros S H. induction H.
  - apply f_nil.
  - now apply f_lit.
  - now apply f_percent.
  - apply f_string; auto. eapply str_keep; eauto.
  - now apply f_char.
  - now apply f_int.
  - now apply f_unsigned.
  - now apply f_hex.
  - now apply f_hexcap.
Qed.

Lemma formats_conv iok uok m buf size mods w c r args out : formats iok uok m buf size (Conv mods w c :: r) args out -> mods = [] /\ w = [].
Proof. intros H. inversion H; auto. Qed.

