From Verif Require Import Base BaseLemmas ConvModel ConvProofs6 PageModel PageSpec.
Ltac Zify.zify_post_hook ::= Z.div_mod_to_equations.

Definition usable (len : Z) : Z := len / 4096 + 1.
Lemma round_len_ok : forall strict len, 0 <= len <= INT_MAX - 12288 -> round_len strict len = Ok (usable len * 4096).
Proof.
  intros strict len H. unfold round_len, PAGESIZE, usable. rewrite Z.rem_mod_nonneg by lia.
  rewrite iar_small by (unfold INT_MIN, INT_MAX; lia). rewrite bind_Ok.
  rewrite iar_small by (unfold INT_MIN, INT_MAX in *; lia). f_equal. lia.
Qed.
Lemma total_ok : forall strict len, 0 <= len <= INT_MAX - 12288 ->
  iar strict (usable len * 4096 + 2 * PAGESIZE) = Ok ((usable len + 2) * 4096).
Proof.
  intros strict len H. unfold PAGESIZE, usable. rewrite iar_small by (unfold INT_MIN, INT_MAX in *; lia). f_equal. lia.
Qed.
Lemma page_count_mul : forall n, page_count (n * 4096) = n.
Proof. intros n. unfold page_count. lia. Qed.
Lemma u64_id : forall x, 0 <= x < 18446744073709551616 -> u64 x = x.
Proof. intros x H. unfold u64. apply Z.mod_small. exact H. Qed.

Lemma map_ok : forall strict me choose word pg len a, 0 <= len <= INT_MAX - 12288 -> kernel_ok choose pg ->
  choose ((usable len + 2) * 4096) = inl a ->
  exists pg', map_protected strict false me choose word pg len = Ok (pg', a + 4096) /\ a mod 4096 = 0 /\ 4096 <= a /\ a + (usable len + 2) * 4096 <= 140737488351232 /\
    (forall x, pg' x = if (a / 4096 <=? x) && (x <? a / 4096 + usable len + 2)
                       then Some (if (x =? a / 4096) || (x =? a / 4096 + usable len + 1) then 0 else 3) else pg x) /\
    (forall x, a / 4096 <= x < a / 4096 + usable len + 2 -> pg x = None).
Proof.
  intros strict me choose word pg len a H K C. pose proof (K ((usable len + 2) * 4096)) as K1.
  assert (U : 1 <= usable len) by (unfold usable; lia). specialize (K1 ltac:(lia)). rewrite C in K1. destruct K1 as (K1 & K2 & K3 & K4).
  set (n := usable len) in *.
  unfold map_protected. rewrite round_len_ok by auto. fold n. rewrite bind_Ok. unfold n at 1. rewrite total_ok by auto. fold n. rewrite bind_Ok.
  unfold mmap. replace ((n + 2) * 4096 <=? 0) with false by lia. rewrite C. rewrite page_count_mul.
  replace (a <=? 0) with false by lia.
  assert (Q : u64 (a + (n + 2) * 4096 - PAGESIZE) = (a / 4096 + n + 1) * 4096).
  { unfold PAGESIZE. rewrite u64_id by lia. lia. }
  unfold mprotect1 at 1. replace (a mod 4096 =? 0) with true by lia. cbn [negb]. unfold set_pages at 1.
  replace ((a / 4096 <=? a / 4096) && (a / 4096 <? a / 4096 + (n + 2))) with true by lia. cbv iota. cbn [andb]. rewrite bind_Ok.
  rewrite Q. unfold mprotect1. rewrite Z.mod_mul, Z.div_mul by lia. cbn [Z.eqb negb]. unfold set_pages at 1 2.
  replace ((a / 4096 <=? a / 4096 + n + 1) && (a / 4096 + n + 1 <? a / 4096 + 1)) with false by lia.
  replace ((a / 4096 <=? a / 4096 + n + 1) && (a / 4096 + n + 1 <? a / 4096 + (n + 2))) with true by lia. cbv iota. cbn [andb]. rewrite bind_Ok.
  unfold PAGESIZE. rewrite u64_id by lia. eexists. split; [reflexivity|]. split; [exact K2|]. split; [exact K1|]. split; [exact K3|]. split.
  - intros x. unfold set_pages.
    destruct ((a / 4096 + n + 1 <=? x) && (x <? a / 4096 + n + 1 + 1)) eqn:E1.
    { replace ((a / 4096 <=? x) && (x <? a / 4096 + n + 2)) with true by lia. replace ((x =? a / 4096) || (x =? a / 4096 + n + 1)) with true by lia. reflexivity. }
    destruct ((a / 4096 <=? x) && (x <? a / 4096 + 1)) eqn:E2.
    { replace ((a / 4096 <=? x) && (x <? a / 4096 + n + 2)) with true by lia. replace ((x =? a / 4096) || (x =? a / 4096 + n + 1)) with true by lia. reflexivity. }
    replace (x <? a / 4096 + n + 2) with (x <? a / 4096 + (n + 2)) by lia.
    destruct ((a / 4096 <=? x) && (x <? a / 4096 + (n + 2))) eqn:E3; [|reflexivity].
    replace ((x =? a / 4096) || (x =? a / 4096 + n + 1)) with false by lia. reflexivity.
  - intros x Hx. apply K4. lia.
Qed.
Lemma unmap_ok : forall strict me pg p len, 0 <= len <= INT_MAX - 12288 -> p mod 4096 = 0 -> 4096 <= p < 140737488351232 ->
  exists pg', unmap_protected strict me pg p len = Ok (pg', 0) /\
    forall x, pg' x = if (p / 4096 - 1 <=? x) && (x <? p / 4096 + usable len + 1) then None else pg x.
Proof.
  intros strict me pg p len H A B. unfold unmap_protected. rewrite round_len_ok by auto. rewrite bind_Ok. rewrite total_ok by auto. rewrite bind_Ok.
  assert (U : 1 <= usable len) by (unfold usable; lia).
  unfold munmap, PAGESIZE. rewrite u64_id by lia. replace ((p - 4096) mod 4096 =? 0) with true by lia. cbn [negb orb].
  replace ((usable len + 2) * 4096 <=? 0) with false by lia. eexists. split; [reflexivity|].
  intros x. rewrite page_count_mul. unfold set_pages. replace ((p - 4096) / 4096) with (p / 4096 - 1) by lia.
  replace (x <? p / 4096 - 1 + (usable len + 2)) with (x <? p / 4096 + usable len + 1) by lia. reflexivity.
Qed.
