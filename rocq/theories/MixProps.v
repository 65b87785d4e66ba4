(* C191: malloc and malloc_brk in one program. *)
From Verif Require Import Base BaseLemmas SortModel SortProofs ShrinkModel AllocModel AllocSpec AllocProofs AllocProofs2 DirModel DirSpec DirProofs DirProofs4 MixModel.
Ltac Zify.zify_post_hook ::= Z.div_mod_to_equations.

(* ---- specification ---- *)
(* a program: calls and writes for the buffer (malloc, free) and for the data segment (malloc_brk, realloc, free) *)
Definition prog := list (aop + hop).
Definition bufs (os : prog) : list aop := flat_map (fun o => match o with inl a => [a] | inr _ => [] end) os.
Definition segs (os : prog) : list hop := flat_map (fun o => match o with inl _ => [] | inr b => [b] end) os.
Definition mop_of (o : aop + hop) : mop := match o with inl a => InBuf a | inr b => InSeg (op_of b) end.


(* ---- lemmas ---- *)
Lemma enc_brk f p z : 0 <= z < 268435456 -> Z.land (enc f p z) MALLOC_BRK = 0.
Proof.
  intros Hz. change MALLOC_BRK with (2 ^ 28). rewrite land_pow2, testbit_b by lia.
  destruct (Z.eqb_spec ((enc f p z / 2 ^ 28) mod 2) 1) as [E|E]; [|reflexivity]. exfalso.
  unfold enc, b2z in E. change (2 ^ 28) with 268435456 in E. destruct f, p; lia.
Qed.
Lemma vinv_header N s bs L p l : N mod 4 = 0 -> 4 <= N < 1073741824 -> vinv N s bs L -> In (p, l) L ->
  4 <= p /\ p mod 4 = 0 /\ p < N /\ Z.land (words s ((p - 4) / 4)) MALLOC_BRK = 0.
Proof.
  intros HN HN2 HV I. destruct (view_split _ _ _ _ _ _ HV I) as (l1 & z & l2 & La & Lb & -> & _ & Ep & Ez & El & _).
  destruct HV as ((I1 & I2 & I3 & I4 & I5) & _ & _). apply seg_app in I4 as [S1 S2]. cbn [AllocProofs.seg] in S2.
  destruct S2 as (Hz & (pf & Hw & _) & _ & _ & S2). pose proof (seg_tot0 _ _ _ _ S1). pose proof (seg_tot0 _ _ _ _ S2).
  rewrite tot_app in I3. cbn [tot] in I3. unfold S0 in I3.
  replace ((p - 4) / 4) with (msz s / 4 + tot l1) by lia. rewrite Hw. rewrite enc_brk by lia. repeat split; lia.
Qed.
Section both.
Variables B N lo hi base : Z.
Variable m0 : mem.
Hypothesis HN : N mod 4 = 0.
Hypothesis HN2 : 4 <= N < 1073741824.
Hypothesis HB : 0 < B.
Hypothesis Hb : 0 < base.
Hypothesis Hlo : lo <= base.
Hypothesis Hhi : hi <= LONG_MAX.
Hypothesis Hap : hi <= B \/ B + N <= base.

Lemma mmalloc_buf h n s q : malloc N (h_buf h) n = Ok (s, q) -> mmalloc B N h n = Ok (mkheap s (h_seg h) (h_start h), if q =? 0 then 0 else B + q).
Proof. intros E. unfold mmalloc. now rewrite E, bind_Ok. Qed.
Lemma mfree_buf h bs L p l s : vinv N (h_buf h) bs L -> In (p, l) L -> free false N (h_buf h) p = Ok s ->
  mfree B N lo hi false h (B + p) = Ok (mkheap s (h_seg h) (h_start h)).
Proof.
  intros HV I E. destruct (vinv_header _ _ _ _ _ _ HN HN2 HV I) as (P1 & P2 & P3 & P4).
  unfold mfree, geth, in_buf. destruct (Z.eqb_spec (B + p) 0); [lia|].
  destruct (Z.leb_spec B (B + p - 4)); [|lia]. destruct (Z.ltb_spec (B + p - 4) (B + N)); [|lia]. cbn [andb].
  replace (B + p - 4 - B) with (p - 4) by lia. destruct (Z.eqb_spec ((p - 4) mod 4) 0); [|lia].
  rewrite geti_ok by lia. rewrite bind_Ok, P4. cbn [Z.eqb negb]. replace (B + p - B) with p by lia. now rewrite E, bind_Ok.
Qed.
Lemma out p : base <= p < hi -> in_buf B N p = false.
Proof. intros H. unfold in_buf. destruct (Z.leb_spec B p); cbn [andb]; auto. destruct (Z.ltb_spec p (B + N)); auto. lia. Qed.
Lemma mfree_seg h p s : base <= p - 4 < hi -> free_blk lo hi (h_seg h) p = Ok s ->
  mfree B N lo hi false h p = Ok (mkheap (h_buf h) s (h_start h)).
Proof.
  intros Hp E. unfold mfree, geth. rewrite out by lia. unfold free_blk in *. destruct (p =? 0).
  { injection E as <-. destruct h as [? [? ?] ?]. reflexivity. }
  destruct (get_le 4 (sm (h_seg h)) (p - 4)) as [v| |]; [|cbn [bind] in E; discriminate E|cbn [bind] in E; discriminate E]. cbn [bind] in *.
  destruct (Z.land v MALLOC_BRK =? 0); [discriminate E|]. cbn [negb bind]. now rewrite E, bind_Ok.
Qed.
Lemma mrealloc_seg h p n s q : base <= p - 4 < hi -> realloc_brk lo hi (h_seg h) p n = Ok (s, q) ->
  mrealloc B N lo hi false h p n = Ok (mkheap (h_buf h) s (h_start h), q).
Proof.
  intros Hp E. unfold mrealloc, geth. rewrite out by lia. unfold realloc_brk in E. destruct (n =? 0); [discriminate E|]. destruct (p =? 0); [discriminate E|].
  destruct (get_le 4 (sm (h_seg h)) (p - 4)) as [v| |]; [|cbn [bind] in E; discriminate E|cbn [bind] in E; discriminate E]. cbn [bind] in *.
  change MBUF_V with MALLOC_SIZE. destruct (brk_size n) as [size| |]; [|cbn [bind] in E; discriminate E|cbn [bind] in E; discriminate E]. cbn [bind] in *.
  destruct (Z.land v MALLOC_SIZE =? size). { injection E as <- <-. destruct h as [? [? ?] ?]. reflexivity. }
  destruct (Z.land v MALLOC_BRK =? 0); [discriminate E|]. cbn [negb andb].
  destruct (sbk (h_seg h) <=? p + Z.land v MALLOC_SIZE).
  - destruct (brk lo hi (h_seg h) (p - 4 + size)) as [s1 r]. destruct (r =? 0); cbn [negb] in *; [|now injection E as <- <-].
    destruct (put_le 4 (sm s1) (p - 4) (Z.lor MALLOC_BRK size)); [|cbn [bind] in E; discriminate E|cbn [bind] in E; discriminate E]. cbn [bind] in *. now injection E as <- <-.
  - destruct (size <? Z.land v MALLOC_SIZE); [|discriminate E]. injection E as <- <-. destruct h as [? [? ?] ?]. reflexivity.
Qed.

(* one call *)
Lemma layout_ptr st ps m bk i p : layout m base bk st ps -> nth_error ps i = Some p -> base <= p - 4 /\ p - 4 < bk.
Proof.
  intros HL Hp. destruct (nth_error st i) as [b|] eqn:E.
  - destruct (layout_nth _ _ _ _ _ _ _ HL E) as (p' & z & Q1 & Q2 & Q3 & Q4 & Q5 & _). rewrite Hp in Q1. injection Q1 as <-. lia.
  - exfalso. apply layout_holds in HL. assert (length ps = length st) by (clear -HL; induction HL; cbn; auto). apply nth_error_None in E. assert (i < length ps)%nat by (apply nth_error_Some; congruence). lia.
Qed.
Lemma mstep_buf h L ps bs o : vinv N (h_buf h) bs L -> (forall n, o = OMalloc n -> 1 <= n <= INT_MAX - 8) ->
  exists s L' bs', mstep B N lo hi false (h, L, ps) (InBuf o) = Ok (mkheap s (h_seg h) (h_start h), L', ps) /\
    astep false N (Ok (h_buf h, L)) o = Ok (s, L') /\ vinv N s bs' L'.
Proof.
  intros HV Ho. destruct (vinv_step N HN HN2 false _ bs L o HV Ho ltac:(discriminate)) as (s & bs' & L' & E & HV').
  exists s, L', bs'. split; [|auto]. assert (Hh : mkheap (h_buf h) (h_seg h) (h_start h) = h) by (destruct h; reflexivity).
  unfold astep in E. rewrite bind_Ok in E. unfold mstep. destruct o as [n|p|p k v].
  - destruct (malloc N (h_buf h) n) as [[s1 q]| |] eqn:M; [|cbn [bind] in E; discriminate E|cbn [bind] in E; discriminate E]. rewrite bind_Ok in E.
    rewrite (mmalloc_buf h n s1 q M), bind_Ok. destruct (Z.eqb_spec q 0) as [->|Hq]; cbn [Z.eqb h_buf].
    + injection E as <- <-. reflexivity.
    + destruct (Z.eqb_spec (B + q) 0) as [Hz|_].
      { exfalso. destruct (malloc_ok N HN HN2 _ bs n (proj1 HV) (Ho n eq_refl)) as [(_ & M')|(? & w' & M' & _)]; rewrite M in M'; injection M' as -> ->; lia. }
      replace (B + q - B) with q by lia. injection E as <- <-. reflexivity.
  - destruct (lookup p L) as [l|] eqn:K; [|injection E as <- <-; now rewrite Hh].
    destruct (free false N (h_buf h) p) as [s1| |] eqn:F; [|cbn [bind] in E; discriminate E|cbn [bind] in E; discriminate E]. rewrite bind_Ok in E. injection E as <- <-.
    rewrite (mfree_buf h bs L p l s1 HV (lookup_in _ _ _ K) F), bind_Ok. reflexivity.
  - destruct (lookup p L) as [l|] eqn:K; [|injection E as <- <-; now rewrite Hh].
    destruct (_ && _); injection E as <- <-; [reflexivity|now rewrite Hh].
Qed.
Lemma mstep_seg h L ps st st' o : heap_ok hi base m0 st (h_seg h, h_start h, ps) -> stack_step (hi - base) st o = Some st' ->
  exists s start ps', mstep B N lo hi false (h, L, ps) (InSeg (op_of o)) = Ok (mkheap (h_buf h) s start, L, ps') /\
    heap_step lo hi (h_seg h, h_start h, ps) (op_of o) = Ok (s, start, ps') /\ heap_ok hi base m0 st' (s, start, ps').
Proof.
  intros HO HS. destruct (heap_step_ok lo hi base m0 Hb Hlo Hhi st _ o st' HO HS) as (((s & start) & ps') & E & HO').
  exists s, start, ps'. split; [|auto]. destruct HO as (HL & _ & _ & Hbk).
  destruct o as [n|n|i|i off v]; cbn [op_of heap_step mstep] in *.
  - unfold mmalloc_brk. destruct (malloc_brk lo hi (h_seg h) (h_start h) n) as [[[s1 st1] p]| |]; [|cbn [bind] in E; discriminate E|cbn [bind] in E; discriminate E].
    cbn [bind] in *. now injection E as <- <- <-.
  - destruct ps as [|p ps]; [discriminate E|]. destruct (layout_ptr _ _ _ _ O p HL eq_refl).
    destruct (realloc_brk lo hi (h_seg h) p n) as [[s1 q]| |] eqn:R; [|cbn [bind] in E; discriminate E|cbn [bind] in E; discriminate E]. rewrite bind_Ok in E.
    rewrite (mrealloc_seg h p n s1 q) by (auto; lia). rewrite bind_Ok. now injection E as <- <- <-.
  - destruct (nth_error ps i) as [p|] eqn:Ei; [|discriminate E]. destruct (layout_ptr _ _ _ _ i p HL Ei).
    destruct (free_blk lo hi (h_seg h) p) as [s1| |] eqn:R; [|cbn [bind] in E; discriminate E|cbn [bind] in E; discriminate E]. rewrite bind_Ok in E.
    rewrite (mfree_seg h p s1) by (auto; lia). rewrite bind_Ok. now injection E as <- <- <-.
  - destruct (nth_error ps i) as [p|] eqn:Ei; [|discriminate E].
    destruct (store (sm (h_seg h)) (p + off) v) as [m| |]; [|cbn [bind] in E; discriminate E|cbn [bind] in E; discriminate E]. cbn [bind] in *. now injection E as <- <- <-.
Qed.
Lemma mrun_ok os : forall h L ps bs st st', vinv N (h_buf h) bs L -> heap_ok hi base m0 st (h_seg h, h_start h, ps) ->
  good_ops (bufs os) -> stack_run (hi - base) st (segs os) = Some st' ->
  exists h' L' ps' bs', mrun B N lo hi false (h, L, ps) (map mop_of os) = Ok (h', L', ps') /\
    fold_left (astep false N) (bufs os) (Ok (h_buf h, L)) = Ok (h_buf h', L') /\ vinv N (h_buf h') bs' L' /\
    heap_run lo hi (h_seg h, h_start h, ps) (map op_of (segs os)) = Ok (h_seg h', h_start h', ps') /\ heap_ok hi base m0 st' (h_seg h', h_start h', ps').
Proof.
  induction os as [|[a|b] os IH]; intros h L ps bs st st' HV HO Hg HS.
  - cbn in *. injection HS as <-. exists h, L, ps, bs. auto.
  - cbn [map mop_of mrun bufs segs flat_map app fold_left] in *. fold (bufs os) in *. fold (segs os) in *.
    destruct (mstep_buf h L ps bs a HV) as (s & L1 & bs1 & E & EA & HV1). { intros n ->. apply Hg. now left. }
    rewrite E, bind_Ok, EA. apply (IH (mkheap s (h_seg h) (h_start h)) L1 ps bs1 st st'); auto. intros n Hn. apply Hg. now right.
  - cbn [map mop_of mrun bufs segs flat_map app fold_left stack_run heap_run] in *. fold (bufs os) in *. fold (segs os) in *.
    destruct (stack_step (hi - base) st b) as [st1|] eqn:S1; [|discriminate HS].
    destruct (mstep_seg h L ps st st1 b HO S1) as (s & start & ps1 & E & EA & HO1).
    rewrite E, !bind_Ok, EA, bind_Ok. apply (IH (mkheap (h_buf h) s start) L ps1 bs st1 st'); auto.
Qed.

(* the copy of a block into the buffer *)
Lemma geth_bytes h a : in_buf B N a = false -> (forall x, a <= x < a + 4 -> exists b, sm (h_seg h) x = Some b /\ 0 <= b < 256) ->
  exists v, geth B N h a = Ok v /\ forall k, 0 <= k < 4 -> sm (h_seg h) (a + k) = Some (v / 256 ^ k mod 256).
Proof.
  intros HI H. unfold geth. rewrite HI.
  destruct (H a ltac:(lia)) as (b0 & E0 & R0). destruct (H (a + 1) ltac:(lia)) as (b1 & E1 & R1).
  destruct (H (a + 2) ltac:(lia)) as (b2 & E2 & R2). destruct (H (a + 3) ltac:(lia)) as (b3 & E3 & R3).
  unfold get_le. cbn [loads]. unfold load. replace (a + 1 + 1) with (a + 2) by lia. replace (a + 2 + 1) with (a + 3) by lia.
  rewrite E0, E1, E2, E3. cbn [bind le_get]. eexists. split; [reflexivity|]. intros k Hk.
  assert (K : k = 0 \/ k = 1 \/ k = 2 \/ k = 3) by lia. destruct K as [K|[K|[K|K]]]; subst k.
  - rewrite Z.add_0_r, E0. f_equal. change (256 ^ 0) with 1. lia.
  - rewrite E1. f_equal. change (256 ^ 1) with 256. lia.
  - rewrite E2. f_equal. change (256 ^ 2) with 65536. lia.
  - rewrite E3. f_equal. change (256 ^ 3) with 16777216. lia.
Qed.
Lemma mcopy_ok k : forall h d src, 0 <= d -> d + Z.of_nat k <= N / 4 -> base <= src -> src + 4 * Z.of_nat k <= hi ->
  (forall x, src <= x < src + 4 * Z.of_nat k -> exists b, sm (h_seg h) x = Some b /\ 0 <= b < 256) ->
  exists w, mcopy B N k h d src = Ok (mkheap (mk_ast w (msz (h_buf h))) (h_seg h) (h_start h)) /\
    (forall x, ~ (d <= x < d + Z.of_nat k) -> w x = words (h_buf h) x) /\
    (forall x, 0 <= x < 4 * Z.of_nat k -> sm (h_seg h) (src + x) = Some (getb w (4 * d + x))).
Proof.
  induction k as [|k IH]; intros h d src H1 H2 H3 H4 H5; cbn [mcopy].
  - exists (words (h_buf h)). split; [destruct h as [[? ?] ? ?]; reflexivity|]. split; auto. intros; lia.
  - destruct (geth_bytes h src) as (v & E & V). { apply out. lia. } { intros x Hx. apply H5. lia. }
    rewrite E, bind_Ok. rewrite seti_ok by lia. rewrite bind_Ok.
    destruct (IH (mkheap (mk_ast (setw (words (h_buf h)) d v) (msz (h_buf h))) (h_seg h) (h_start h)) (d + 1) (src + 4)) as (w & E2 & O & C);
      cbn [h_seg]; try lia. { intros x Hx. apply H5. lia. }
    cbn [h_buf h_seg h_start msz words] in *. exists w. split; [exact E2|]. split.
    + intros x Hx. rewrite O by lia. apply setw_other. lia.
    + intros x Hx. destruct (Z.lt_ge_cases x 4) as [Hx4|Hx4].
      * rewrite V by lia. unfold getb. replace ((4 * d + x) / 4) with d by lia. replace ((4 * d + x) mod 4) with x by lia.
        rewrite O by lia. now rewrite setw_same.
      * replace (src + x) with (src + 4 + (x - 4)) by lia. rewrite C by lia. f_equal. f_equal. lia.
Qed.
Lemma move_ok h L ps bs st i c p n : vinv N (h_buf h) bs L -> heap_ok hi base m0 st (h_seg h, h_start h, ps) ->
  nth_error st i = Some (c, true) -> nth_error ps i = Some p -> i <> O ->
  (forall x b, base <= x < sbk (h_seg h) -> sm (h_seg h) x = Some b -> 0 <= b < 256) -> room (sm (h_seg h)) base (sbk (h_seg h) - base) ->
  2 * zlen c + 16 <= n <= 268435440 -> p + 2 * zlen c + 16 <= sbk (h_seg h) -> n + 80 <= msz (h_buf h) ->
  exists s w q l bs', mrealloc B N lo hi false h p n = Ok (mkheap (mk_ast w q) s (h_start h), B + (q + 4)) /\
    n <= zlen l /\ vinv N (mk_ast w q) bs' ((q + 4, l) :: L) /\ (forall j v, nth_error c j = Some (Some v) -> nth_error l j = Some v) /\
    heap_step lo hi (h_seg h, h_start h, ps) (BFree i) = Ok (s, h_start h, ps).
Proof.
  intros HV HO Hi Hp Hi0 Hby Hroom Hn Hr Hm.
  assert (HS : stack_step (hi - base) st (Free i) = Some (change i (c, false) st)) by (cbn [stack_step]; rewrite Hi; destruct i; [congruence|reflexivity]).
  destruct (heap_step_ok lo hi base m0 Hb Hlo Hhi st _ (Free i) _ HO HS) as (((s & start) & ps') & EF & _).
  pose proof HO as (HL & Hst & Hlow & Hbk). destruct (layout_nth _ _ _ _ _ _ _ HL Hi) as (p' & z & Q1 & Q2 & Q3 & Q4 & Q5 & Q6 & Q7 & Q8 & Q9).
  rewrite Hp in Q1. injection Q1 as <-. cbn [fst snd hdr] in *. specialize (Q6 Hi0).
  cbn [op_of heap_step] in EF |- *. rewrite Hp in *. destruct (free_blk lo hi (h_seg h) p) as [s1| |] eqn:F; [|cbn [bind] in EF; discriminate EF|cbn [bind] in EF; discriminate EF].
  cbn [bind] in *. injection EF as -> <- <-. replace (drop i ps) with ps by (destruct i; [congruence|reflexivity]).
  destruct (lor_size z ltac:(lia)) as (O1 & O2 & O3). pose proof (zlen_nonneg c).
  unfold mrealloc. destruct (Z.eqb_spec n 0); [lia|]. destruct (Z.eqb_spec p 0); [lia|].
  unfold geth at 1. rewrite out by lia. rewrite (get_le_ok 4 _ _ _ O3 Q7), bind_Ok. change MBUF_V with MALLOC_SIZE. rewrite O1.
  unfold brk_size. rewrite iop_ok by (unfold INT_MIN, INT_MAX; lia). rewrite bind_Ok, Z.shiftr_div_pow2 by lia. change (2 ^ 2) with 4.
  rewrite iop_ok by (unfold INT_MIN, INT_MAX; lia). rewrite bind_Ok. fold (bsize n).
  assert (Hbs : n + 4 <= bsize n * 4 < n + 8) by (unfold bsize; lia).
  destruct (Z.eqb_spec z (bsize n * 4)); [lia|]. destruct (Z.leb_spec (sbk (h_seg h)) (p + z)); [lia|]. rewrite andb_false_r.
  destruct (Z.ltb_spec (bsize n * 4) z); [lia|].
  assert (Hms : msz (h_buf h) < 1073741824). { destruct HV as ((I1 & I2 & I3 & I4 & _) & _). pose proof (seg_tot0 _ _ _ _ I4). unfold S0 in I3. lia. }
  rewrite iop_ok by (unfold INT_MIN, INT_MAX; lia). rewrite bind_Ok. destruct (Z.ltb_spec (msz (h_buf h) - bsize n * 4 + z * 4) 64); [lia|].
  set (size := bsize n * 4) in *. assert (Hb4 : 4 * bsize size = size + 4) by (unfold bsize; lia).
  destruct (vinv_malloc N HN HN2 _ bs L size HV ltac:(unfold INT_MAX; lia)) as [(Hx & _)|(M1 & w' & M2 & M3)]; [lia|].
  rewrite (mmalloc_buf h size _ _ M2), bind_Ok. set (q := msz (h_buf h) - 4 * bsize size) in *.
  destruct (Z.eqb_spec (q + 4) 0); [lia|]. destruct (Z.eqb_spec (B + (q + 4)) 0); [lia|]. destruct (Z.eqb_spec z 0); [lia|].
  assert (Hq4 : q mod 4 = 0) by (destruct HV as ((I1 & _) & _); lia).
  assert (HqN : q + 4 + size <= N - 4). { destruct HV as ((I1 & I2 & I3 & I4 & _) & _). pose proof (seg_tot0 _ _ _ _ I4). unfold S0 in I3. lia. }
  set (k := Z.to_nat ((2 * z - 1) / 4 + 1)). assert (Hk : 4 * Z.of_nat k <= 2 * z + 3 /\ z <= 4 * Z.of_nat k /\ 4 * Z.of_nat k <= 2 * zlen c + 16) by lia.
  replace ((B + (q + 4) - B) / 4) with (q / 4 + 1) by lia.
  destruct (mcopy_ok k (mkheap (mk_ast w' q) (h_seg h) (h_start h)) (q / 4 + 1) p) as (w & E2 & OO & C); cbn [h_seg h_buf words msz]; try lia.
  { intros x Hx. assert (Hrx : sm (h_seg h) x <> None) by (apply Hroom; lia). destruct (sm (h_seg h) x) as [b|] eqn:Eb; [|congruence]. exists b. split; auto. apply (Hby x b); auto. lia. }
  rewrite E2, bind_Ok. cbn [h_seg h_buf words msz h_start] in *.
  rewrite (mfree_seg (mkheap (mk_ast w q) (h_seg h) (h_start h)) p s) by (auto; lia). rewrite bind_Ok. cbn [h_buf h_start].
  (* the view of the new block *)
  set (l0 := map (fun j => getb w' (q + 4 + Z.of_nat j)) (seq 0 (Z.to_nat size))).
  destruct (seq_view N w' (q + 4) size) as [S1 S2]; [lia|]. fold l0 in S1, S2.
  assert (HV1 := M3 l0 S1 S2).
  set (l := map (fun j => getb w (q + 4 + Z.of_nat j)) (seq 0 (Z.to_nat size))).
  destruct (seq_view N w (q + 4) size) as [T1 T2]; [lia|]. fold l in T1, T2.
  exists s, w, q, l. eexists. split; [reflexivity|]. split; [lia|]. split; [|split; [|reflexivity]].
  - destruct HV1 as (A1 & A2 & A3). cbn [msz words lives] in A3. inversion A3 as [|? ? ? ? A4 A5]; subst.
    assert (W : forall x, ~ (q / 4 < x < q / 4 + bsize size) -> w x = w' x) by (intros x Hx; apply OO; lia).
    split; [|split].
    + change q with (msz (mk_ast w' q)) at 1. eapply ainv_payload; [exact A1| |exact W]. cbn [msz lives]. now left.
    + right. cbn [msz]. lia.
    + cbn [msz words lives]. constructor.
      * unfold brel. cbn [fst snd]. rewrite T1. destruct A4 as (B1 & _). cbn [fst] in B1. repeat split; auto; lia.
      * apply (same_payload_view N w' w); [|exact A5]. intros b z' x Hin Hx. apply W. destruct A1 as (_ & _ & _ & I4 & _). cbn [AllocProofs.seg words msz] in I4.
        destruct I4 as (_ & _ & _ & _ & I4). pose proof (lives_range _ _ _ _ _ _ I4 Hin). lia.
  - intros j v Hj. destruct (Q9 eq_refl) as (_ & V9). cbn [fst] in V9. specialize (V9 j v Hj).
    assert (Hjl : (j < length c)%nat) by (apply nth_error_Some; congruence).
    specialize (C (Z.of_nat j) ltac:(unfold zlen in *; lia)). rewrite V9 in C. injection C as C.
    assert (Hjn : (j < length l)%nat) by (unfold zlen in *; lia).
    rewrite (nth_error_nth' l 0 Hjn). f_equal. rewrite <- T2 by auto. rewrite C. f_equal. lia.
Qed.
End both.

(* ---- C191 ---- *)
(* Every program that mixes malloc and free with malloc_brk, realloc of the last block and free: it runs without fault, the
   buffer and its blocks are as if the program had made the calls for the buffer only, the data segment as if it had made
   the others only; all blocks hold what was written to them. *)
Theorem C191_both_partial : forall B N lo hi s w os st,
  N mod 4 = 0 -> 4 <= N < 1073741824 -> 0 < B -> 0 < sbk s -> lo <= sbk s <= hi -> hi <= LONG_MAX -> hi <= B \/ B + N <= sbk s ->
  good_ops (bufs os) -> stack_run (hi - sbk s) [] (segs os) = Some st ->
  exists h L ps, mrun B N lo hi false (mkheap (init_alloc N w) s 0, [], []) (map mop_of os) = Ok (h, L, ps) /\
    arun false N (init_alloc N w) (bufs os) = Ok (h_buf h, L) /\
    heap_run lo hi (s, 0, []) (map op_of (segs os)) = Ok (h_seg h, h_start h, ps) /\
    view_ok N (words (h_buf h)) L /\
    Forall2 (holds (sm (h_seg h))) ps st /\ stacked ps st (sbk (h_seg h)) /\ (forall x, x < sbk s -> sm (h_seg h) x = sm s x).
Proof.
  intros B N lo hi s w os st HN HN2 HB Hb [Hlo Hh] Hhi Hap Hg HS.
  destruct (mrun_ok B N lo hi (sbk s) (sm s) HN HN2 HB Hb Hlo Hhi Hap os (mkheap (init_alloc N w) s 0) [] [] [] [] st) as (h & L & ps & bs & E & EA & HV & EH & HO); auto.
  - apply vinv_init; auto.
  - cbn [h_seg h_start]. split; [cbn [layout]; reflexivity|]. split; [auto|]. split; auto.
  - exists h, L, ps. split; [exact E|]. split; [exact EA|]. split; [exact EH|]. split; [eapply vinv_view; eauto|].
    destruct HO as (HL & _ & K & _). split; [eapply layout_holds; eauto|]. split; [eapply layout_stacked; eauto|exact K].
Qed.
Print Assumptions C191_both_partial.

(* the data segment is readable up to the break and holds bytes *)
Definition segment_ok (base : Z) (s : DirModel.seg) : Prop :=
  forall x, base <= x < sbk s -> exists b, sm s x = Some b /\ 0 <= b < 256.
(* realloc of a block of malloc_brk with blocks behind it, after any such program: if the new size is at least two times the old
   one, as many bytes are behind the block in the segment, and the buffer has the room, then the contents move into a new block of the
   buffer, the old block is freed and nothing else changes *)
Theorem C191_move_partial : forall B N lo hi s w os st h L ps i c p n,
  N mod 4 = 0 -> 4 <= N < 1073741824 -> 0 < B -> 0 < sbk s -> lo <= sbk s <= hi -> hi <= LONG_MAX -> hi <= B \/ B + N <= sbk s ->
  good_ops (bufs os) -> stack_run (hi - sbk s) [] (segs os) = Some st ->
  mrun B N lo hi false (mkheap (init_alloc N w) s 0, [], []) (map mop_of os) = Ok (h, L, ps) ->
  nth_error st i = Some (c, true) -> nth_error ps i = Some p -> i <> O -> segment_ok (sbk s) (h_seg h) ->
  2 * zlen c + 16 <= n <= 268435440 -> p + 2 * zlen c + 16 <= sbk (h_seg h) -> n + 80 <= msz (h_buf h) ->
  exists h' q l, mrealloc B N lo hi false h p n = Ok (h', B + q) /\ zlen l = n /\
    view_ok N (words (h_buf h')) ((q, l) :: L) /\ (forall j v, nth_error c j = Some (Some v) -> nth_error l j = Some v) /\
    Forall2 (holds (sm (h_seg h'))) ps (change i (c, false) st).
Proof.
  intros B N lo hi s w os st h L ps i c p n HN HN2 HB Hb [Hlo Hh] Hhi Hap Hg HS HR Hi Hp Hi0 Hok Hn Hr Hm.
  destruct (mrun_ok B N lo hi (sbk s) (sm s) HN HN2 HB Hb Hlo Hhi Hap os (mkheap (init_alloc N w) s 0) [] [] [] [] st) as (h1 & L1 & ps1 & bs & E & EA & HV & EH & HO); auto.
  { apply vinv_init; auto. } { cbn [h_seg h_start]. split; [cbn [layout]; reflexivity|]. split; [auto|]. split; auto. }
  pose proof (eq_trans (eq_sym HR) E) as EE. injection EE as <- <- <-. clear E.
  (* bytes above the break are not there *)
  assert (Hby : forall x b, sbk s <= x < sbk (h_seg h) -> sm (h_seg h) x = Some b -> 0 <= b < 256).
  { intros x b Hx Eb. destruct (Hok x Hx) as (b' & E' & R). rewrite Eb in E'. injection E' as <-. exact R. }
  destruct (move_ok B N lo hi (sbk s) (sm s) HN HN2 HB Hb Hlo Hhi Hap h L ps bs st i c p n HV HO Hi Hp Hi0) as (s' & w' & q & l & bs' & E & ZL & HV' & C & EF); auto.
  { intros x Hx. destruct (Hok x ltac:(lia)) as (b & -> & _). discriminate. }
  exists (mkheap (mk_ast w' q) s' (h_start h)), (q + 4), (firstn (Z.to_nat n) l). split; [exact E|]. split.
  { unfold zlen in *. rewrite firstn_length. lia. }
  split; [|split].
  - cbn [h_buf words]. apply view_ok_shrink. change w' with (words (mk_ast w' q)). eapply vinv_view; eauto.
  - intros j v Hj. specialize (C j v Hj). assert (j < length c)%nat by (apply nth_error_Some; congruence).
    rewrite <- (firstn_skipn (Z.to_nat n) l) in C. rewrite nth_error_app1 in C; auto. rewrite firstn_length. unfold zlen in *. lia.
  - cbn [h_seg]. assert (HS1 : stack_step (hi - sbk s) st (Free i) = Some (change i (c, false) st)) by (cbn [stack_step]; rewrite Hi; destruct i; [congruence|reflexivity]).
    destruct (heap_step_ok lo hi (sbk s) (sm s) Hb Hlo Hhi st _ (Free i) _ HO HS1) as (((s2 & st2) & ps2) & EF2 & (HL2 & _)).
    cbn [op_of] in EF2. rewrite EF in EF2. injection EF2 as <- <- <-. eapply layout_holds; eauto.
Qed.
Print Assumptions C191_move_partial.

(* shrinking a block with blocks behind it by 3 bytes or more changes nothing *)
Theorem C191_shrink_partial : forall B N lo hi s w os st h L ps i c p n,
  N mod 4 = 0 -> 4 <= N < 1073741824 -> 0 < B -> 0 < sbk s -> lo <= sbk s <= hi -> hi <= LONG_MAX -> hi <= B \/ B + N <= sbk s ->
  good_ops (bufs os) -> stack_run (hi - sbk s) [] (segs os) = Some st ->
  mrun B N lo hi false (mkheap (init_alloc N w) s 0, [], []) (map mop_of os) = Ok (h, L, ps) ->
  nth_error st i = Some (c, true) -> nth_error ps i = Some p -> i <> O -> 1 <= n <= zlen c - 3 ->
  mrealloc B N lo hi false h p n = Ok (h, p).
Proof.
  intros B N lo hi s w os st h L ps i c p n HN HN2 HB Hb [Hlo Hh] Hhi Hap Hg HS HR Hi Hp Hi0 Hn.
  destruct (mrun_ok B N lo hi (sbk s) (sm s) HN HN2 HB Hb Hlo Hhi Hap os (mkheap (init_alloc N w) s 0) [] [] [] [] st) as (h1 & L1 & ps1 & bs & E & EA & HV & EH & HO); auto.
  { apply vinv_init; auto. } { cbn [h_seg h_start]. split; [cbn [layout]; reflexivity|]. split; [auto|]. split; auto. }
  pose proof (eq_trans (eq_sym HR) E) as EE. injection EE as <- <- <-. clear E.
  pose proof HO as (HL & Hst & Hlow & Hbk). destruct (layout_nth _ _ _ _ _ _ _ HL Hi) as (p' & z & Q1 & Q2 & Q3 & Q4 & Q5 & Q6 & Q7 & Q8 & Q9).
  rewrite Hp in Q1. injection Q1 as <-. cbn [fst snd hdr] in *. specialize (Q6 Hi0). destruct (lor_size z ltac:(lia)) as (O1 & O2 & O3).
  unfold mrealloc. destruct (Z.eqb_spec n 0); [lia|]. destruct (Z.eqb_spec p 0); [lia|].
  unfold geth at 1. rewrite (out B N hi (sbk s) Hap) by lia. rewrite (get_le_ok 4 _ _ _ O3 Q7), bind_Ok. change MBUF_V with MALLOC_SIZE. rewrite O1.
  unfold brk_size. rewrite iop_ok by (unfold INT_MIN, INT_MAX; lia). rewrite bind_Ok, Z.shiftr_div_pow2 by lia. change (2 ^ 2) with 4.
  rewrite iop_ok by (unfold INT_MIN, INT_MAX; lia). rewrite bind_Ok.
  destruct (Z.eqb_spec z (((n - 1) / 4 + 2) * 4)); [reflexivity|]. destruct (Z.leb_spec (sbk (h_seg h)) (p + z)); [lia|]. rewrite andb_false_r.
  destruct (Z.ltb_spec (((n - 1) / 4 + 2) * 4) z); [reflexivity|]. lia.
Qed.
Print Assumptions C191_shrink_partial.

(* the buffer at 65536 with 2048 bytes, the data segment from 4096 on, its limit 16384 *)
Definition ex_seg : DirModel.seg := mkseg (fun _ => None) 4096.
Definition ex_h : heap := mkheap (init_alloc 2048 (fun _ => 0)) ex_seg 0.
(* a block in the buffer, two in the segment; one write to each *)
Definition ex_os : prog := [inr (Malloc 20); inl (OMalloc 8); inr (Write 0 3 77); inr (Malloc 100); inl (OWrite 2036 2 5); inr (Write 0 0 9)].
Definition ex_st : list block := [(Some 9 :: repeat None 99, true); ([None; None; None; Some 77] ++ repeat None 16, true)].
Example C191_case : good_ops (bufs ex_os) /\ stack_run (16384 - 4096) [] (segs ex_os) = Some ex_st /\
  match mrun 65536 2048 4096 16384 false (ex_h, [], []) (map mop_of ex_os) with
  | Ok (h, L, ps) => L = [(2036, [0; 0; 5; 0; 0; 0; 0; 0])] /\ ps = [4124; 4100] /\ msz (h_buf h) = 2032 /\ sbk (h_seg h) = 4224 /\
      (* 60 is more than 2 * 20 + 16 *)
      match mrealloc 65536 2048 4096 16384 false h 4100 60 with
      | Ok (h', q) => q = 65536 + 1968 /\ getb (words (h_buf h')) (1968 + 3) = 77 /\ getb (words (h_buf h')) 2038 = 5 /\ sm (h_seg h') 4124 = Some 9
      | _ => False
      end
  | _ => False
  end.
Proof.
  split; [|split; [vm_compute; reflexivity|]].
  - intros n [H|[H|[]]]; [injection H as <-; unfold INT_MAX; lia|discriminate H].
  - vm_compute. repeat split.
Qed.
(* the segment of the example is as [segment_ok] demands *)
Example C191_segment : match mrun 65536 2048 4096 16384 false (ex_h, [], []) (map mop_of ex_os) with
  | Ok (h, _, _) => segment_ok 4096 (h_seg h)
  | _ => False
  end.
Proof.
  set (r := mrun _ _ _ _ _ _ _).
  assert (H : match r with Ok (h, _, _) => sbk (h_seg h) = 4224 /\
     forallb (fun k => match sm (h_seg h) (4096 + Z.of_nat k) with Some b => (0 <=? b) && (b <? 256) | None => false end) (seq 0 128) = true | _ => False end).
  { vm_compute. split; reflexivity. }
  destruct r as [[[h L] ps]| |]; auto. destruct H as [H1 H2]. rewrite forallb_forall in H2. intros x Hx.
  specialize (H2 (Z.to_nat (x - 4096))). rewrite in_seq in H2. specialize (H2 ltac:(lia)). replace (4096 + Z.of_nat (Z.to_nat (x - 4096))) with x in H2 by lia.
  destruct (sm (h_seg h) x) as [b|]; [|discriminate]. exists b. split; auto. lia.
Qed.

(* enlarging a block of the segment by less: the loop copies two times the size of the old block and destroys the blocks behind the new
   one in the buffer *)
Theorem C191_overrun_refuted : exists os n b l, good_ops (bufs os) /\ stack_run (16384 - 4096) [] (segs os) <> None /\
  match mrun 65536 2048 4096 16384 false (ex_h, [], []) (map mop_of os) with
  | Ok (h, L, ps) => In (b, l) L /\
      match nth_error ps 1 with
      | Some p => match mrealloc 65536 2048 4096 16384 false h p n with
                  | Ok (h', q) => q <> 0 /\ forall L', In (b, l) L' -> ~ view_ok 2048 (words (h_buf h')) L'
                  | _ => False
                  end
      | None => False
      end
  | _ => False
  end.
Proof.
  exists [inl (OMalloc 100); inl (OWrite 1944 0 1); inr (Malloc 100); inr (Malloc 200)], 120, 1944, (1 :: repeat 0 99).
  split; [|split; [vm_compute; discriminate|]].
  - intros n [H|[H|[]]]; [injection H as <-; unfold INT_MAX; lia|discriminate H].
  - match goal with |- match ?x with _ => _ end => set (r := x) end.
    assert (E : match r with Ok (h, L, ps) => L = [(1944, 1 :: repeat 0 99)] /\ match nth_error ps 1 with Some p => match mrealloc 65536 2048 4096 16384 false h p 120 with
       Ok (h', q) => q = 65536 + 1816 /\ getb (words (h_buf h')) 1944 = 0 | _ => False end | None => False end | _ => False end) by (vm_compute; repeat split).
    destruct r as [[[h L] ps]| |]; auto. destruct E as [-> E]. split; [now left|]. destruct (nth_error ps 1) as [p|]; auto.
    destruct (mrealloc _ _ _ _ _ _ _ _) as [[h' q]| |]; auto. destruct E as [-> E]. split; [lia|].
    intros L' I [V _]. destruct (V _ _ I) as (_ & _ & _ & V1). specialize (V1 O ltac:(cbn; lia)). cbn [Z.of_nat nth] in V1. rewrite Z.add_0_r in V1. lia.
Qed.
Print Assumptions C191_overrun_refuted.
(* without room in the buffer the test in line 294 does not notice it, and the copy goes to address 0; with too few bytes behind the block the
   copy reads behind the break *)
Theorem C191_crash_refuted :
  (exists os n, good_ops (bufs os) /\ stack_run (16384 - 4096) [] (segs os) <> None /\
    match mrun 65536 2048 4096 16384 false (ex_h, [], []) (map mop_of os) with
    | Ok (h, _, ps) => exists p, nth_error ps 1 = Some p /\ mrealloc 65536 2048 4096 16384 false h p n = Fault /\ malloc 2048 (h_buf h) n = Ok (h_buf h, 0)
    | _ => False
    end) /\
  (exists os n, good_ops (bufs os) /\ stack_run (16384 - 4096) [] (segs os) <> None /\
    match mrun 65536 2048 4096 16384 false (ex_h, [], []) (map mop_of os) with
    | Ok (h, _, ps) => exists p, nth_error ps 1 = Some p /\ mrealloc 65536 2048 4096 16384 false h p n = Fault /\ n + 80 <= msz (h_buf h)
    | _ => False
    end).
Proof.
  split.
  - exists [inr (Malloc 1000); inr (Malloc 2000)], 3000. split; [intros n []|]. split; [vm_compute; discriminate|]. 
    match goal with |- match ?x with _ => _ end => set (r := x) end.
    assert (E : match r with Ok (h, _, ps) => nth_error ps 1 = Some 4100 /\ mrealloc 65536 2048 4096 16384 false h 4100 3000 = Fault /\ h_buf h = h_buf ex_h | _ => False end) by (vm_compute; repeat split).
    destruct r as [[[h L] ps]| |]; auto. destruct E as (E1 & E2 & E3). exists 4100. rewrite E3. repeat split; auto.
  - exists [inr (Malloc 100); inr (Malloc 20)], 300. split; [intros n []|]. split; [vm_compute; discriminate|]. 
    match goal with |- match ?x with _ => _ end => set (r := x) end.
    assert (E : match r with Ok (h, _, ps) => nth_error ps 1 = Some 4100 /\ mrealloc 65536 2048 4096 16384 false h 4100 300 = Fault /\ msz (h_buf h) = 2044 | _ => False end) by (vm_compute; repeat split).
    destruct r as [[[h L] ps]| |]; auto. destruct E as (E1 & E2 & E3). exists 4100. rewrite E3. repeat split; auto. lia.
Qed.
Print Assumptions C191_crash_refuted.
