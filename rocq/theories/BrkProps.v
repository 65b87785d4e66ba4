(* C167: the program break. *)
From Verif Require Import Base BaseLemmas BrkModel.

Inductive op := Get | Sbrk (incr : Z) | Brk (addr : Z) | Setbrk (addr : Z) | Store (a v : Z).

(* ---- specification ---- *)
(* what a call does to the break, and what it returns *)
Definition moves (b : Z) (o : op) : Z := match o with Get | Store _ _ => b | Sbrk n => b + n | Brk a | Setbrk a => a end.
Definition returns (b : Z) (o : op) : Z := match o with Get | Sbrk _ => b | Brk _ | Setbrk _ | Store _ _ => 0 end.
Fixpoint ends (b : Z) (l : list op) : Z := match l with [] => b | o :: l => ends (moves b o) l end.
Fixpoint results (b : Z) (l : list op) : list Z := match l with [] => [] | o :: l => returns b o :: results (moves b o) l end.
(* every call asks for a break that can be given, the program writes below the break only *)
Fixpoint allowed (lo hi b : Z) (l : list op) : Prop :=
  match l with
  | [] => True
  | o :: l => match o with Store a _ => lo <= a < b | _ => lo <= moves b o <= hi end /\ allowed lo hi (moves b o) l
  end.
(* the byte at x, with the value c in the beginning: it is lost when the break goes below it, and is zero when
   the break comes back *)
Fixpoint byte_at (b : Z) (l : list op) (x : Z) (c : option Z) : option Z :=
  match l with
  | [] => c
  | o :: l =>
      byte_at (moves b o) l x
        match o with
        | Store a v => if a =? x then Some v else c
        | _ => if x <? moves b o then if x <? b then c else Some 0 else None
        end
  end.

(* ---- runs of the model ---- *)
Definition step (lo hi : Z) (s : bst) (o : op) : res (bst * Z) :=
  match o with
  | Get => Ok (getbrk lo hi s)
  | Sbrk n => sbrk lo hi s n
  | Brk a => Ok (brk lo hi s a)
  | Setbrk a => Ok (setbrk lo hi s a)
  | Store a v => let* m := store (bm s) a v in Ok (mkb m (kb s) (gb s), 0)
  end.
Fixpoint run (lo hi : Z) (s : bst) (l : list op) : res (bst * list Z) :=
  match l with
  | [] => Ok (s, [])
  | o :: l => let* (s, r) := step lo hi s o in let* (s, rs) := run lo hi s l in Ok (s, r :: rs)
  end.
(* the state of a process whose library has not asked for the break, or knows it *)
Definition good (lo hi : Z) (s : bst) : Prop :=
  0 < lo /\ lo <= kb s <= hi /\ hi < 2 ^ 63 /\ (gb s = 0 \/ gb s = kb s) /\
  forall x, lo <= x -> (exists v, bm s x = Some v) <-> x < kb s.

Lemma sys_ok lo hi s a : good lo hi s -> lo <= a <= hi -> sys_brk lo hi s a =
  (mkb (fun x => if x <? lo then bm s x else if a <=? x then None else if kb s <=? x then Some 0 else bm s x) a (gb s), a).
Proof. intros G H. unfold sys_brk. replace ((lo <=? a) && (a <=? hi)) with true by lia. reflexivity. Qed.
Lemma get_ok lo hi s : good lo hi s -> getbrk lo hi s = (mkb (bm s) (kb s) (kb s), kb s).
Proof.
  intros (G1 & G2 & G3 & G4 & G5). unfold getbrk. destruct (Z.eqb_spec (gb s) 0) as [E|E].
  - unfold sys_brk. replace ((lo <=? 0) && (0 <=? hi)) with false by lia. rewrite s64_small by (unfold LONG_MIN, LONG_MAX; lia). reflexivity.
  - destruct G4 as [G4|G4]; [lia|]. rewrite G4. destruct s; cbn in *. subst. reflexivity.
Qed.
Definition moved (lo a : Z) (s : bst) (g : Z) : bst :=
  mkb (fun x => if x <? lo then bm s x else if a <=? x then None else if kb s <=? x then Some 0 else bm s x) a g.
Lemma good_moved lo hi s a g : good lo hi s -> lo <= a <= hi -> g = a -> good lo hi (moved lo a s g).
Proof.
  intros (G1 & G2 & G3 & G4 & G5) H ->. unfold good, moved. cbn [bm kb gb]. repeat split; try lia.
  - intros [v E]. destruct (Z.ltb_spec x lo); [lia|]. destruct (Z.leb_spec a x); [discriminate|lia].
  - intros L. destruct (Z.ltb_spec x lo); [lia|]. destruct (Z.leb_spec a x); [lia|]. destruct (Z.leb_spec (kb s) x); [now eexists|]. apply G5; lia.
Qed.
Lemma brk_ok lo hi s a : good lo hi s -> lo <= a <= hi -> brk lo hi s a = (moved lo a s a, 0).
Proof.
  intros G H. pose proof G as (G1 & G2 & G3 & _). unfold brk. rewrite u64_small by lia. rewrite sys_ok by assumption. rewrite s64_small by (unfold LONG_MIN, LONG_MAX; lia).
  destruct (Z.ltb_spec 0 a); [reflexivity|lia].
Qed.
Lemma sbrk_ok lo hi s n : good lo hi s -> lo <= kb s + n <= hi -> sbrk lo hi s n = Ok (moved lo (kb s + n) s (kb s + n), kb s).
Proof.
  intros G H. pose proof G as (G1 & G2 & G3 & _). unfold sbrk. rewrite get_ok by assumption. rewrite lop_ok by (unfold LONG_MIN, LONG_MAX; lia). rewrite bind_Ok.
  rewrite u64_small by lia. unfold sys_brk. replace ((lo <=? kb s + n) && (kb s + n <=? hi)) with true by lia. cbn [bm kb gb]. rewrite s64_small by (unfold LONG_MIN, LONG_MAX; lia).
  destruct (Z.ltb_spec 0 (kb s + n)); [reflexivity|lia].
Qed.
Lemma moved_bytes lo s a g x : lo <= x -> bm (moved lo a s g) x = if x <? a then if x <? kb s then bm s x else Some 0 else None.
Proof. intros H. cbn. destruct (Z.ltb_spec x lo); [lia|]. destruct (Z.leb_spec a x), (Z.ltb_spec x a), (Z.leb_spec (kb s) x), (Z.ltb_spec x (kb s)); try lia; reflexivity. Qed.
Lemma same_bytes lo hi s x : good lo hi s -> lo <= x -> bm s x = if x <? kb s then if x <? kb s then bm s x else Some 0 else None.
Proof. intros (_ & _ & _ & _ & G5) H. destruct (Z.ltb_spec x (kb s)); [reflexivity|]. destruct (bm s x) eqn:E; [|reflexivity]. assert (x < kb s) by (apply (G5 x H); eauto). lia. Qed.
Lemma step_ok lo hi s o : good lo hi s -> match o with Store a _ => lo <= a < kb s | _ => lo <= moves (kb s) o <= hi end ->
  exists s', step lo hi s o = Ok (s', returns (kb s) o) /\ good lo hi s' /\ kb s' = moves (kb s) o /\
    (forall x, lo <= x -> bm s' x = match o with Store a v => if a =? x then Some v else bm s x
                                     | _ => if x <? moves (kb s) o then if x <? kb s then bm s x else Some 0 else None end) /\
    (forall x, x < lo -> bm s' x = bm s x).
Proof.
  intros G H. pose proof G as (G1 & G2 & G3 & G4 & G5). destruct o; cbn [step moves returns] in *.
  - exists (mkb (bm s) (kb s) (kb s)). rewrite get_ok by assumption. split; [reflexivity|]. split; [unfold good; cbn; tauto|]. split; [reflexivity|].
    split; [|auto]. intros x Hx. cbn [bm]. now apply (same_bytes lo hi).
  - exists (moved lo (kb s + incr) s (kb s + incr)). rewrite sbrk_ok by assumption. (split; [reflexivity|]); (split; [apply good_moved; auto|]); (split; [reflexivity|]); split.
    + intros x Hx. now apply moved_bytes.
    + intros x Hx. cbn. destruct (Z.ltb_spec x lo); [reflexivity|lia].
  - exists (moved lo addr s addr). rewrite brk_ok by assumption. (split; [reflexivity|]); (split; [apply good_moved; auto|]); (split; [reflexivity|]); split.
    + intros x Hx. now apply moved_bytes.
    + intros x Hx. cbn. destruct (Z.ltb_spec x lo); [reflexivity|lia].
  - exists (moved lo addr s addr). unfold setbrk. rewrite brk_ok by assumption. (split; [reflexivity|]); (split; [apply good_moved; auto|]); (split; [reflexivity|]); split.
    + intros x Hx. now apply moved_bytes.
    + intros x Hx. cbn. destruct (Z.ltb_spec x lo); [reflexivity|lia].
  - destruct (proj2 (G5 a ltac:(lia)) ltac:(lia)) as [w E]. unfold store. rewrite E, bind_Ok. exists (mkb (upd (bm s) a v) (kb s) (gb s)). cbn [bm kb gb].
    split; [reflexivity|]. split; [|split; [reflexivity|split]].
    + unfold good. cbn [bm kb gb]. split; [exact G1|]. split; [exact G2|]. split; [exact G3|]. split; [exact G4|]. intros x Hx. unfold upd. destruct (Z.eqb_spec x a) as [->|]; [split; [lia|now eexists]|now apply G5].
    + intros x Hx. unfold upd. rewrite (Z.eqb_sym x a). destruct (a =? x); reflexivity.
    + intros x Hx. unfold upd. destruct (Z.eqb_spec x a); [lia|reflexivity].
Qed.

(* ---- C167 ---- *)
(* Any sequence of calls and writes: every call returns what is specified, the break is where it should be,
   getbrk tells it, the memory below it has the bytes specified, the one above is gone, and nothing below the
   segment changes.  Partial: breaks that can be given only; see below. *)
Theorem C167_history_partial : forall lo hi l s, good lo hi s -> allowed lo hi (kb s) l ->
  exists s', run lo hi s l = Ok (s', results (kb s) l) /\ kb s' = ends (kb s) l /\ snd (getbrk lo hi s') = ends (kb s) l /\
    (forall x, lo <= x -> bm s' x = byte_at (kb s) l x (bm s x)) /\ (forall x, x < lo -> bm s' x = bm s x).
Proof.
  intros lo hi l. induction l as [|o l IH]; intros s G A; cbn [run allowed ends results byte_at] in *.
  - exists s. rewrite get_ok by assumption. repeat split.
  - destruct A as [A1 A2]. destruct (step_ok lo hi s o G A1) as (s1 & E1 & G1 & K1 & B1 & B2). rewrite E1, bind_Ok.
    rewrite <- K1 in A2. destruct (IH s1 G1 A2) as (s2 & E2 & K2 & K3 & B3 & B4). rewrite E2, bind_Ok. exists s2. rewrite <- K1. repeat split; auto.
    + intros x Hx. rewrite B3, B1, K1 by assumption. reflexivity.
    + intros x Hx. now rewrite B4, B2.
Qed.
Print Assumptions C167_history_partial.

(* whatever is asked for, also what cannot be given: getbrk tells the break of the kernel *)
Theorem C167_getbrk : forall lo hi l s s' rs, good lo hi s -> run lo hi s l = Ok (s', rs) -> snd (getbrk lo hi s') = kb s' /\ lo <= kb s' <= hi.
Proof.
  intros lo hi l s s' rs G. cut (run lo hi s l = Ok (s', rs) -> good lo hi s').
  { intros X E. specialize (X E). rewrite get_ok by exact X. split; [reflexivity|]. destruct X as (_ & X & _). exact X. }
  revert s rs G. induction l as [|o l IH]; intros s rs G E; cbn [run] in E; [injection E as <- _; exact G|].
  destruct (step lo hi s o) as [[s1 r1]| |] eqn:E1; cbn [bind] in E; try discriminate.
  destruct (run lo hi s1 l) as [[s2 r2]| |] eqn:E2; cbn [bind] in E; try discriminate. injection E as <- _. apply (IH s1 r2); [|exact E2]. clear IH E2.
  pose proof G as (G1 & G2 & G3 & G4 & G5).
  assert (B : forall a r s1, brk lo hi s a = (s1, r) -> good lo hi s1).
  { intros a r s3 X. unfold brk, sys_brk in X. destruct ((lo <=? u64 a) && (u64 a <=? hi)) eqn:D; rewrite s64_small in X by (unfold LONG_MIN, LONG_MAX; lia); destruct (Z.ltb_spec 0 (u64 a)), (Z.ltb_spec 0 (kb s)) ; try lia; injection X as <- _.
    all: first [apply (good_moved lo hi s (u64 a) _ G); lia|unfold good; cbn; tauto]. }
  destruct o; cbn [step] in E1.
  - rewrite get_ok in E1 by exact G. injection E1 as <- _. unfold good; cbn; tauto.
  - unfold sbrk in E1. rewrite get_ok in E1 by exact G. unfold lop in E1. destruct (long_ok (kb s + incr)); cbn [bind] in E1; try discriminate.
    unfold sys_brk in E1. cbn [bm kb gb] in E1. destruct ((lo <=? u64 (kb s + incr)) && (u64 (kb s + incr) <=? hi)) eqn:D; rewrite s64_small in E1 by (unfold LONG_MIN, LONG_MAX; lia).
    + destruct (Z.ltb_spec 0 (u64 (kb s + incr))); [|lia]. injection E1 as <- _. apply (good_moved lo hi s _ _ G); lia.
    + destruct (Z.ltb_spec 0 (kb s)); [|lia]. injection E1 as <- _. unfold good; cbn; tauto.
  - apply (B addr r1). now injection E1.
  - apply (B addr r1). now injection E1.
  - destruct (store (bm s) a v) as [m| |] eqn:S; cbn [bind] in E1; try discriminate. injection E1 as <- _.
    unfold store in S. destruct (bm s a) as [w|] eqn:Ea; [|discriminate]. injection S as <-. unfold good. cbn [bm kb gb].
    split; [exact G1|]. split; [exact G2|]. split; [exact G3|]. split; [exact G4|]. intros x Hx. unfold upd.
    destruct (Z.eqb_spec x a) as [->|]; [|now apply G5]. rewrite <- (G5 a Hx), Ea. split; eauto.
Qed.
Print Assumptions C167_getbrk.

Definition s0 : bst := mkb (fun x => if (4096 <=? x) && (x <? 4100) then Some 7 else None) 4100 0.
Lemma good0 : good 4096 9000 s0.
Proof.
  unfold good, s0. cbn [bm kb gb]. repeat split; try lia.
  - intros [v E]. destruct (_ && _) eqn:D in E; [lia|discriminate].
  - intros L. replace ((4096 <=? x) && (x <? 4100)) with true by lia. now eexists.
Qed.
Example C167_case : good 4096 9000 s0 /\ allowed 4096 9000 4100 [Sbrk 100; Store 4150 5; Get; Sbrk (-60); Brk 5000; Setbrk 4098; Get] /\
  results 4100 [Sbrk 100; Store 4150 5; Get; Sbrk (-60); Brk 5000; Setbrk 4098; Get] = [4100; 0; 4200; 4200; 0; 0; 4098] /\
  byte_at 4100 [Sbrk 100; Store 4150 5; Get] 4150 None = Some 5 /\ byte_at 4100 [Sbrk 100; Store 4150 5; Brk 4150; Sbrk 100] 4150 None = Some 0.
Proof. split; [exact good0|]. cbn [allowed moves]. repeat split; lia. Qed.

(* A break that cannot be given: brk reports success (0), sbrk returns the old break as if it had moved *)
Theorem C167_refused_refuted : exists lo hi s a n, good lo hi s /\ hi < a /\ hi < kb s + n /\
  brk lo hi s a = (mkb (bm s) (kb s) (kb s), 0) /\ sbrk lo hi s n = Ok (mkb (bm s) (kb s) (kb s), kb s).
Proof. exists 4096, 9000, s0, 9001, 6000. split; [exact good0|]. repeat split. Qed.
Print Assumptions C167_refused_refuted.
