(* Specification vocabulary for strings, independent of the model. *)
From Verif Require Import Base.

(* the first n bytes of the string s, including its terminator if s is shorter
   than n, are at p; nothing is assumed about the bytes after them *)
Definition src_ok (m : mem) (p : Z) (s : list Z) (n : Z) : Prop :=
  bytes_at m p (firstn (Z.to_nat n) s) /\ Forall (fun b => 1 <= b <= 255) s /\
  (zlen s < n -> m (p + zlen s) = Some 0).

(* the first n bytes of s padded with zeros to n bytes *)
Definition padded (s : list Z) (n : Z) : list Z :=
  firstn (Z.to_nat n) s ++ repeat 0 (Z.to_nat (n - zlen s)).

(* lexicographic comparison of byte lists: -1, 0, 1 *)
Fixpoint lexcmp (a b : list Z) : Z :=
  match a, b with
  | [], [] => 0
  | [], _ :: _ => -1
  | _ :: _, [] => 1
  | x :: r, y :: q => if x <? y then -1 else if y <? x then 1 else lexcmp r q
  end.

(* ASCII lower case of one byte *)
Definition ascii_lower (b : Z) : Z := if (65 <=? b) && (b <=? 90) then b + 32 else b.

(* printable ASCII other than @ [ \ ] ^ _ ` { | } ~ : on these bytes setting bit 5
   is the same as ASCII lower-casing *)
Definition foldable (b : Z) : Prop :=
  65 <= b <= 90 \/ 97 <= b <= 122 \/ 32 <= b <= 63.
(* r is a correct result of a case-insensitive comparison: 0 exactly on equal
   strings; on strings of equal length it is the lexicographic order *)
Definition casecmp_res (a b : list Z) (r : Z) : Prop :=
  (r = 0 <-> map ascii_lower a = map ascii_lower b) /\
  (length a = length b -> r = lexcmp (map ascii_lower a) (map ascii_lower b)).

(* i is the least index of l satisfying P *)
Definition first_index (P : Z -> Prop) (l : list Z) (i : nat) : Prop :=
  (exists b, nth_error l i = Some b /\ P b) /\
  forall j b, (j < i)%nat -> nth_error l j = Some b -> ~ P b.
(* i is the greatest index of l satisfying P *)
Definition last_index (P : Z -> Prop) (l : list Z) (i : nat) : Prop :=
  (exists b, nth_error l i = Some b /\ P b) /\
  forall j b, (i < j)%nat -> nth_error l j = Some b -> ~ P b.

(* w occurs in l at position i *)
Definition occurs_at (w l : list Z) (i : nat) : Prop :=
  exists a b, l = a ++ w ++ b /\ length a = i.

(* n is the length of the longest prefix of l all of whose elements satisfy P *)
Definition span_len (P : Z -> Prop) (l : list Z) (n : nat) : Prop :=
  exists a b, l = a ++ b /\ length a = n /\ Forall P a /\
              (b = [] \/ exists x r, b = x :: r /\ ~ P x).

(* [fields D p s ts]: the string s, stored at p, has exactly the maximal
   non-empty runs of bytes outside D listed in ts (address, contents), in order *)
Inductive fields (D : Z -> Prop) : Z -> list Z -> list (Z * list Z) -> Prop :=
| fields_none p s : Forall D s -> fields D p s []
| fields_more p a t b ts :
    Forall D a -> t <> [] -> Forall (fun x => ~ D x) t ->
    (b = [] \/ exists x r, b = x :: r /\ D x) ->
    fields D (p + zlen a + zlen t) b ts ->
    fields D p (a ++ t ++ b) ((p + zlen a, t) :: ts).

(* memory changed at most inside [p, p+n), and there only from a byte of D to NUL *)
Definition nulled (D : list Z) (m m' : mem) (p n : Z) : Prop :=
  forall a, m' a = m a \/ (p <= a < p + n /\ exists x, In x D /\ m a = Some x /\ m' a = Some 0).

(* what a caller of malloc(n) may rely on: a block of n accessible bytes at d,
   overlapping neither [p, p+k) nor changing it *)
Definition good_block (m m' : mem) (d n p k : Z) : Prop :=
  d <> 0 /\ room m' d n /\ apart d n p k /\ forall a, p <= a < p + k -> m' a = m a.
