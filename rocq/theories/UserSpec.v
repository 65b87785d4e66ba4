(* Vocabulary for the user database properties: entries, the files they are written to, and
   what the lookup functions are to answer. *)
From Verif Require Import Base ConvSpec UserModel.

(* ---- passwd ---- *)
(* the fields of an entry; uid and gid as digit strings *)
Record entry := mkentry { e_name : list Z; e_passwd : list Z; e_uid : list Z; e_gid : list Z;
  e_gecos : list Z; e_dir : list Z; e_shell : list Z }.
(* name:passwd:uid:gid:gecos:dir:shell newline *)
Definition line (e : entry) : list Z :=
  e_name e ++ 58 :: e_passwd e ++ 58 :: e_uid e ++ 58 :: e_gid e ++ 58 :: e_gecos e ++ 58 :: e_dir e ++ 58 :: e_shell e ++ [10].
Definition passwd_file (es : list entry) : list Z := flat_map line es.

Definition text (seps l : list Z) : Prop := Forall (fun c => 1 <= c <= 255 /\ ~ In c seps) l.
Definition number (l : list Z) : Prop := digits 10 l /\ value 10 l <= INT_MAX.
Definition well_formed (e : entry) : Prop :=
  e_name e <> [] /\ text [58; 10] (e_name e) /\ text [58; 10] (e_passwd e) /\ number (e_uid e) /\ number (e_gid e) /\
  text [58; 10] (e_gecos e) /\ text [58; 10] (e_dir e) /\ text [58; 10] (e_shell e).

Definition uid_of (e : entry) : Z := value 10 (e_uid e).
Definition same (a b : list Z) : bool := if list_eq_dec Z.eq_dec a b then true else false.

(* a history of calls and the right answers *)
Inductive query := QName (l : list Z) | QUid (u : Z) | QNext | QRewind.
Fixpoint answers (es rest : list entry) (qs : list query) : list (option entry) :=
  match qs with
  | [] => []
  | QName l :: qs => find (fun e => same (e_name e) l) es :: answers es rest qs
  | QUid u :: qs => find (fun e => uid_of e =? u) es :: answers es rest qs
  | QNext :: qs => hd_error rest :: answers es (tl rest) qs
  | QRewind :: qs => None :: answers es es qs
  end.

(* the struct pw, with its strings in m, holds the entry e *)
Definition holds (m : mem) (pw : pwent) (e : entry) : Prop :=
  str_at m (pw_name pw) (e_name e) /\ str_at m (pw_passwd pw) (e_passwd e) /\ pw_uid pw = value 10 (e_uid e) /\ pw_gid pw = value 10 (e_gid e) /\
  str_at m (pw_gecos pw) (e_gecos e) /\ str_at m (pw_dir pw) (e_dir e) /\ str_at m (pw_shell pw) (e_shell e).

(* the call c asks the query q: the name is a string in m that does not overlap [A,A+n) *)
Definition asks (m : mem) (A n : Z) (c : pwcall) (q : query) : Prop :=
  match c, q with
  | CNam p, QName l => str_at m p l /\ zlen l <= INT_MAX /\ apart p (zlen l + 1) A n
  | CUid u, QUid v => u = v
  | CEnt, QNext => True
  | CSet, QRewind => True
  | _, _ => False
  end.
Definition answered (r : pws * bool) (a : option entry) : Prop :=
  match a with
  | None => snd r = false
  | Some e => snd r = true /\ holds (s_m (fst r)) (s_pw (fst r)) e
  end.

(* ---- group ---- *)
Record gentry := mkgentry { x_name : list Z; x_passwd : list Z; x_gid : list Z; x_members : list (list Z) }.
(* the members, separated by commas *)
Fixpoint joined (l : list (list Z)) : list Z :=
  match l with
  | [] => []
  | x :: r => match r with [] => x | _ :: _ => x ++ 44 :: joined r end
  end.
Definition gline (x : gentry) : list Z := x_name x ++ 58 :: x_passwd x ++ 58 :: x_gid x ++ 58 :: joined (x_members x) ++ [10].
Definition group_file (xs : list gentry) : list Z := flat_map gline xs.
Definition gid_of (x : gentry) : Z := value 10 (x_gid x).
Definition well_formed_group (x : gentry) : Prop :=
  x_name x <> [] /\ text [58; 44; 10] (x_name x) /\ text [58; 44; 10] (x_passwd x) /\ number (x_gid x) /\
  Forall (fun l => l <> [] /\ text [58; 44; 10] l) (x_members x).

(* the struct gr holds the group x *)
Definition gholds (m : mem) (gr : grent) (x : gentry) : Prop :=
  str_at m (gr_name gr) (x_name x) /\ str_at m (gr_passwd gr) (x_passwd x) /\ gr_gid gr = value 10 (x_gid x) /\
  Forall2 (str_at m) (gr_mem gr) (x_members x).
(* the same, but a group without members has one with an empty name *)
Definition gholds' (m : mem) (gr : grent) (x : gentry) : Prop :=
  str_at m (gr_name gr) (x_name x) /\ str_at m (gr_passwd gr) (x_passwd x) /\ gr_gid gr = value 10 (x_gid x) /\
  Forall2 (str_at m) (gr_mem gr) (match x_members x with [] => [[]] | l => l end).

(* a history of calls and the right answers; None: the history asks for the next entry after
   a lookup, whose effect on the position is not specified *)
Inductive gquery := QGName (l : list Z) | QGid (g : Z) | QGNext | QGRewind.
Fixpoint ganswers (xs : list gentry) (rest : option (list gentry)) (qs : list gquery) : option (list (option gentry)) :=
  match qs with
  | [] => Some []
  | QGName l :: qs => option_map (cons (find (fun x => same (x_name x) l) xs)) (ganswers xs None qs)
  | QGid g :: qs => option_map (cons (find (fun x => gid_of x =? g) xs)) (ganswers xs None qs)
  | QGNext :: qs =>
      match rest with
      | None => None
      | Some r => option_map (cons (hd_error r)) (ganswers xs (Some (tl r)) qs)
      end
  | QGRewind :: qs => option_map (cons None) (ganswers xs (Some xs) qs)
  end.
Definition gasks (m : mem) (A n : Z) (c : grcall) (q : gquery) : Prop :=
  match c, q with
  | GNam p, QGName l => str_at m p l /\ zlen l <= INT_MAX /\ apart p (zlen l + 1) A n
  | GGidc u, QGid v => u = v
  | GEnt, QGNext => True
  | GSet, QGRewind => True
  | _, _ => False
  end.
Definition ganswered (r : grs * bool) (a : option gentry) : Prop :=
  match a with
  | None => snd r = false
  | Some x => snd r = true /\ gholds' (g_m (fst r)) (g_gr (fst r)) x
  end.
(* the groups with the member u *)
Definition groups_of (xs : list gentry) (u : list Z) : list Z := map gid_of (filter (fun x => existsb (same u) (x_members x)) xs).
