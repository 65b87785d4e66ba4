(* C158, C159, C161-C163: file modes, ioctl numbers, open flags, structures, signal names. *)
From Coq Require Import String.
From Verif Require Import Base BaseLemmas DirModel AbiModel AbiSpec AbiProofs.
Local Open Scope list_scope.

(* ---- C158: file modes ---- *)
Definition tests (k : kind) : Z -> bool :=
  match k with Fifo => S_ISFIFO | Chr => S_ISCHR | Dir => S_ISDIR | Blk => S_ISBLK | Reg => S_ISREG | Lnk => S_ISLNK | Sock => S_ISSOCK end.
Definition dt_const (k : kind) : Z :=
  match k with Fifo => DT_FIFO | Chr => DT_CHR | Dir => DT_DIR | Blk => DT_BLK | Reg => DT_REG | Lnk => DT_LNK | Sock => DT_SOCK end.
(* of the seven macros S_ISDIR ... exactly the one of the kind of the file is true *)
Theorem C158_tests : forall k p, 0 <= p < 4096 -> forall k', tests k' (file_mode k p) = true <-> k' = k.
Proof.
  intros k p Hp k'. assert (E : Z.land (file_mode k p) S_IFMT = 4096 * kind_number k).
  { apply type_bits; [destruct k; cbn; lia|exact Hp]. }
  assert (F : tests k' (file_mode k p) = (4096 * kind_number k =? 4096 * kind_number k')).
  { rewrite <- E. destruct k'; reflexivity. }
  rewrite F. split; [|intros ->; apply Z.eqb_refl]. intros H. apply Z.eqb_eq in H. destruct k, k'; (reflexivity || (cbn in H; lia)).
Qed.
Print Assumptions C158_tests.
(* IFTODT gives the DT_ constant of the kind, DTTOIF the type bits *)
Theorem C158_dt : forall k p, 0 <= p < 4096 -> IFTODT (file_mode k p) = dt_const k /\ DTTOIF (dt_const k) = file_mode k 0.
Proof.
  intros k p Hp. split; [|destruct k; reflexivity]. unfold IFTODT, file_mode. rewrite Z.shiftr_div_pow2 by lia. change (2 ^ 12) with 4096.
  replace (4096 * kind_number k + p) with (p + kind_number k * 4096) by lia. rewrite Z.div_add, Z.div_small by lia. destruct k; reflexivity.
Qed.
Print Assumptions C158_dt.
(* mkfifo makes a FIFO with the permissions it is given *)
Theorem C158_mkfifo : forall p, 0 <= p < 4096 -> mkfifo p = (file_mode Fifo p, 0).
Proof. intros p Hp. unfold mkfifo, file_mode. change S_IFIFO with (Z.shiftl 1 12). rewrite lor_add by (try change (2 ^ 12) with 4096; lia). f_equal. cbn [kind_number]. change (2 ^ 12) with 4096. lia. Qed.
Print Assumptions C158_mkfifo.
(* the permission constants are the twelve bits; S_IRWX. is the or of its three *)
Theorem C158_permissions : (forall i, (i < 12)%nat -> nth_error perm_consts i = Some (perm_bit i)) /\
  S_IRWXU = perm_bit 3 + perm_bit 4 + perm_bit 5 /\ S_IRWXG = perm_bit 6 + perm_bit 7 + perm_bit 8 /\ S_IRWXO = perm_bit 9 + perm_bit 10 + perm_bit 11.
Proof. split; [|repeat split]. intros i Hi. do 12 (destruct i as [|i]; [reflexivity|]). lia. Qed.
Print Assumptions C158_permissions.
(* a directory that is readable by all, 040755 *)
Example C158_case : file_mode Dir 493 = 16877 /\ S_ISDIR 16877 = true /\ S_ISREG 16877 = false /\ IFTODT 16877 = DT_DIR.
Proof. repeat split. Qed.

(* ---- C159: request numbers ---- *)
Theorem C159_encode : forall ty nr size, 0 <= ty < 256 -> 0 <= nr < 256 -> 0 <= size < 16384 ->
  let is x d s := ioc_dir x = d /\ ioc_type x = ty /\ ioc_nr x = nr /\ ioc_size x = s in
  is (IO_ ty nr) 0 0 /\ is (IOW_ ty nr size) 1 size /\ is (IOR_ ty nr size) 2 size /\ is (IOWR_ ty nr size) 3 size.
Proof.
  intros ty nr size Ht Hn Hs is. unfold is, IO_, IOW_, IOR_, IOWR_. change (Z.lor IOC_READ IOC_WRITE) with 3.
  unfold IOC_NONE, IOC_WRITE, IOC_READ. rewrite !ioc_sum by lia.
  repeat match goal with |- context [ioc_dir (nr + ty * 2 ^ 8 + ?s * 2 ^ 16 + ?a * 2 ^ 30)] =>
    destruct (ioc_fields a ty nr s) as (-> & -> & -> & ->); [lia..|] end. tauto.
Qed.
Print Assumptions C159_encode.
(* different requests have different numbers *)
Theorem C159_distinct : forall a b c d a' b' c' d', 0 <= a < 4 -> 0 <= b < 256 -> 0 <= c < 256 -> 0 <= d < 16384 ->
  0 <= a' < 4 -> 0 <= b' < 256 -> 0 <= c' < 256 -> 0 <= d' < 16384 -> IOC a b c d = IOC a' b' c' d' -> (a, b, c, d) = (a', b', c', d').
Proof.
  intros. rewrite !ioc_sum in * by auto.
  destruct (ioc_fields a b c d) as (E1 & E2 & E3 & E4); auto. destruct (ioc_fields a' b' c' d') as (F1 & F2 & F3 & F4); auto. congruence.
Qed.
Print Assumptions C159_distinct.
(* the literals of the header are the numbers that the kernel makes of direction, 'T', number and
   the size of an int *)
Theorem C159_literals : TIOCGPTN = IOR_ 84 48 4 /\ TIOCSPTLCK = IOW_ 84 49 4 /\ TIOCGDEV = IOR_ 84 50 4 /\ TIOCSIG = IOW_ 84 54 4 /\
  TIOCGPKT = IOR_ 84 56 4 /\ TIOCGPTLCK = IOR_ 84 57 4 /\ TIOCGEXCL = IOR_ 84 64 4.
Proof. repeat split. Qed.
Print Assumptions C159_literals.
Example C159_case : IOWR_ 84 1 60 = 3225179137 /\ ioc_dir 3225179137 = 3 /\ ioc_size 3225179137 = 60.
Proof. repeat split. Qed.
(* a type with 16384 bytes: the size reaches into the direction *)
Theorem C159_size_refuted : exists ty nr size, 0 <= ty < 256 /\ 0 <= nr < 256 /\ ioc_dir (IOR_ ty nr size) <> 2 /\ IOR_ ty nr size = IOWR_ ty nr 0.
Proof. exists 84, 1, 16384. repeat split; try lia. vm_compute. discriminate. Qed.
Print Assumptions C159_size_refuted.

(* ---- C161: open flags ---- *)
Inductive oname := NCreat | NExcl | NNoctty | NTrunc | NAppend | NNonblock | NDsync | NAsync | NDirect | NLargefile
  | NDirectory | NNofollow | NNoatime | NCloexec | NPath | NSync | NRsync.
Definition oconst (n : oname) : Z :=
  match n with
  | NCreat => O_CREAT | NExcl => O_EXCL | NNoctty => O_NOCTTY | NTrunc => O_TRUNC | NAppend => O_APPEND | NNonblock => O_NONBLOCK
  | NDsync => O_DSYNC | NAsync => O_ASYNC | NDirect => O_DIRECT | NLargefile => O_LARGEFILE | NDirectory => O_DIRECTORY | NNofollow => O_NOFOLLOW
  | NNoatime => O_NOATIME | NCloexec => O_CLOEXEC | NPath => O_PATH | NSync => O_SYNC | NRsync => O_RSYNC
  end.
(* the bits that belong to a name: O_SYNC is O_DSYNC and one bit more *)
Definition means (n : oname) : list oflag :=
  match n with
  | NCreat => [FCreat] | NExcl => [FExcl] | NNoctty => [FNoctty] | NTrunc => [FTrunc] | NAppend => [FAppend] | NNonblock => [FNonblock]
  | NDsync => [FDsync] | NAsync => [FAsync] | NDirect => [FDirect] | NLargefile => [FLargefile] | NDirectory => [FDirectory]
  | NNofollow => [FNofollow] | NNoatime => [FNoatime] | NCloexec => [FCloexec] | NPath => [FPath] | NSync | NRsync => [FDsync; FSyncBit]
  end.
Definition word (acc : Z) (l : list oname) : Z := fold_left (fun x n => Z.lor x (oconst n)) l acc.
Lemma word_bit l i : forall acc, Z.testbit (word acc l) i = Z.testbit acc i || existsb (fun n => Z.testbit (oconst n) i) l.
Proof.
  unfold word. induction l as [|n l IH]; intros acc; cbn [fold_left existsb]; [now rewrite orb_false_r|].
  rewrite IH, Z.lor_spec. symmetry. apply orb_assoc.
Qed.
Lemma word_nonneg l : forall acc, 0 <= acc -> 0 <= word acc l.
Proof.
  unfold word. induction l as [|n l IH]; intros acc H; [exact H|]. cbn [fold_left]. apply IH. apply Z.lor_nonneg. split; [exact H|]. destruct n; discriminate.
Qed.
(* however the constants are combined, the kernel sees the access mode and exactly the flags
   that were named *)
Theorem C161_flags : forall acc l, In acc [O_RDONLY; O_WRONLY; O_RDWR] ->
  kernel_access (word acc l) = acc /\ Z.land (word acc l) O_ACCMODE = acc /\
  forall f, kernel_flag (word acc l) f = true <-> exists n, In n l /\ In f (means n).
Proof.
  intros acc l Ha. assert (A : Z.land (word acc l) O_ACCMODE = acc).
  { apply Z.bits_inj'. intros i Hi. rewrite Z.land_spec, word_bit. change O_ACCMODE with (Z.ones 2). destruct (Z_lt_dec i 2).
    - rewrite Z.ones_spec_low, andb_true_r by lia. replace (existsb _ l) with false; [apply orb_false_r|]. symmetry.
      apply not_true_is_false. intros H. apply existsb_exists in H as (n & _ & H). assert (i = 0 \/ i = 1) as [-> | ->] by lia; destruct n; discriminate H.
    - rewrite Z.ones_spec_high, andb_false_r by lia. symmetry. apply (small_bit acc 2); [lia|]. change (2 ^ 2) with 4.
      destruct Ha as [<-|[<-|[<-|[]]]]; unfold O_RDONLY, O_WRONLY, O_RDWR; lia. }
  split; [|split; [exact A|]].
  - unfold kernel_access. change 4 with (2 ^ 2). rewrite <- Z.land_ones by lia. exact A.
  - intros f. unfold kernel_flag. rewrite word_bit.
    replace (Z.testbit acc (flag_bit f)) with false.
    2:{ symmetry. apply (small_bit acc 2); [destruct f; cbn; lia|]. change (2 ^ 2) with 4.
        destruct Ha as [<-|[<-|[<-|[]]]]; unfold O_RDONLY, O_WRONLY, O_RDWR; lia. }
    rewrite orb_false_l, existsb_exists.
    assert (E : forall n, Z.testbit (oconst n) (flag_bit f) = true <-> In f (means n)).
    { intros n. destruct n, f; cbn; intuition congruence. }
    split; intros (n & H1 & H2); exists n; (split; [exact H1|apply E; exact H2]).
Qed.
Print Assumptions C161_flags.
(* creat(s,mode) opens for writing, creates, truncates and nothing else; the mode is passed on *)
Theorem C161_creat : forall mode, snd (creat mode) = mode /\ kernel_access (fst (creat mode)) = O_WRONLY /\
  forall f, kernel_flag (fst (creat mode)) f = true <-> f = FCreat \/ f = FTrunc.
Proof. intros mode. split; [reflexivity|]. split; [reflexivity|]. intros f. destruct f; cbn; intuition congruence. Qed.
Print Assumptions C161_creat.
Example C161_case : word O_RDWR [NCreat; NSync; NAppend] = 1053762 /\ kernel_flag 1053762 FDsync = true /\ kernel_flag 1053762 FTrunc = false /\ kernel_access 1053762 = O_RDWR.
Proof. repeat split. Qed.

(* ---- C162: structures ---- *)
Definition structures : list (ctype * table) :=
  [(timespec, k_timespec); (timeval, k_timeval); (itimerval, k_itimerval); (itimerspec, k_itimerspec); (timezone, k_timezone); (utimbuf, k_utimbuf);
   (iovec, k_iovec); (stat, k_stat); (pollfd, k_pollfd); (epoll_event, k_epoll_event); (winsize, k_winsize); (termio, k_termio); (sockaddr, k_sockaddr);
   (sockaddr_in, k_sockaddr_in); (sockaddr_storage, k_sockaddr_storage); (sockaddr_ll, k_sockaddr_ll); (packet_mreq, k_packet_mreq); (ifreq, k_ifreq);
   (rtentry, k_rtentry); (in6_rtmsg, k_in6_rtmsg); (udphdr, k_udphdr); (iphdr, k_iphdr); (ip, k_ip); (ip_timestamp, k_ip_timestamp);
   (ethhdr, k_ethhdr); (ether_header, k_ether_header)].
(* those that are larger than what the kernel fills *)
Definition larger : list (ctype * table) := [(dirent, k_dirent); (termios, k_termios)].
Definition row_ok (t : ctype) (r : string * Z * Z) : bool :=
  let '(f, o, n) := r in
  match member t f with Some (o', n') => (o' =? o) && (n' =? n) && (0 <=? o) && ((0 <? n) || (n =? 0) && (o mod 8 =? 0)) | None => false end.
Lemma rows_ok t k f o n : In (t, k) (structures ++ larger) -> In (f, o, n) (rows k) ->
  member t f = Some (o, n) /\ 0 <= o /\ (0 < n \/ n = 0 /\ o mod 8 = 0).
Proof.
  assert (A : forallb (fun s => forallb (row_ok (fst s)) (rows (snd s))) (structures ++ larger) = true) by (vm_compute; reflexivity).
  intros H1 H2. rewrite forallb_forall in A. specialize (A _ H1). cbn [fst snd] in A. rewrite forallb_forall in A. specialize (A _ H2).
  unfold row_ok in A. destruct (member t f) as [[o' n']|]; [|discriminate]. 
  apply andb_true_iff in A as [A A4]. apply andb_true_iff in A as [A A3]. apply andb_true_iff in A as [A1 A2].
  apply Z.eqb_eq in A1, A2. subst. split; [reflexivity|]. split; [lia|]. destruct (Z.ltb_spec 0 n); [tauto|]. right. lia.
Qed.
(* p->f is the number that the kernel stored in the place of f, whatever else the object holds *)
Theorem C162_read : forall t k f o n, In (t, k) (structures ++ larger) -> In (f, o, n) (rows k) ->
  forall m p v, byte_mem m -> 0 <= v < 2 ^ n -> holds m p o n v -> get_member m p t f = Ok v.
Proof. intros t k f o n H1 H2 m p v Hm Hv H. destruct (rows_ok t k f o n H1 H2) as (M & O & N). eapply get_holds; eauto. Qed.
Print Assumptions C162_read.
(* sizeof is the size that the kernel uses (for arrays of such objects, and as length), or it is larger
   than what the kernel fills; every row lies inside *)
Theorem C162_size : (forall t k, In (t, k) structures -> bits t = whole k) /\ (forall t k, In (t, k) larger -> whole k <= bits t) /\
  (forall t k f o n, In (t, k) (structures ++ larger) -> In (f, o, n) (rows k) -> 0 <= o + n <= bits t).
Proof.
  split; [|split].
  - assert (A : forallb (fun s => bits (fst s) =? whole (snd s)) structures = true) by (vm_compute; reflexivity).
    intros t k H. rewrite forallb_forall in A. apply Z.eqb_eq. exact (A _ H).
  - assert (A : forallb (fun s => whole (snd s) <=? bits (fst s)) larger = true) by (vm_compute; reflexivity).
    intros t k H. rewrite forallb_forall in A. apply Z.leb_le. exact (A _ H).
  - assert (A : forallb (fun s => forallb (fun '(f, o, n) => (0 <=? o + n) && (o + n <=? bits (fst s))) (rows (snd s))) (structures ++ larger) = true) by (vm_compute; reflexivity).
    intros t k f o n H1 H2. rewrite forallb_forall in A. specialize (A _ H1). rewrite forallb_forall in A. specialize (A _ H2). cbn [fst] in A. lia.
Qed.
Print Assumptions C162_size.
(* after p->f = v the kernel finds v in the place of f (cut to the size of f), and no other bit of the memory
   has changed *)
Theorem C162_write : forall t k f o n, In (t, k) (structures ++ larger) -> In (f, o, n) (rows k) ->
  forall m p v, byte_mem m -> room m p (sizeof t) ->
  exists m', set_member m p t f v = Ok m' /\ holds m' p o n v /\ forall i, i < o \/ o + n <= i -> mbit m' p i = mbit m p i.
Proof.
  intros t k f o n H1 H2 m p v Hm R. destruct C162_size as (_ & _ & B). specialize (B t k f o n H1 H2). destruct (rows_ok t k f o n H1 H2) as (M & O & N). apply set_holds; auto.
  intros i Hi. unfold mbit. destruct (m (p + (o + i) / 8)) eqn:E; [discriminate|]. exfalso. apply (R (p + (o + i) / 8)); [|exact E].
  unfold sizeof. assert (A : forallb (fun s => bits (fst s) mod 8 =? 0) (structures ++ larger) = true) by (vm_compute; reflexivity).
  rewrite forallb_forall in A. specialize (A _ H1). cbn [fst] in A. apply Z.eqb_eq in A. pose proof (Z.div_mod (bits t) 8).
  assert (0 <= (o + i) / 8) by (apply Z.div_pos; lia). assert ((o + i) / 8 < bits t / 8) by (apply Z.div_lt_upper_bound; lia). lia.
Qed.
Print Assumptions C162_write.
(* the 19 control characters of the kernel are the first ones of c_cc *)
Theorem C162_control : member termios "c_cc" = Some (8 * 17, 8 * 32) /\ 17 + 19 = 36 /\ 8 * 36 = whole k_termios.
Proof. repeat split. Qed.
Print Assumptions C162_control.
(* the bytes of an IP header 45 .. : version 4, five words *)
Example C162_case : let m := mem_of [(1000, [69; 0; 1; 2])] in
  In (iphdr, k_iphdr) structures /\ In ("version"%string, 4, 4) (rows k_iphdr) /\ holds m 1000 4 4 4 /\ get_member m 1000 iphdr "version" = Ok 4 /\
  get_member m 1000 iphdr "ihl" = Ok 5 /\ byte_mem m.
Proof.
  split; [cbn; tauto|]. split; [cbn; tauto|]. split.
  - intros i Hi. assert (i = 0 \/ i = 1 \/ i = 2 \/ i = 3) as [-> | [-> | [-> | ->]]] by lia; reflexivity.
  - split; [reflexivity|]. split; [reflexivity|]. intros a b H. cbn [mem_of] in H.
    destruct ((1000 <=? a) && (a <? 1000 + zlen [69; 0; 1; 2])); [|discriminate]. apply nth_error_In in H. cbn in H. lia.
Qed.

(* ---- C163: names of signals ---- *)
Theorem C163_names : forall n s, nth_error signal_names n = Some s ->
  nth_error sys_signame (S n) = Some s /\ In (String.append "SIG" s, Z.of_nat (S n)) signal_consts.
Proof.
  intros n s H. do 31 (destruct n as [|n]; [injection H as <-; split; [reflexivity|cbn; tauto]|]). destruct n; discriminate H.
Qed.
Print Assumptions C163_names.
(* no other constant exists *)
Theorem C163_only : forall c i, In (c, i) signal_consts -> exists n s, nth_error signal_names n = Some s /\ c = String.append "SIG" s /\ i = Z.of_nat (S n).
Proof.
  intros c i H. cbn in H. repeat (destruct H as [H|H]; [injection H as <- <-|]); try contradiction;
  match goal with |- exists n s, _ /\ _ /\ ?i = _ => let k := eval vm_compute in (Z.to_nat (i - 1)) in exists k end; eexists; (split; [reflexivity|split; reflexivity]).
Qed.
Print Assumptions C163_only.
Example C163_case : nth_error sys_signame 11 = Some "SEGV"%string /\ In ("SIGSEGV"%string, 11) signal_consts.
Proof. split; [reflexivity|cbn; tauto]. Qed.
