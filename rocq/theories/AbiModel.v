(* Model of the definitions that the program shares with the kernel or the wire: file modes
   (headers/common/bits/stat.h, headers/common/dirent.h, include/mkfifo.h), open flags
   (include/filemodes.h, src/file/creat.c), request numbers (headers/common/bits/ioctl.h),
   structures (headers/common/{bits/stat,bits/alltypes,bits/ioctl,time,sys/socket}.h,
   include/{globaldefs,poll,termio,dirent,network,epoll}.h), signal names
   (src/process/signames.h, headers/common/bits/signal.h). *)
From Coq Require String.
Export String.StringSyntax.
From Verif Require Import Base NetModel DirModel.

(* ---- file modes ---- *)
(* headers/common/bits/stat.h:5 *)
Definition S_IFMT := 61440.
(* headers/common/bits/stat.h:9-15 *)
Definition S_IFDIR := 16384.
Definition S_IFCHR := 8192. (* headers/common/bits/stat.h:10 *)
Definition S_IFBLK := 24576. (* headers/common/bits/stat.h:11 *)
Definition S_IFREG := 32768. (* headers/common/bits/stat.h:12 *)
Definition S_IFIFO := 4096. (* headers/common/bits/stat.h:13 *)
Definition S_IFLNK := 40960. (* headers/common/bits/stat.h:14 *)
Definition S_IFSOCK := 49152. (* headers/common/bits/stat.h:15 *)
(* headers/common/bits/stat.h:26-32; mode_t is unsigned, the argument is taken as 0..2^32-1 *)
Definition S_ISDIR (mode : Z) : bool := Z.land mode S_IFMT =? S_IFDIR.
Definition S_ISCHR (mode : Z) : bool := Z.land mode S_IFMT =? S_IFCHR. (* headers/common/bits/stat.h:27 *)
Definition S_ISBLK (mode : Z) : bool := Z.land mode S_IFMT =? S_IFBLK. (* headers/common/bits/stat.h:28 *)
Definition S_ISREG (mode : Z) : bool := Z.land mode S_IFMT =? S_IFREG. (* headers/common/bits/stat.h:29 *)
Definition S_ISFIFO (mode : Z) : bool := Z.land mode S_IFMT =? S_IFIFO. (* headers/common/bits/stat.h:30 *)
Definition S_ISLNK (mode : Z) : bool := Z.land mode S_IFMT =? S_IFLNK. (* headers/common/bits/stat.h:31 *)
Definition S_ISSOCK (mode : Z) : bool := Z.land mode S_IFMT =? S_IFSOCK. (* headers/common/bits/stat.h:32 *)
(* headers/common/bits/stat.h:17-23, 35-49: the permission bits, in the order of the file
   (S_ISUID ... S_IXOTH) *)
Definition perm_consts : list Z := [2048; 1024; 512; 256; 128; 64; 32; 16; 8; 4; 2; 1].
(* headers/common/bits/stat.h:41,45,49: S_IRWXU, S_IRWXG, S_IRWXO *)
Definition S_IRWXU := 448.
Definition S_IRWXG := 56. (* headers/common/bits/stat.h:45 *)
Definition S_IRWXO := 7. (* headers/common/bits/stat.h:49 *)
(* headers/common/dirent.h:11-17 *)
Definition DT_FIFO := 1.
Definition DT_CHR := 2. (* headers/common/dirent.h:12 *)
Definition DT_DIR := 4. (* headers/common/dirent.h:13 *)
Definition DT_BLK := 6. (* headers/common/dirent.h:14 *)
Definition DT_REG := 8. (* headers/common/dirent.h:15 *)
Definition DT_LNK := 10. (* headers/common/dirent.h:16 *)
Definition DT_SOCK := 12. (* headers/common/dirent.h:17 *)
(* headers/common/dirent.h:19-20 *)
Definition IFTODT (x : Z) : Z := Z.land (Z.shiftr x 12) 15.
Definition DTTOIF (x : Z) : Z := Z.shiftl x 12. (* headers/common/dirent.h:20 *)
(* include/mkfifo.h:4-6: the arguments of mknod behind the path *)
Definition mkfifo (mode : Z) : Z * Z := (Z.lor mode S_IFIFO, 0).

(* ---- flags of open ---- *)
(* include/filemodes.h:41-44 *)
Definition O_ACCMODE := 3.
Definition O_RDONLY := 0. (* include/filemodes.h:7 *)
Definition O_WRONLY := 1. (* include/filemodes.h:8 *)
Definition O_RDWR := 2. (* include/filemodes.h:9 *)
(* include/filemodes.h:45-51, 53-63 *)
Definition O_CREAT := 64.
Definition O_EXCL := 128. (* include/filemodes.h:25 *)
Definition O_NOCTTY := 256. (* include/filemodes.h:29 *)
Definition O_TRUNC := 512. (* include/filemodes.h:24 *)
Definition O_APPEND := 1024. (* include/filemodes.h:15 *)
Definition O_NONBLOCK := 2048. (* include/filemodes.h:14 *)
Definition O_DSYNC := 4096. (* include/filemodes.h:51 *)
Definition O_ASYNC := 8192. (* include/filemodes.h:19 *)
Definition O_DIRECT := 16384. (* include/filemodes.h:54 *)
Definition O_LARGEFILE := 32768. (* include/filemodes.h:55 *)
Definition O_DIRECTORY := 65536. (* include/filemodes.h:30 *)
Definition O_NOFOLLOW := 131072. (* include/filemodes.h:21 *)
Definition O_NOATIME := 262144. (* include/filemodes.h:58 *)
Definition O_CLOEXEC := 524288. (* include/filemodes.h:32 *)
Definition O_PATH := 2097152. (* include/filemodes.h:60 *)
Definition O_SYNC := 1052672. (* include/filemodes.h:62 *)
Definition O_RSYNC := 1052672. (* include/filemodes.h:63 *)
(* src/file/creat.c:4-6: the flags and the mode that open(2) gets *)
Definition creat (mode : Z) : Z * Z := (Z.lor (Z.lor O_CREAT O_WRONLY) O_TRUNC, mode).

(* ---- request numbers of ioctl ---- *)
(* headers/common/bits/ioctl.h:4; a is unsigned, b and c are int constants, d is 0 or a sizeof
   (unsigned long) *)
Definition IOC (a b c d : Z) : Z :=
  Z.lor (Z.lor (Z.lor (u32 (Z.shiftl a 30)) (Z.shiftl b 8)) c) (u64 (Z.shiftl d 16)).
(* headers/common/bits/ioctl.h:5-7 *)
Definition IOC_NONE := 0.
Definition IOC_WRITE := 1. (* headers/common/bits/ioctl.h:6 *)
Definition IOC_READ := 2. (* headers/common/bits/ioctl.h:7 *)
(* headers/common/bits/ioctl.h:9-12; c is the size of the type *)
Definition IO_ (a b : Z) : Z := IOC IOC_NONE a b 0.
Definition IOW_ (a b c : Z) : Z := IOC IOC_WRITE a b c. (* headers/common/bits/ioctl.h:9-12 *)
Definition IOR_ (a b c : Z) : Z := IOC IOC_READ a b c. (* headers/common/bits/ioctl.h:9-12 *)
Definition IOWR_ (a b c : Z) : Z := IOC (Z.lor IOC_READ IOC_WRITE) a b c. (* headers/common/bits/ioctl.h:9-12 *)
(* headers/common/bits/ioctl.h:57-59,64,66-68: the literals that stand for encoded numbers *)
Definition TIOCGPTN := 2147767344.
Definition TIOCSPTLCK := 1074025521. (* headers/common/bits/ioctl.h:58 *)
Definition TIOCGDEV := 2147767346. (* headers/common/bits/ioctl.h:59 *)
Definition TIOCSIG := 1074025526. (* headers/common/bits/ioctl.h:64 *)
Definition TIOCGPKT := 2147767352. (* headers/common/bits/ioctl.h:66 *)
Definition TIOCGPTLCK := 2147767353. (* headers/common/bits/ioctl.h:67 *)
Definition TIOCGEXCL := 2147767360. (* headers/common/bits/ioctl.h:68 *)

(* ---- structures ---- *)
(* The types used in the headers: scalars of n bytes (aligned to n), arrays, structures,
   packed structures, unions and bit fields of unsigned int with w bits.
   headers/common/bits/alltypes.h:9-86 and the structures below *)
Inductive ctype :=
| Sc (n : Z)
| Ar (n : Z) (t : ctype)
| St (fs : list (String.string * ctype))
| Pk (fs : list (String.string * ctype))
| Un (fs : list (String.string * ctype))
| Bf (w : Z).
(* for headers/common/bits/stat.h:51-74 and the structures below *)
Definition round_up (x a : Z) : Z := (x + a - 1) / a * a.
(* The layout of gcc for x86-64 (System V ABI, 3.1.2): all numbers in bits.
   for headers/common/bits/stat.h:51-74 and the structures below *)
Fixpoint align (t : ctype) : Z :=
  match t with
  | Sc n => 8 * n
  | Ar _ t => align t
  | St fs | Un fs => fold_right Z.max 8 (map (fun f => align (snd f)) fs)
  | Pk _ => 8
  | Bf _ => 32
  end.
(* the first place for a member of type t that is not before x;
   for headers/common/bits/stat.h:51-74 and the structures below *)
Definition place (x : Z) (t : ctype) : Z :=
  match t with
  | Bf w => if 32 <? x mod 32 + w then round_up x 32 else x
  | _ => round_up x (align t)
  end.
(* for headers/common/bits/stat.h:51-74 and the structures below *)
Fixpoint bits (t : ctype) : Z :=
  match t with
  | Sc n => 8 * n
  | Ar n t => n * bits t
  | St fs => round_up (fold_left (fun x f => place x (snd f) + bits (snd f)) fs 0) (align t)
  | Pk fs => fold_left (fun x f => x + bits (snd f)) fs 0
  | Un fs => round_up (fold_right Z.max 0 (map (fun f => bits (snd f)) fs)) (align t)
  | Bf w => w
  end.
Definition sizeof (t : ctype) : Z := bits t / 8. (* for headers/common/bits/stat.h:51-74 and the structures below *)
(* all members that are not structures: name, first bit, number of bits; a member of a member
   is called a.b; for headers/common/bits/stat.h:51-74 and the structures below *)
Definition dot (a b : String.string) : String.string := String.append a (String.append "." b).
(* for headers/common/bits/stat.h:51-74 and the structures below *)
Fixpoint members (t : ctype) : list (String.string * Z * Z) :=
  let inner (n : String.string) (x : Z) (t : ctype) :=
    match t with
    | St _ | Pk _ | Un _ => map (fun '(f, o, w) => (dot n f, x + o, w)) (members t)
    | _ => [(n, x, bits t)]
    end in
  match t with
  | St fs => (fix go (x : Z) (fs : list (String.string * ctype)) :=
      match fs with
      | [] => []
      | (n, t) :: r => let x := place x t in inner n x t ++ go (x + bits t) r
      end) 0 fs
  | Pk fs => (fix go (x : Z) (fs : list (String.string * ctype)) :=
      match fs with
      | [] => []
      | (n, t) :: r => inner n x t ++ go (x + bits t) r
      end) 0 fs
  | Un fs => (fix go (fs : list (String.string * ctype)) :=
      match fs with
      | [] => []
      | (n, t) :: r => inner n 0 t ++ go r
      end) fs
  | _ => []
  end.
(* for headers/common/bits/stat.h:51-74 and the structures below *)
Definition member (t : ctype) (f : String.string) : option (Z * Z) :=
  match find (fun '(g, _, _) => String.eqb g f) (members t) with
  | Some (_, o, w) => Some (o, w)
  | None => None
  end.
(* p->f as a number (signed members too: their bits), and the assignment p->f = v;
   for the members of headers/common/bits/stat.h:51-74 and the structures below *)
Definition get_member (m : mem) (p : Z) (t : ctype) (f : String.string) : res Z :=
  match member t f with
  | None => Fault
  | Some (o, w) =>
      let* v := get_le (Z.to_nat ((o mod 8 + w + 7) / 8)) m (p + o / 8) in
      Ok (Z.land (Z.shiftr v (o mod 8)) (Z.ones w))
  end.
(* the assignment, for the same structures (headers/common/bits/stat.h:51-74) *)
Definition set_member (m : mem) (p : Z) (t : ctype) (f : String.string) (v : Z) : res mem :=
  match member t f with
  | None => Fault
  | Some (o, w) =>
      let n := Z.to_nat ((o mod 8 + w + 7) / 8) in
      let* old := get_le n m (p + o / 8) in
      put_le n m (p + o / 8) (Z.lor (Z.land old (Z.lnot (Z.shiftl (Z.ones w) (o mod 8))))
                                    (Z.shiftl (Z.land v (Z.ones w)) (o mod 8)))
  end.

Local Open Scope string_scope.
(* char, short, int, long and pointers; the typedefs of headers/common/bits/alltypes.h:7-9,
   56-96 are replaced by these *)
Definition cchar := Sc 1.
Definition cshort := Sc 2. (* headers/common/bits/alltypes.h:7-9, 56-96 *)
Definition cint := Sc 4. (* headers/common/bits/alltypes.h:7-9, 56-96 *)
Definition clong := Sc 8. (* headers/common/bits/alltypes.h:7-9, 56-96 *)
Definition cptr := Sc 8. (* headers/common/bits/alltypes.h:7-9, 56-96 *)
(* headers/common/bits/alltypes.h:84 *)
Definition timespec := St [("tv_sec", clong); ("tv_nsec", clong)].
(* headers/common/bits/alltypes.h:10, include/globaldefs.h:83,211 *)
Definition timeval := St [("tv_sec", clong); ("tv_usec", clong)].
(* headers/common/bits/alltypes.h:18-21 *)
Definition itimerval := St [("it_interval", timeval); ("it_value", timeval)].
(* headers/common/time.h:27-30 *)
Definition itimerspec := St [("it_interval", timespec); ("it_value", timespec)].
(* include/globaldefs.h:213-216 *)
Definition timezone := St [("tz_minuteswest", cint); ("tz_dsttime", cint)].
(* include/globaldefs.h:86-89 *)
Definition utimbuf := St [("actime", clong); ("modtime", clong)].
(* headers/common/bits/alltypes.h:96 *)
Definition iovec := St [("iov_base", cptr); ("iov_len", clong)].
(* headers/common/bits/stat.h:57-75 *)
Definition stat := St [("st_dev", clong); ("st_ino", clong); ("st_nlink", clong);
  ("st_mode", cint); ("st_uid", cint); ("st_gid", cint); ("__pad0", cint); ("st_rdev", clong);
  ("st_size", clong); ("st_blksize", clong); ("st_blocks", clong);
  ("st_atime", timespec); ("st_mtime", timespec); ("st_ctime", timespec); ("__unused", Ar 3 clong)].
(* include/dirent.h:69-76; d_name is a flexible array *)
Definition dirent := St [("d_ino", clong); ("d_off", clong); ("d_reclen", cshort); ("d_name", Ar 0 cchar)].
(* include/poll.h:16-20 *)
Definition pollfd := St [("fd", cint); ("events", cshort); ("revents", cshort)].
(* include/epoll.h:30-40 *)
Definition epoll_event := Pk [("events", cint);
  ("data", Un [("ptr", cptr); ("fd", cint); ("u32", cint); ("u64", clong)])].
(* headers/common/bits/ioctl.h:99-104 *)
Definition winsize := St [("ws_row", cshort); ("ws_col", cshort); ("ws_xpixel", cshort); ("ws_ypixel", cshort)].
(* include/termio.h:13-22 *)
Definition termios := St [("c_iflag", cint); ("c_oflag", cint); ("c_cflag", cint); ("c_lflag", cint);
  ("c_line", cchar); ("c_cc", Ar 32 cchar); ("__c_ispeed", cint); ("__c_ospeed", cint)].
(* include/termio.h:26-34 *)
Definition termio := St [("c_iflag", cshort); ("c_oflag", cshort); ("c_cflag", cshort); ("c_lflag", cshort);
  ("c_line", cchar); ("c_cc", Ar 8 cchar)].
(* headers/common/sys/socket.h:5-8 *)
Definition sockaddr := St [("sa_family", cshort); ("sa_data", Ar 14 cchar)].
(* include/network.h:364 *)
Definition in_addr := St [("s_addr", cint)].
(* include/network.h:367-373 *)
Definition in6_addr := St [("__in6_union", Un [("__s6_addr", Ar 16 cchar); ("__s6_addr16", Ar 8 cshort); ("__s6_addr32", Ar 4 cint)])].
(* include/network.h:457-462 *)
Definition sockaddr_in := St [("sin_family", cshort); ("sin_port", cshort); ("sin_addr", in_addr); ("sin_zero", Ar 8 cchar)].
(* include/network.h:484-488 *)
Definition sockaddr_storage := St [("ss_family", cshort); ("__ss_align", cint); ("__ss_padding", Ar 120 cchar)].
(* include/network.h:555-561 *)
Definition sockaddr_ll := St [("sll_family", cshort); ("sll_protocol", cshort); ("sll_ifindex", cint); ("sll_hatype", cshort);
  ("sll_pkttype", cchar); ("sll_halen", cchar); ("sll_addr", Ar 8 cchar)].
(* include/network.h:563-567 *)
Definition packet_mreq := St [("mr_ifindex", cint); ("mr_type", cshort); ("mr_alen", cshort); ("mr_address", Ar 8 cchar)].
(* include/network.h:475-482 *)
Definition ifmap := St [("mem_start", clong); ("mem_end", clong); ("base_addr", cshort); ("irq", cchar); ("dma", cchar); ("port", cchar)].
(* include/network.h:532-551; IF_NAMESIZE is 16 (include/network.h:8) *)
Definition ifreq := St [("ifr_ifrn", Un [("ifrn_name", Ar 16 cchar)]);
  ("ifr_ifru", Un [("ifru_addr", sockaddr); ("ifru_dstaddr", sockaddr); ("ifru_broadaddr", sockaddr); ("ifru_netmask", sockaddr);
    ("ifru_hwaddr", sockaddr); ("ifru_flags", cshort); ("ifru_ivalue", cint); ("ifru_mtu", cint); ("ifru_map", ifmap);
    ("ifru_slave", Ar 16 cchar); ("ifru_newname", Ar 16 cchar); ("ifru_data", cptr)])].
(* include/network.h:608-624 *)
Definition rtentry := St [("rt_pad1", clong); ("rt_dst", sockaddr); ("rt_gateway", sockaddr); ("rt_genmask", sockaddr);
  ("rt_flags", cshort); ("rt_pad2", cshort); ("rt_pad3", clong); ("rt_tos", cchar); ("rt_class", cchar); ("rt_pad4", Ar 3 cshort);
  ("rt_metric", cshort); ("rt_dev", cptr); ("rt_mtu", clong); ("rt_window", clong); ("rt_irtt", cshort)].
(* include/network.h:629-640 *)
Definition in6_rtmsg := St [("rtmsg_dst", in6_addr); ("rtmsg_src", in6_addr); ("rtmsg_gateway", in6_addr); ("rtmsg_type", cint);
  ("rtmsg_dst_len", cshort); ("rtmsg_src_len", cshort); ("rtmsg_metric", cint); ("rtmsg_info", clong); ("rtmsg_flags", cint); ("rtmsg_ifindex", cint)].
(* include/network.h:30-35 *)
Definition udphdr := St [("uh_sport", cshort); ("uh_dport", cshort); ("uh_ulen", cshort); ("uh_sum", cshort)].
(* include/network.h:389-406; include/globaldefs.h:8 defines __BYTEORDER as __LITTLE_ENDIAN, so the
   first branch is taken *)
Definition iphdr := St [("ihl", Bf 4); ("version", Bf 4); ("tos", cchar); ("tot_len", cshort); ("id", cshort); ("frag_off", cshort);
  ("ttl", cchar); ("protocol", cchar); ("check", cshort); ("saddr", cint); ("daddr", cint)].
(* include/network.h:416-432 *)
Definition ip := St [("ip_hl", Bf 4); ("ip_v", Bf 4); ("ip_tos", cchar); ("ip_len", cshort); ("ip_id", cshort); ("ip_off", cshort);
  ("ip_ttl", cchar); ("ip_p", cchar); ("ip_sum", cshort); ("ip_src", in_addr); ("ip_dst", in_addr)].
(* include/network.h:439-451 *)
Definition ip_timestamp := St [("ipt_code", cchar); ("ipt_len", cchar); ("ipt_ptr", cchar); ("ipt_flg", Bf 4); ("ipt_oflw", Bf 4); ("data", Ar 9 cint)].
(* include/network.h:408-412, 525-529 *)
Definition ethhdr := St [("h_dest", Ar 6 cchar); ("h_source", Ar 6 cchar); ("h_proto", cshort)].
(* include/network.h:408-412, 525-529 *)
Definition ether_header := St [("ether_dhost", Ar 6 cchar); ("ether_shost", Ar 6 cchar); ("ether_type", cshort)].

(* ---- signals ---- *)
(* src/process/signames.h:3-38 *)
Definition sys_signame : list String.string :=
  ["SIG0"; "HUP"; "INT"; "QUIT"; "ILL"; "TRAP"; "ABRT"; "BUS"; "FPE"; "KILL"; "USR1"; "SEGV"; "USR2"; "PIPE"; "ALRM"; "TERM";
   "STKFLT"; "CHLD"; "CONT"; "STOP"; "TSTP"; "TTIN"; "TTOU"; "URG"; "XCPU"; "XFSZ"; "VTALRM"; "PROF"; "WINCH"; "IO"; "PWR"; "SYS"; "UNUSED"]%list.
(* headers/common/bits/signal.h:20-53, without the aliases SIGIOT, SIGPOLL and SIGUNUSED *)
Definition signal_consts : list (String.string * Z) :=
  [("SIGHUP", 1); ("SIGINT", 2); ("SIGQUIT", 3); ("SIGILL", 4); ("SIGTRAP", 5); ("SIGABRT", 6); ("SIGBUS", 7); ("SIGFPE", 8); ("SIGKILL", 9);
   ("SIGUSR1", 10); ("SIGSEGV", 11); ("SIGUSR2", 12); ("SIGPIPE", 13); ("SIGALRM", 14); ("SIGTERM", 15); ("SIGSTKFLT", 16); ("SIGCHLD", 17);
   ("SIGCONT", 18); ("SIGSTOP", 19); ("SIGTSTP", 20); ("SIGTTIN", 21); ("SIGTTOU", 22); ("SIGURG", 23); ("SIGXCPU", 24); ("SIGXFSZ", 25);
   ("SIGVTALRM", 26); ("SIGPROF", 27); ("SIGWINCH", 28); ("SIGIO", 29); ("SIGPWR", 30); ("SIGSYS", 31)]%list.
