(* What the kernel and the network fix: file modes (inode(7)), open flags (fcntl.h of the
   kernel), request numbers (asm-generic/ioctl.h), structures (the x86-64 ABI of Linux, RFC 768,
   791, IEEE 802.3), signal numbers. *)
From Coq Require String.
Export String.StringSyntax.
From Verif Require Import Base.

(* ---- file modes: four bits of type above twelve bits of permissions ---- *)
Inductive kind := Fifo | Chr | Dir | Blk | Reg | Lnk | Sock.
Definition kind_number (k : kind) : Z :=
  match k with Fifo => 1 | Chr => 2 | Dir => 4 | Blk => 6 | Reg => 8 | Lnk => 10 | Sock => 12 end.
Definition file_mode (k : kind) (perm : Z) : Z := 4096 * kind_number k + perm.
(* the twelve permission bits from the top: set user id, set group id, sticky, rwx of the owner,
   the group and others *)
Definition perm_bit (i : nat) : Z := 2 ^ (11 - Z.of_nat i).

(* ---- open flags: two bits of access mode, then one bit for each flag ---- *)
Inductive oflag := FCreat | FExcl | FNoctty | FTrunc | FAppend | FNonblock | FDsync | FAsync | FDirect | FLargefile
  | FDirectory | FNofollow | FNoatime | FCloexec | FPath | FSyncBit.
Definition flag_bit (f : oflag) : Z :=
  match f with
  | FCreat => 6 | FExcl => 7 | FNoctty => 8 | FTrunc => 9 | FAppend => 10 | FNonblock => 11 | FDsync => 12 | FAsync => 13
  | FDirect => 14 | FLargefile => 15 | FDirectory => 16 | FNofollow => 17 | FNoatime => 18 | FCloexec => 19 | FSyncBit => 20 | FPath => 21
  end.
(* what the kernel finds in the flags word *)
Definition kernel_access (fl : Z) : Z := fl mod 4.
Definition kernel_flag (fl : Z) (f : oflag) : bool := Z.testbit fl (flag_bit f).

(* ---- ioctl request numbers: nr in bits 0-7, type in 8-15, size in 16-29, direction in 30-31 ---- *)
Definition ioc_nr (x : Z) : Z := x mod 2 ^ 8.
Definition ioc_type (x : Z) : Z := x / 2 ^ 8 mod 2 ^ 8.
Definition ioc_size (x : Z) : Z := x / 2 ^ 16 mod 2 ^ 14.
Definition ioc_dir (x : Z) : Z := x / 2 ^ 30 mod 4.

(* ---- structures: name, first bit, bits; bit i of an object at p is bit (i mod 8) of byte i / 8 ---- *)
Definition mbit (m : mem) (p i : Z) : option bool :=
  match m (p + i / 8) with Some b => Some (Z.testbit b (i mod 8)) | None => None end.
(* the object at p holds the number v in the n bits from o on *)
Definition holds (m : mem) (p o n v : Z) : Prop :=
  forall i, 0 <= i < n -> mbit m p (o + i) = Some (Z.testbit v i).
Definition byte_mem (m : mem) : Prop := forall a b, m a = Some b -> 0 <= b < 256.

(* a table of the kernel: names, first byte, bytes *)
Record table := mktable { rows : list (String.string * Z * Z); whole : Z }.
Definition in_bytes (l : list (String.string * Z * Z)) : list (String.string * Z * Z) := map (fun '(f, o, n) => (f, 8 * o, 8 * n)) l.
Local Open Scope string_scope.
Local Notation bytes l n := (mktable (in_bytes l) (8 * n)).
(* struct __kernel_timespec, __kernel_old_timeval, __kernel_old_itimerval, itimerspec, timezone, utimbuf *)
Definition k_timespec := bytes [("tv_sec", 0, 8); ("tv_nsec", 8, 8)] 16.
Definition k_timeval := bytes [("tv_sec", 0, 8); ("tv_usec", 8, 8)] 16.
Definition k_itimerval := bytes [("it_interval.tv_sec", 0, 8); ("it_interval.tv_usec", 8, 8); ("it_value.tv_sec", 16, 8); ("it_value.tv_usec", 24, 8)] 32.
Definition k_itimerspec := bytes [("it_interval.tv_sec", 0, 8); ("it_interval.tv_nsec", 8, 8); ("it_value.tv_sec", 16, 8); ("it_value.tv_nsec", 24, 8)] 32.
Definition k_timezone := bytes [("tz_minuteswest", 0, 4); ("tz_dsttime", 4, 4)] 8.
Definition k_utimbuf := bytes [("actime", 0, 8); ("modtime", 8, 8)] 16.
Definition k_iovec := bytes [("iov_base", 0, 8); ("iov_len", 8, 8)] 16.
(* arch/x86/include/uapi/asm/stat.h, struct stat of x86-64 *)
Definition k_stat := bytes [("st_dev", 0, 8); ("st_ino", 8, 8); ("st_nlink", 16, 8); ("st_mode", 24, 4); ("st_uid", 28, 4); ("st_gid", 32, 4);
  ("st_rdev", 40, 8); ("st_size", 48, 8); ("st_blksize", 56, 8); ("st_blocks", 64, 8);
  ("st_atime.tv_sec", 72, 8); ("st_atime.tv_nsec", 80, 8); ("st_mtime.tv_sec", 88, 8); ("st_mtime.tv_nsec", 96, 8);
  ("st_ctime.tv_sec", 104, 8); ("st_ctime.tv_nsec", 112, 8)] 144.
(* struct linux_dirent: the name begins at byte 18 and is as long as the record allows *)
Definition k_dirent := bytes [("d_ino", 0, 8); ("d_off", 8, 8); ("d_reclen", 16, 2); ("d_name", 18, 0)] 18.
Definition k_pollfd := bytes [("fd", 0, 4); ("events", 4, 2); ("revents", 6, 2)] 8.
Definition k_epoll_event := bytes [("events", 0, 4); ("data.u64", 4, 8)] 12.
Definition k_winsize := bytes [("ws_row", 0, 2); ("ws_col", 2, 2); ("ws_xpixel", 4, 2); ("ws_ypixel", 6, 2)] 8.
(* asm-generic/termbits.h: struct termios has 19 control characters and no speeds *)
Definition k_termios := bytes [("c_iflag", 0, 4); ("c_oflag", 4, 4); ("c_cflag", 8, 4); ("c_lflag", 12, 4); ("c_line", 16, 1)] 36.
Definition k_termio := bytes [("c_iflag", 0, 2); ("c_oflag", 2, 2); ("c_cflag", 4, 2); ("c_lflag", 6, 2); ("c_line", 8, 1); ("c_cc", 9, 8)] 18.
Definition k_sockaddr := bytes [("sa_family", 0, 2); ("sa_data", 2, 14)] 16.
Definition k_sockaddr_in := bytes [("sin_family", 0, 2); ("sin_port", 2, 2); ("sin_addr.s_addr", 4, 4)] 16.
Definition k_sockaddr_storage := bytes [("ss_family", 0, 2)] 128.
Definition k_sockaddr_ll := bytes [("sll_family", 0, 2); ("sll_protocol", 2, 2); ("sll_ifindex", 4, 4); ("sll_hatype", 8, 2); ("sll_pkttype", 10, 1);
  ("sll_halen", 11, 1); ("sll_addr", 12, 8)] 20.
Definition k_packet_mreq := bytes [("mr_ifindex", 0, 4); ("mr_type", 4, 2); ("mr_alen", 6, 2); ("mr_address", 8, 8)] 16.
Definition k_ifreq := bytes [("ifr_ifrn.ifrn_name", 0, 16); ("ifr_ifru.ifru_addr.sa_family", 16, 2); ("ifr_ifru.ifru_addr.sa_data", 18, 14);
  ("ifr_ifru.ifru_flags", 16, 2); ("ifr_ifru.ifru_ivalue", 16, 4); ("ifr_ifru.ifru_mtu", 16, 4);
  ("ifr_ifru.ifru_map.mem_start", 16, 8); ("ifr_ifru.ifru_map.mem_end", 24, 8); ("ifr_ifru.ifru_map.base_addr", 32, 2);
  ("ifr_ifru.ifru_map.irq", 34, 1); ("ifr_ifru.ifru_map.dma", 35, 1); ("ifr_ifru.ifru_map.port", 36, 1);
  ("ifr_ifru.ifru_slave", 16, 16); ("ifr_ifru.ifru_newname", 16, 16); ("ifr_ifru.ifru_data", 16, 8)] 40.
(* linux/route.h, linux/ipv6_route.h *)
Definition k_rtentry := bytes [("rt_dst.sa_family", 8, 2); ("rt_dst.sa_data", 10, 14); ("rt_gateway.sa_family", 24, 2); ("rt_gateway.sa_data", 26, 14);
  ("rt_genmask.sa_family", 40, 2); ("rt_genmask.sa_data", 42, 14); ("rt_flags", 56, 2); ("rt_metric", 80, 2); ("rt_dev", 88, 8); ("rt_mtu", 96, 8);
  ("rt_window", 104, 8); ("rt_irtt", 112, 2)] 120.
Definition k_in6_rtmsg := bytes [("rtmsg_dst.__in6_union.__s6_addr", 0, 16); ("rtmsg_src.__in6_union.__s6_addr", 16, 16);
  ("rtmsg_gateway.__in6_union.__s6_addr", 32, 16); ("rtmsg_type", 48, 4); ("rtmsg_dst_len", 52, 2); ("rtmsg_src_len", 54, 2); ("rtmsg_metric", 56, 4);
  ("rtmsg_info", 64, 8); ("rtmsg_flags", 72, 4); ("rtmsg_ifindex", 76, 4)] 80.
(* RFC 768, RFC 791, IEEE 802.3; numbers of several bytes are in network order there, the rows tell
   which bytes they are.  In the first byte of an IP header the version is in the upper four bits. *)
Definition k_udphdr := bytes [("uh_sport", 0, 2); ("uh_dport", 2, 2); ("uh_ulen", 4, 2); ("uh_sum", 6, 2)] 8.
Definition k_iphdr := mktable ([("version", 4, 4); ("ihl", 0, 4)] ++ in_bytes [("tos", 1, 1); ("tot_len", 2, 2); ("id", 4, 2); ("frag_off", 6, 2);
  ("ttl", 8, 1); ("protocol", 9, 1); ("check", 10, 2); ("saddr", 12, 4); ("daddr", 16, 4)])%list (8 * 20).
Definition k_ip := mktable ([("ip_v", 4, 4); ("ip_hl", 0, 4)] ++ in_bytes [("ip_tos", 1, 1); ("ip_len", 2, 2); ("ip_id", 4, 2); ("ip_off", 6, 2);
  ("ip_ttl", 8, 1); ("ip_p", 9, 1); ("ip_sum", 10, 2); ("ip_src.s_addr", 12, 4); ("ip_dst.s_addr", 16, 4)])%list (8 * 20).
(* RFC 791, internet timestamp option: overflow in the upper four bits of the fourth byte *)
Definition k_ip_timestamp := mktable ([("ipt_oflw", 28, 4); ("ipt_flg", 24, 4)] ++ in_bytes [("ipt_code", 0, 1); ("ipt_len", 1, 1); ("ipt_ptr", 2, 1);
  ("data", 4, 36)])%list (8 * 40).
Definition k_ethhdr := bytes [("h_dest", 0, 6); ("h_source", 6, 6); ("h_proto", 12, 2)] 14.
Definition k_ether_header := bytes [("ether_dhost", 0, 6); ("ether_shost", 6, 6); ("ether_type", 12, 2)] 14.
(* two rows have no bit in common *)
Definition disjoint_rows (t : table) (f g : String.string) : Prop :=
  forall o n o' n', In (f, o, n) (rows t) -> In (g, o', n') (rows t) -> o + n <= o' \/ o' + n' <= o.

(* ---- signal(7), x86: the names of the signals 1, 2, ... 31 ---- *)
Definition signal_names : list String.string :=
  ["HUP"; "INT"; "QUIT"; "ILL"; "TRAP"; "ABRT"; "BUS"; "FPE"; "KILL"; "USR1"; "SEGV"; "USR2"; "PIPE"; "ALRM"; "TERM";
   "STKFLT"; "CHLD"; "CONT"; "STOP"; "TSTP"; "TTIN"; "TTOU"; "URG"; "XCPU"; "XFSZ"; "VTALRM"; "PROF"; "WINCH"; "IO"; "PWR"; "SYS"]%list.
