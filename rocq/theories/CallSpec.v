(* What a system call wrapper is for, stated against the Linux call interface. *)
From Verif Require Import Base CallModel.
Local Open Scope string_scope.
Local Open Scope list_scope.
Local Open Scope Z_scope.

(* a parameter of a system call: the kernel uses the low 16 (umode_t), 32 (int, unsigned,
   uid_t, pid_t ...) or all 64 bits (long, size_t, off_t, pointers) of its register *)
Inductive param := P16 | P32 | P64.
Definition bits (p : param) : Z := match p with P16 => 16 | P32 => 32 | P64 => 64 end.
(* the registers of the parameters, in order *)
Definition kregs : list reg := [RDI; RSI; RDX; R10; R8; R9].
(* the arguments as the kernel gets them *)
Definition sees (ps : list param) (rs : reg -> Z) : list Z :=
  map (fun x => rs (snd x) mod 2 ^ bits (fst x)) (combine ps kregs).
(* the arguments as the caller means them *)
Definition meant (ps : list param) (args : list Z) : list Z :=
  map (fun x => snd x mod 2 ^ bits (fst x)) (combine ps args).
(* the right call, a parameter for each argument of the kernel, and every argument
   arrives whatever the compiler does *)
Definition passes (w : wrapper) (nr : Z) (ps : list param) : Prop :=
  w_nr w = nr /\ (length ps <= length (w_types w))%nat /\
  forall c args, length args = length (w_types w) -> sees ps (enter c w args) = meant ps args.
(* a compiler which keeps the register variables and clears the upper halves *)
Definition usual (c : choice) (w : wrapper) (args : list Z) : Prop :=
  (forall r, upper c r = 0) /\
  (forall r i, variable (w_form w) r = Some i -> rest c r = cval (nth i (w_types w) Long) (nth i args 0)).

Fixpoint lookup {A} (n : String.string) (l : list (String.string * A)) : option A :=
  match l with
  | [] => None
  | (m, a) :: r => if String.eqb n m then Some a else lookup n r
  end.

(* Linux for x86-64 (arch/x86/entry/syscalls/syscall_64.tbl and the SYSCALL_DEFINEn
   definitions): number and parameters of each call *)
Definition linux : list (String.string * (Z * list param)) := [
  ("read", (0, [P32;P64;P64]));
  ("write", (1, [P32;P64;P64]));
  ("open", (2, [P64;P32;P16]));
  ("close", (3, [P32]));
  ("stat", (4, [P64;P64]));
  ("fstat", (5, [P32;P64]));
  ("lstat", (6, [P64;P64]));
  ("poll", (7, [P64;P32;P32]));
  ("lseek", (8, [P32;P64;P32]));
  ("mmap", (9, [P64;P64;P64;P64;P64;P64]));
  ("mprotect", (10, [P64;P64;P64]));
  ("munmap", (11, [P64;P64]));
  ("brk", (12, [P64]));
  ("rt_sigaction", (13, [P32;P64;P64;P64]));
  ("rt_sigprocmask", (14, [P32;P64;P64;P64]));
  ("rt_sigreturn", (15, []));
  ("ioctl", (16, [P32;P32;P64]));
  ("pread64", (17, [P32;P64;P64;P64]));
  ("pwrite64", (18, [P32;P64;P64;P64]));
  ("readv", (19, [P64;P64;P64]));
  ("writev", (20, [P64;P64;P64]));
  ("access", (21, [P64;P32]));
  ("pipe", (22, [P64]));
  ("select", (23, [P32;P64;P64;P64;P64]));
  ("sched_yield", (24, []));
  ("mremap", (25, [P64;P64;P64;P64;P64]));
  ("msync", (26, [P64;P64;P32]));
  ("mincore", (27, [P64;P64;P64]));
  ("madvise", (28, [P64;P64;P32]));
  ("shmget", (29, [P32;P64;P32]));
  ("shmat", (30, [P32;P64;P32]));
  ("shmctl", (31, [P32;P32;P64]));
  ("dup", (32, [P32]));
  ("dup2", (33, [P32;P32]));
  ("pause", (34, []));
  ("nanosleep", (35, [P64;P64]));
  ("getitimer", (36, [P32;P64]));
  ("alarm", (37, [P32]));
  ("setitimer", (38, [P32;P64;P64]));
  ("getpid", (39, []));
  ("sendfile", (40, [P32;P32;P64;P64]));
  ("socket", (41, [P32;P32;P32]));
  ("connect", (42, [P32;P64;P32]));
  ("accept", (43, [P32;P64;P64]));
  ("sendto", (44, [P32;P64;P64;P32;P64;P32]));
  ("recvfrom", (45, [P32;P64;P64;P32;P64;P64]));
  ("sendmsg", (46, [P32;P64;P32]));
  ("recvmsg", (47, [P32;P64;P32]));
  ("shutdown", (48, [P32;P32]));
  ("bind", (49, [P32;P64;P32]));
  ("listen", (50, [P32;P32]));
  ("getsockname", (51, [P32;P64;P64]));
  ("getpeername", (52, [P32;P64;P64]));
  ("socketpair", (53, [P32;P32;P32;P64]));
  ("setsockopt", (54, [P32;P32;P32;P64;P32]));
  ("getsockopt", (55, [P32;P32;P32;P64;P64]));
  ("clone", (56, [P64;P64;P64;P64;P64]));
  ("fork", (57, []));
  ("vfork", (58, []));
  ("execve", (59, [P64;P64;P64]));
  ("wait4", (61, [P32;P64;P32;P64]));
  ("kill", (62, [P32;P32]));
  ("uname", (63, [P64]));
  ("semget", (64, [P32;P32;P32]));
  ("semop", (65, [P32;P64;P32]));
  ("semctl", (66, [P32;P32;P32;P64]));
  ("shmdt", (67, [P64]));
  ("msgget", (68, [P32;P32]));
  ("msgsnd", (69, [P32;P64;P64;P32]));
  ("msgrcv", (70, [P32;P64;P64;P64;P32]));
  ("msgctl", (71, [P32;P32;P64]));
  ("fcntl", (72, [P32;P32;P64]));
  ("flock", (73, [P32;P32]));
  ("fsync", (74, [P32]));
  ("fdatasync", (75, [P32]));
  ("truncate", (76, [P64;P64]));
  ("ftruncate", (77, [P32;P64]));
  ("getdents", (78, [P32;P64;P32]));
  ("getcwd", (79, [P64;P64]));
  ("chdir", (80, [P64]));
  ("fchdir", (81, [P32]));
  ("rename", (82, [P64;P64]));
  ("mkdir", (83, [P64;P16]));
  ("rmdir", (84, [P64]));
  ("creat", (85, [P64;P16]));
  ("link", (86, [P64;P64]));
  ("unlink", (87, [P64]));
  ("symlink", (88, [P64;P64]));
  ("readlink", (89, [P64;P64;P32]));
  ("chmod", (90, [P64;P16]));
  ("fchmod", (91, [P32;P16]));
  ("chown", (92, [P64;P32;P32]));
  ("fchown", (93, [P32;P32;P32]));
  ("lchown", (94, [P64;P32;P32]));
  ("umask", (95, [P32]));
  ("gettimeofday", (96, [P64;P64]));
  ("getrlimit", (97, [P32;P64]));
  ("getrusage", (98, [P32;P64]));
  ("sysinfo", (99, [P64]));
  ("times", (100, [P64]));
  ("ptrace", (101, [P64;P64;P64;P64]));
  ("getuid", (102, []));
  ("syslog", (103, [P32;P64;P32]));
  ("getgid", (104, []));
  ("setuid", (105, [P32]));
  ("setgid", (106, [P32]));
  ("geteuid", (107, []));
  ("getegid", (108, []));
  ("setpgid", (109, [P32;P32]));
  ("getppid", (110, []));
  ("getpgrp", (111, []));
  ("setsid", (112, []));
  ("setreuid", (113, [P32;P32]));
  ("setregid", (114, [P32;P32]));
  ("getgroups", (115, [P32;P64]));
  ("setgroups", (116, [P32;P64]));
  ("setresuid", (117, [P32;P32;P32]));
  ("getresuid", (118, [P64;P64;P64]));
  ("setresgid", (119, [P32;P32;P32]));
  ("getresgid", (120, [P64;P64;P64]));
  ("getpgid", (121, [P32]));
  ("setfsuid", (122, [P32]));
  ("setfsgid", (123, [P32]));
  ("getsid", (124, [P32]));
  ("capget", (125, [P64;P64]));
  ("capset", (126, [P64;P64]));
  ("rt_sigpending", (127, [P64;P64]));
  ("rt_sigtimedwait", (128, [P64;P64;P64;P64]));
  ("rt_sigqueueinfo", (129, [P32;P32;P64]));
  ("rt_sigsuspend", (130, [P64;P64]));
  ("sigaltstack", (131, [P64;P64]));
  ("utime", (132, [P64;P64]));
  ("mknod", (133, [P64;P16;P32]));
  ("personality", (135, [P32]));
  ("ustat", (136, [P32;P64]));
  ("statfs", (137, [P64;P64]));
  ("fstatfs", (138, [P32;P64]));
  ("sysfs", (139, [P32;P64;P64]));
  ("getpriority", (140, [P32;P32]));
  ("setpriority", (141, [P32;P32;P32]));
  ("sched_setparam", (142, [P32;P64]));
  ("sched_getparam", (143, [P32;P64]));
  ("sched_setscheduler", (144, [P32;P32;P64]));
  ("sched_getscheduler", (145, [P32]));
  ("sched_get_priority_max", (146, [P32]));
  ("sched_get_priority_min", (147, [P32]));
  ("sched_rr_get_interval", (148, [P32;P64]));
  ("mlock", (149, [P64;P64]));
  ("munlock", (150, [P64;P64]));
  ("mlockall", (151, [P32]));
  ("munlockall", (152, []));
  ("vhangup", (153, []));
  ("modify_ldt", (154, [P32;P64;P64]));
  ("pivot_root", (155, [P64;P64]));
  ("_sysctl", (156, [P64]));
  ("prctl", (157, [P32;P64;P64;P64;P64]));
  ("arch_prctl", (158, [P32;P64]));
  ("adjtimex", (159, [P64]));
  ("setrlimit", (160, [P32;P64]));
  ("chroot", (161, [P64]));
  ("sync", (162, []));
  ("acct", (163, [P64]));
  ("settimeofday", (164, [P64;P64]));
  ("mount", (165, [P64;P64;P64;P64;P64]));
  ("umount2", (166, [P64;P32]));
  ("swapon", (167, [P64;P32]));
  ("swapoff", (168, [P64]));
  ("reboot", (169, [P32;P32;P32;P64]));
  ("sethostname", (170, [P64;P32]));
  ("setdomainname", (171, [P64;P32]));
  ("iopl", (172, [P32]));
  ("ioperm", (173, [P64;P64;P32]));
  ("init_module", (175, [P64;P64;P64]));
  ("delete_module", (176, [P64;P32]));
  ("quotactl", (179, [P32;P64;P32;P64]));
  ("gettid", (186, []));
  ("readahead", (187, [P32;P64;P64]));
  ("setxattr", (188, [P64;P64;P64;P64;P32]));
  ("lsetxattr", (189, [P64;P64;P64;P64;P32]));
  ("fsetxattr", (190, [P32;P64;P64;P64;P32]));
  ("getxattr", (191, [P64;P64;P64;P64]));
  ("lgetxattr", (192, [P64;P64;P64;P64]));
  ("fgetxattr", (193, [P32;P64;P64;P64]));
  ("listxattr", (194, [P64;P64;P64]));
  ("llistxattr", (195, [P64;P64;P64]));
  ("flistxattr", (196, [P32;P64;P64]));
  ("removexattr", (197, [P64;P64]));
  ("lremovexattr", (198, [P64;P64]));
  ("fremovexattr", (199, [P32;P64]));
  ("tkill", (200, [P32;P32]));
  ("time", (201, [P64]));
  ("futex", (202, [P64;P32;P32;P64;P64;P32]));
  ("sched_setaffinity", (203, [P32;P32;P64]));
  ("sched_getaffinity", (204, [P32;P32;P64]));
  ("io_setup", (206, [P32;P64]));
  ("io_destroy", (207, [P64]));
  ("io_getevents", (208, [P64;P64;P64;P64;P64]));
  ("io_submit", (209, [P64;P64;P64]));
  ("io_cancel", (210, [P64;P64;P64]));
  ("lookup_dcookie", (212, [P64;P64;P64]));
  ("epoll_create", (213, [P32]));
  ("remap_file_pages", (216, [P64;P64;P64;P64;P64]));
  ("getdents64", (217, [P32;P64;P32]));
  ("set_tid_address", (218, [P64]));
  ("restart_syscall", (219, []));
  ("semtimedop", (220, [P32;P64;P32;P64]));
  ("fadvise64", (221, [P32;P64;P64;P32]));
  ("timer_create", (222, [P32;P64;P64]));
  ("timer_settime", (223, [P32;P32;P64;P64]));
  ("timer_gettime", (224, [P32;P64]));
  ("timer_getoverrun", (225, [P32]));
  ("timer_delete", (226, [P32]));
  ("clock_settime", (227, [P32;P64]));
  ("clock_gettime", (228, [P32;P64]));
  ("clock_getres", (229, [P32;P64]));
  ("clock_nanosleep", (230, [P32;P32;P64;P64]));
  ("exit_group", (231, [P32]));
  ("epoll_wait", (232, [P32;P64;P32;P32]));
  ("epoll_ctl", (233, [P32;P32;P32;P64]));
  ("tgkill", (234, [P32;P32;P32]));
  ("utimes", (235, [P64;P64]));
  ("mbind", (237, [P64;P64;P64;P64;P64;P32]));
  ("set_mempolicy", (238, [P32;P64;P64]));
  ("get_mempolicy", (239, [P64;P64;P64;P64;P64]));
  ("mq_open", (240, [P64;P32;P16;P64]));
  ("mq_unlink", (241, [P64]));
  ("mq_timedsend", (242, [P32;P64;P64;P32;P64]));
  ("mq_timedreceive", (243, [P32;P64;P64;P64;P64]));
  ("mq_notify", (244, [P32;P64]));
  ("mq_getsetattr", (245, [P32;P64;P64]));
  ("kexec_load", (246, [P64;P64;P64;P64]));
  ("waitid", (247, [P32;P32;P64;P32;P64]));
  ("add_key", (248, [P64;P64;P64;P64;P32]));
  ("request_key", (249, [P64;P64;P64;P32]));
  ("keyctl", (250, [P32;P64;P64;P64;P64]));
  ("ioprio_set", (251, [P32;P32;P32]));
  ("ioprio_get", (252, [P32;P32]));
  ("inotify_init", (253, []));
  ("inotify_add_watch", (254, [P32;P64;P32]));
  ("inotify_rm_watch", (255, [P32;P32]));
  ("migrate_pages", (256, [P32;P64;P64;P64]));
  ("openat", (257, [P32;P64;P32;P16]));
  ("mkdirat", (258, [P32;P64;P16]));
  ("mknodat", (259, [P32;P64;P16;P32]));
  ("fchownat", (260, [P32;P64;P32;P32;P32]));
  ("futimesat", (261, [P32;P64;P64]));
  ("newfstatat", (262, [P32;P64;P64;P32]));
  ("unlinkat", (263, [P32;P64;P32]));
  ("renameat", (264, [P32;P64;P32;P64]));
  ("linkat", (265, [P32;P64;P32;P64;P32]));
  ("symlinkat", (266, [P64;P32;P64]));
  ("readlinkat", (267, [P32;P64;P64;P32]));
  ("fchmodat", (268, [P32;P64;P16]));
  ("faccessat", (269, [P32;P64;P32]));
  ("pselect6", (270, [P32;P64;P64;P64;P64;P64]));
  ("ppoll", (271, [P64;P32;P64;P64;P64]));
  ("unshare", (272, [P64]));
  ("set_robust_list", (273, [P64;P64]));
  ("get_robust_list", (274, [P32;P64;P64]));
  ("splice", (275, [P32;P64;P32;P64;P64;P32]));
  ("tee", (276, [P32;P32;P64;P32]));
  ("sync_file_range", (277, [P32;P64;P64;P32]));
  ("vmsplice", (278, [P32;P64;P64;P32]));
  ("move_pages", (279, [P32;P64;P64;P64;P64;P32]));
  ("utimensat", (280, [P32;P64;P64;P32]));
  ("epoll_pwait", (281, [P32;P64;P32;P32;P64;P64]));
  ("signalfd", (282, [P32;P64;P64]));
  ("timerfd_create", (283, [P32;P32]));
  ("eventfd", (284, [P32]));
  ("fallocate", (285, [P32;P32;P64;P64]));
  ("timerfd_settime", (286, [P32;P32;P64;P64]));
  ("timerfd_gettime", (287, [P32;P64]));
  ("accept4", (288, [P32;P64;P64;P32]));
  ("signalfd4", (289, [P32;P64;P64;P32]));
  ("eventfd2", (290, [P32;P32]));
  ("epoll_create1", (291, [P32]));
  ("dup3", (292, [P32;P32;P32]));
  ("pipe2", (293, [P64;P32]));
  ("inotify_init1", (294, [P32]));
  ("preadv", (295, [P64;P64;P64;P64;P64]));
  ("pwritev", (296, [P64;P64;P64;P64;P64]));
  ("rt_tgsigqueueinfo", (297, [P32;P32;P32;P64]));
  ("perf_event_open", (298, [P64;P32;P32;P32;P64]));
  ("recvmmsg", (299, [P32;P64;P32;P32;P64]));
  ("fanotify_init", (300, [P32;P32]));
  ("fanotify_mark", (301, [P32;P32;P64;P32;P64]));
  ("prlimit64", (302, [P32;P32;P64;P64]));
  ("name_to_handle_at", (303, [P32;P64;P64;P64;P32]));
  ("open_by_handle_at", (304, [P32;P64;P32]));
  ("clock_adjtime", (305, [P32;P64]));
  ("syncfs", (306, [P32]));
  ("sendmmsg", (307, [P32;P64;P32;P32]));
  ("setns", (308, [P32;P32]));
  ("getcpu", (309, [P64;P64;P64]));
  ("process_vm_readv", (310, [P32;P64;P64;P64;P64;P64]));
  ("process_vm_writev", (311, [P32;P64;P64;P64;P64;P64]));
  ("kcmp", (312, [P32;P32;P32;P64;P64]));
  ("finit_module", (313, [P32;P64;P32]));
  ("sched_setattr", (314, [P32;P64;P32]));
  ("sched_getattr", (315, [P32;P64;P32;P32]));
  ("renameat2", (316, [P32;P64;P32;P64;P32]));
  ("seccomp", (317, [P32;P32;P64]));
  ("getrandom", (318, [P64;P64;P32]));
  ("memfd_create", (319, [P64;P32]));
  ("kexec_file_load", (320, [P32;P32;P64;P64;P64]));
  ("execveat", (322, [P32;P64;P64;P64;P32]))].

(* a parameter of 64 bits is declared int or unsigned *)
Definition narrowed : list String.string := [
   "ftruncate"; "mprotect"; "lseek"; "write"; "read"; "sys_arch_prctl"].

(* five or six parameters: a register variable is no operand of the asm statement *)
Definition unlisted : list String.string := [
   "setsockopt"; "splice"; "recvfrom"; "getsockopt"; "sendto"; "execveat";
   "mount"; "prctl"; "sys_perf_event_open"; "sys_process_vm_writev"; "sys_remap_file_pages"; "sys_prctl";
   "sys_fanotify_mark"; "sys_recvfrom"; "sys_getsockopt"; "sys_splice"; "sys_waitid"; "sys_mq_timedsend";
   "sys_process_vm_readv"; "sys_mremap"; "sys_sendto"; "sys_futex"; "sys_setxattr"; "sys_mount";
   "sys_setsockopt"; "sys_pwritev"; "sys_keyctl"; "sys_kcmp"; "sys_fchownat"; "sys_lsetxattr";
   "sys_get_mempolicy"; "sys_msgrcv"; "sys_ppoll"; "sys_mq_timedreceive"; "sys_recvmmsg"; "sys_name_to_handle_at";
   "sys_renameat2"; "sys_move_pages"; "sys_preadv"; "sys_kexec_file_load"; "sys_select"; "sys_pselect6";
   "sys_mbind"; "sys_epoll_pwait"; "sys_linkat"; "sys_fsetxattr"; "sys_mmap"].

(* the kernel takes more arguments than the wrapper has *)
Definition short : list String.string := [
   "clone"; "sys_add_key"; "sys_io_getevents"; "sys_clone"].

(* another system call is made *)
Definition wrong : list String.string := [
   "mremap"].
