(* Model of the argument passing of the system call wrappers: the macros of
   include/syscall.h, the wrappers generated in include/syscall_stubs.h and those with
   an asm statement of their own. *)
From Verif Require Import Base.
From Coq Require String.
Export String.StringSyntax.

Local Open Scope string_scope.
Local Open Scope list_scope.
Local Open Scope Z_scope.

(* the types of the parameters as far as they matter: int, unsigned and the types of
   64 bits, signed or not; for src/memory/mmap.c:8-21 *)
Inductive cty := Int | Uint | Long.
(* the registers of the Linux system call convention for x86-64;
   for include/syscall.h:133-139, include/syscall.h:123-128 *)
Inductive reg := RDI | RSI | RDX | R10 | R8 | R9.
(* include/syscall.h:133-139: [Ret n] stands for the asm statement of syscall<n>_ret;
   include/syscall.h:123-128: [Full n] for that of syscall<n> *)
Inductive form := Ret (n : nat) | Full (n : nat).
(* a wrapper: its name, the name of the call it is made for, the number put into rax, the
   types of its parameters, its asm statement.  rax is always an operand.  for src/memory/mmap.c:8-21 *)
Record wrapper := mkw { w_name : String.string; w_sys : String.string; w_nr : Z; w_types : list cty; w_form : form }.

(* position of a parameter in the registers (0 for the first);
   for include/syscall.h:133-139, include/syscall.h:123-128 *)
Definition pos (r : reg) : nat :=
  match r with RDI => 0 | RSI => 1 | RDX => 2 | R10 => 3 | R8 => 4 | R9 => 5 end.
(* the operand of the asm statement bound to a register: the index of the parameter.
   include/syscall.h:133-139: syscall5_ret and syscall6_ret continue syscall3_ret with r8
   only.  include/syscall.h:123-128 for the other macros; select, mremap: include/select.h:32
   and include/mremap.h:13. *)
Definition operand (f : form) (r : reg) : option nat :=
  match f with
  | Full n => if (pos r <? n)%nat then Some (pos r) else None
  | Ret n =>
      match r with
      | RDI => if (1 <=? n)%nat then Some 0%nat else None
      | RSI => if (2 <=? n)%nat then Some 1%nat else None
      | RDX => if (3 <=? n)%nat then Some 2%nat else None
      | R10 => if (n =? 4)%nat then Some 3%nat else None
      | R8 => if (5 <=? n)%nat then Some 4%nat else None
      | R9 => None
      end
  end.
(* the registers with a variable "register long r10 asm("r10") = a4" (and r8 = a5,
   r9 = a6), include/syscall.h:126-128, 137-139 *)
Definition variable (f : form) (r : reg) : option nat :=
  let n := match f with Ret n | Full n => n end in
  match r with
  | R10 | R8 | R9 => if (pos r <? n)%nat then Some (pos r) else None
  | _ => None
  end.

(* conversion of an argument to the type of the parameter (C); for include/syscall.h:123-139 *)
Definition cval (t : cty) (v : Z) : Z :=
  match t with Int => s32 v | Uint => u32 v | Long => s64 v end.
(* what is up to the compiler: the upper half of a register that holds an operand of 32
   bits, and the registers that are no operands (GCC promises a register variable its
   register only as operand of an asm statement); include/syscall.h:123-139 *)
Record choice := mkc { upper : reg -> Z; rest : reg -> Z }.
(* the content of a register for a parameter bound to it directly; include/syscall.h:123-139 *)
Definition content (t : cty) (v j : Z) : Z :=
  match t with Long => u64 v | _ => u32 v + 2 ^ 32 * u32 j end.
(* the registers at the instruction syscall.  A register variable is long, the parameter
   is converted to it.  include/syscall.h:109, 123-139 *)
Definition enter (c : choice) (w : wrapper) (args : list Z) (r : reg) : Z :=
  match operand (w_form w) r with
  | Some i =>
      let t := nth i (w_types w) Long in
      let v := cval t (nth i args 0) in
      match variable (w_form w) r with
      | Some _ => u64 v
      | None => content t v (upper c r)
      end
  | None => u64 (rest c r)
  end.

(* src/memory/mmap.c:8-21: the asm statement is that of syscall6; a negative descriptor is
   replaced by 0 before *)
Definition mmap_wrapper : wrapper := mkw "mmap" "mmap" 9 [Long;Long;Int;Int;Int;Long] (Full 6).
(* src/memory/mmap.c:10-11 *)
Definition mmap_args (addr len prot flags fd off : Z) : list Z :=
  [addr; len; prot; flags; if s32 fd <? 0 then 0 else fd; off].

(* include/syscall_stubs.h:293-791, the wrappers made by REAL_define_syscall,
   REAL_define_syscall_noopt and (mprotect) REAL_define_syscallret; the comment is the
   line of the macro call; the number is the __NR_ constant of
   headers/linux_x64/sys/syscall.h:4-336 for the name; types as widths
   (include/globaldefs.h:22, include/syscall_stubs.h:32-46,
   headers/common/bits/alltypes.h:50-95), every pointer is Long.  mprotect returns its
   first argument's target instead of the result (PageModel.v), which is no matter here. *)
Definition stubs : list wrapper := [
  mkw "fork" "fork" 57 [] (Ret 0) (* :295 *);
  mkw "fchown" "fchown" 93 [Uint;Uint;Uint] (Ret 3) (* :300 *);
  mkw "mknod" "mknod" 133 [Long;Long;Uint] (Ret 3) (* :305 *);
  mkw "inotify_init" "inotify_init" 253 [] (Ret 0) (* :310 *);
  mkw "lstat" "lstat" 6 [Long;Long] (Ret 2) (* :315 *);
  mkw "ftruncate" "ftruncate" 77 [Uint;Uint] (Ret 2) (* :320 *);
  mkw "setsockopt" "setsockopt" 54 [Int;Int;Int;Long;Int] (Ret 5) (* :325 *);
  mkw "getuid" "getuid" 102 [] (Ret 0) (* :330 *);
  mkw "vhangup" "vhangup" 153 [] (Ret 0) (* :335 *);
  mkw "umount2" "umount2" 166 [Long;Int] (Ret 2) (* :340 *);
  mkw "access" "access" 21 [Long;Int] (Ret 2) (* :345 *);
  mkw "setgroups" "setgroups" 116 [Int;Long] (Ret 2) (* :350 *);
  mkw "setrlimit" "setrlimit" 160 [Uint;Long] (Ret 2) (* :355 *);
  mkw "setreuid" "setreuid" 113 [Uint;Uint] (Ret 2) (* :360 *);
  mkw "chroot" "chroot" 161 [Long] (Ret 1) (* :365 *);
  mkw "inotify_init1" "inotify_init1" 294 [Int] (Ret 1) (* :370 *);
  mkw "fchmod" "fchmod" 91 [Uint;Uint] (Ret 2) (* :375 *);
  mkw "pivot_root" "pivot_root" 155 [Long;Long] (Ret 2) (* :380 *);
  mkw "setsid" "setsid" 112 [] (Ret 0) (* :385 *);
  mkw "fstat" "fstat" 5 [Int;Long] (Ret 2) (* :390 *);
  mkw "getrusage" "getrusage" 98 [Int;Long] (Ret 2) (* :395 *);
  mkw "socket" "socket" 41 [Int;Int;Int] (Ret 3) (* :400 *);
  mkw "flock" "flock" 73 [Uint;Uint] (Ret 2) (* :405 *);
  mkw "nanosleep" "nanosleep" 35 [Long;Long] (Ret 2) (* :410 *);
  mkw "accept" "accept" 43 [Int;Long;Long] (Ret 3) (* :415 *);
  mkw "getppid" "getppid" 110 [] (Ret 0) (* :420 *);
  mkw "rt_sigreturn" "rt_sigreturn" 15 [Long] (Ret 1) (* :425 *);
  mkw "setgid" "setgid" 106 [Uint] (Ret 1) (* :430 *);
  mkw "getdents" "getdents" 78 [Uint;Long;Uint] (Ret 3) (* :435 *);
  mkw "mkdir" "mkdir" 83 [Long;Int] (Ret 2) (* :440 *);
  mkw "vfork" "vfork" 58 [] (Ret 0) (* :445 *);
  mkw "sync" "sync" 162 [] (Ret 0) (* :450 *);
  mkw "getitimer" "getitimer" 36 [Int;Long] (Ret 2) (* :455 *);
  mkw "stat" "stat" 4 [Long;Long] (Ret 2) (* :460 *);
  mkw "time" "time" 201 [Long] (Ret 1) (* :465 *);
  mkw "mprotect" "mprotect" 10 [Long;Long;Int] (Ret 3) (* :470 *);
  mkw "timerfd_create" "timerfd_create" 283 [Int;Int] (Ret 2) (* :475 *);
  mkw "reboot" "reboot" 169 [Int;Int;Uint;Long] (Ret 4) (* :480 *);
  mkw "umask" "umask" 95 [Int] (Ret 1) (* :485 *);
  mkw "bind" "bind" 49 [Int;Long;Int] (Ret 3) (* :490 *);
  mkw "setresuid" "setresuid" 117 [Long;Long;Long] (Ret 3) (* :495 *);
  mkw "times" "times" 100 [Long] (Ret 1) (* :500 *);
  mkw "splice" "splice" 275 [Int;Long;Int;Long;Long;Uint] (Ret 6) (* :505 *);
  mkw "readlink" "readlink" 89 [Long;Long;Int] (Ret 3) (* :510 *);
  mkw "unlink" "unlink" 87 [Long] (Ret 1) (* :515 *);
  mkw "dup" "dup" 32 [Int] (Ret 1) (* :520 *);
  mkw "inotify_add_watch" "inotify_add_watch" 254 [Int;Long;Uint] (Ret 3) (* :525 *);
  mkw "msync" "msync" 26 [Long;Long;Int] (Ret 3) (* :530 *);
  mkw "rt_sigsuspend" "rt_sigsuspend" 130 [Long;Long] (Ret 2) (* :535 *);
  mkw "recvfrom" "recvfrom" 45 [Int;Long;Long;Uint;Long;Long] (Ret 6) (* :540 *);
  mkw "dup3" "dup3" 292 [Int;Int;Int] (Ret 3) (* :545 *);
  mkw "uname" "uname" 63 [Long] (Ret 1) (* :550 *);
  mkw "rmdir" "rmdir" 84 [Long] (Ret 1) (* :555 *);
  mkw "inotify_rm_watch" "inotify_rm_watch" 255 [Int;Int] (Ret 2) (* :560 *);
  mkw "chown" "chown" 92 [Long;Uint;Uint] (Ret 3) (* :565 *);
  mkw "close" "close" 3 [Int] (Ret 1) (* :570 *);
  mkw "geteuid" "geteuid" 107 [] (Ret 0) (* :575 *);
  mkw "kill" "kill" 62 [Int;Int] (Ret 2) (* :580 *);
  mkw "symlink" "symlink" 88 [Long;Long] (Ret 2) (* :585 *);
  mkw "setuid" "setuid" 105 [Uint] (Ret 1) (* :590 *);
  mkw "getsockopt" "getsockopt" 55 [Int;Int;Int;Long;Long] (Ret 5) (* :595 *);
  mkw "munmap" "munmap" 11 [Long;Long] (Ret 2) (* :600 *);
  mkw "sendto" "sendto" 44 [Int;Long;Long;Uint;Long;Int] (Ret 6) (* :605 *);
  mkw "dup2" "dup2" 33 [Int;Int] (Ret 2) (* :610 *);
  mkw "getsid" "getsid" 124 [Int] (Ret 1) (* :615 *);
  mkw "pipe" "pipe" 22 [Long] (Ret 1) (* :620 *);
  mkw "getpid" "getpid" 39 [] (Ret 0) (* :625 *);
  mkw "readahead" "readahead" 187 [Int;Long;Long] (Ret 3) (* :630 *);
  mkw "clone" "clone" 56 [Int;Long;Long;Long] (Ret 4) (* :635 *);
  mkw "listen" "listen" 50 [Int;Int] (Ret 2) (* :640 *);
  mkw "getrlimit" "getrlimit" 97 [Uint;Long] (Ret 2) (* :645 *);
  mkw "memfd_create" "memfd_create" 319 [Long;Uint] (Ret 2) (* :650 *);
  mkw "chdir" "chdir" 80 [Long] (Ret 1) (* :655 *);
  mkw "timerfd_gettime" "timerfd_gettime" 287 [Int;Long] (Ret 2) (* :660 *);
  mkw "lseek" "lseek" 8 [Uint;Int;Int] (Ret 3) (* :665 *);
  mkw "fsync" "fsync" 74 [Int] (Ret 1) (* :670 *);
  mkw "setpgid" "setpgid" 109 [Int;Int] (Ret 2) (* :675 *);
  mkw "execveat" "execveat" 322 [Int;Long;Long;Long;Int] (Ret 5) (* :680 *);
  mkw "setitimer" "setitimer" 38 [Int;Long;Long] (Ret 3) (* :685 *);
  mkw "fcntl" "fcntl" 72 [Uint;Uint;Long] (Ret 3) (* :690 *);
  mkw "rt_sigprocmask" "rt_sigprocmask" 14 [Int;Long;Long;Long] (Ret 4) (* :695 *);
  mkw "getpgrp" "getpgrp" 111 [] (Ret 0) (* :700 *);
  mkw "mount" "mount" 165 [Long;Long;Long;Long;Long] (Ret 5) (* :705 *);
  mkw "getcwd" "getcwd" 79 [Long;Long] (Ret 2) (* :710 *);
  mkw "getgid" "getgid" 104 [] (Ret 0) (* :715 *);
  mkw "write" "write" 1 [Int;Long;Int] (Ret 3) (* :720 *);
  mkw "getegid" "getegid" 108 [] (Ret 0) (* :725 *);
  mkw "getresuid" "getresuid" 118 [Long;Long;Long] (Ret 3) (* :730 *);
  mkw "gettimeofday" "gettimeofday" 96 [Long;Long] (Ret 2) (* :735 *);
  mkw "utime" "utime" 132 [Long;Long] (Ret 2) (* :740 *);
  mkw "prctl" "prctl" 157 [Int;Long;Long;Long;Long] (Ret 5) (* :745 *);
  mkw "execve" "execve" 59 [Long;Long;Long] (Ret 3) (* :750 *);
  mkw "sendfile" "sendfile" 40 [Int;Int;Long;Long] (Ret 4) (* :755 *);
  mkw "rename" "rename" 82 [Long;Long] (Ret 2) (* :760 *);
  mkw "timerfd_settime" "timerfd_settime" 286 [Int;Int;Long;Long] (Ret 4) (* :765 *);
  mkw "wait4" "wait4" 61 [Int;Long;Int;Long] (Ret 4) (* :770 *);
  mkw "chmod" "chmod" 90 [Long;Uint] (Ret 2) (* :775 *);
  mkw "rt_sigaction" "rt_sigaction" 13 [Int;Long;Long;Long] (Ret 4) (* :780 *);
  mkw "read" "read" 0 [Int;Long;Int] (Ret 3) (* :785 *);
  mkw "link" "link" 86 [Long;Long] (Ret 2) (* :790 *)].

(* include/syscall_stubs.h:793-2011, the wrappers sys_... made by SYSREAL_define_syscall
   and SYSREAL_define_syscall_noopt *)
Definition sys_stubs : list wrapper := [
  mkw "sys_gettid" "gettid" 186 [] (Ret 0) (* :797 *);
  mkw "sys_getuid" "getuid" 102 [] (Ret 0) (* :801 *);
  mkw "sys_perf_event_open" "perf_event_open" 298 [Long;Int;Int;Int;Long] (Ret 5) (* :805 *);
  mkw "sys_mincore" "mincore" 27 [Long;Long;Long] (Ret 3) (* :809 *);
  mkw "sys_process_vm_writev" "process_vm_writev" 311 [Int;Long;Long;Long;Long;Long] (Ret 6) (* :813 *);
  mkw "sys_remap_file_pages" "remap_file_pages" 216 [Long;Long;Long;Long;Long] (Ret 5) (* :817 *);
  mkw "sys_inotify_rm_watch" "inotify_rm_watch" 255 [Int;Int] (Ret 2) (* :821 *);
  mkw "sys_init_module" "init_module" 175 [Long;Long;Long] (Ret 3) (* :825 *);
  mkw "sys_mq_getsetattr" "mq_getsetattr" 245 [Long;Long;Long] (Ret 3) (* :829 *);
  mkw "sys_lremovexattr" "lremovexattr" 198 [Long;Long] (Ret 2) (* :833 *);
  mkw "sys_sched_getattr" "sched_getattr" 315 [Int;Long;Uint;Uint] (Ret 4) (* :837 *);
  mkw "sys_kexec_load" "kexec_load" 246 [Long;Long;Long;Long] (Ret 4) (* :841 *);
  mkw "sys_setresuid" "setresuid" 117 [Long;Long;Long] (Ret 3) (* :845 *);
  mkw "sys_munmap" "munmap" 11 [Long;Long] (Ret 2) (* :849 *);
  mkw "sys_rt_sigaction" "rt_sigaction" 13 [Int;Long;Long;Long] (Ret 4) (* :853 *);
  mkw "sys_faccessat" "faccessat" 269 [Int;Long;Int] (Ret 3) (* :857 *);
  mkw "sys_pipe" "pipe" 22 [Long] (Ret 1) (* :861 *);
  mkw "sys_ptrace" "ptrace" 101 [Long;Long;Long;Long] (Ret 4) (* :865 *);
  mkw "sys_rmdir" "rmdir" 84 [Long] (Ret 1) (* :869 *);
  mkw "sys_accept4" "accept4" 288 [Int;Long;Long;Int] (Ret 4) (* :873 *);
  mkw "sys_acct" "acct" 163 [Long] (Ret 1) (* :877 *);
  mkw "sys_io_cancel" "io_cancel" 210 [Long;Long;Long] (Ret 3) (* :881 *);
  mkw "sys_sched_rr_get_interval" "sched_rr_get_interval" 148 [Int;Long] (Ret 2) (* :885 *);
  mkw "sys_prctl" "prctl" 157 [Int;Long;Long;Long;Long] (Ret 5) (* :889 *);
  mkw "sys_fanotify_mark" "fanotify_mark" 301 [Long;Long;Long;Long;Long] (Ret 5) (* :893 *);
  mkw "sys_shmdt" "shmdt" 67 [Long] (Ret 1) (* :897 *);
  mkw "sys_flistxattr" "flistxattr" 196 [Int;Long;Long] (Ret 3) (* :901 *);
  mkw "sys_getxattr" "getxattr" 191 [Long;Long;Long;Long] (Ret 4) (* :905 *);
  mkw "sys_shutdown" "shutdown" 48 [Int;Int] (Ret 2) (* :909 *);
  mkw "sys_symlink" "symlink" 88 [Long;Long] (Ret 2) (* :913 *);
  mkw "sys_ustat" "ustat" 136 [Uint;Long] (Ret 2) (* :917 *);
  mkw "sys_fanotify_init" "fanotify_init" 300 [Uint;Uint] (Ret 2) (* :921 *);
  mkw "sys_mq_open" "mq_open" 240 [Long;Int;Uint;Long] (Ret 4) (* :925 *);
  mkw "sys_signalfd" "signalfd" 282 [Int;Long;Long] (Ret 3) (* :929 *);
  mkw "sys_statfs" "statfs" 137 [Long;Long] (Ret 2) (* :933 *);
  mkw "sys_recvfrom" "recvfrom" 45 [Int;Long;Long;Uint;Long;Long] (Ret 6) (* :937 *);
  mkw "sys_sched_getparam" "sched_getparam" 143 [Int;Long] (Ret 2) (* :941 *);
  mkw "sys_semctl" "semctl" 66 [Int;Int;Int;Long] (Ret 4) (* :945 *);
  mkw "sys_lseek" "lseek" 8 [Uint;Long;Uint] (Ret 3) (* :949 *);
  mkw "sys_getdents" "getdents" 78 [Uint;Long;Uint] (Ret 3) (* :953 *);
  mkw "sys_getsockopt" "getsockopt" 55 [Int;Int;Int;Long;Long] (Ret 5) (* :957 *);
  mkw "sys_mq_unlink" "mq_unlink" 241 [Long] (Ret 1) (* :961 *);
  mkw "sys_set_robust_list" "set_robust_list" 273 [Long;Long] (Ret 2) (* :965 *);
  mkw "sys_getpriority" "getpriority" 140 [Int;Int] (Ret 2) (* :969 *);
  mkw "sys_splice" "splice" 275 [Int;Long;Int;Long;Long;Uint] (Ret 6) (* :973 *);
  mkw "sys_semop" "semop" 65 [Int;Long;Uint] (Ret 3) (* :977 *);
  mkw "sys_fchown" "fchown" 93 [Uint;Uint;Uint] (Ret 3) (* :981 *);
  mkw "sys_waitid" "waitid" 247 [Int;Int;Long;Int;Long] (Ret 5) (* :985 *);
  mkw "sys_sysinfo" "sysinfo" 99 [Long] (Ret 1) (* :989 *);
  mkw "sys_getrusage" "getrusage" 98 [Int;Long] (Ret 2) (* :993 *);
  mkw "sys_shmat" "shmat" 30 [Int;Long;Int] (Ret 3) (* :997 *);
  mkw "sys_flock" "flock" 73 [Uint;Uint] (Ret 2) (* :1001 *);
  mkw "sys_fstat" "fstat" 5 [Uint;Long] (Ret 2) (* :1005 *);
  mkw "sys_tee" "tee" 276 [Int;Int;Long;Uint] (Ret 4) (* :1009 *);
  mkw "sys_mq_timedsend" "mq_timedsend" 242 [Long;Long;Long;Uint;Long] (Ret 5) (* :1013 *);
  mkw "sys_semget" "semget" 64 [Int;Int;Int] (Ret 3) (* :1017 *);
  mkw "sys_io_setup" "io_setup" 206 [Uint;Long] (Ret 2) (* :1021 *);
  mkw "sys_process_vm_readv" "process_vm_readv" 310 [Int;Long;Long;Long;Long;Long] (Ret 6) (* :1025 *);
  mkw "sys_uname" "uname" 63 [Long] (Ret 1) (* :1029 *);
  mkw "sys_truncate" "truncate" 76 [Long;Long] (Ret 2) (* :1033 *);
  mkw "sys_getgid" "getgid" 104 [] (Ret 0) (* :1037 *);
  mkw "sys_times" "times" 100 [Long] (Ret 1) (* :1041 *);
  mkw "sys_setns" "setns" 308 [Int;Int] (Ret 2) (* :1045 *);
  mkw "sys_getsid" "getsid" 124 [Int] (Ret 1) (* :1049 *);
  mkw "sys_fallocate" "fallocate" 285 [Long;Long;Long;Long] (Ret 4) (* :1053 *);
  mkw "sys_mremap" "mremap" 25 [Long;Long;Long;Long;Long] (Ret 5) (* :1057 *);
  mkw "sys_setpgid" "setpgid" 109 [Int;Int] (Ret 2) (* :1061 *);
  mkw "sys_semtimedop" "semtimedop" 220 [Int;Long;Uint;Long] (Ret 4) (* :1065 *);
  mkw "sys_removexattr" "removexattr" 197 [Long;Long] (Ret 2) (* :1069 *);
  mkw "sys_mlock" "mlock" 149 [Long;Long] (Ret 2) (* :1073 *);
  mkw "sys_setitimer" "setitimer" 38 [Int;Long;Long] (Ret 3) (* :1077 *);
  mkw "sys_rt_sigreturn" "rt_sigreturn" 15 [Long] (Ret 1) (* :1081 *);
  mkw "sys_getrandom" "getrandom" 318 [Long;Long;Uint] (Ret 3) (* :1085 *);
  mkw "sys_setfsgid" "setfsgid" 123 [Uint] (Ret 1) (* :1089 *);
  mkw "sys_getpid" "getpid" 39 [] (Ret 0) (* :1093 *);
  mkw "sys_migrate_pages" "migrate_pages" 256 [Int;Long;Long;Long] (Ret 4) (* :1097 *);
  mkw "sys_iopl" "iopl" 172 [Uint;Long] (Ret 2) (* :1101 *);
  mkw "sys_mprotect" "mprotect" 10 [Long;Long;Long] (Ret 3) (* :1105 *);
  mkw "sys_pwrite64" "pwrite64" 18 [Uint;Long;Long;Long] (Ret 4) (* :1109 *);
  mkw "sys_close" "close" 3 [Uint] (Ret 1) (* :1113 *);
  mkw "sys_tkill" "tkill" 200 [Int;Int] (Ret 2) (* :1117 *);
  mkw "sys_fchdir" "fchdir" 81 [Uint] (Ret 1) (* :1121 *);
  mkw "sys_sendto" "sendto" 44 [Int;Long;Long;Uint;Long;Int] (Ret 6) (* :1125 *);
  mkw "sys_futex" "futex" 202 [Long;Int;Uint;Long;Long;Uint] (Ret 6) (* :1129 *);
  mkw "sys_clock_getres" "clock_getres" 229 [Int;Long] (Ret 2) (* :1133 *);
  mkw "sys_prlimit64" "prlimit64" 302 [Int;Uint;Long;Long] (Ret 4) (* :1137 *);
  mkw "sys_getresuid" "getresuid" 118 [Long;Long;Long] (Ret 3) (* :1141 *);
  mkw "sys_sched_setparam" "sched_setparam" 142 [Int;Long] (Ret 2) (* :1145 *);
  mkw "sys_wait4" "wait4" 61 [Int;Long;Int;Long] (Ret 4) (* :1149 *);
  mkw "sys_ftruncate" "ftruncate" 77 [Uint;Long] (Ret 2) (* :1153 *);
  mkw "sys_lchown" "lchown" 94 [Long;Uint;Uint] (Ret 3) (* :1157 *);
  mkw "sys_socket" "socket" 41 [Int;Int;Int] (Ret 3) (* :1161 *);
  mkw "sys_vfork" "vfork" 58 [] (Ret 0) (* :1165 *);
  mkw "sys_signalfd4" "signalfd4" 289 [Int;Long;Long;Int] (Ret 4) (* :1169 *);
  mkw "sys_setuid" "setuid" 105 [Uint] (Ret 1) (* :1173 *);
  mkw "sys_clock_nanosleep" "clock_nanosleep" 230 [Int;Int;Long;Long] (Ret 4) (* :1177 *);
  mkw "sys_memfd_create" "memfd_create" 319 [Long;Uint] (Ret 2) (* :1181 *);
  mkw "sys_add_key" "add_key" 248 [Long;Long;Long;Long] (Ret 4) (* :1185 *);
  mkw "sys_sysfs" "sysfs" 139 [Int;Long;Long] (Ret 3) (* :1189 *);
  mkw "sys_fdatasync" "fdatasync" 75 [Uint] (Ret 1) (* :1193 *);
  mkw "sys_fork" "fork" 57 [] (Ret 0) (* :1197 *);
  mkw "sys_getpgrp" "getpgrp" 111 [] (Ret 0) (* :1201 *);
  mkw "sys_unlink" "unlink" 87 [Long] (Ret 1) (* :1205 *);
  mkw "sys_munlockall" "munlockall" 152 [] (Ret 0) (* :1209 *);
  mkw "sys_delete_module" "delete_module" 176 [Long;Uint] (Ret 2) (* :1213 *);
  mkw "sys_dup2" "dup2" 33 [Uint;Uint] (Ret 2) (* :1217 *);
  mkw "sys_sendmsg" "sendmsg" 46 [Int;Long;Uint] (Ret 3) (* :1221 *);
  mkw "sys_io_destroy" "io_destroy" 207 [Long] (Ret 1) (* :1225 *);
  mkw "sys_open" "open" 2 [Long;Int;Int] (Ret 3) (* :1229 *);
  mkw "sys_setxattr" "setxattr" 188 [Long;Long;Long;Long;Int] (Ret 5) (* :1233 *);
  mkw "sys_modify_ldt" "modify_ldt" 154 [Int;Long;Long] (Ret 3) (* :1237 *);
  mkw "sys_sigaltstack" "sigaltstack" 131 [Long;Long] (Ret 2) (* :1241 *);
  mkw "sys_fchmod" "fchmod" 91 [Uint;Uint] (Ret 2) (* :1245 *);
  mkw "sys_readv" "readv" 19 [Long;Long;Long] (Ret 3) (* :1249 *);
  mkw "sys_mount" "mount" 165 [Long;Long;Long;Long;Long] (Ret 5) (* :1253 *);
  mkw "sys_openat" "openat" 257 [Int;Long;Int;Int] (Ret 4) (* :1257 *);
  mkw "sys_mq_notify" "mq_notify" 244 [Long;Long] (Ret 2) (* :1261 *);
  mkw "sys_writev" "writev" 20 [Long;Long;Long] (Ret 3) (* :1265 *);
  mkw "sys_timerfd_settime" "timerfd_settime" 286 [Int;Int;Long;Long] (Ret 4) (* :1269 *);
  mkw "sys_lstat" "lstat" 6 [Long;Long] (Ret 2) (* :1273 *);
  mkw "sys_nanosleep" "nanosleep" 35 [Long;Long] (Ret 2) (* :1277 *);
  mkw "sys_rename" "rename" 82 [Long;Long] (Ret 2) (* :1281 *);
  mkw "sys_ioctl" "ioctl" 16 [Uint;Uint;Long] (Ret 3) (* :1285 *);
  mkw "sys_fremovexattr" "fremovexattr" 199 [Int;Long] (Ret 2) (* :1289 *);
  mkw "sys_sethostname" "sethostname" 170 [Long;Int] (Ret 2) (* :1293 *);
  mkw "sys_madvise" "madvise" 28 [Long;Long;Int] (Ret 3) (* :1297 *);
  mkw "sys_epoll_ctl" "epoll_ctl" 233 [Int;Int;Int;Long] (Ret 4) (* :1301 *);
  mkw "sys_fstatfs" "fstatfs" 138 [Uint;Long] (Ret 2) (* :1305 *);
  mkw "sys_ioperm" "ioperm" 173 [Long;Long;Int] (Ret 3) (* :1309 *);
  mkw "sys_setregid" "setregid" 114 [Uint;Uint] (Ret 2) (* :1313 *);
  mkw "sys_restart_syscall" "restart_syscall" 219 [] (Ret 0) (* :1317 *);
  mkw "sys_mlockall" "mlockall" 151 [Int] (Ret 1) (* :1321 *);
  mkw "sys_mknod" "mknod" 133 [Long;Long;Uint] (Ret 3) (* :1325 *);
  mkw "sys_geteuid" "geteuid" 107 [] (Ret 0) (* :1329 *);
  mkw "sys_sync_file_range" "sync_file_range" 277 [Long;Long;Long;Long] (Ret 4) (* :1333 *);
  mkw "sys_setsockopt" "setsockopt" 54 [Int;Int;Int;Long;Int] (Ret 5) (* :1337 *);
  mkw "sys_fsync" "fsync" 74 [Uint] (Ret 1) (* :1341 *);
  mkw "sys_pwritev" "pwritev" 296 [Long;Long;Long;Long;Long] (Ret 5) (* :1345 *);
  mkw "sys_sync" "sync" 162 [] (Ret 0) (* :1349 *);
  mkw "sys_sched_setattr" "sched_setattr" 314 [Int;Long;Uint] (Ret 3) (* :1353 *);
  mkw "sys_get_robust_list" "get_robust_list" 274 [Int;Long;Long] (Ret 3) (* :1357 *);
  mkw "sys_setpriority" "setpriority" 141 [Int;Int;Int] (Ret 3) (* :1361 *);
  mkw "sys_getdents64" "getdents64" 217 [Uint;Long;Uint] (Ret 3) (* :1365 *);
  mkw "sys_sendmmsg" "sendmmsg" 307 [Int;Long;Uint;Uint] (Ret 4) (* :1369 *);
  mkw "sys_listxattr" "listxattr" 194 [Long;Long;Long] (Ret 3) (* :1373 *);
  mkw "sys_rt_sigpending" "rt_sigpending" 127 [Long;Long] (Ret 2) (* :1377 *);
  mkw "sys_inotify_init" "inotify_init" 253 [] (Ret 0) (* :1381 *);
  mkw "sys_setsid" "setsid" 112 [] (Ret 0) (* :1385 *);
  mkw "sys_getpgid" "getpgid" 121 [Int] (Ret 1) (* :1389 *);
  mkw "sys_llistxattr" "llistxattr" 195 [Long;Long;Long] (Ret 3) (* :1393 *);
  mkw "sys_arch_prctl" "arch_prctl" 158 [Long;Int;Long] (Ret 3) (* :1397 *);
  mkw "sys_getcpu" "getcpu" 309 [Long;Long;Long] (Ret 3) (* :1401 *);
  mkw "sys_rt_sigqueueinfo" "rt_sigqueueinfo" 129 [Int;Int;Long] (Ret 3) (* :1405 *);
  mkw "sys_getitimer" "getitimer" 36 [Int;Long] (Ret 2) (* :1409 *);
  mkw "sys_munlock" "munlock" 150 [Long;Long] (Ret 2) (* :1413 *);
  mkw "sys_getpeername" "getpeername" 52 [Int;Long;Long] (Ret 3) (* :1417 *);
  mkw "sys_msync" "msync" 26 [Long;Long;Int] (Ret 3) (* :1421 *);
  mkw "sys_pause" "pause" 34 [] (Ret 0) (* :1425 *);
  mkw "sys_utimes" "utimes" 235 [Long;Long] (Ret 2) (* :1429 *);
  mkw "sys_mknodat" "mknodat" 259 [Int;Long;Int;Uint] (Ret 4) (* :1433 *);
  mkw "sys_keyctl" "keyctl" 250 [Int;Long;Long;Long;Long] (Ret 5) (* :1437 *);
  mkw "sys_setgid" "setgid" 106 [Uint] (Ret 1) (* :1441 *);
  mkw "sys_epoll_create1" "epoll_create1" 291 [Int] (Ret 1) (* :1445 *);
  mkw "sys_timer_getoverrun" "timer_getoverrun" 225 [Long] (Ret 1) (* :1449 *);
  mkw "sys_kcmp" "kcmp" 312 [Int;Int;Int;Long;Long] (Ret 5) (* :1453 *);
  mkw "sys_fchownat" "fchownat" 260 [Int;Long;Uint;Uint;Int] (Ret 5) (* :1457 *);
  mkw "sys_execve" "execve" 59 [Long;Long;Long] (Ret 3) (* :1461 *);
  mkw "sys_lsetxattr" "lsetxattr" 189 [Long;Long;Long;Long;Int] (Ret 5) (* :1465 *);
  mkw "sys_seccomp" "seccomp" 317 [Uint;Uint;Long] (Ret 3) (* :1469 *);
  mkw "sys_epoll_create" "epoll_create" 213 [Int] (Ret 1) (* :1473 *);
  mkw "sys_getppid" "getppid" 110 [] (Ret 0) (* :1477 *);
  mkw "sys_sched_get_priority_min" "sched_get_priority_min" 147 [Int] (Ret 1) (* :1481 *);
  mkw "sys_socketpair" "socketpair" 53 [Int;Int;Int;Long] (Ret 4) (* :1485 *);
  mkw "sys_mkdir" "mkdir" 83 [Long;Int] (Ret 2) (* :1489 *);
  mkw "sys_readlinkat" "readlinkat" 267 [Int;Long;Long;Int] (Ret 4) (* :1493 *);
  mkw "sys_futimesat" "futimesat" 261 [Int;Long;Long] (Ret 3) (* :1497 *);
  mkw "sys__sysctl" "_sysctl" 156 [Long] (Ret 1) (* :1501 *);
  mkw "sys_sendfile" "sendfile" 40 [Int;Int;Long;Long] (Ret 4) (* :1505 *);
  mkw "sys_get_mempolicy" "get_mempolicy" 239 [Long;Long;Long;Long;Long] (Ret 5) (* :1509 *);
  mkw "sys_swapon" "swapon" 167 [Long;Int] (Ret 2) (* :1513 *);
  mkw "sys_chdir" "chdir" 80 [Long] (Ret 1) (* :1517 *);
  mkw "sys_readahead" "readahead" 187 [Int;Long;Long] (Ret 3) (* :1521 *);
  mkw "sys_connect" "connect" 42 [Int;Long;Int] (Ret 3) (* :1525 *);
  mkw "sys_access" "access" 21 [Long;Int] (Ret 2) (* :1529 *);
  mkw "sys_kill" "kill" 62 [Int;Int] (Ret 2) (* :1533 *);
  mkw "sys_timerfd_create" "timerfd_create" 283 [Int;Int] (Ret 2) (* :1537 *);
  mkw "sys_setfsuid" "setfsuid" 122 [Uint] (Ret 1) (* :1541 *);
  mkw "sys_inotify_init1" "inotify_init1" 294 [Int] (Ret 1) (* :1545 *);
  mkw "sys_utime" "utime" 132 [Long;Long] (Ret 2) (* :1549 *);
  mkw "sys_pivot_root" "pivot_root" 155 [Long;Long] (Ret 2) (* :1553 *);
  mkw "sys_reboot" "reboot" 169 [Int;Int;Uint;Long] (Ret 4) (* :1557 *);
  mkw "sys_lookup_dcookie" "lookup_dcookie" 212 [Long;Long;Long] (Ret 3) (* :1561 *);
  mkw "sys_pread64" "pread64" 17 [Long;Long;Long;Long] (Ret 4) (* :1565 *);
  mkw "sys_setdomainname" "setdomainname" 171 [Long;Int] (Ret 2) (* :1569 *);
  mkw "sys_lgetxattr" "lgetxattr" 192 [Long;Long;Long;Long] (Ret 4) (* :1573 *);
  mkw "sys_finit_module" "finit_module" 313 [Int;Long;Int] (Ret 3) (* :1577 *);
  mkw "sys_msgrcv" "msgrcv" 70 [Int;Long;Long;Long;Int] (Ret 5) (* :1581 *);
  mkw "sys_mkdirat" "mkdirat" 258 [Int;Long;Int] (Ret 3) (* :1585 *);
  mkw "sys_settimeofday" "settimeofday" 164 [Long;Long] (Ret 2) (* :1589 *);
  mkw "sys_dup3" "dup3" 292 [Uint;Uint;Int] (Ret 3) (* :1593 *);
  mkw "sys_eventfd2" "eventfd2" 290 [Uint;Int] (Ret 2) (* :1597 *);
  mkw "sys_set_tid_address" "set_tid_address" 218 [Long] (Ret 1) (* :1601 *);
  mkw "sys_ppoll" "ppoll" 271 [Long;Uint;Long;Long;Long] (Ret 5) (* :1605 *);
  mkw "sys_tgkill" "tgkill" 234 [Int;Int;Int] (Ret 3) (* :1609 *);
  mkw "sys_recvmsg" "recvmsg" 47 [Int;Long;Uint] (Ret 3) (* :1613 *);
  mkw "sys_utimensat" "utimensat" 280 [Int;Long;Long;Int] (Ret 4) (* :1617 *);
  mkw "sys_mq_timedreceive" "mq_timedreceive" 243 [Long;Long;Long;Long;Long] (Ret 5) (* :1621 *);
  mkw "sys_syslog" "syslog" 103 [Int;Long;Int] (Ret 3) (* :1625 *);
  mkw "sys_recvmmsg" "recvmmsg" 299 [Int;Long;Uint;Uint;Long] (Ret 5) (* :1629 *);
  mkw "sys_exit_group" "exit_group" 231 [Int] (Ret 1) (* :1633 *);
  mkw "sys_readlink" "readlink" 89 [Long;Long;Int] (Ret 3) (* :1637 *);
  mkw "sys_getsockname" "getsockname" 51 [Int;Long;Long] (Ret 3) (* :1641 *);
  mkw "sys_adjtimex" "adjtimex" 159 [Long] (Ret 1) (* :1645 *);
  mkw "sys_getcwd" "getcwd" 79 [Long;Long] (Ret 2) (* :1649 *);
  mkw "sys_bind" "bind" 49 [Int;Long;Int] (Ret 3) (* :1653 *);
  mkw "sys_setresgid" "setresgid" 119 [Uint;Uint;Uint] (Ret 3) (* :1657 *);
  mkw "sys_name_to_handle_at" "name_to_handle_at" 303 [Int;Long;Long;Long;Int] (Ret 5) (* :1661 *);
  mkw "sys_sched_getaffinity" "sched_getaffinity" 204 [Int;Uint;Long] (Ret 3) (* :1665 *);
  mkw "sys_shmget" "shmget" 29 [Int;Long;Int] (Ret 3) (* :1669 *);
  mkw "sys_chmod" "chmod" 90 [Long;Uint] (Ret 2) (* :1673 *);
  mkw "sys_unshare" "unshare" 272 [Long] (Ret 1) (* :1677 *);
  mkw "sys_stat" "stat" 4 [Long;Long] (Ret 2) (* :1681 *);
  mkw "sys_fcntl" "fcntl" 72 [Uint;Uint;Long] (Ret 3) (* :1685 *);
  mkw "sys_timer_create" "timer_create" 222 [Int;Long;Long] (Ret 3) (* :1689 *);
  mkw "sys_setrlimit" "setrlimit" 160 [Uint;Long] (Ret 2) (* :1693 *);
  mkw "sys_umount2" "umount2" 166 [Long;Int] (Ret 2) (* :1697 *);
  mkw "sys_rt_sigsuspend" "rt_sigsuspend" 130 [Long;Long] (Ret 2) (* :1701 *);
  mkw "sys_renameat2" "renameat2" 316 [Int;Long;Int;Long;Uint] (Ret 5) (* :1705 *);
  mkw "sys_chown" "chown" 92 [Long;Uint;Uint] (Ret 3) (* :1709 *);
  mkw "sys_newfstatat" "newfstatat" 262 [Int;Long;Long;Int] (Ret 4) (* :1713 *);
  mkw "sys_clock_gettime" "clock_gettime" 228 [Int;Long] (Ret 2) (* :1717 *);
  mkw "sys_msgsnd" "msgsnd" 69 [Int;Long;Long;Int] (Ret 4) (* :1721 *);
  mkw "sys_shmctl" "shmctl" 31 [Int;Int;Long] (Ret 3) (* :1725 *);
  mkw "sys_dup" "dup" 32 [Uint] (Ret 1) (* :1729 *);
  mkw "sys_timer_gettime" "timer_gettime" 224 [Long;Long] (Ret 2) (* :1733 *);
  mkw "sys_open_by_handle_at" "open_by_handle_at" 304 [Int;Long;Long;Long;Int] (Ret 5) (* :1737 *);
  mkw "sys_sched_getscheduler" "sched_getscheduler" 145 [Int] (Ret 1) (* :1741 *);
  mkw "sys_symlinkat" "symlinkat" 266 [Long;Int;Long] (Ret 3) (* :1745 *);
  mkw "sys_move_pages" "move_pages" 279 [Int;Long;Long;Long;Long;Int] (Ret 6) (* :1749 *);
  mkw "sys_setgroups" "setgroups" 116 [Int;Long] (Ret 2) (* :1753 *);
  mkw "sys_alarm" "alarm" 37 [Uint] (Ret 1) (* :1757 *);
  mkw "sys_preadv" "preadv" 295 [Long;Long;Long;Long;Long] (Ret 5) (* :1761 *);
  mkw "sys_request_key" "request_key" 249 [Long;Long;Long;Long] (Ret 4) (* :1765 *);
  mkw "sys_ioprio_set" "ioprio_set" 251 [Int;Int;Int] (Ret 3) (* :1769 *);
  mkw "sys_io_getevents" "io_getevents" 208 [Long;Long;Long;Long] (Ret 4) (* :1773 *);
  mkw "sys_rt_sigtimedwait" "rt_sigtimedwait" 128 [Long;Long;Long;Long] (Ret 4) (* :1777 *);
  mkw "sys_msgget" "msgget" 68 [Int;Int] (Ret 2) (* :1781 *);
  mkw "sys_accept" "accept" 43 [Int;Long;Long] (Ret 3) (* :1785 *);
  mkw "sys_poll" "poll" 7 [Long;Uint;Long] (Ret 3) (* :1789 *);
  mkw "sys_renameat" "renameat" 264 [Int;Long;Int;Long] (Ret 4) (* :1793 *);
  mkw "sys_kexec_file_load" "kexec_file_load" 320 [Int;Int;Long;Long;Long] (Ret 5) (* :1797 *);
  mkw "sys_select" "select" 23 [Int;Long;Long;Long;Long] (Ret 5) (* :1801 *);
  mkw "sys_rt_tgsigqueueinfo" "rt_tgsigqueueinfo" 297 [Int;Int;Int;Long] (Ret 4) (* :1805 *);
  mkw "sys_sched_setaffinity" "sched_setaffinity" 203 [Int;Uint;Long] (Ret 3) (* :1809 *);
  mkw "sys_set_mempolicy" "set_mempolicy" 238 [Int;Long;Long] (Ret 3) (* :1813 *);
  mkw "sys_eventfd" "eventfd" 284 [Uint] (Ret 1) (* :1817 *);
  mkw "sys_msgctl" "msgctl" 71 [Int;Int;Long] (Ret 3) (* :1821 *);
  mkw "sys_personality" "personality" 135 [Uint] (Ret 1) (* :1825 *);
  mkw "sys_umask" "umask" 95 [Int] (Ret 1) (* :1829 *);
  mkw "sys_write" "write" 1 [Uint;Long;Long] (Ret 3) (* :1833 *);
  mkw "sys_timer_delete" "timer_delete" 226 [Long] (Ret 1) (* :1837 *);
  mkw "sys_capget" "capget" 125 [Long;Long] (Ret 2) (* :1841 *);
  mkw "sys_clone" "clone" 56 [Long;Long;Long;Long] (Ret 4) (* :1845 *);
  mkw "sys_read" "read" 0 [Uint;Long;Long] (Ret 3) (* :1849 *);
  mkw "sys_pipe2" "pipe2" 293 [Long;Int] (Ret 2) (* :1853 *);
  mkw "sys_sched_get_priority_max" "sched_get_priority_max" 146 [Int] (Ret 1) (* :1857 *);
  mkw "sys_capset" "capset" 126 [Long;Long] (Ret 2) (* :1861 *);
  mkw "sys_setreuid" "setreuid" 113 [Uint;Uint] (Ret 2) (* :1865 *);
  mkw "sys_sched_setscheduler" "sched_setscheduler" 144 [Int;Int;Long] (Ret 3) (* :1869 *);
  mkw "sys_pselect6" "pselect6" 270 [Int;Long;Long;Long;Long;Long] (Ret 6) (* :1873 *);
  mkw "sys_timer_settime" "timer_settime" 223 [Long;Int;Long;Long] (Ret 4) (* :1877 *);
  mkw "sys_mbind" "mbind" 237 [Long;Long;Long;Long;Long;Uint] (Ret 6) (* :1881 *);
  mkw "sys_gettimeofday" "gettimeofday" 96 [Long;Long] (Ret 2) (* :1885 *);
  mkw "sys_clock_settime" "clock_settime" 227 [Int;Long] (Ret 2) (* :1889 *);
  mkw "sys_swapoff" "swapoff" 168 [Long] (Ret 1) (* :1893 *);
  mkw "sys_quotactl" "quotactl" 179 [Uint;Long;Long;Long] (Ret 4) (* :1897 *);
  mkw "sys_syncfs" "syncfs" 306 [Int] (Ret 1) (* :1901 *);
  mkw "sys_time" "time" 201 [Long] (Ret 1) (* :1905 *);
  mkw "sys_epoll_wait" "epoll_wait" 232 [Int;Long;Int;Int] (Ret 4) (* :1909 *);
  mkw "sys_epoll_pwait" "epoll_pwait" 281 [Int;Long;Int;Int;Long;Long] (Ret 6) (* :1913 *);
  mkw "sys_linkat" "linkat" 265 [Int;Long;Int;Long;Int] (Ret 5) (* :1917 *);
  mkw "sys_creat" "creat" 85 [Long;Int] (Ret 2) (* :1921 *);
  mkw "sys_ioprio_get" "ioprio_get" 252 [Int;Int] (Ret 2) (* :1925 *);
  mkw "sys_vmsplice" "vmsplice" 278 [Int;Long;Long;Uint] (Ret 4) (* :1929 *);
  mkw "sys_getrlimit" "getrlimit" 97 [Uint;Long] (Ret 2) (* :1933 *);
  mkw "sys_getegid" "getegid" 108 [] (Ret 0) (* :1937 *);
  mkw "sys_link" "link" 86 [Long;Long] (Ret 2) (* :1941 *);
  mkw "sys_getresgid" "getresgid" 120 [Long;Long;Long] (Ret 3) (* :1945 *);
  mkw "sys_fadvise64" "fadvise64" 221 [Int;Long;Long;Int] (Ret 4) (* :1949 *);
  mkw "sys_vhangup" "vhangup" 153 [] (Ret 0) (* :1953 *);
  mkw "sys_inotify_add_watch" "inotify_add_watch" 254 [Int;Long;Uint] (Ret 3) (* :1957 *);
  mkw "sys_fsetxattr" "fsetxattr" 190 [Int;Long;Long;Long;Int] (Ret 5) (* :1961 *);
  mkw "sys_clock_adjtime" "clock_adjtime" 305 [Int;Long] (Ret 2) (* :1965 *);
  mkw "sys_rt_sigprocmask" "rt_sigprocmask" 14 [Int;Long;Long;Long] (Ret 4) (* :1969 *);
  mkw "sys_fchmodat" "fchmodat" 268 [Int;Long;Uint] (Ret 3) (* :1973 *);
  mkw "sys_sched_yield" "sched_yield" 24 [] (Ret 0) (* :1977 *);
  mkw "sys_mmap" "mmap" 9 [Long;Long;Long;Long;Long;Long] (Ret 6) (* :1981 *);
  mkw "sys_getgroups" "getgroups" 115 [Int;Long] (Ret 2) (* :1985 *);
  mkw "sys_chroot" "chroot" 161 [Long] (Ret 1) (* :1989 *);
  mkw "sys_unlinkat" "unlinkat" 263 [Int;Long;Int] (Ret 3) (* :1993 *);
  mkw "sys_io_submit" "io_submit" 209 [Long;Long;Long] (Ret 3) (* :1997 *);
  mkw "sys_fgetxattr" "fgetxattr" 193 [Int;Long;Long;Long] (Ret 4) (* :2001 *);
  mkw "sys_listen" "listen" 50 [Int;Int] (Ret 2) (* :2005 *);
  mkw "sys_timerfd_gettime" "timerfd_gettime" 287 [Int;Long] (Ret 2) (* :2009 *)].

(* the wrappers with an asm statement of their own (the macros syscall1..syscall6 and
   __SYSCALL_ASM, include/syscall.h:109, 123-128): include/select.h:18-42, include/mremap.h:4-24
   (which names __NR_select), src/system/ioctl.c:10-20 (the variable argument taken as
   pointer), src/file/open.c:18-31 and src/memory/sys_brk.c:3-7 *)
Definition hand_made : list wrapper := [
  mkw "select" "select" 23 [Int;Long;Long;Long;Long] (Full 5);
  mkw "mremap" "mremap" 23 [Long;Long;Long;Int;Long] (Full 5);
  mkw "ioctl" "ioctl" 16 [Int;Long;Long] (Full 3);
  mkw "open" "open" 2 [Long;Int;Int] (Full 3);
  mkw "sys_brk" "brk" 12 [Long] (Full 1)].
(* all of them; include/syscall_stubs.h:293-2011 and the files cited above *)
Definition wrappers : list wrapper := stubs ++ sys_stubs ++ hand_made.
