(* Model of scripts/genconfig.sh: the commands of a configuration file minilib.conf, what they print into the
   generated header, and the settings of the compiler they make; and of the default settings of minimake. *)
From Coq Require Import String Ascii.
From Verif Require Import Base DepModel.
Local Open Scope string_scope.
Local Open Scope list_scope.

(* ---- what is printed: the lines of the generated header ---- *)
(* scripts/genconfig.sh:215-912, copied by a script: the names f of the functions mini_f generated by
   scripts/genheaders.pl; each is "mini_f(){ mini_define f $1; }" *)
Definition generated : list string := [
  "_timer_delete"; "_write"; "_pipe2"; "_clone"; "memset"; "_eventfd"; "pipe"; "isatty"; "getpid"; "_mbind";
  "eprintfs"; "fgetsn"; "_setreuid"; "ptsname_r"; "_msgget"; "_io_getevents"; "fseek"; "tcsetattr";
  "_renameat"; "rmdir"; "sys_signame"; "posix_openpt"; "_mmap"; "_getgroups"; "ether_ntoa"; "opendir";
  "_mprints"; "_sched_yield"; "_fchmodat"; "_rt_sigprocmask"; "putenv"; "utime"; "itoHEX"; "_listen";
  "execvpe"; "_linkat"; "_ioprio_get"; "_time"; "network"; "strncasecmp"; "_fadvise64"; "_inotify_add_watch";
  "recv"; "_finit_module"; "fexecveat"; "_utime"; "sys_brk"; "_reboot"; "match_ext"; "abort"; "memcpy";
  "_utimensat"; "_tgkill"; "umount2"; "srand"; "setgroups"; "_eventfd2"; "setbuf"; "vexec_q"; "fwrites";
  "_lsetxattr"; "sleep"; "_fchownat"; "printf"; "_inotify_init1"; "eprint"; "_timerfd_create"; "fork";
  "ultodec"; "splice"; "getgrent"; "strcpy"; "pwent"; "reboot"; "_move_pages"; "_shmctl"; "_dup"; "fputc";
  "strncmp"; "_msgsnd"; "_setresgid"; "eputs"; "_getcwd"; "brk"; "_stat"; "setgid"; "_fcntl"; "flock";
  "_name_to_handle_at"; "_setxattr"; "getpwuid"; "_delete_module"; "memfd_create"; "dies";
  "_timerfd_settime"; "_sigaltstack"; "_mount"; "sendto"; "_socket"; "_lchown"; "memcmp"; "_prlimit64";
  "_close"; "_getpgrp"; "_sysfs"; "geteuid"; "short_errstr"; "_signalfd4"; "environ"; "_rt_sigqueueinfo";
  "_arch_prctl"; "wait4"; "_setsid"; "_setgid"; "_keyctl"; "strchrnul"; "_mknodat"; "_msync"; "_ioperm";
  "sprintf"; "vsnprintf"; "verbose_errstr2"; "vsprintf"; "malloc"; "getpwnam"; "_setpriority"; "fread";
  "setitimer"; "strcmp"; "ferror"; "_sync_file_range"; "_mknod"; "itodec"; "_accept4"; "fchmod"; "_ptrace";
  "_shutdown"; "opendirp"; "strtoimax"; "htons"; "setrlimit"; "_prctl"; "_init_module"; "dtodec";
  "_inotify_rm_watch"; "fflush"; "fprints"; "_process_vm_writev"; "fdopen"; "_mincore"; "_munmap";
  "sigsuspend"; "fchown"; "strdup"; "ewrite"; "getuid"; "_sched_getattr"; "_lremovexattr"; "OPTFENCE";
  "_truncate"; "group_printf"; "setvbuf"; "setresuid"; "sigaddset"; "getbrk"; "_mq_timedsend"; "readlink";
  "_migrate_pages"; "_getpid"; "_rt_sigreturn"; "_removexattr"; "_setpgid"; "fsetpos"; "_semop";
  "_getsockopt"; "ALIGN"; "malloc_brk"; "_recvfrom"; "dirname"; "_semctl"; "_mq_open"; "stpncpy";
  "dirbufsize"; "_flock"; "putc"; "gets"; "_waitid"; "_getrusage"; "uitoHEX"; "_msgctl"; "ret_errno";
  "_clock_settime"; "token_s"; "_timer_settime"; "_sched_setscheduler"; "_sched_get_priority_max";
  "inet_aton"; "eprintl"; "_accept"; "dirbuf_malloc"; "userdb_open"; "_rt_sigtimedwait"; "atexit";
  "_ioprio_set"; "open"; "close"; "_sched_setaffinity"; "dup3"; "_kexec_file_load"; "fgetc"; "djb2_hash";
  "warn"; "ntohl"; "tcsetpgrp"; "bsd_definitions"; "_vmsplice"; "strncat"; "bsd_timespec"; "getpgrp";
  "rt_sigprocmask"; "_fsetxattr"; "djb_cksum"; "_getresgid"; "match_ext2"; "_vhangup"; "fopen"; "print";
  "getgrnam"; "_getegid"; "_mkdirat"; "uitodec"; "_msgrcv"; "_pread64"; "fwritesl"; "map_protected";
  "passwdfile_open"; "_mkdir"; "_sendfile"; "div"; "lstat"; "_setfsuid"; "strtok"; "stplcpy"; "_readahead";
  "_access"; "config"; "_newfstatat"; "_renameat2"; "bind"; "_rt_sigsuspend"; "_setgroups";
  "_open_by_handle_at"; "_symlinkat"; "mprotect"; "_bind"; "_match"; "_fopen"; "_syslog"; "vfork";
  "_readlink"; "_shmget"; "accept"; "setenv"; "creat"; "getppid"; "_modify_ldt"; "clearerr"; "_io_destroy";
  "strchr"; "strspn"; "_munlockall"; "getsid"; "unsetenv"; "strstr"; "vexec"; "_fchmod"; "_openat";
  "_sched_setparam"; "gethostname"; "rewinddir"; "getgrouplist"; "kill"; "_fork"; "_add_key"; "recvfrom";
  "msync"; "_clock_nanosleep"; "uname"; "_vfork"; "scandir_bufsize"; "rt_sigaction"; "_getpgid"; "sendfile";
  "fgetpos"; "dief_if"; "token_i"; "_epoll_create1"; "prctl"; "error"; "free"; "write"; "memchr"; "mkfifo";
  "_pause"; "_fremovexattr"; "_rename"; "_setsockopt"; "_sync"; "_fsync"; "ltodec"; "_mlockall"; "_acct";
  "inotify_init1"; "pivot_root"; "_getxattr"; "_symlink"; "inet_ntoa"; "setreuid"; "_fanotify_mark";
  "access"; "_mq_getsetattr"; "mmap"; "_gettid"; "getchar"; "_faccessat"; "setsockopt"; "swap";
  "_kexec_load"; "strerror"; "_getgid"; "_semget"; "_io_setup"; "_iopl"; "strnlen"; "_getrandom"; "stat";
  "bsearch"; "_mlock"; "free_brk"; "fprintf"; "fexecve"; "_getsid"; "getpwent"; "_getpriority"; "_splice";
  "_lseek"; "unlockpt"; "_fanotify_init"; "_ustat"; "getdents"; "freopen"; "_sysinfo"; "_fchown";
  "OPTIMIZATIONS"; "_read"; "group_print"; "getrlimit"; "_itohex"; "_pselect6"; "_poll"; "seterrno"; "fputs";
  "_strcmp"; "setuid"; "uitohex"; "_preadv"; "_request_key"; "_set_mempolicy"; "ansicolors"; "match"; "read";
  "dprints"; "itobin"; "strlen"; "_clock_adjtime"; "strndup"; "_io_submit"; "_fgetxattr"; "getresuid";
  "fclose"; "setbrk"; "_creat"; "ewrites"; "_getrlimit"; "mremap"; "execv"; "_syncfs"; "bsd_cksum"; "_link";
  "verbose_errstr"; "fileno"; "alphasort"; "tcgetpgrp"; "fprint"; "_settimeofday"; "seekdir"; "_strcasecmp";
  "chroot"; "_setdomainname"; "putchar"; "_ppoll"; "_swapon"; "feof"; "_chdir"; "_socketpair";
  "_sched_get_priority_min"; "_readlinkat"; "_getppid"; "strtoll"; "vhangup"; "_seccomp"; "_kcmp"; "exit";
  "inotify_init"; "mknod"; "ftruncate"; "cfmakeraw"; "printl"; "_chown"; "atol"; "where"; "strcasecmp";
  "fprintfs"; "_sched_getscheduler"; "ioctl"; "time"; "_timer_gettime"; "_clock_gettime"; "dief"; "dirbuf";
  "getitimer"; "itohex"; "mkdir"; "_recvmmsg"; "_getsockname"; "_exit_group"; "sbrk"; "_unshare"; "_chmod";
  "errno_str"; "_sched_getaffinity"; "writes"; "timerfd_gettime"; "_sendmsg"; "clone_t"; "getgroups";
  "_unlink"; "_lstat"; "getgrgid"; "_writev"; "_mq_notify"; "dup2"; "_readv"; "_ftruncate"; "signal";
  "execvp"; "_futex"; "_sendto"; "errx"; "_fdatasync"; "rewind"; "_getpeername"; "_getcpu"; "_itobin";
  "link"; "chmod"; "_llistxattr"; "_rt_sigpending"; "_inotify_init"; "_utimes"; "ungetc"; "setgrent";
  "getgid"; "_epoll_ctl"; "_madvise"; "printfs"; "userdb"; "_ioctl"; "mount"; "unmap_protected"; "eprints";
  "telldir"; "fwrite"; "_get_robust_list"; "_geteuid"; "setpgid"; "_setregid"; "fstat"; "realloc";
  "getrusage"; "snprintfs"; "_io_cancel"; "killpg"; "_rmdir"; "die"; "execl"; "locale_dummies"; "die_if";
  "htonl"; "_remap_file_pages"; "_getuid"; "abs"; "strlcpy"; "_pipe"; "_setresuid"; "_uname";
  "timerfd_create"; "_mprotect"; "_pwrite64"; "_setitimer"; "prints"; "_mremap"; "_fallocate"; "endgrent";
  "_mq_unlink"; "_sched_getparam"; "sdbm_hash"; "termio"; "_shmat"; "_capget"; "fgetul"; "sigfillset";
  "fsync"; "_umask"; "_personality"; "closedir"; "_gettimeofday"; "tcgetattr"; "fgetud"; "_capset";
  "getsockopt"; "symlink"; "inotify_rm_watch"; "dprintf"; "readdir"; "usleep"; "strtol";
  "_rt_tgsigqueueinfo"; "getusergroups"; "inotify_add_watch"; "rt_sigsuspend"; "sigismember"; "_select";
  "ptsname"; "atoi"; "rename"; "ewritesl"; "setpwent"; "initgroups"; "_timerfd_gettime"; "wait"; "waitpid";
  "ftell"; "_chroot"; "_unlinkat"; "_epoll_pwait"; "_epoll_wait"; "writesl"; "ntohs"; "_swapoff"; "getcwd";
  "_quotactl"; "dies_if"; "setsid"; "_dup3"; "calloc"; "socket"; "_lgetxattr"; "_pivot_root";
  "_lookup_dcookie"; "_mq_timedreceive"; "_recvmsg"; "rand"; "system"; "_set_tid_address"; "_get_mempolicy";
  "err"; "qsort"; "_futimesat"; "__sysctl"; "shortcolornames"; "_epoll_create"; "_timer_getoverrun";
  "_execve"; "memfrob"; "fgets"; "_kill"; "grantpt"; "_connect"; "puts"; "getc"; "exit_errno"; "times";
  "globals"; "group_write"; "_umount2"; "labs"; "_alarm"; "assert"; "umask"; "memmove"; "raise";
  "clearerror"; "basename"; "dirfd"; "_adjtimex"; "def"; "_setrlimit"; "_timer_create"; "errno"; "endpwent";
  "poll"; "strncpy"; "scandir"; "_die"; "lseek"; "_dup2"; "_open"; "listen"; "optimization_fence"; "chdir";
  "_nanosleep"; "sigemptyset"; "strcat"; "readahead"; "clone"; "eprintf"; "sigaction"; "select";
  "term_width"; "munmap"; "_getresuid"; "_wait4"; "_clock_getres"; "_fchdir"; "_tkill"; "perror"; "chown";
  "_memfd_create"; "dup"; "tolower"; "_setuid"; "bsd_cksumblock"; "eprintsl"; "printsl"; "_getitimer";
  "_munlock"; "sigdelset"; "timerfd_settime"; "gettimeofday"; "execve"; "getegid"; "_sethostname";
  "_fstatfs"; "getenv"; "_getdents64"; "execveat"; "_sendmmsg"; "_listxattr"; "_sched_setattr"; "fcntl";
  "_pwritev"; "_restart_syscall"; "_sched_rr_get_interval"; "strcspn"; "strpbrk"; "grent"; "vfprintf";
  "_shmdt"; "_flistxattr"; "sigprocmask"; "_match_ext2"; "_perf_event_open"; "ldiv"; "_rt_sigaction";
  "unlink"; "_times"; "_process_vm_readv"; "_fstat"; "_tee"; "snprintf"; "_setfsgid"; "_semtimedop";
  "stpcpy"; "_setns"; "strrchr"; "ctype_functions"; "_set_robust_list"; "_getdents"; "strtok_r"; "_statfs";
  "sync"; "_signalfd"; "rt_sigreturn"; "fgetsp"; "max_groupmembers"; "itooct"; "nanosleep"].

(* scripts/genconfig.sh:202-208: mini_define n v, v empty if the argument is missing *)
Definition mini_define (n v : string) : list string :=
  [if negb (v =? "")%string then "#define mini_" ++ n ++ " " ++ v else "#define mini_" ++ n ++ " " ++ n]%string.
(* the functions mini_f written by hand, with the first argument a; those of the same name generated below
   them replace mini_errno, mini_exit and mini_globals; for
   scripts/genconfig.sh:42-55,82-88,112-114,154-156,164-166,193-199 *)
Definition by_hand (f a : string) : option (list string) :=
  (if f =? "start" then Some ["#define mini_start " ++ a]
   else if f =? "setjmp" then Some ["#define mini_setjmp"]
   else if f =? "longjmp" then Some ["#define mini_setjmp"]
   else if f =? "buf" then Some ["#define mini_buf " ++ a]
   else if f =? "INCLUDESRC" then Some ["#define INCLUDESRC"]
   else if f =? "GETOPTS" then Some ["#define mini_GETOPTS"]
   else if f =? "HEADERGUARDS" then Some ["#define HEADERGUARDS"]
   else if f =? "syscalls" then Some ["#define mini_syscalls"]
   else if f =? "getopt" then Some ["#define mini_getopt"]
   else if f =? "getopt_long" then Some ["#define mini_getopt_long"]
   else None)%string.
(* the function mini_f of the shell called with the arguments: the lines printed; None: there is no such
   function.  for scripts/genconfig.sh:42-55,82-88,112-114,154-208,215-912 *)
Definition call_mini (f : string) (args : list string) : option (list string) :=
  if defined f generated then Some (mini_define f (hd "" args))
  else if (f =? "define")%string then Some (mini_define (hd "" args) (hd "" (tl args)))
  else by_hand f (hd "" args).

(* tr ',' ' ': scripts/genconfig.sh:27,33 *)
Fixpoint tr_comma (s : string) : string :=
  match s with
  | EmptyString => EmptyString
  | String c r => String (if Ascii.eqb c "," then " " else c)%char (tr_comma r)
  end.
(* the blanks at which the shell splits the result of a command; for scripts/genconfig.sh:27,33 *)
Definition is_blank (c : ascii) : bool := (Ascii.eqb c " " || Ascii.eqb c "009" || Ascii.eqb c "010")%char.
(* the words of the result of a command; names with wildcards (globbing) are not modelled.
   for scripts/genconfig.sh:27,33 *)
Fixpoint split (cur s : string) : list string :=
  match s with
  | EmptyString => if (cur =? "")%string then [] else [cur]
  | String c r => if is_blank c then (if (cur =? "")%string then split "" r else cur :: split "" r) else split (cur ++ String c "")%string r
  end.
(* scripts/genconfig.sh:26-36: compile and COMPILE.  echo writes the arguments with blanks between them; a first
   argument that is an option of echo is not modelled.  For a name without function the shell reports an error and
   the loop goes on *)
Definition compile (args : list string) : list string :=
  flat_map (fun f => match call_mini f [] with Some l => l | None => [] end) (split "" (tr_comma (String.concat " " args))).
(* scripts/genconfig.sh:176-187: define and DEFINE *)
Definition define_ (args : list string) : list string := ["#define " ++ hd "" args ++ " """ ++ String.concat " " (tl args) ++ """"]%string.
(* the rest of a name behind a prefix; for scripts/genconfig.sh:215-912 *)
Fixpoint drop_prefix (p s : string) : option string :=
  match p, s with
  | EmptyString, _ => Some s
  | String a p, String b s => if Ascii.eqb a b then drop_prefix p s else None
  | String _ _, EmptyString => None
  end.
(* a line of the configuration: the command and its arguments; other commands print nothing.
   Simplified: an argument is one
   word, without newlines.  scripts/genconfig.sh:13-20,26-36,74-81,90-92,108-110,159-161,168-170,176-187 *)
Definition print_line (l : string * list string) : list string :=
  let (c, args) := l in
  (if (c =? "compile") || (c =? "COMPILE") then compile args
   else if (c =? "define") || (c =? "DEFINE") then define_ args
   else if c =? "ARCH" then ["#define MINILIB_ARCH " ++ hd "" args]
   else if c =? "OS" then ["#define MINILIB_OS " ++ hd "" args]
   else if c =? "OPTIMIZE" then ["#define mini_OPTIMIZE"]
   else if (c =? "INCLUDESRC") || (c =? "HEADERGUARDS") then ["#define " ++ c]
   else if c =? "globals_on_stack" then ["#define mini_globals_on_stack"]
   else if c =? "globalregister" then ["#define mini_globalregister " ++ (if negb (hd "" args =? "") then hd "" args else """r15""")]
   else match drop_prefix "mini_" c with
        | Some f => match call_mini f args with Some l => l | None => [] end
        | None => []
        end)%string.
(* the header made of the configuration; for minimake:856-873 *)
Definition header (conf : list (string * list string)) : list string := flat_map print_line conf.

(* ---- the settings ---- *)
(* the variables OPTFLAG, STRIPFLAG, opt_shrinkelf and fulldebug of the shell, "" if not set;
   for minimake:51-62,642,763-769, scripts/genconfig.sh:66-72,120-146 *)
Record settings := { optflag : string; stripflag : string; shrink : string; full : string }.
(* scripts/genconfig.sh:66-72 (shrinkelf), 120-124 (OPTFLAG), 127-131 (STRIPFLAG), 135-139 (DEBUG), 143-146 (FULLDEBUG) *)
Definition set_line (s : settings) (l : string * list string) : settings :=
  let (c, args) := l in
  (if c =? "OPTFLAG" then (if optflag s =? "" then {| optflag := hd "" args; stripflag := stripflag s; shrink := shrink s; full := full s |} else s)
   else if c =? "STRIPFLAG" then (if stripflag s =? "" then {| optflag := optflag s; stripflag := hd "" args; shrink := shrink s; full := full s |} else s)
   else if (c =? "shrinkelf") || (c =? "SHRINKELF") then {| optflag := optflag s; stripflag := stripflag s; shrink := "1"; full := full s |}
   else if c =? "DEBUG" then {| optflag := "-Og -g"; stripflag := ""; shrink := "0"; full := full s |}
   else if c =? "FULLDEBUG" then {| optflag := optflag s; stripflag := stripflag s; shrink := "0"; full := "1" |}
   else s)%string.
(* minimake:51-53,60-62 *)
Definition defaultvalues (s : settings) : settings :=
  {| optflag := (if optflag s =? "" then "-Os" else optflag s)%string;
     stripflag := (if stripflag s =? "" then "-s" else stripflag s)%string; shrink := shrink s; full := full s |}.
(* checkconfig: the configuration is read, then the variables not set get their defaults; s is the
   environment of minimake.  minimake:834-852,619 *)
Definition configure (conf : list (string * list string)) (s : settings) : settings := defaultvalues (fold_left set_line conf s).
(* the flags of optimization and stripping gcc is called with: minimake:763-769,806-823 *)
Definition gcc_flags (s : settings) : string :=
  (if full s =? "1" then "-O0 -g" else optflag s ++ " " ++ stripflag s)%string.
(* whether shrinkelf is called (if it exists): minimake:642-644 *)
Definition shrinks (s : settings) : bool := (shrink s =? "1")%string.
