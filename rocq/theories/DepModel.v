(* Model of the first part of minilib.h: the switches that other switches need. *)
From Coq Require Import String.
From Verif Require Import Base.
Local Open Scope string_scope.
Local Open Scope list_scope.

(* a block #ifdef mini_a / #ifndef mini_b / #define mini_b / #endif ... / #endif: the name a and the
   names b.  The names are without mini_.  for minilib.h:51-60 *)
Definition block := (string * list string)%type.
(* the names defined, of those of the form mini_x; for minilib.h:51-4274, scripts/genheaders.pl:801 *)
Definition switches := list string.
(* for minilib.h:51-4274, scripts/genheaders.pl:801 *)
Definition defined (n : string) (s : switches) : bool := existsb (String.eqb n) s.
(* #ifndef mini_b / #define mini_b / #endif; for minilib.h:51-4274, scripts/genheaders.pl:801 *)
Definition define (s : switches) (n : string) : switches := if defined n s then s else n :: s.
(* the preprocessor on one block; for minilib.h:51-4274, scripts/genheaders.pl:801 *)
Definition read_block (s : switches) (b : block) : switches :=
  if defined (fst b) s then fold_left define (snd b) s else s.
(* minilib.h:51-60 and 82-86.  Simplified: the #define of lines 83-85 are not guarded by #ifndef; to
   define an empty macro again changes nothing *)
Definition top : list block :=
  [("getenv", ["environ"]); ("system", ["environ"]); ("getopt", ["prints"; "strcmp"; "strchr"])].
(* minilib.h:110-2191, copied by a script: the name and what it needs, in the order of the file
   (written by scripts/genheaders.pl:733-743,797) *)
Definition deps : list block := [
  ("freopen", ["open"; "_fopen"; "fileno"; "close"]);
  ("setenv", ["environ"; "getenv"; "strncmp"; "ret_errno"; "malloc"; "strcpy"; "strlen"; "stpcpy"]);
  ("gets", ["fgets"; "fgetc"; "fileno"; "read"]);
  ("writes", ["write"]);
  ("creat", ["open"]);
  ("sbrk", ["sys_brk"]);
  ("fgetsp", ["fgetc"]);
  ("endpwent", ["munmap"; "pwent"]);
  ("putc", ["fputc"]);
  ("_fopen", ["open"; "fileno"; "close"]);
  ("itohex", ["_itohex"]);
  ("dirname", ["strlen"]);
  ("brk", ["sys_brk"]);
  ("endgrent", ["munmap"; "pwent"]);
  ("eputs", ["eprintl"; "eprint"; "strlen"; "write"]);
  ("unlockpt", ["termio"; "ioctl"]);
  ("malloc_brk", ["sbrk"; "getbrk"]);
  ("raise", ["getpid"; "kill"]);
  ("prints", ["_mprints"; "dprints"]);
  ("fputc", ["fileno"; "write"]);
  ("dief", ["execve"; "errno_str"; "exit"; "exit_errno"; "_die"; "fprintf"]);
  ("getpwent", ["open"; "userdb"]);
  ("strncmp", ["_strcmp"]);
  ("fsetpos", ["lseek"]);
  ("fprintf", ["write"; "snprintf"; "fileno"; "globals"; "getpid"; "kill"]);
  ("strrchr", ["strchrnul"]);
  ("assert", ["abort"; "ewrites"]);
  ("snprintf", ["write"; "vsnprintf"]);
  ("fprintfs", ["fputs"; "write"; "fileno"; "strlen"]);
  ("exit_errno", ["execve"; "errno_str"; "exit"; "ewrites"]);
  ("getc", ["fgetc"; "fileno"; "read"]);
  ("group_write", ["write"; "ewrite"; "writes"; "ewrites"; "fwrites"; "ewritesl"; "writesl"]);
  ("strcasecmp", ["_strcasecmp"]);
  ("getgrent", ["open"; "userdb"; "pwent"]);
  ("puts", ["printl"; "print"; "strlen"; "write"; "printf"]);
  ("where", ["access"; "getenv"]);
  ("group_printf", ["printf"; "eprintf"; "fprintf"; "itodec"; "ltodec"; "uitodec"; "snprintf"; "atoi"; "itohex"; "uitohex"; "itoHEX"; "uitoHEX"; "strlen"; "globals"; "fileno"; "vsnprintf"; "sprintf"; "dprints"; "itooct"]);
  ("printl", ["write"]);
  ("strtok", ["strtok_r"]);
  ("eprint", ["write"; "strlen"]);
  ("grantpt", ["termio"; "fstat"; "ptsname"]);
  ("strdup", ["malloc"; "strcpy"; "strlen"]);
  ("getchar", ["fgetc"; "fileno"; "read"]);
  ("sigsuspend", ["rt_sigsuspend"]);
  ("printf", ["fprintf"; "fileno"; "snprintf"; "vsnprintf"; "write"; "strlen"]);
  ("cfmakeraw", ["termio"]);
  ("fgets", ["fgetc"]);
  ("fprints", ["fileno"; "write"; "strlen"; "dprints"]);
  ("htonl", ["network"]);
  ("strtoll", ["strtol"]);
  ("fdopen", ["open"; "_fopen"; "fileno"; "close"]);
  ("sleep", ["nanosleep"]);
  ("err", ["strerror"; "exit"; "fprintf"; "errno"; "fprints"]);
  ("qsort", ["swap"]);
  ("die_if", ["execve"; "errno_str"; "exit"; "ewritesl"; "exit_errno"; "die"]);
  ("dtodec", ["itodec"; "uitodec"]);
  ("vexec_q", ["seterrno"; "waitpid"; "vfork"; "execve"; "exit"]);
  ("fwrites", ["write"]);
  ("system", ["execve"; "vfork"; "environ"; "ewrites"; "waitpid"]);
  ("sigprocmask", ["rt_sigprocmask"]);
  ("abort", ["raise"; "signal"]);
  ("opendirp", ["open"; "close"; "malloc"; "dirbuf"; "free"]);
  ("die", ["execve"; "errno_str"; "exit"; "ewritesl"; "exit_errno"; "_die"]);
  ("execl", ["environ"; "execve"]);
  ("htons", ["network"]);
  ("inet_ntoa", ["network"]);
  ("_strcasecmp", ["tolower"]);
  ("fwritesl", ["write"]);
  ("vfprintf", ["fprintf"; "fileno"; "snprintf"; "vsnprintf"; "write"; "strlen"]);
  ("map_protected", ["mmap"; "mprotect"]);
  ("putchar", ["fputc"]);
  ("dies_if", ["execve"; "errno_str"; "exit"; "exit_errno"; "dies"]);
  ("realloc", ["free"; "malloc"]);
  ("itodec", ["uitodec"]);
  ("recv", ["recvfrom"]);
  ("snprintfs", ["0"]);
  ("ltodec", ["ultodec"]);
  ("strcmp", ["_strcmp"]);
  ("alphasort", ["strcmp"]);
  ("print", ["write"; "strlen"]);
  ("fprint", ["fprintf"; "fileno"; "snprintf"; "vsnprintf"; "write"; "strlen"]);
  ("getgrnam", ["grent"; "setgrent"; "getgrent"; "mmap"; "userdb_open"; "ewrites"; "open"; "strcmp"; "token_s"; "token_i"]);
  ("fwrite", ["write"]);
  ("strncasecmp", ["_strcasecmp"]);
  ("fread", ["read"]);
  ("fopen", ["open"; "_fopen"; "fileno"; "close"]);
  ("match_ext2", ["_match_ext2"]);
  ("vsprintf", ["0"]);
  ("malloc", ["0"]);
  ("execv", ["environ"; "execve"]);
  ("ntohs", ["htons"; "network"]);
  ("getenv", ["environ"]);
  ("getpwnam", ["pwent"; "mmap"; "userdb_open"; "ewrites"; "open"; "strcmp"; "token_s"; "token_i"]);
  ("unmap_protected", ["munmap"; "mprotect"]);
  ("eprints", ["dprints"]);
  ("ewrites", ["write"]);
  ("sprintf", ["snprintf"; "vsnprintf"; "strlen"]);
  ("printfs", ["fprintfs"; "fputs"; "strlen"]);
  ("vsnprintf", ["write"; "strlen"; "raise"; "getpid"; "kill"]);
  ("writesl", ["write"]);
  ("setbrk", ["brk"]);
  ("fclose", ["close"]);
  ("strndup", ["malloc"; "stplcpy"; "strlen"]);
  ("putenv", ["environ"; "getenv"; "strncmp"; "ret_errno"]);
  ("warn", ["fprintf"]);
  ("wait", ["wait4"]);
  ("error", ["strerror"; "exit"; "fprintf"; "fprints"]);
  ("waitpid", ["wait4"]);
  ("itoHEX", ["_itohex"]);
  ("ftell", ["lseek"]);
  ("free", ["brk"; "getbrk"]);
  ("execvpe", ["environ"; "execve"; "getenv"; "access"; "where"]);
  ("_mprints", ["dprints"; "write"]);
  ("fgetc", ["fileno"; "read"]);
  ("ewritesl", ["write"]);
  ("dief_if", ["execve"; "errno_str"; "exit"; "ewritesl"; "exit_errno"; "die"]);
  ("fgetpos", ["ftell"]);
  ("posix_openpt", ["termio"; "open"]);
  ("printsl", ["_mprints"; "dprints"]);
  ("ptsname", ["termio"; "ptsname_r"; "snprintf"; "itodec"; "ioctl"; "sprintf"]);
  ("eprintsl", ["dprints"]);
  ("opendir", ["open"; "close"; "malloc"; "dirbuf"; "opendirp"; "ewrites"; "free"]);
  ("match", ["_match"]);
  ("ether_ntoa", ["network"]);
  ("dprints", ["write"]);
  ("itobin", ["_itobin"]);
  ("rewind", ["fseek"]);
  ("usleep", ["nanosleep"]);
  ("dprintf", ["write"; "vsnprintf"; "snprintf"]);
  ("readdir", ["dirbuf"; "getdents"]);
  ("fseek", ["lseek"]);
  ("perror", ["fputs"; "strerror"; "strlen"; "errno"]);
  ("getusergroups", ["getpwuid"; "setgrent"; "strcmp"; "grent"; "pwent"; "getgrent"]);
  ("errx", ["exit"; "fprintf"]);
  ("tcsetattr", ["termio"; "ioctl"]);
  ("userdb_open", ["globals"; "ewrites"; "fstat"; "close"]);
  ("execvp", ["environ"; "execvpe"; "access"; "getenv"; "access"]);
  ("gethostname", ["network"; "uname"]);
  ("atexit", ["globals"]);
  ("getgrouplist", ["getusergroups"]);
  ("eprintl", ["write"]);
  ("inet_aton", ["network"]);
  ("ptsname_r", ["termio"; "snprintf"; "itodec"; "ioctl"; "open"; "sprintf"]);
  ("fputs", ["strlen"; "fileno"; "write"]);
  ("memcmp", ["0"]);
  ("signal", ["sigaction"; "ewrites"; "rt_sigaction"]);
  ("eprintf", ["fprintfs"; "fputs"; "strlen"]);
  ("sigaction", ["memcpy"; "rt_sigaction"]);
  ("term_width", ["termio"; "getenv"; "environ"]);
  ("fgetud", ["fgetc"]);
  ("unsetenv", ["environ"; "getenv"; "strncmp"; "ret_errno"]);
  ("closedir", ["free"]);
  ("dies", ["execve"; "errno_str"; "exit"; "exit_errno"; "_die"; "eprintsl"; "dprints"]);
  ("tcgetattr", ["termio"; "ioctl"]);
  ("getgrgid", ["grent"; "setgrent"; "getgrent"; "mmap"; "userdb_open"; "ewrites"; "open"; "strcmp"; "token_s"; "token_i"; "pwent"]);
  ("vexec", ["seterrno"; "waitpid"; "exit"; "execve"; "vfork"]);
  ("isatty", ["termio"; "tcgetattr"; "ioctl"]);
  ("strcat", ["strlen"]);
  ("fgetsn", ["fgetc"]);
  ("eprintfs", ["fprintfs"; "fputs"; "strlen"]);
  ("getgroups", ["getpwuid"; "setgrent"; "strcmp"; "grent"; "pwent"; "getusergroups"; "getuid"]);
  ("group_print", ["print"; "prints"; "printsl"; "printl"; "eprint"; "eprintl"; "eprintsl"; "eprints"; "printfs"; "eprintfs"; "puts"; "eputs"; "strlen"; "_mprints"; "dprints"]);
  ("scandir", ["errno"; "malloc_brk"; "realloc"; "free"; "memcpy"; "dirbuf"; "seterrno"; "getbrk"; "sbrk"; "prints"; "open"; "sprintf"; "qsort"; "getdents"]);
  ("fgetul", ["fgetc"]);
  ("getpwuid", ["pwent"; "mmap"; "passwdfile_open"; "ewrites"; "open"; "token_s"; "token_i"; "setpwent"]);
  ("strchr", ["strchrnul"])].
(* minilib.h:51-4274: the lines 2193-4274 repeat the lines 110-2191 (scripts/genheaders.pl:801; checked by
   the script).  The switches are those given by the configuration. *)
Definition minilib_h (s : switches) : switches := fold_left read_block (top ++ deps ++ deps) s.
(* scripts/genheaders.pl:733-743,797-803: what is written for the table of the tags //+depends.  The
   argument has the order in which Perl lists the keys of the table, which is any order, and the same one
   in both loops *)
Definition generated (order : list block) : list block := order ++ order.
(* the header that was generated, without the template; minilib.h:110-2191 *)
Definition read_header (blocks : list block) (s : switches) : switches := fold_left read_block blocks s.
