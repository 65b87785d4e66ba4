(* Model of the structures and macros of headers/common/elf.h, and of the structures of signals, resources and
   names: headers/linux_x64/sys/{signal,times,utsname}.h, headers/linux_x64/{resource,seccomp}.h,
   headers/linux_x64/bits/inotify.h.  The layout is that of AbiModel. *)
From Verif Require Import Base AbiModel.
Local Open Scope string_scope.
Local Open Scope list_scope.

(* headers/common/elf.h:7-27 *)
Definition half := Sc 2.
Definition word := Sc 4. (* headers/common/elf.h:7-27 *)
Definition xword := Sc 8. (* headers/common/elf.h:7-27 *)
(* headers/common/elf.h:33,34-49 *)
Definition Elf32_Ehdr := St [("e_ident", Ar 16 cchar); ("e_type", half); ("e_machine", half); ("e_version", word); ("e_entry", word); ("e_phoff", word); ("e_shoff", word);
  ("e_flags", word); ("e_ehsize", half); ("e_phentsize", half); ("e_phnum", half); ("e_shentsize", half); ("e_shnum", half); ("e_shstrndx", half)].
(* headers/common/elf.h:51-66 *)
Definition Elf64_Ehdr := St [("e_ident", Ar 16 cchar); ("e_type", half); ("e_machine", half); ("e_version", word); ("e_entry", xword); ("e_phoff", xword); ("e_shoff", xword);
  ("e_flags", word); ("e_ehsize", half); ("e_phentsize", half); ("e_phnum", half); ("e_shentsize", half); ("e_shnum", half); ("e_shstrndx", half)].
(* headers/common/elf.h:322-333 *)
Definition Elf32_Shdr := St [("sh_name", word); ("sh_type", word); ("sh_flags", word); ("sh_addr", word); ("sh_offset", word); ("sh_size", word); ("sh_link", word);
  ("sh_info", word); ("sh_addralign", word); ("sh_entsize", word)].
(* headers/common/elf.h:335-346 *)
Definition Elf64_Shdr := St [("sh_name", word); ("sh_type", word); ("sh_flags", xword); ("sh_addr", xword); ("sh_offset", xword); ("sh_size", xword); ("sh_link", word);
  ("sh_info", word); ("sh_addralign", xword); ("sh_entsize", xword)].
(* headers/common/elf.h:421-425, 427-432 *)
Definition Elf32_Chdr := St [("ch_type", word); ("ch_size", word); ("ch_addralign", word)].
(* headers/common/elf.h:421-425, 427-432 *)
Definition Elf64_Chdr := St [("ch_type", word); ("ch_reserved", word); ("ch_size", xword); ("ch_addralign", xword)].
(* headers/common/elf.h:443-450, 452-459 *)
Definition Elf32_Sym := St [("st_name", word); ("st_value", word); ("st_size", word); ("st_info", cchar); ("st_other", cchar); ("st_shndx", half)].
(* headers/common/elf.h:443-450, 452-459 *)
Definition Elf64_Sym := St [("st_name", word); ("st_info", cchar); ("st_other", cchar); ("st_shndx", half); ("st_value", xword); ("st_size", xword)].
(* headers/common/elf.h:529-532, 534-537, 541-545, 547-551 *)
Definition Elf32_Rel := St [("r_offset", word); ("r_info", word)].
(* headers/common/elf.h:529-532, 534-537, 541-545, 547-551 *)
Definition Elf64_Rel := St [("r_offset", xword); ("r_info", xword)].
(* headers/common/elf.h:529-532, 534-537, 541-545, 547-551 *)
Definition Elf32_Rela := St [("r_offset", word); ("r_info", word); ("r_addend", word)].
(* headers/common/elf.h:529-532, 534-537, 541-545, 547-551 *)
Definition Elf64_Rela := St [("r_offset", xword); ("r_info", xword); ("r_addend", xword)].
(* headers/common/elf.h:565-574, 576-585 *)
Definition Elf32_Phdr := St [("p_type", word); ("p_offset", word); ("p_vaddr", word); ("p_paddr", word); ("p_filesz", word); ("p_memsz", word); ("p_flags", word); ("p_align", word)].
(* headers/common/elf.h:565-574, 576-585 *)
Definition Elf64_Phdr := St [("p_type", word); ("p_flags", word); ("p_offset", xword); ("p_vaddr", xword); ("p_paddr", xword); ("p_filesz", xword); ("p_memsz", xword); ("p_align", xword)].
(* headers/common/elf.h:691-697, 699-705 *)
Definition Elf32_Dyn := St [("d_tag", word); ("d_un", Un [("d_val", word); ("d_ptr", word)])].
(* headers/common/elf.h:691-697, 699-705 *)
Definition Elf64_Dyn := St [("d_tag", xword); ("d_un", Un [("d_val", xword); ("d_ptr", xword)])].
(* headers/common/elf.h:857-865, 867-875 *)
Definition Elf_Verdef := St [("vd_version", half); ("vd_flags", half); ("vd_ndx", half); ("vd_cnt", half); ("vd_hash", word); ("vd_aux", word); ("vd_next", word)].
(* headers/common/elf.h:895-903 *)
Definition Elf_Verdaux := St [("vda_name", word); ("vda_next", word)].
(* headers/common/elf.h:908-922 *)
Definition Elf_Verneed := St [("vn_version", half); ("vn_cnt", half); ("vn_file", word); ("vn_aux", word); ("vn_next", word)].
(* headers/common/elf.h:932-946 *)
Definition Elf_Vernaux := St [("vna_hash", word); ("vna_flags", half); ("vna_other", half); ("vna_name", word); ("vna_next", word)].
(* headers/common/elf.h:954-959, 961-966 *)
Definition Elf32_auxv_t := St [("a_type", word); ("a_un", Un [("a_val", word)])].
(* headers/common/elf.h:954-959, 961-966 *)
Definition Elf64_auxv_t := St [("a_type", xword); ("a_un", Un [("a_val", xword)])].
(* headers/common/elf.h:1039-1049 *)
Definition Elf_Nhdr := St [("n_namesz", word); ("n_descsz", word); ("n_type", word)].

(* headers/common/elf.h:484-486; 488-490 are the same.  bind and type are int, val an unsigned char *)
Definition ELF_ST_BIND (val : Z) : Z := Z.shiftr (ubyte val) 4.
Definition ELF_ST_TYPE (val : Z) : Z := Z.land val 15. (* headers/common/elf.h:484-486 *)
(* headers/common/elf.h:484-486 *)
Definition ELF_ST_INFO (bind type : Z) : res Z := if bind <? 0 then Fault else let* b := iop (Z.shiftl bind 4) in iop (b + Z.land type 15).
(* headers/common/elf.h:518-519 *)
Definition ELF_ST_VISIBILITY (o : Z) : Z := Z.land o 3.
(* headers/common/elf.h:555-557; all values are Elf32_Word *)
Definition ELF32_R_SYM (val : Z) : Z := Z.shiftr val 8.
Definition ELF32_R_TYPE (val : Z) : Z := Z.land val 255. (* headers/common/elf.h:556 *)
(* headers/common/elf.h:557 *)
Definition ELF32_R_INFO (sym type : Z) : Z := u32 (u32 (Z.shiftl sym 8) + Z.land type 255).
(* headers/common/elf.h:559-561; i is Elf64_Xword, sym and type are Elf64_Word *)
Definition ELF64_R_SYM (i : Z) : Z := Z.shiftr i 32.
Definition ELF64_R_TYPE (i : Z) : Z := Z.land i 4294967295. (* headers/common/elf.h:560 *)
Definition ELF64_R_INFO (sym type : Z) : Z := u64 (u64 (Z.shiftl sym 32) + type). (* headers/common/elf.h:561 *)
(* headers/common/elf.h:1098-1100, Elf32_Word; 1102-1104 are the same for Elf64_Xword *)
Definition ELF_M_SYM (info : Z) : Z := Z.shiftr info 8.
Definition ELF_M_SIZE (info : Z) : Z := ubyte info. (* headers/common/elf.h:1098-1100 *)
(* headers/common/elf.h:1100 *)
Definition ELF32_M_INFO (sym size : Z) : Z := u32 (u32 (Z.shiftl sym 8) + ubyte size).
(* headers/common/elf.h:1104 *)
Definition ELF64_M_INFO (sym size : Z) : Z := u64 (u64 (Z.shiftl sym 8) + ubyte size).

(* headers/linux_x64/sys/signal.h:7-10 *)
Definition sigval := Un [("sival_int", cint); ("sival_ptr", cptr)].
(* headers/linux_x64/sys/signal.h:13-53; sizeof(int) is 4 and sizeof(long) is 8, __pad has 112 bytes; pid_t, uid_t:
   headers/common/bits/alltypes.h:85,87, clock_t: 82 *)
Definition siginfo := St [("si_signo", cint); ("si_errno", cint); ("si_code", cint); ("_sifields", Un [("__pad", Ar 112 cchar);
  ("_kill", St [("_pid", cint); ("_uid", cint)]); ("_timer", St [("_timer1", cint); ("_timer2", cint)]);
  ("_rt", St [("_pid", cint); ("_uid", cint); ("_sigval", sigval)]);
  ("_sigchld", St [("_pid", cint); ("_uid", cint); ("_status", cint); ("_utime", clong); ("_stime", clong)]);
  ("_sigfault", St [("_addr", cptr)]); ("_sigpoll", St [("_band", clong); ("_fd", cint)])])].
(* headers/linux_x64/sys/signal.h:56,59-64 *)
Definition sigaction := St [("sa_handler", cptr); ("sa_flags", clong); ("restorer", cptr); ("sa_mask", St [("sig", clong)])].
(* headers/linux_x64/resource.h:53-70 *)
Definition rusage := St [("ru_utime", timeval); ("ru_stime", timeval); ("ru_maxrss", clong); ("ru_ixrss", clong); ("ru_idrss", clong); ("ru_isrss", clong);
  ("ru_minflt", clong); ("ru_majflt", clong); ("ru_nswap", clong); ("ru_inblock", clong); ("ru_oublock", clong); ("ru_msgsnd", clong); ("ru_msgrcv", clong);
  ("ru_nsignals", clong); ("ru_nvcsw", clong); ("ru_nivcsw", clong)].
(* headers/linux_x64/resource.h:72-75, 81-84 *)
Definition rlimit := St [("rlim_cur", clong); ("rlim_max", clong)].
(* headers/linux_x64/sys/utsname.h:15,25-32 *)
Definition utsname := St [("sysname", Ar 65 cchar); ("nodename", Ar 65 cchar); ("release", Ar 65 cchar); ("version", Ar 65 cchar); ("machine", Ar 65 cchar); ("domainname", Ar 65 cchar)].
(* headers/linux_x64/sys/times.h:2-9 *)
Definition tms := St [("tms_utime", clong); ("tms_stime", clong); ("tms_cutime", clong); ("tms_cstime", clong)].
(* headers/linux_x64/bits/inotify.h:2-6 *)
Definition inotify_event := St [("wd", cint); ("mask", cint); ("cookie", cint); ("len", cint); ("name", Ar 0 cchar)].
(* headers/linux_x64/seccomp.h:55-60, 68-73, 75-80 *)
Definition seccomp_data := St [("nr", cint); ("arch", cint); ("instruction_pointer", clong); ("args", Ar 6 clong)].
(* headers/linux_x64/seccomp.h:55-60, 68-73, 75-80 *)
Definition seccomp_notif := St [("id", clong); ("pid", cint); ("flags", cint); ("data", seccomp_data)].
(* headers/linux_x64/seccomp.h:55-60, 68-73, 75-80 *)
Definition seccomp_notif_resp := St [("id", clong); ("val", clong); ("error", cint); ("flags", cint)].
