(* The tables of the ELF specification (System V gABI, chapters 4 and 5, GNU symbol versions) and of the kernel: name of
   the field, first byte, bytes; size of the whole. *)
From Coq Require String.
From Verif Require Import Base AbiSpec.
Local Open Scope string_scope.
Local Open Scope list_scope.
Local Notation bytes l n := (mktable (in_bytes l) (8 * n)).
Definition f_ehdr32 := bytes [("e_ident", 0, 16); ("e_type", 16, 2); ("e_machine", 18, 2); ("e_version", 20, 4); ("e_entry", 24, 4); ("e_phoff", 28, 4); ("e_shoff", 32, 4); ("e_flags", 36, 4);
  ("e_ehsize", 40, 2); ("e_phentsize", 42, 2); ("e_phnum", 44, 2); ("e_shentsize", 46, 2); ("e_shnum", 48, 2); ("e_shstrndx", 50, 2)] 52.
Definition f_ehdr64 := bytes [("e_ident", 0, 16); ("e_type", 16, 2); ("e_machine", 18, 2); ("e_version", 20, 4); ("e_entry", 24, 8); ("e_phoff", 32, 8); ("e_shoff", 40, 8); ("e_flags", 48, 4);
  ("e_ehsize", 52, 2); ("e_phentsize", 54, 2); ("e_phnum", 56, 2); ("e_shentsize", 58, 2); ("e_shnum", 60, 2); ("e_shstrndx", 62, 2)] 64.
Definition f_shdr32 := bytes [("sh_name", 0, 4); ("sh_type", 4, 4); ("sh_flags", 8, 4); ("sh_addr", 12, 4); ("sh_offset", 16, 4); ("sh_size", 20, 4); ("sh_link", 24, 4); ("sh_info", 28, 4);
  ("sh_addralign", 32, 4); ("sh_entsize", 36, 4)] 40.
Definition f_shdr64 := bytes [("sh_name", 0, 4); ("sh_type", 4, 4); ("sh_flags", 8, 8); ("sh_addr", 16, 8); ("sh_offset", 24, 8); ("sh_size", 32, 8); ("sh_link", 40, 4); ("sh_info", 44, 4);
  ("sh_addralign", 48, 8); ("sh_entsize", 56, 8)] 64.
Definition f_chdr32 := bytes [("ch_type", 0, 4); ("ch_size", 4, 4); ("ch_addralign", 8, 4)] 12.
Definition f_chdr64 := bytes [("ch_type", 0, 4); ("ch_size", 8, 8); ("ch_addralign", 16, 8)] 24.
Definition f_sym32 := bytes [("st_name", 0, 4); ("st_value", 4, 4); ("st_size", 8, 4); ("st_info", 12, 1); ("st_other", 13, 1); ("st_shndx", 14, 2)] 16.
Definition f_sym64 := bytes [("st_name", 0, 4); ("st_info", 4, 1); ("st_other", 5, 1); ("st_shndx", 6, 2); ("st_value", 8, 8); ("st_size", 16, 8)] 24.
Definition f_rel32 := bytes [("r_offset", 0, 4); ("r_info", 4, 4)] 8.
Definition f_rel64 := bytes [("r_offset", 0, 8); ("r_info", 8, 8)] 16.
Definition f_rela32 := bytes [("r_offset", 0, 4); ("r_info", 4, 4); ("r_addend", 8, 4)] 12.
Definition f_rela64 := bytes [("r_offset", 0, 8); ("r_info", 8, 8); ("r_addend", 16, 8)] 24.
Definition f_phdr32 := bytes [("p_type", 0, 4); ("p_offset", 4, 4); ("p_vaddr", 8, 4); ("p_paddr", 12, 4); ("p_filesz", 16, 4); ("p_memsz", 20, 4); ("p_flags", 24, 4); ("p_align", 28, 4)] 32.
Definition f_phdr64 := bytes [("p_type", 0, 4); ("p_flags", 4, 4); ("p_offset", 8, 8); ("p_vaddr", 16, 8); ("p_paddr", 24, 8); ("p_filesz", 32, 8); ("p_memsz", 40, 8); ("p_align", 48, 8)] 56.
Definition f_dyn32 := bytes [("d_tag", 0, 4); ("d_un.d_val", 4, 4); ("d_un.d_ptr", 4, 4)] 8.
Definition f_dyn64 := bytes [("d_tag", 0, 8); ("d_un.d_val", 8, 8); ("d_un.d_ptr", 8, 8)] 16.
Definition f_verdef := bytes [("vd_version", 0, 2); ("vd_flags", 2, 2); ("vd_ndx", 4, 2); ("vd_cnt", 6, 2); ("vd_hash", 8, 4); ("vd_aux", 12, 4); ("vd_next", 16, 4)] 20.
Definition f_verdaux := bytes [("vda_name", 0, 4); ("vda_next", 4, 4)] 8.
Definition f_verneed := bytes [("vn_version", 0, 2); ("vn_cnt", 2, 2); ("vn_file", 4, 4); ("vn_aux", 8, 4); ("vn_next", 12, 4)] 16.
Definition f_vernaux := bytes [("vna_hash", 0, 4); ("vna_flags", 4, 2); ("vna_other", 6, 2); ("vna_name", 8, 4); ("vna_next", 12, 4)] 16.
Definition f_auxv32 := bytes [("a_type", 0, 4); ("a_un.a_val", 4, 4)] 8.
Definition f_auxv64 := bytes [("a_type", 0, 8); ("a_un.a_val", 8, 8)] 16.
Definition f_nhdr := bytes [("n_namesz", 0, 4); ("n_descsz", 4, 4); ("n_type", 8, 4)] 12.
(* the kernel, x86-64: asm-generic/siginfo.h, asm/signal.h (struct sigaction), linux/resource.h, linux/utsname.h, linux/times.h,
   linux/inotify.h, linux/seccomp.h *)
Definition k_siginfo := bytes [("si_signo", 0, 4); ("si_errno", 4, 4); ("si_code", 8, 4); ("_sifields._kill._pid", 16, 4); ("_sifields._kill._uid", 20, 4);
  ("_sifields._timer._timer1", 16, 4); ("_sifields._timer._timer2", 20, 4);
  ("_sifields._rt._pid", 16, 4); ("_sifields._rt._uid", 20, 4); ("_sifields._rt._sigval.sival_int", 24, 4); ("_sifields._rt._sigval.sival_ptr", 24, 8);
  ("_sifields._sigchld._pid", 16, 4); ("_sifields._sigchld._uid", 20, 4); ("_sifields._sigchld._status", 24, 4); ("_sifields._sigchld._utime", 32, 8); ("_sifields._sigchld._stime", 40, 8);
  ("_sifields._sigfault._addr", 16, 8); ("_sifields._sigpoll._band", 16, 8); ("_sifields._sigpoll._fd", 24, 4)] 128.
Definition k_sigaction := bytes [("sa_handler", 0, 8); ("sa_flags", 8, 8); ("restorer", 16, 8); ("sa_mask.sig", 24, 8)] 32.
Definition k_rusage := bytes [("ru_utime.tv_sec", 0, 8); ("ru_utime.tv_usec", 8, 8); ("ru_stime.tv_sec", 16, 8); ("ru_stime.tv_usec", 24, 8); ("ru_maxrss", 32, 8); ("ru_ixrss", 40, 8);
  ("ru_idrss", 48, 8); ("ru_isrss", 56, 8); ("ru_minflt", 64, 8); ("ru_majflt", 72, 8); ("ru_nswap", 80, 8); ("ru_inblock", 88, 8); ("ru_oublock", 96, 8); ("ru_msgsnd", 104, 8);
  ("ru_msgrcv", 112, 8); ("ru_nsignals", 120, 8); ("ru_nvcsw", 128, 8); ("ru_nivcsw", 136, 8)] 144.
Definition k_rlimit := bytes [("rlim_cur", 0, 8); ("rlim_max", 8, 8)] 16.
Definition k_utsname := bytes [("sysname", 0, 65); ("nodename", 65, 65); ("release", 130, 65); ("version", 195, 65); ("machine", 260, 65); ("domainname", 325, 65)] 390.
Definition k_tms := bytes [("tms_utime", 0, 8); ("tms_stime", 8, 8); ("tms_cutime", 16, 8); ("tms_cstime", 24, 8)] 32.
Definition k_inotify := bytes [("wd", 0, 4); ("mask", 4, 4); ("cookie", 8, 4); ("len", 12, 4); ("name", 16, 0)] 16.
Definition k_seccomp_data := bytes [("nr", 0, 4); ("arch", 4, 4); ("instruction_pointer", 8, 8); ("args", 16, 48)] 64.
Definition k_seccomp_notif := bytes [("id", 0, 8); ("pid", 8, 4); ("flags", 12, 4); ("data.nr", 16, 4); ("data.arch", 20, 4); ("data.instruction_pointer", 24, 8); ("data.args", 32, 48)] 80.
Definition k_seccomp_resp := bytes [("id", 0, 8); ("val", 8, 8); ("error", 16, 4); ("flags", 20, 4)] 24.
