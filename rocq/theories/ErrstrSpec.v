(* The names of the error numbers, include/m_errno.h (only the names with a number of
   their own; EWOULDBLOCK, EDEADLOCK and ENOTSUP are other names of 11, 35 and 95). *)
From Coq Require Import String.
From Verif Require Import Base ProcSpec.
Local Open Scope list_scope.

Definition errno_names : list (list Z * Z) := map (fun p => (txt (fst p), snd p)) [
  ("EPERM"%string, 1);
  ("ENOENT"%string, 2);
  ("ESRCH"%string, 3);
  ("EINTR"%string, 4);
  ("EIO"%string, 5);
  ("ENXIO"%string, 6);
  ("E2BIG"%string, 7);
  ("ENOEXEC"%string, 8);
  ("EBADF"%string, 9);
  ("ECHILD"%string, 10);
  ("EAGAIN"%string, 11);
  ("ENOMEM"%string, 12);
  ("EACCES"%string, 13);
  ("EFAULT"%string, 14);
  ("ENOTBLK"%string, 15);
  ("EBUSY"%string, 16);
  ("EEXIST"%string, 17);
  ("EXDEV"%string, 18);
  ("ENODEV"%string, 19);
  ("ENOTDIR"%string, 20);
  ("EISDIR"%string, 21);
  ("EINVAL"%string, 22);
  ("ENFILE"%string, 23);
  ("EMFILE"%string, 24);
  ("ENOTTY"%string, 25);
  ("ETXTBSY"%string, 26);
  ("EFBIG"%string, 27);
  ("ENOSPC"%string, 28);
  ("ESPIPE"%string, 29);
  ("EROFS"%string, 30);
  ("EMLINK"%string, 31);
  ("EPIPE"%string, 32);
  ("EDOM"%string, 33);
  ("ERANGE"%string, 34);
  ("EDEADLK"%string, 35);
  ("ENAMETOOLONG"%string, 36);
  ("ENOLCK"%string, 37);
  ("ENOSYS"%string, 38);
  ("ENOTEMPTY"%string, 39);
  ("ELOOP"%string, 40);
  ("ENOMSG"%string, 42);
  ("EIDRM"%string, 43);
  ("ECHRNG"%string, 44);
  ("EL2NSYNC"%string, 45);
  ("EL3HLT"%string, 46);
  ("EL3RST"%string, 47);
  ("ELNRNG"%string, 48);
  ("EUNATCH"%string, 49);
  ("ENOCSI"%string, 50);
  ("EL2HLT"%string, 51);
  ("EBADE"%string, 52);
  ("EBADR"%string, 53);
  ("EXFULL"%string, 54);
  ("ENOANO"%string, 55);
  ("EBADRQC"%string, 56);
  ("EBADSLT"%string, 57);
  ("EBFONT"%string, 59);
  ("ENOSTR"%string, 60);
  ("ENODATA"%string, 61);
  ("ETIME"%string, 62);
  ("ENOSR"%string, 63);
  ("ENONET"%string, 64);
  ("ENOPKG"%string, 65);
  ("EREMOTE"%string, 66);
  ("ENOLINK"%string, 67);
  ("EADV"%string, 68);
  ("ESRMNT"%string, 69);
  ("ECOMM"%string, 70);
  ("EPROTO"%string, 71);
  ("EMULTIHOP"%string, 72);
  ("EDOTDOT"%string, 73);
  ("EBADMSG"%string, 74);
  ("EOVERFLOW"%string, 75);
  ("ENOTUNIQ"%string, 76);
  ("EBADFD"%string, 77);
  ("EREMCHG"%string, 78);
  ("ELIBACC"%string, 79);
  ("ELIBBAD"%string, 80);
  ("ELIBSCN"%string, 81);
  ("ELIBMAX"%string, 82);
  ("ELIBEXEC"%string, 83);
  ("EILSEQ"%string, 84);
  ("ERESTART"%string, 85);
  ("ESTRPIPE"%string, 86);
  ("EUSERS"%string, 87);
  ("ENOTSOCK"%string, 88);
  ("EDESTADDRREQ"%string, 89);
  ("EMSGSIZE"%string, 90);
  ("EPROTOTYPE"%string, 91);
  ("ENOPROTOOPT"%string, 92);
  ("EPROTONOSUPPORT"%string, 93);
  ("ESOCKTNOSUPPORT"%string, 94);
  ("EOPNOTSUPP"%string, 95);
  ("EPFNOSUPPORT"%string, 96);
  ("EAFNOSUPPORT"%string, 97);
  ("EADDRINUSE"%string, 98);
  ("EADDRNOTAVAIL"%string, 99);
  ("ENETDOWN"%string, 100);
  ("ENETUNREACH"%string, 101);
  ("ENETRESET"%string, 102);
  ("ECONNABORTED"%string, 103);
  ("ECONNRESET"%string, 104);
  ("ENOBUFS"%string, 105);
  ("EISCONN"%string, 106);
  ("ENOTCONN"%string, 107);
  ("ESHUTDOWN"%string, 108);
  ("ETOOMANYREFS"%string, 109);
  ("ETIMEDOUT"%string, 110);
  ("ECONNREFUSED"%string, 111);
  ("EHOSTDOWN"%string, 112);
  ("EHOSTUNREACH"%string, 113);
  ("EALREADY"%string, 114);
  ("EINPROGRESS"%string, 115);
  ("ESTALE"%string, 116);
  ("EUCLEAN"%string, 117);
  ("ENOTNAM"%string, 118);
  ("ENAVAIL"%string, 119);
  ("EISNAM"%string, 120);
  ("EREMOTEIO"%string, 121);
  ("EDQUOT"%string, 122);
  ("ENOMEDIUM"%string, 123);
  ("EMEDIUMTYPE"%string, 124);
  ("ECANCELED"%string, 125);
  ("ENOKEY"%string, 126);
  ("EKEYEXPIRED"%string, 127);
  ("EKEYREVOKED"%string, 128);
  ("EKEYREJECTED"%string, 129);
  ("EOWNERDEAD"%string, 130);
  ("ENOTRECOVERABLE"%string, 131);
  ("ERFKILL"%string, 132)].
