(* Model of include/errstr.h, include/errstr2.h and include/errstrshort.h: error texts.
   The tables are transcribed from these files. *)
From Coq Require Import String.
From Verif Require Import Base ProcSpec.
Local Open Scope list_scope.

(* include/errstr.h:15-148 *)
Definition errstr_table : list (list Z) := map txt [
  "Internal error (errno=0)";
  "Operation not permitted";
  "No such file or directory";
  "No such process";
  "Interrupted system call";
  "I/O error";
  "No such device or address";
  "Argument list too long";
  "Exec format error";
  "Bad file number";
  "No child processes";
  "Try again";
  "Out of memory";
  "Permission denied";
  "Bad address";
  "Block device required";
  "Device or resource busy";
  "File exists";
  "Cross-device link";
  "No such device";
  "Not a directory";
  "Is a directory";
  "Invalid argument";
  "File table overflow";
  "Too many open files";
  "Not a typewriter";
  "Text file busy";
  "File too large";
  "No space left on device";
  "Illegal seek";
  "Read-only file system";
  "Too many links";
  "Broken pipe";
  "Math argument out of domain of func";
  "Math result not representable";
  "Resource deadlock would occur";
  "File name too long";
  "No record locks available";
  "Invalid system call number";
  "Directory not empty";
  "Too many symbolic links encountered";
  "Operation would block";
  "No message of desired type";
  "Identifier removed";
  "Channel number out of range";
  "Level 2 not synchronized";
  "Level 3 halted";
  "Level 3 reset";
  "Link number out of range";
  "Protocol driver not attached";
  "No CSI structure available";
  "Level 2 halted";
  "Invalid exchange";
  "Invalid request descriptor";
  "Exchange full";
  "No anode";
  "Invalid request code";
  "Invalid slot";
  "Resource deadlock would occur";
  "Bad font file format";
  "Device not a stream";
  "No data available";
  "Timer expired";
  "Out of streams resources";
  "Machine is not on the network";
  "Package not installed";
  "Object is remote";
  "Link has been severed";
  "Advertise error";
  "Srmount error";
  "Communication error on send";
  "Protocol error";
  "Multihop attempted";
  "RFS specific error";
  "Not a data message";
  "Value too large for defined data type";
  "Name not unique on network";
  "File descriptor in bad state";
  "Remote address changed";
  "Can not access a needed shared library";
  "Accessing a corrupted shared library";
  ".lib section in a.out corrupted";
  "Attempting to link in too many shared libraries";
  "Cannot exec a shared library directly";
  "Illegal byte sequence";
  "Interrupted system call should be restarted";
  "Streams pipe error";
  "Too many users";
  "Socket operation on non-socket";
  "Destination address required";
  "Message too long";
  "Protocol wrong type for socket";
  "Protocol not available";
  "Protocol not supported";
  "Socket type not supported";
  "Operation not supported on transport endpoint";
  "Protocol family not supported";
  "Address family not supported by protocol";
  "Address already in use";
  "Cannot assign requested address";
  "Network is down";
  "Network is unreachable";
  "Network dropped connection because of reset";
  "Software caused connection abort";
  "Connection reset by peer";
  "No buffer space available";
  "Transport endpoint is already connected";
  "Transport endpoint is not connected";
  "Cannot send after transport endpoint shutdown";
  "Too many references: cannot splice";
  "Connection timed out";
  "Connection refused";
  "Host is down";
  "No route to host";
  "Operation already in progress";
  "Operation now in progress";
  "Stale file handle";
  "Structure needs cleaning";
  "Not a XENIX named type file";
  "No XENIX semaphores available";
  "Is a named type file";
  "Remote I/O error";
  "Quota exceeded";
  "No medium found";
  "Wrong medium type";
  "Operation Canceled";
  "Required key not available";
  "Key has expired";
  "Key has been revoked";
  "Key was rejected by service";
  "Owner died";
  "State not recoverable";
  "Operation not possible due to RF-kill";
  "Memory page has hardware error"]%string.
(* include/errstr2.h:16-149, one literal; each line but the last ends with \0 *)
Definition errstr2_table : list (list Z) := map txt [
  "Internal error (errno=0)";
  "Operation not permitted";
  "No such file or directory";
  "No such process";
  "Interrupted system call";
  "I/O error";
  "No such device or address";
  "Argument list too long";
  "Exec format error";
  "Bad file number";
  "No child processes";
  "Try again";
  "Out of memory";
  "Permission denied";
  "Bad address";
  "Block device required";
  "Device or resource busy";
  "File exists";
  "Cross-device link";
  "No such device";
  "Not a directory";
  "Is a directory";
  "Invalid argument";
  "File table overflow";
  "Too many open files";
  "Not a typewriter";
  "Text file busy";
  "File too large";
  "No space left on device";
  "Illegal seek";
  "Read-only file system";
  "Too many links";
  "Broken pipe";
  "Math argument out of domain of func";
  "Math result not representable";
  "Resource deadlock would occur";
  "File name too long";
  "No record locks available";
  "Invalid system call number";
  "Directory not empty";
  "Too many symbolic links encountered";
  "Operation would block";
  "No message of desired type";
  "Identifier removed";
  "Channel number out of range";
  "Level 2 not synchronized";
  "Level 3 halted";
  "Level 3 reset";
  "Link number out of range";
  "Protocol driver not attached";
  "No CSI structure available";
  "Level 2 halted";
  "Invalid exchange";
  "Invalid request descriptor";
  "Exchange full";
  "No anode";
  "Invalid request code";
  "Invalid slot";
  "Resource deadlock would occur";
  "Bad font file format";
  "Device not a stream";
  "No data available";
  "Timer expired";
  "Out of streams resources";
  "Machine is not on the network";
  "Package not installed";
  "Object is remote";
  "Link has been severed";
  "Advertise error";
  "Srmount error";
  "Communication error on send";
  "Protocol error";
  "Multihop attempted";
  "RFS specific error";
  "Not a data message";
  "Value too large for defined data type";
  "Name not unique on network";
  "File descriptor in bad state";
  "Remote address changed";
  "Can not access a needed shared library";
  "Accessing a corrupted shared library";
  ".lib section in a.out corrupted";
  "Attempting to link in too many shared libraries";
  "Cannot exec a shared library directly";
  "Illegal byte sequence";
  "Interrupted system call should be restarted";
  "Streams pipe error";
  "Too many users";
  "Socket operation on non-socket";
  "Destination address required";
  "Message too long";
  "Protocol wrong type for socket";
  "Protocol not available";
  "Protocol not supported";
  "Socket type not supported";
  "Operation not supported on transport endpoint";
  "Protocol family not supported";
  "Address family not supported by protocol";
  "Address already in use";
  "Cannot assign requested address";
  "Network is down";
  "Network is unreachable";
  "Network dropped connection because of reset";
  "Software caused connection abort";
  "Connection reset by peer";
  "No buffer space available";
  "Transport endpoint is already connected";
  "Transport endpoint is not connected";
  "Cannot send after transport endpoint shutdown";
  "Too many references: cannot splice";
  "Connection timed out";
  "Connection refused";
  "Host is down";
  "No route to host";
  "Operation already in progress";
  "Operation now in progress";
  "Stale file handle";
  "Structure needs cleaning";
  "Not a XENIX named type file";
  "No XENIX semaphores available";
  "Is a named type file";
  "Remote I/O error";
  "Quota exceeded";
  "No medium found";
  "Wrong medium type";
  "Operation Canceled";
  "Required key not available";
  "Key has expired";
  "Key has been revoked";
  "Key was rejected by service";
  "Owner died";
  "State not recoverable";
  "Operation not possible due to RF-kill";
  "Memory page has hardware error"]%string.
(* include/errstrshort.h:15-149 *)
Definition short_table : list (list Z) := map txt [
  "ERRNO=0";
  "EPERM";
  "ENOENT";
  "ESRCH";
  "EINTR";
  "EIO";
  "ENXIO";
  "E2BIG";
  "ENOEXEC";
  "EBADF";
  "ECHILD";
  "EAGAIN";
  "ENOMEM";
  "EACCES";
  "EFAULT";
  "ENOTBLK";
  "EBUSY";
  "EEXIST";
  "EXDEV";
  "ENODEV";
  "ENOTDIR";
  "EISDIR";
  "EINVAL";
  "ENFILE";
  "EMFILE";
  "ENOTTY";
  "ETXTBSY";
  "EFBIG";
  "ENOSPC";
  "ESPIPE";
  "EROFS";
  "EMLINK";
  "EPIPE";
  "EDOM";
  "ERANGE";
  "EDEADLK";
  "ENAMETOOLONG";
  "ENOLCK";
  "ENOSYS";
  "ENOTEMPTY";
  "ELOOP";
  "EWOULDBLOCK";
  "ENOMSG";
  "EIDRM";
  "ECHRNG";
  "EL2NSYNC";
  "EL3HLT";
  "EL3RST";
  "ELNRNG";
  "EUNATCH";
  "ENOCSI";
  "EL2HLT";
  "EBADE";
  "EBADR";
  "EXFULL";
  "ENOANO";
  "EBADRQC";
  "EBADSLT";
  "EDEADLOCK";
  "EBFONT";
  "ENOSTR";
  "ENODATA";
  "ETIME";
  "ENOSR";
  "ENONET";
  "ENOPKG";
  "EREMOTE";
  "ENOLINK";
  "EADV";
  "ESRMNT";
  "ECOMM";
  "EPROTO";
  "EMULTIHOP";
  "EDOTDOT";
  "EBADMSG";
  "EOVERFLOW";
  "ENOTUNIQ";
  "EBADFD";
  "EREMCHG";
  "ELIBACC";
  "ELIBBAD";
  "ELIBSCN";
  "ELIBMAX";
  "ELIBEXEC";
  "EILSEQ";
  "ERESTART";
  "ESTRPIPE";
  "EUSERS";
  "ENOTSOCK";
  "EDESTADDRREQ";
  "EMSGSIZE";
  "EPROTOTYPE";
  "ENOPROTOOPT";
  "EPROTONOSUPPORT";
  "ESOCKTNOSUPPORT";
  "EOPNOTSUPP";
  "EPFNOSUPPORT";
  "EAFNOSUPPORT";
  "EADDRINUSE";
  "EADDRNOTAVAIL";
  "ENETDOWN";
  "ENETUNREACH";
  "ENETRESET";
  "ECONNABORTED";
  "ECONNRESET";
  "ENOBUFS";
  "EISCONN";
  "ENOTCONN";
  "ESHUTDOWN";
  "ETOOMANYREFS";
  "ETIMEDOUT";
  "ECONNREFUSED";
  "EHOSTDOWN";
  "EHOSTUNREACH";
  "EALREADY";
  "EINPROGRESS";
  "ESTALE";
  "EUCLEAN";
  "ENOTNAM";
  "ENAVAIL";
  "EISNAM";
  "EREMOTEIO";
  "EDQUOT";
  "ENOMEDIUM";
  "EMEDIUMTYPE";
  "ECANCELED";
  "ENOKEY";
  "EKEYEXPIRED";
  "EKEYREVOKED";
  "EKEYREJECTED";
  "EOWNERDEAD";
  "ENOTRECOVERABLE";
  "ERFKILL";
  "MEMPAGEFAULT"]%string.

(* ERRNO_MAX: include/errstr.h:4 *)
Definition ERRNO_MAX : Z := 133.
(* errstr[num]: an index outside of the table is Fault; for include/errstr.h:10-151 *)
Definition entry (t : list (list Z)) (num : Z) : res (list Z) :=
  match nth_error t (Z.to_nat num) with Some s => Ok s | None => Fault end.
(* include/errstr.h:10-151 verbose_errstr: the string the result points to *)
Definition verbose_errstr (num : Z) : res (list Z) :=
  if (ERRNO_MAX <? num) || (num <? 0) then Ok (txt "Errno unknown") else entry errstr_table num.
(* include/errstrshort.h:10-152 short_errstr *)
Definition short_errstr (num : Z) : res (list Z) :=
  if (ERRNO_MAX <? num) || (num <? 0) then Ok (txt "UNKNOWN") else entry short_table num.

(* include/errstr2.h:16-149: the bytes of the literal, with the terminator the compiler adds *)
Definition errstr2_bytes : list Z := flat_map (fun s => s ++ [0]) errstr2_table.
(* include/errstr2.h:153-155: do c++; while ( *c != 0 ) *)
Fixpoint skip_text (fuel : nat) (m : mem) (c : Z) : res Z :=
  match fuel with
  | O => NoFuel
  | S f => let c1 := c + 1 in
           let* b := load m c1 in
           if b =? 0 then Ok c1 else skip_text f m c1
  end.
(* include/errstr2.h:152-156; g is the budget of the inner loop *)
Fixpoint skip_texts (g : nat) (m : mem) (c : Z) (num : nat) : res Z :=
  match num with
  | O => Ok c
  | S n => let* c1 := skip_text g m c in skip_texts g m c1 n
  end.
(* include/errstr2.h:11-159 verbose_errstr2; lit is the address of the literal in line 16,
   unk that of "Errno unknown" *)
Definition verbose_errstr2 (g : nat) (m : mem) (lit unk num : Z) : res Z :=
  if (ERRNO_MAX <? num) || (num <? 0) then Ok unk
  else let* c := skip_texts g m lit (Z.to_nat num) in Ok (c + 1).
