(** What a line of `swoll trace` says about the call it is printed for. *)
From Coq Require Import ZArith String Lia.
From stdpp Require Import base list numbers strings pretty.
From Verif Require Import RawModel DecodeModel KernelModel CaptureModel CaptureSpec LineModel LineSpec TextModel TextSpec.

Local Open Scope string_scope.
Local Open Scope list_scope.
Local Open Scope Z_scope.

(** The errors of the kernel: include/uapi/asm-generic/errno-base.h and errno.h. *)
Definition errors : list (string * Z) :=
  [ ("EPERM", 1); ("ENOENT", 2); ("ESRCH", 3); ("EINTR", 4); ("EIO", 5); ("ENXIO", 6); ("E2BIG", 7);
    ("ENOEXEC", 8); ("EBADF", 9); ("ECHILD", 10); ("EAGAIN", 11); ("ENOMEM", 12); ("EACCES", 13);
    ("EFAULT", 14); ("ENOTBLK", 15); ("EBUSY", 16); ("EEXIST", 17); ("EXDEV", 18); ("ENODEV", 19);
    ("ENOTDIR", 20); ("EISDIR", 21); ("EINVAL", 22); ("ENFILE", 23); ("EMFILE", 24); ("ENOTTY", 25);
    ("ETXTBSY", 26); ("EFBIG", 27); ("ENOSPC", 28); ("ESPIPE", 29); ("EROFS", 30); ("EMLINK", 31);
    ("EPIPE", 32); ("EDOM", 33); ("ERANGE", 34); ("EDEADLK", 35); ("ENAMETOOLONG", 36); ("ENOLCK", 37);
    ("ENOSYS", 38); ("ENOTEMPTY", 39); ("ELOOP", 40); ("ENOMSG", 42); ("EIDRM", 43); ("ECHRNG", 44);
    ("EL2NSYNC", 45); ("EL3HLT", 46); ("EL3RST", 47); ("ELNRNG", 48); ("EUNATCH", 49); ("ENOCSI", 50);
    ("EL2HLT", 51); ("EBADE", 52); ("EBADR", 53); ("EXFULL", 54); ("ENOANO", 55); ("EBADRQC", 56);
    ("EBADSLT", 57); ("EBFONT", 59); ("ENOSTR", 60); ("ENODATA", 61); ("ETIME", 62); ("ENOSR", 63);
    ("ENONET", 64); ("ENOPKG", 65); ("EREMOTE", 66); ("ENOLINK", 67); ("EADV", 68); ("ESRMNT", 69);
    ("ECOMM", 70); ("EPROTO", 71); ("EMULTIHOP", 72); ("EDOTDOT", 73); ("EBADMSG", 74); ("EOVERFLOW", 75);
    ("ENOTUNIQ", 76); ("EBADFD", 77); ("EREMCHG", 78); ("ELIBACC", 79); ("ELIBBAD", 80); ("ELIBSCN", 81);
    ("ELIBMAX", 82); ("ELIBEXEC", 83); ("EILSEQ", 84); ("ERESTART", 85); ("ESTRPIPE", 86); ("EUSERS", 87);
    ("ENOTSOCK", 88); ("EDESTADDRREQ", 89); ("EMSGSIZE", 90); ("EPROTOTYPE", 91); ("ENOPROTOOPT", 92);
    ("EPROTONOSUPPORT", 93); ("ESOCKTNOSUPPORT", 94); ("EOPNOTSUPP", 95); ("EPFNOSUPPORT", 96);
    ("EAFNOSUPPORT", 97); ("EADDRINUSE", 98); ("EADDRNOTAVAIL", 99); ("ENETDOWN", 100); ("ENETUNREACH", 101);
    ("ENETRESET", 102); ("ECONNABORTED", 103); ("ECONNRESET", 104); ("ENOBUFS", 105); ("EISCONN", 106);
    ("ENOTCONN", 107); ("ESHUTDOWN", 108); ("ETOOMANYREFS", 109); ("ETIMEDOUT", 110); ("ECONNREFUSED", 111);
    ("EHOSTDOWN", 112); ("EHOSTUNREACH", 113); ("EALREADY", 114); ("EINPROGRESS", 115); ("ESTALE", 116);
    ("EUCLEAN", 117); ("ENOTNAM", 118); ("ENAVAIL", 119); ("EISNAM", 120); ("EREMOTEIO", 121);
    ("EDQUOT", 122); ("ENOMEDIUM", 123); ("EMEDIUMTYPE", 124); ("ECANCELED", 125); ("ENOKEY", 126);
    ("EKEYEXPIRED", 127); ("EKEYREVOKED", 128); ("EKEYREJECTED", 129); ("EOWNERDEAD", 130);
    ("ENOTRECOVERABLE", 131); ("ERFKILL", 132); ("EHWPOISON", 133) ].
(** The result of a call: "OK" or the error's name. A result counts as an int (C58 tells
    what becomes of larger ones), execve is shown when it is entered, and getcwd is
    always "OK". *)
Definition tells (nr ret : Z) (failed : bool) (result : string) : Prop :=
  (nr = 59 \/ nr = 79 /\ - 2 ^ 31 <= ret < 2 ^ 31 /\ ret <> 0 \/ nr <> 79 /\ 0 <= ret < 2 ^ 31 -> failed = false /\ result = "OK")
  /\ (nr <> 59 -> nr <> 79 -> forall name n, (name, n) ∈ errors -> ret = - n -> failed = true /\ result = name)
  /\ (nr <> 59 -> nr <> 79 -> -4095 <= ret < 0 -> (forall name, (name, - ret) ∉ errors) -> ret <> - 512 -> failed = true /\ result = "UNK").

(** From a millisecond on red, from ten microseconds on yellow. *)
Definition speed (ns : Z) : colour := if 1000000 <=? ns then Red else if 10000 <=? ns then Yellow else Green.

(** The line, with [who] made the call; an argument has a type, a label and a text. *)
Definition the_arguments (tty : bool) (args : list (string * string * list Z)) : list Z :=
  separated (text_bytes ", ") (map (fun a => text_bytes "(" ++ text_bytes a.1.1 ++ text_bytes ")" ++ text_bytes a.1.2 ++ text_bytes "=" ++ paint tty BgBlack (paint tty White a.2)) args).
Definition the_line (tty : bool) (us ns : Z) (who : list Z) (failed : bool) (result name : string) (args : list (string * string * list Z)) : list Z :=
  text_bytes "(" ++ paint tty (speed ns) (padded runes false 6 (text_bytes (decimal3 us))) ++ text_bytes "ms) "
  ++ who ++ text_bytes "] (" ++ padded runes false 11 (paint tty (if failed then Red else Green) (text_bytes result)) ++ text_bytes ") "
  ++ paint tty Cyan (text_bytes name) ++ text_bytes "(" ++ the_arguments tty args ++ text_bytes ")" ++ [10].
(** A task of a container; a task of the machine. *)
Definition in_container (tty : bool) (name pod ns : string) (comm : list Z) : list Z :=
  padded runes false 35 (paint tty Green (text_bytes name ++ text_bytes "." ++ text_bytes pod ++ text_bytes "." ++ text_bytes ns))
  ++ text_bytes ": [" ++ padded runes false 9 comm.
Definition on_machine (comm : list Z) (pid : Z) : list Z :=
  text_bytes "[" ++ padded runes false 15 comm ++ text_bytes "/" ++ padded runes true 8 (text_bytes (pretty pid)).

(** What the line of an event says: the time the call took to the nearest microsecond,
    who made it, its result, its name, and the arguments, of which [argument] tells
    more. umount2 (166) is printed as umount. *)
Definition line_about (tty : bool) (who : list Z) (e : kevent) (argument : string -> list Z -> Prop) (out : list Z) : Prop :=
  exists us failed result name params args,
    out = the_line tty us (ev_exit e - ev_entr e) who failed result (if decide (ev_nr e = 166) then "umount" else name) args
    /\ 0 <= us /\ Z.abs (1000 * us - (ev_exit e - ev_entr e)) <= 500
    /\ tells (ev_nr e) (ev_ret e) failed result
    /\ prototype (ev_nr e) = Some (name, params)
    /\ (forall ty label text, (ty, label, text) ∈ args -> argument label text)
    /\ (forall i, (i < length params)%nat ->
          ((ev_nr e, i) ∈ unprinted <-> ~ exists ty label text, (ty, label, text) ∈ args /\ names_parameter (ev_nr e) i label)).

(** One of the arguments in the line. *)
Definition shows_argument (tty : bool) (label : string) (text out : list Z) : Prop :=
  exists before after, out = before ++ text_bytes ")" ++ text_bytes label ++ text_bytes "=" ++ paint tty BgBlack (paint tty White text) ++ after.

(** The program's printer: for each line, an order of the tables and the address of the
    buffer. *)
Definition real_printer (p : nat -> trace_event -> printer) : Prop :=
  forall n t, exists order base, (forall l, order l ≡ₚ l) /\ p n t = line_printer order base (t_argv t).
