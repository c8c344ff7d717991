(** What `swoll trace` prints for an event (cmd/trace.go 105-159), and the
    latency of an event.

    Text is a list of bytes.  Concrete here: strings, plain numbers, directory
    descriptors, byte buffers and socket addresses.  Left to a parameter
    ([p_other]): named numbers and flag sets (CodecModel.v), file modes and
    structs.  The three decimals of the latency are a parameter too ([p_ms]). *)
From Coq Require Import ZArith String Ascii Lia.
From stdpp Require Import base list numbers strings pretty.
From Verif Require Import ChartModel TopModel RawModel DecodeModel CodecModel JsonModel.

Local Open Scope string_scope.
Local Open Scope list_scope.
Local Open Scope Z_scope.

Definition txt (s : string) : list Z :=
  map (fun c => Z.of_N (N_of_ascii c)) (list_ascii_of_string s).

(** * The Arguments and CallName methods *)

(** How %v writes a member, by its Go type: string; an integer type without a
    String method; types.DirFD (dirfd.go 9-15); types.Buffer and []byte
    (buffer.go); *types.SockAddr (sockaddr.go 65-73); fmt.Sprintf("0x%08x");
    anything else. *)
Inductive style := Raw | Num | Dir | Buf | Sock | Hex | Other.

(** A member, named as in DecodeModel.decoders, or several of them separated by
    blanks, of which execve.go 28 prints four: the fourth is never set. *)
Inductive source := One (member : string) (s : style) | Words (members : list string).

Record shown_arg := Shown { a_label : string; a_type : string; a_src : source }.

(** CallName and Arguments of every type DecodeSyscall makes. *)
Definition calls : list (Z * string * list shown_arg) :=
  [
    (* accept, accept.go 77-82 *)
    (43, "accept", [Shown "sockfd" "int" (One "fd" Num);
      Shown "addr" "struct sockaddr *" (One "saddr" Sock)]);
    (* accept4, accept.go 86-92 *)
    (288, "accept4", [Shown "sockfd" "int" (One "fd" Num);
      Shown "addr" "struct sockaddr *" (One "saddr" Sock);
      Shown "flags" "int" (One "flags" Other)]);
    (* alarm, alarm.go 20-24 *)
    (37, "alarm", [Shown "seconds" "unsigned int" (One "seconds" Num)]);
    (* acct, acct.go 20-24 *)
    (163, "acct", [Shown "pathname" "const char *" (One "pathname" Raw)]);
    (* brk, brk.go 20-24 *)
    (12, "brk", [Shown "addr" "void *" (One "addr" Num)]);
    (* connect, connect.go 22-27 *)
    (42, "connect", [Shown "sockfd" "int" (One "fd" Num);
      Shown "addr" "struct sockaddr *" (One "saddr" Sock)]);
    (* clone, clone.go 30-36 *)
    (56, "clone", [Shown "fn" "int (*)(void *)" (One "new_stack" Hex);
      Shown "child_stack" "void *" (One "child_stack" Hex);
      Shown "flags" "int" (One "flags" Other)]);
    (* close, close.go 19-23 *)
    (3, "close", [Shown "fd" "int" (One "fd" Num)]);
    (* creat, creat.go 23-28 *)
    (85, "creat", [Shown "pathname" "const char *" (One "pathname" Raw);
      Shown "mode" "mode_t" (One "mode" Other)]);
    (* exit, exit.go 20-24 *)
    (60, "exit", [Shown "status" "int" (One "code" Num)]);
    (* faccessat, faccessat.go 27-34 *)
    (269, "faccessat", [Shown "dirfd" "int" (One "fd" Dir);
      Shown "pathname" "const char *" (One "pathname" Raw);
      Shown "mode" "int" (One "mode" Other);
      Shown "flags" "int" (One "flags" Num)]);
    (* fstat, fstat.go 24-29 *)
    (5, "fstat", [Shown "fd" "int" (One "fd" Num);
      Shown "statbuf" "struct stat *" (One "stat_buf" Other)]);
    (* ftruncate, ftruncate.go 23-28 *)
    (77, "ftruncate", [Shown "fd" "int" (One "fd" Num);
      Shown "length" "off_t" (One "length" Num)]);
    (* futex, futex.go 24-30 *)
    (202, "futex", [Shown "uaddr" "int *" (One "uaddr" Num);
      Shown "futex_op" "int" (One "op" Num);
      Shown "val" "int" (One "val" Num)]);
    (* getcwd, getcwd.go 22-27 *)
    (79, "getcwd", [Shown "buf" "char *" (One "buf" Raw);
      Shown "size" "size_t" (One "size" Num)]);
    (* getpeername, getpeername.go 22-27 *)
    (52, "getpeername", [Shown "sockfd" "int" (One "fd" Num);
      Shown "addr" "struct sockaddr *" (One "saddr" Sock)]);
    (* getsockname, getsockname.go 22-27 *)
    (51, "getsockname", [Shown "sockfd" "int" (One "fd" Num);
      Shown "addr" "struct sockaddr *" (One "saddr" Sock)]);
    (* getsockopt, sockopt.go 49-66 *)
    (55, "getsockopt", [Shown "sockfd" "int" (One "fd" Num);
      Shown "level" "int" (One "level" Other);
      Shown "optname" "int" (One "name" Other);
      Shown "optval" "void *" (One "val" Buf);
      Shown "optlen" "(*)socklen_t *" (One "len" Num)]);
    (* init_module, init_module.go 24-30 *)
    (175, "init_module", [Shown "module_image" "void *" (One "name" Raw);
      Shown "len" "unsigned long" (One "len" Num);
      Shown "param_values" "const char *" (One "params" Raw)]);
    (* inotify_add_watch, inotify_add_watch.go 29-35 *)
    (254, "inotify_add_watch", [Shown "fd" "int" (One "fd" Num);
      Shown "pathname" "const char *" (One "pathname" Raw);
      Shown "mask" "uint32_t" (One "mask" Other)]);
    (* kill, kill.go 23-28 *)
    (62, "kill", [Shown "pid" "pid_t" (One "pid" Num);
      Shown "sig" "int" (One "sig" Num)]);
    (* link, link.go 22-27 *)
    (86, "link", [Shown "oldpath" "const char *" (One "old_name" Raw);
      Shown "newpath" "const char *" (One "new_name" Raw)]);
    (* listen, listen.go 23-28 *)
    (50, "listen", [Shown "sockfd" "int" (One "sock" Num);
      Shown "backlog" "int" (One "backlog" Num)]);
    (* mincore, mincore.go 24-30 *)
    (27, "mincore", [Shown "addr" "void *" (One "addr" Num);
      Shown "len" "size_t" (One "len" Num);
      Shown "vec" "unsigned char *" (One "vec" Num)]);
    (* mkdir, mkdir.go 24-29 *)
    (83, "mkdir", [Shown "pathname" "const char *" (One "pathname" Raw);
      Shown "mode" "mode_t" (One "mode" Other)]);
    (* mount, mount.go 30-37 *)
    (165, "mount", [Shown "source" "const char *" (One "device" Raw);
      Shown "target" "const char *" (One "directory" Raw);
      Shown "filesystemtype" "const char *" (One "type" Raw);
      Shown "mountflags" "unsigned long" (One "flags" Other)]);
    (* mprotect, mprotect.go 36-42 *)
    (10, "mprotect", [Shown "addr" "void *" (One "addr" Num);
      Shown "len" "size_t" (One "len" Num);
      Shown "prot" "int" (One "prot" Other)]);
    (* nanosleep, nanosleep.go 22-27 *)
    (35, "nanosleep", [Shown "req" "void *" (One "req" Other);
      Shown "rem" "void *" (One "rem" Other)]);
    (* pivot_root, pivot_root.go 23-28 *)
    (155, "pivot_root", [Shown "new_root" "const char *" (One "new_root" Raw);
      Shown "put_old" "const char *" (One "old_root" Raw)]);
    (* prlimit64, prlimit64.go 34-41 *)
    (302, "prlimit64", [Shown "pid" "pid_t" (One "pid" Num);
      Shown "resource" "int" (One "resource" Other);
      Shown "new_limit" "const struct rlimit *" (One "new" Other);
      Shown "old_limit" "struct rlimit *" (One "old" Other)]);
    (* ptrace, ptrace.go 32-39 *)
    (101, "ptrace", [Shown "request" "enum __ptrace_request" (One "request" Other);
      Shown "pid" "pid_t" (One "pid" Num);
      Shown "addr" "void *" (One "addr" Num);
      Shown "data" "void *" (One "data" Num)]);
    (* read, read.go 34-40 *)
    (0, "read", [Shown "fd" "int" (One "fd" Num);
      Shown "buf" "void *" (One "buf" Buf);
      Shown "count" "ssize_t" (One "count" Num)]);
    (* readlink, readlink.go 34-40 *)
    (89, "readlink", [Shown "pathname" "const char *" (One "pathname" Raw);
      Shown "buf" "char *" (One "buf" Buf);
      Shown "bufsiz" "size_t" (One "size" Num)]);
    (* readlinkat, readlinkat.go 36-43 *)
    (267, "readlinkat", [Shown "dirfd" "int" (One "dir_fd" Dir);
      Shown "pathname" "const char *" (One "pathname" Raw);
      Shown "buf" "char *" (One "buf" Buf);
      Shown "bufsiz" "size_t" (One "size" Num)]);
    (* recvfrom, recvfrom.go 32-40 *)
    (45, "recvfrom", [Shown "sockfd" "int" (One "fd" Num);
      Shown "buf" "void *" (One "ubuf" Buf);
      Shown "len" "size_t" (One "size" Num);
      Shown "flags" "int" (One "flags" Other);
      Shown "src_addr" "struct sockaddr *" (One "saddr" Sock)]);
    (* rename, rename.go 22-27 *)
    (82, "rename", [Shown "oldpath" "const char *" (One "old_name" Raw);
      Shown "newpath" "const char *" (One "new_name" Raw)]);
    (* rmdir, rmdir.go 20-24 *)
    (84, "rmdir", [Shown "pathname" "const char *" (One "pathname" Raw)]);
    (* seccomp, seccomp.go 24-30 *)
    (317, "seccomp", [Shown "operation" "unsigned int" (One "op" Num);
      Shown "flags" "unsigned int" (One "flags" Num);
      Shown "args" "void *" (One "args" Raw)]);
    (* sendto, sendto.go 29-37 *)
    (44, "sendto", [Shown "sockfd" "int" (One "fd" Num);
      Shown "buf" "const void *" (One "ubuf" Buf);
      Shown "len" "size_t" (One "size" Num);
      Shown "flags" "int" (One "flags" Other);
      Shown "dest_addr" "const struct sockaddr *" (One "saddr" Sock)]);
    (* setns, setns.go 33-38 *)
    (308, "setns", [Shown "fd" "int" (One "fd" Num);
      Shown "nstype" "int" (One "ns_type" Other)]);
    (* setsockopt, sockopt.go 49-66 *)
    (54, "setsockopt", [Shown "sockfd" "int" (One "fd" Num);
      Shown "level" "int" (One "level" Other);
      Shown "optname" "int" (One "name" Other);
      Shown "optval" "void *" (One "val" Buf);
      Shown "optlen" "(*)socklen_t *" (One "len" Num)]);
    (* bind, bind.go 25-30 *)
    (49, "bind", [Shown "sockfd" "int" (One "fd" Num);
      Shown "addr" "struck sockaddr *" (One "saddr" Sock)]);
    (* execve, execve.go 25-30 *)
    (59, "execve", [Shown "filename" "const char *" (One "filename" Raw);
      Shown "argv[]" "char * const" (Words ["argv[0]"; "argv[1]"; "argv[2]"])]);
    (* open, open.go 27-33 *)
    (2, "open", [Shown "pathname" "const char *" (One "filename" Raw);
      Shown "flags" "int" (One "flags" Other);
      Shown "mode" "int" (One "mode" Num)]);
    (* openat, openat.go 25-31 *)
    (257, "openat", [Shown "dirfd" "int" (One "dir_fd" Dir);
      Shown "pathname" "const char *" (One "pathname" Raw);
      Shown "flags" "int" (One "flags" Other)]);
    (* chdir, chdir.go 20-24 *)
    (80, "chdir", [Shown "path" "const char *" (One "filename" Raw)]);
    (* chroot, chroot.go 20-24 *)
    (161, "chroot", [Shown "path" "const char *" (One "filename" Raw)]);
    (* access, access.go 22-27 *)
    (21, "access", [Shown "pathname" "const char *" (One "pathname" Raw);
      Shown "mode" "int" (One "mode" Other)]);
    (* write, write.go 34-40 *)
    (1, "write", [Shown "fd" "int" (One "fd" Num);
      Shown "buf" "const void *" (One "buf" Buf);
      Shown "count" "ssize_t" (One "count" Num)]);
    (* unlink, unlink.go 20-24 *)
    (87, "unlink", [Shown "pathname" "const char *" (One "pathname" Raw)]);
    (* umount2, umount2.go 22-27 *)
    (166, "umount", [Shown "target" "const char *" (One "target" Raw);
      Shown "flags" "int" (One "flags" Other)]);
    (* timerfd_settime, timerfd_settime.go 26-33 *)
    (286, "timerfd_settime", [Shown "fd" "int" (One "fd" Num);
      Shown "flags" "int" (One "flags" Other);
      Shown "new_value" "const struct itimerspec *" (One "new" Other);
      Shown "old_value" "struct itimerspec *" (One "old" Other)]);
    (* timerfd_create, timerfd_create.go 22-27 *)
    (283, "timerfd_create", [Shown "clockid" "int" (One "clock" Num);
      Shown "flags" "int" (One "flags" Other)]);
    (* syslog, syslog.go 24-31 *)
    (103, "syslog", [Shown "type" "int" (One "type" Num);
      Shown "bufp" "char *" (One "buf" Raw);
      Shown "len" "int" (One "len" Num)]);
    (* symlink, symlink.go 22-27 *)
    (88, "symlink", [Shown "target" "const char *" (One "target" Raw);
      Shown "linkpath" "const char *" (One "linkpath" Raw)]);
    (* statfs, statfs.go 23-28 *)
    (137, "statfs", [Shown "path" "const char *" (One "path" Raw);
      Shown "buf" "struct statfs *" (One "stat_buf" Other)]);
    (* stat, stat.go 24-29 *)
    (4, "stat", [Shown "pathname" "const char *" (One "filename" Raw);
      Shown "statbuf" "struct stat *" (One "stat_buf" Other)]);
    (* socket, socket.go 35-41 *)
    (41, "socket", [Shown "domain" "int" (One "family" Other);
      Shown "type" "int" (One "type" Other);
      Shown "protocol" "int" (One "protocol" Other)]);
    (* setuid, setuid.go 20-24 *)
    (105, "setuid", [Shown "uid" "uid_t" (One "uid" Num)])
  ].

Definition call (nr : Z) : option (string * list shown_arg) :=
  match List.find (fun e => Z.eqb (fst (fst e)) nr) calls with
  | Some e => Some (snd (fst e), snd e)
  | None => None
  end.

(** * Writing values *)

(** What is not modelled of fmt: [p_other nr member value], and "%6.3f" of a
    number of nanoseconds divided by a million. *)
Record printer := Printer {
  p_other : Z -> string -> shown -> list Z;
  p_ms : Z -> list Z
}.

(** %x, zero-padded to eight digits: sixteen digits without the leading zeros
    before the last eight. *)
Fixpoint hex_digits (n : nat) (z : Z) : list Z :=
  match n with
  | O => []
  | S n' => hex_digits n' (z / 16) ++ [(if z mod 16 <? 10 then 48 else 87) + z mod 16]
  end.
Fixpoint strip_zeros (n : nat) (bs : list Z) : list Z :=
  match n, bs with
  | S n', b :: bs' => if b =? 48 then strip_zeros n' bs' else bs
  | _, _ => bs
  end.
Definition hex_text (z : Z) : list Z := txt "0x" ++ strip_zeros 8 (hex_digits 16 z).

Definition write_value (p : printer) (nr : Z) (name : string) (s : style) (sh : shown) : list Z :=
  match s, sh with
  | Raw, ShBytes bs => bs
  | Num, ShInt z => txt (pretty z)
  | Dir, ShInt z => if z =? -100 then txt "AT_FDCWD" else txt (pretty z)
  | Buf, ShBytes bs => txt "[" ++ txt (join_ints bs) ++ txt "]"
  | Sock, ShSock (addr, port) => txt addr ++ txt ":" ++ txt (pretty port)
  | Hex, ShInt z => hex_text z
  | _, _ => p_other p nr name sh
  end.

(** What %v finds in a value; [None] if that reads outside the buffer (see
    DecodeModel.v).  fmt walks over the elements of a slice (print.go printValue and
    fmtBytes), so that one of a negative length, which types.MakeCBytes (c.go 9-18)
    makes of a negative count, has none. *)
Definition walk (raw : list Z) (v : value) : option shown :=
  match v with
  | VSlice _ len => if len <? 0 then Some (ShBytes []) else show raw v
  | _ => show raw v
  end.
(** The member [name] of the decoded call, read through. *)
Definition member (raw : list Z) (ms : list (field * value)) (name : string) : option shown :=
  match List.find (fun m => String.eqb (f_name (fst m)) name) ms with
  | Some (_, v) => walk raw v
  | None => None
  end.

Fixpoint join (sep : list Z) (l : list (list Z)) : list Z :=
  match l with
  | [] => []
  | [x] => x
  | x :: l' => x ++ sep ++ join sep l'
  end.

Definition bytes_shown (sh : option shown) : option (list Z) :=
  match sh with Some (ShBytes bs) => Some bs | _ => None end.

Definition arg_value (p : printer) (nr : Z) (raw : list Z) (ms : list (field * value))
    (src : source) : option (list Z) :=
  match src with
  | One name s =>
      match member raw ms name with
      | Some sh => Some (write_value p nr name s sh)
      | None => None
      end
  | Words names =>
      match mapM (fun n => bytes_shown (member raw ms n)) names with
      | Some ws => Some (join (txt " ") (ws ++ [[]]))
      | None => None
      end
  end.

(** The arguments of a decoded call as they are printed: type, label, value. *)
Definition arguments (p : printer) (nr : Z) (raw : list Z) (argv : list value)
  : option (list (string * string * list Z)) :=
  match call nr, decoder nr with
  | Some (_, shs), Some fs =>
      mapM (fun a => match arg_value p nr raw (combine fs argv) (a_src a) with
                     | Some bs => Some (a_type a, a_label a, bs)
                     | None => None
                     end) shs
  | _, _ => None
  end.

(** * The line *)

(** github.com/fatih/color v1.9.0: SprintFunc wraps its text unless colours are
    off (no terminal). *)
Inductive colour := Red | Green | Yellow | Cyan | White | BgBlack.
Definition code (c : colour) : string :=
  match c with
  | Red => "31" | Green => "32" | Yellow => "33" | Cyan => "36" | White => "37" | BgBlack => "40"
  end.
Definition paint (tty : bool) (c : colour) (bs : list Z) : list Z :=
  if tty then [27] ++ txt "[" ++ txt (code c) ++ txt "m" ++ bs ++ [27] ++ txt "[0m" else bs.

(** utf8.RuneCountInString, which fmt pads by. *)
Fixpoint runes (bs : list Z) : nat :=
  match bs with
  | [] => O
  | b0 :: t =>
      S (if b0 <? 128 then runes t
         else match t with
         | b1 :: t1 =>
             if seq2 b0 b1 then runes t1
             else match t1 with
             | b2 :: t2 =>
                 if seq3 b0 b1 b2 then runes t2
                 else match t2 with
                 | b3 :: t3 => if seq4 b0 b1 b2 b3 then runes t3 else runes t
                 | [] => runes t
                 end
             | [] => runes t
             end
         | [] => runes t
         end)
  end.
Definition blanks (n : nat) : list Z := repeat 32 n.
(** %Ns and %-Ns *)
Definition right_align (n : nat) (bs : list Z) : list Z := blanks (n - runes bs) ++ bs.
Definition left_align (n : nat) (bs : list Z) : list Z := bs ++ blanks (n - runes bs).

(** TraceEvent.Latency (pkg/event/trace.go 214-216), in nanoseconds: float64 of
    two integers and their difference are integers. *)
Definition latency (start finish : Z) : Z := f64 (f64 finish - f64 start).

(** trace.go 129-137.  LatencyMS divides by a million (event/trace.go 218-220);
    division rounds monotonically and both bounds are quotients of integers, so
    it reaches 1.0 and 0.01 exactly from 1000000 and 10000 ns on. *)
Definition latency_text (p : printer) (tty : bool) (ns : Z) : list Z :=
  paint tty (if 1000000 <=? ns then Red else if 10000 <=? ns then Yellow else Green) (p_ms p ns).

(** Container.FQDN (pkg/types/container.go 17-23); name, pod, namespace. *)
Definition fqdn (c : option (list Z * list Z * list Z)) : list Z :=
  match c with
  | Some (name, pod, ns) => name ++ txt "." ++ pod ++ txt "." ++ ns
  | None => txt "-.-.-"
  end.

(** trace.go 123-127; Errno.String (pkg/types/errno.go 10-12). *)
Definition error_text (tty : bool) (e : Z) : list Z :=
  if e =? 0 then paint tty Green (txt "OK") else paint tty Red (txt (errno_to_string e)).

(** trace.go 139-143 *)
Definition header (p : printer) (tty no_containers : bool)
    (c : option (list Z * list Z * list Z)) (t : trace_event) (name : string) : list Z :=
  txt "(" ++ latency_text p tty (latency (t_start t) (t_finish t)) ++ txt "ms) "
  ++ (if no_containers
      then txt "[" ++ right_align 15 (t_comm t) ++ txt "/" ++ left_align 8 (txt (pretty (t_pid t)))
           ++ txt "] ("
      else right_align 35 (paint tty Green (fqdn c)) ++ txt ": [" ++ right_align 9 (t_comm t)
           ++ txt "] (")
  ++ right_align 11 (error_text tty (t_error t)) ++ txt ") "
  ++ paint tty Cyan (txt name) ++ txt "(".

(** trace.go 146 *)
Definition one_arg (tty : bool) (a : string * string * list Z) : list Z :=
  let '(ty, label, bs) := a in
  txt "(" ++ txt ty ++ txt ")" ++ txt label ++ txt "="
  ++ paint tty BgBlack (paint tty White bs).

(** trace.go 107-153; [raw] is the argument buffer the event was decoded from. *)
Definition cli_output (p : printer) (tty no_containers : bool)
    (c : option (list Z * list Z * list Z)) (t : trace_event) (raw : list Z) : option (list Z) :=
  match call (t_syscall t), arguments p (t_syscall t) raw (t_argv t) with
  | Some (name, _), Some args =>
      Some (header p tty no_containers c t name
            ++ join (txt ", ") (map (one_arg tty) args) ++ txt ")" ++ [10])
  | _, _ => None
  end.

(** showMsg (trace.go 105-159); [json] stands for json.MarshalIndent, [None] is a
    panic. *)
Definition show_msg (json : trace_event -> list Z -> option (list Z)) (p : printer) (out : string)
    (tty no_containers : bool) (c : option (list Z * list Z * list Z))
    (t : trace_event) (raw : list Z) : option (list Z) :=
  if String.eqb out "cli" then cli_output p tty no_containers c t raw
  else if String.eqb out "json" then match json t raw with Some j => Some (j ++ [10]) | None => None end
  else Some [].
