(** Flags and other names of the manual pages and the kernel's headers (x86-64), and what
    it means for a text to show a value. Nothing here mentions the printing code. *)
From Coq Require Import ZArith String Ascii Lia.
From stdpp Require Import base list numbers strings pretty.
From Verif Require Import RawModel LineSpec.

Local Open Scope string_scope.
Local Open Scope list_scope.
Local Open Scope Z_scope.

(** * Flag sets *)

(** The names between the bars. *)
Fixpoint split_bars (cur : list Z) (s : list Z) : list (list Z) :=
  match s with
  | [] => [cur]
  | c :: s => if c =? 124 then cur :: split_bars [] s else split_bars (cur ++ [c]) s
  end.
Definition words (s : list Z) : list (list Z) := match s with [] => [] | _ => split_bars [] s end.
Definition shows_name (text : list Z) (name : string) : Prop := text_bytes name ∈ words text.

(** Flags: name and number of the bit. *)
(** open(2), asm-generic/fcntl.h; O_SYNC's own bit, O_TMPFILE's own bit *)
Definition open_flags : list (string * Z) :=
  [("O_WRONLY", 0); ("O_RDWR", 1); ("O_CREAT", 6); ("O_EXCL", 7); ("O_NOCTTY", 8); ("O_TRUNC", 9); ("O_APPEND", 10); ("O_NONBLOCK", 11);
   ("O_DSYNC", 12); ("O_ASYNC", 13); ("O_DIRECT", 14); ("O_LARGEFILE", 15); ("O_DIRECTORY", 16); ("O_NOFOLLOW", 17); ("O_NOATIME", 18);
   ("O_CLOEXEC", 19); ("O_SYNC", 20); ("O_PATH", 21); ("O_TMPFILE", 22)].
(** umount(2) *)
Definition umount_flags : list (string * Z) := [("MNT_FORCE", 0); ("MNT_DETACH", 1); ("MNT_EXPIRE", 2); ("UMOUNT_NOFOLLOW", 3)].
(** timerfd_create(2) *)
Definition timerfd_flags : list (string * Z) :=
  [("TFD_TIMER_ABSTIME", 0); ("TFD_TIMER_CANCEL_ON_SET", 1); ("TFD_NONBLOCK", 11); ("TFD_CLOEXEC", 19)].
(** send(2), recv(2), linux/socket.h *)
Definition message_flags : list (string * Z) :=
  [("MSG_OOB", 0); ("MSG_PEEK", 1); ("MSG_DONTROUTE", 2); ("MSG_CTRUNC", 3); ("MSG_TRUNC", 5); ("MSG_DONTWAIT", 6); ("MSG_EOR", 7);
   ("MSG_WAITALL", 8); ("MSG_CONFIRM", 11); ("MSG_ERRQUEUE", 13); ("MSG_NOSIGNAL", 14); ("MSG_MORE", 15); ("MSG_WAITFORONE", 16);
   ("MSG_FASTOPEN", 29); ("MSG_CMSG_CLOEXEC", 30)].
(** accept(2) *)
Definition accept4_flags : list (string * Z) := [("SOCK_NONBLOCK", 11); ("SOCK_CLOEXEC", 19)].
(** mount(2), linux/mount.h, linux/fs.h *)
Definition mount_flags : list (string * Z) :=
  [("MS_RDONLY", 0); ("MS_NOSUID", 1); ("MS_NODEV", 2); ("MS_NOEXEC", 3); ("MS_SYNCHRONOUS", 4); ("MS_REMOUNT", 5); ("MS_MANDLOCK", 6);
   ("MS_DIRSYNC", 7); ("MS_NOATIME", 10); ("MS_NODIRATIME", 11); ("MS_BIND", 12); ("MS_MOVE", 13); ("MS_REC", 14); ("MS_VERBOSE", 15);
   ("MS_POSIXACL", 16); ("MS_UNBINDABLE", 17); ("MS_PRIVATE", 18); ("MS_SLAVE", 19); ("MS_SHARED", 20); ("MS_RELATIME", 21);
   ("MS_KERNMOUNT", 22); ("MS_I_VERSION", 23); ("MS_STRICTATIME", 24); ("MS_LAZYTIME", 25); ("MS_SUBMOUNT", 26); ("MS_NOREMOTELOCK", 27);
   ("MS_NOSEC", 28); ("MS_BORN", 29); ("MS_ACTIVE", 30); ("MS_NOUSER", 31)].
(** inotify_add_watch(2), inotify(7) *)
Definition watch_flags : list (string * Z) :=
  [("IN_ACCESS", 0); ("IN_MODIFY", 1); ("IN_ATTRIB", 2); ("IN_CLOSE_WRITE", 3); ("IN_CLOSE_NOWRITE", 4); ("IN_OPEN", 5);
   ("IN_MOVED_FROM", 6); ("IN_MOVED_TO", 7); ("IN_CREATE", 8); ("IN_DELETE", 9); ("IN_DELETE_SELF", 10); ("IN_MOVE_SELF", 11);
   ("IN_ONLYDIR", 24); ("IN_DONT_FOLLOW", 25); ("IN_EXCL_UNLINK", 26); ("IN_MASK_CREATE", 28); ("IN_MASK_ADD", 29); ("IN_ONESHOT", 31)].
(** mprotect(2) *)
Definition protections : list (string * Z) :=
  [("PROT_READ", 0); ("PROT_WRITE", 1); ("PROT_EXEC", 2); ("PROT_SEM", 3); ("PROT_GROWSDOWN", 24); ("PROT_GROWSUP", 25)].
(** access(2) *)
Definition access_modes : list (string * Z) := [("X_OK", 0); ("W_OK", 1); ("R_OK", 2)].
(** clone(2), setns(2), linux/sched.h *)
Definition clone_flags : list (string * Z) :=
  [("CLONE_VM", 8); ("CLONE_FS", 9); ("CLONE_FILES", 10); ("CLONE_SIGHAND", 11); ("CLONE_PIDFD", 12); ("CLONE_PTRACE", 13);
   ("CLONE_VFORK", 14); ("CLONE_PARENT", 15); ("CLONE_THREAD", 16); ("CLONE_NEWNS", 17); ("CLONE_SYSVSEM", 18); ("CLONE_SETTLS", 19);
   ("CLONE_PARENT_SETTID", 20); ("CLONE_CHILD_CLEARTID", 21); ("CLONE_DETACHED", 22); ("CLONE_UNTRACED", 23); ("CLONE_CHILD_SETTID", 24);
   ("CLONE_NEWCGROUP", 25); ("CLONE_NEWUTS", 26); ("CLONE_NEWIPC", 27); ("CLONE_NEWUSER", 28); ("CLONE_NEWPID", 29); ("CLONE_NEWNET", 30);
   ("CLONE_IO", 31)].

(** The parameters that are flag sets, with the name of the member and the name of a
    value that stands for all of it. *)
Definition flag_params : list (Z * string * string * list (string * Z) * option (Z * string)) :=
  [ (288, "flags", "flags", accept4_flags, None); (56, "flags", "flags", clone_flags, None);
    (254, "mask", "mask", watch_flags, Some (4095, "IN_ALL_EVENTS")); (165, "mountflags", "flags", mount_flags, Some (0, "MS_NONE"));
    (10, "prot", "prot", protections, Some (0, "PROT_NONE")); (45, "flags", "flags", message_flags, None);
    (44, "flags", "flags", message_flags, None); (308, "nstype", "ns_type", clone_flags, None);
    (2, "flags", "flags", open_flags, Some (0, "O_RDONLY")); (257, "flags", "flags", open_flags, Some (0, "O_RDONLY"));
    (21, "mode", "mode", access_modes, Some (0, "F_OK")); (166, "flags", "flags", umount_flags, None);
    (286, "flags", "flags", timerfd_flags, None); (283, "flags", "flags", timerfd_flags, None) ].
Definition flag_param (nr : Z) (label member : string) (tbl : list (string * Z)) (whole : option (Z * string)) : Prop :=
  (nr, label, member, tbl, whole) ∈ flag_params.

(** Flags the program has no name for. *)
Definition unnamed : list (Z * string) :=
  [ (2, "O_LARGEFILE"); (2, "O_PATH"); (2, "O_TMPFILE"); (257, "O_LARGEFILE"); (257, "O_PATH"); (257, "O_TMPFILE");
    (166, "UMOUNT_NOFOLLOW"); (254, "IN_MASK_CREATE");
    (44, "MSG_DONTROUTE"); (44, "MSG_CTRUNC"); (44, "MSG_EOR"); (44, "MSG_CONFIRM"); (44, "MSG_MORE"); (44, "MSG_WAITFORONE"); (44, "MSG_FASTOPEN");
    (45, "MSG_DONTROUTE"); (45, "MSG_CTRUNC"); (45, "MSG_EOR"); (45, "MSG_CONFIRM"); (45, "MSG_MORE"); (45, "MSG_WAITFORONE"); (45, "MSG_FASTOPEN");
    (56, "CLONE_PIDFD"); (56, "CLONE_DETACHED"); (308, "CLONE_PIDFD"); (308, "CLONE_DETACHED") ].
(** Names that also stand for other bits. *)
Definition shared : list (Z * string) := [ (2, "O_SYNC"); (257, "O_SYNC"); (165, "MS_NOUSER") ].

(** * Named numbers *)

(** ptrace(2), linux/ptrace.h, asm/ptrace-abi.h *)
Definition ptrace_requests : list (string * Z) :=
  [("PTRACE_TRACEME", 0); ("PTRACE_PEEKTEXT", 1); ("PTRACE_PEEKDATA", 2); ("PTRACE_PEEKUSER", 3); ("PTRACE_POKETEXT", 4);
   ("PTRACE_POKEDATA", 5); ("PTRACE_POKEUSER", 6); ("PTRACE_CONT", 7); ("PTRACE_KILL", 8); ("PTRACE_SINGLESTEP", 9);
   ("PTRACE_GETREGS", 12); ("PTRACE_SETREGS", 13); ("PTRACE_GETFPREGS", 14); ("PTRACE_SETFPREGS", 15); ("PTRACE_ATTACH", 16);
   ("PTRACE_DETACH", 17); ("PTRACE_SYSCALL", 24); ("PTRACE_GET_THREAD_AREA", 25); ("PTRACE_SET_THREAD_AREA", 26);
   ("PTRACE_ARCH_PRCTL", 30); ("PTRACE_SYSEMU", 31); ("PTRACE_SYSEMU_SINGLESTEP", 32); ("PTRACE_SINGLEBLOCK", 33);
   ("PTRACE_SETOPTIONS", 0x4200); ("PTRACE_GETEVENTMSG", 0x4201); ("PTRACE_GETSIGINFO", 0x4202); ("PTRACE_SETSIGINFO", 0x4203);
   ("PTRACE_GETREGSET", 0x4204); ("PTRACE_SETREGSET", 0x4205); ("PTRACE_SEIZE", 0x4206); ("PTRACE_INTERRUPT", 0x4207);
   ("PTRACE_LISTEN", 0x4208); ("PTRACE_PEEKSIGINFO", 0x4209); ("PTRACE_GETSIGMASK", 0x420a); ("PTRACE_SETSIGMASK", 0x420b);
   ("PTRACE_SECCOMP_GET_FILTER", 0x420c); ("PTRACE_SECCOMP_GET_METADATA", 0x420d); ("PTRACE_GET_SYSCALL_INFO", 0x420e)].
(** getrlimit(2), asm-generic/resource.h *)
Definition resources : list (string * Z) :=
  [("RLIMIT_CPU", 0); ("RLIMIT_FSIZE", 1); ("RLIMIT_DATA", 2); ("RLIMIT_STACK", 3); ("RLIMIT_CORE", 4); ("RLIMIT_RSS", 5);
   ("RLIMIT_NPROC", 6); ("RLIMIT_NOFILE", 7); ("RLIMIT_MEMLOCK", 8); ("RLIMIT_AS", 9); ("RLIMIT_LOCKS", 10); ("RLIMIT_SIGPENDING", 11);
   ("RLIMIT_MSGQUEUE", 12); ("RLIMIT_NICE", 13); ("RLIMIT_RTPRIO", 14); ("RLIMIT_RTTIME", 15)].
(** socket(2), bits/socket.h *)
Definition domains : list (string * Z) :=
  [("AF_UNIX", 1); ("AF_INET", 2); ("AF_AX25", 3); ("AF_IPX", 4); ("AF_APPLETALK", 5); ("AF_X25", 9); ("AF_INET6", 10); ("AF_DECnet", 12);
   ("AF_KEY", 15); ("AF_NETLINK", 16); ("AF_PACKET", 17); ("AF_RDS", 21); ("AF_PPPOX", 24); ("AF_LLC", 26); ("AF_IB", 27); ("AF_MPLS", 28);
   ("AF_CAN", 29); ("AF_TIPC", 30); ("AF_BLUETOOTH", 31); ("AF_ALG", 38); ("AF_VSOCK", 40); ("AF_KCM", 41); ("AF_XDP", 44)].
(** asm-generic/socket.h, linux/socket.h, linux/in.h: the levels and protocols met most *)
Definition levels : list (string * Z) :=
  [("SOL_IP", 0); ("SOL_SOCKET", 1); ("SOL_TCP", 6); ("SOL_UDP", 17); ("SOL_IPV6", 41); ("SOL_ICMPV6", 58); ("SOL_RAW", 255);
   ("SOL_PACKET", 263); ("SOL_NETLINK", 270)].
Definition protocols : list (string * Z) :=
  [("IPPROTO_IP", 0); ("IPPROTO_ICMP", 1); ("IPPROTO_IGMP", 2); ("IPPROTO_TCP", 6); ("IPPROTO_UDP", 17); ("IPPROTO_IPV6", 41); ("IPPROTO_RSVP", 46);
   ("IPPROTO_GRE", 47); ("IPPROTO_ESP", 50); ("IPPROTO_AH", 51); ("IPPROTO_ICMPV6", 58); ("IPPROTO_SCTP", 132); ("IPPROTO_UDPLITE", 136); ("IPPROTO_RAW", 255)].

Definition number_params : list (Z * string * string * list (string * Z)) :=
  [ (101, "request", "request", ptrace_requests); (302, "resource", "resource", resources); (41, "domain", "family", domains);
    (41, "protocol", "protocol", protocols); (55, "level", "level", levels); (54, "level", "level", levels) ].
Definition number_param (nr : Z) (label member : string) (tbl : list (string * Z)) : Prop := (nr, label, member, tbl) ∈ number_params.
(** Those the program has no name for. *)
Definition nameless : list (Z * string) :=
  [ (101, "PTRACE_POKEDATA"); (101, "PTRACE_POKEUSER"); (101, "PTRACE_ARCH_PRCTL"); (101, "PTRACE_SINGLEBLOCK"); (101, "PTRACE_GETSIGMASK");
    (101, "PTRACE_SETSIGMASK"); (101, "PTRACE_SECCOMP_GET_METADATA");
    (41, "AF_X25"); (41, "AF_RDS"); (41, "AF_PPPOX"); (41, "AF_LLC");
    (55, "SOL_UDP"); (55, "SOL_NETLINK"); (54, "SOL_UDP"); (54, "SOL_NETLINK") ].

(** Socket options: level, number, name (socket(7), tcp(7), ip(7), ipv6(7)) *)
Definition options : list (Z * Z * string) :=
  [ (1, 2, "SO_REUSEADDR"); (1, 3, "SO_TYPE"); (1, 4, "SO_ERROR"); (1, 6, "SO_BROADCAST"); (1, 7, "SO_SNDBUF"); (1, 8, "SO_RCVBUF"); (1, 9, "SO_KEEPALIVE");
    (1, 13, "SO_LINGER"); (1, 15, "SO_REUSEPORT"); (1, 17, "SO_PEERCRED"); (1, 20, "SO_RCVTIMEO"); (1, 21, "SO_SNDTIMEO"); (1, 25, "SO_BINDTODEVICE");
    (6, 1, "TCP_NODELAY"); (6, 2, "TCP_MAXSEG"); (6, 3, "TCP_CORK"); (6, 4, "TCP_KEEPIDLE"); (6, 5, "TCP_KEEPINTVL"); (6, 6, "TCP_KEEPCNT");
    (6, 9, "TCP_DEFER_ACCEPT"); (6, 11, "TCP_INFO"); (6, 12, "TCP_QUICKACK"); (6, 13, "TCP_CONGESTION"); (6, 18, "TCP_USER_TIMEOUT");
    (0, 1, "IP_TOS"); (0, 2, "IP_TTL"); (0, 3, "IP_HDRINCL"); (0, 8, "IP_PKTINFO"); (0, 11, "IP_RECVERR"); (0, 19, "IP_TRANSPARENT"); (0, 35, "IP_ADD_MEMBERSHIP");
    (41, 16, "IPV6_UNICAST_HOPS"); (41, 20, "IPV6_ADD_MEMBERSHIP"); (41, 26, "IPV6_V6ONLY") ].

(** Socket types: socket(2) *)
Definition socket_types : list (string * Z) :=
  [("SOCK_STREAM", 1); ("SOCK_DGRAM", 2); ("SOCK_RAW", 3); ("SOCK_RDM", 4); ("SOCK_SEQPACKET", 5); ("SOCK_PACKET", 10)].

(** * Modes *)

(** Permissions as ls -l writes them. *)
Definition permission (v : Z) (i : Z) (c : string) : string := if Z.testbit v i then c else "-".
Definition permissions (v : Z) : string :=
  permission v 8 "r" +:+ permission v 7 "w" +:+ permission v 6 "x" +:+ permission v 5 "r" +:+ permission v 4 "w" +:+ permission v 3 "x"
  +:+ permission v 2 "r" +:+ permission v 1 "w" +:+ permission v 0 "x".

(** creat, mkdir, faccessat *)
Definition mode_calls : list Z := [85; 83; 269].

(** * Structs *)

(** The members of struct stat, rlimit and itimerspec: where they are, their size, whether
    they have a sign. *)
Definition stat_members : list (nat * nat * bool) :=
  [ (0, 8, false) (* st_dev *); (8, 8, false) (* st_ino *); (16, 8, false) (* st_nlink *); (24, 4, false) (* st_mode *); (28, 4, false) (* st_uid *);
    (32, 4, false) (* st_gid *); (36, 4, true) (* padding *); (40, 8, false) (* st_rdev *); (48, 8, true) (* st_size *); (56, 8, true) (* st_blksize *);
    (64, 8, true) (* st_blocks *); (72, 8, true); (80, 8, true) (* st_atim *); (88, 8, true); (96, 8, true) (* st_mtim *);
    (104, 8, true); (112, 8, true) (* st_ctim *); (120, 8, true); (128, 8, true); (136, 8, true) (* unused *) ]%nat.
Definition limit_members : list (nat * nat * bool) := [ (0, 8, false) (* rlim_cur *); (8, 8, false) (* rlim_max *) ]%nat.
Definition timer_members : list (nat * nat * bool) := [ (0, 8, true); (8, 8, true) (* it_interval *); (16, 8, true); (24, 8, true) (* it_value *) ]%nat.
(** A little-endian number of this size, in two's complement if it has a sign. *)
Definition member_value (bs : list Z) (m : nat * nat * bool) : Z :=
  let '(off, size, signed) := m in
  let v := le (take size (drop off bs)) mod 2 ^ (8 * Z.of_nat size) in
  if signed && (2 ^ (8 * Z.of_nat size - 1) <=? v) then v - 2 ^ (8 * Z.of_nat size) else v.
(** Written with a format. *)
Definition formatted (format : string) (members : list (nat * nat * bool)) (bs : list Z) : list Z :=
  printf (fun _ => O) None format (map (fun m => text_bytes (pretty (member_value bs m))) members).

Definition struct_params : list (Z * string * string * nat * string * list (nat * nat * bool)) :=
  [ (5, "statbuf", "stat_buf", 144%nat, "&{%v %v %v %v %v %v %v %v %v %v %v {%v %v} {%v %v} {%v %v} [%v %v %v]}", stat_members);
    (4, "statbuf", "stat_buf", 144%nat, "{%v %v %v %v %v %v %v %v %v %v %v {%v %v} {%v %v} {%v %v} [%v %v %v]}", stat_members);
    (137, "buf", "stat_buf", 144%nat, "{%v %v %v %v %v %v %v %v %v %v %v {%v %v} {%v %v} {%v %v} [%v %v %v]}", stat_members);
    (302, "new_limit", "new", 16%nat, "{%v %v}", limit_members); (302, "old_limit", "old", 16%nat, "{%v %v}", limit_members);
    (286, "new_value", "new", 32%nat, "{{%v %v} {%v %v}}", timer_members); (286, "old_value", "old", 32%nat, "{{%v %v} {%v %v}}", timer_members) ].
Definition struct_param (nr : Z) (label member : string) (size : nat) (format : string) (members : list (nat * nat * bool)) : Prop :=
  (nr, label, member, size, format, members) ∈ struct_params.

(** * Decimals *)

(** [m] thousandths of a unit, with three decimals. *)
Definition decimal3 (m : Z) : string :=
  pretty (m / 1000) +:+ "." +:+ pretty (m / 100 mod 10) +:+ pretty (m / 10 mod 10) +:+ pretty (m mod 10).
