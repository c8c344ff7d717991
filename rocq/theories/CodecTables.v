(** The name tables of the JSON encoders, copied from the source, with the values
    the constants of golang.org/x/sys/unix and syscall have on linux/amd64. *)
From stdpp Require Import base list strings.
From Coq Require Import ZArith String.

Local Open Scope Z_scope.
Local Open Scope string_scope.

(** pkg/types/fileflags.go 11-29. *)
Definition file_masks : list (Z * string) :=
  [(2, "O_RDWR");
   (1, "O_WRONLY");
   (0, "O_RDONLY");
   (1024, "O_APPEND");
   (8192, "O_ASYNC");
   (524288, "O_CLOEXEC");
   (64, "O_CREAT");
   (16384, "O_DIRECT");
   (65536, "O_DIRECTORY");
   (4096, "O_DSYNC");
   (128, "O_EXCL");
   (262144, "O_NOATIME");
   (256, "O_NOCTTY");
   (131072, "O_NOFOLLOW");
   (2048, "O_NONBLOCK");
   (1052672, "O_SYNC");
   (512, "O_TRUNC")].

(** The cases of FileFlags.UnmarshalJSON (pkg/types/fileflags.go 56-104). *)
Definition file_keys : list (string * Z) :=
  [("O_RDWR", 2);
   ("O_WRONLY", 1);
   ("O_RDONLY", 0);
   ("O_APPEND", 1024);
   ("O_ASYNC", 8192);
   ("O_CLOEXEC", 524288);
   ("O_CREAT", 64);
   ("O_DIRECT", 16384);
   ("O_DIRECTORY", 65536);
   ("O_DSYNC", 4096);
   ("O_EXCL", 128);
   ("O_NOATIME", 262144);
   ("O_NOCTTY", 256);
   ("O_NOFOLLOW", 131072);
   ("O_NONBLOCK", 2048);
   ("O_SYNC", 1052672);
   ("O_TRUNC", 512)].

(** pkg/types/umountflags.go 11-15. *)
Definition umount_masks : list (Z * string) :=
  [(1, "MNT_FORCE");
   (2, "MNT_DETACH");
   (4, "MNT_EXPIRE")].

(** The cases of UmountFlags.UnmarshalJSON (pkg/types/umountflags.go 38-57). *)
Definition umount_keys : list (string * Z) :=
  [("MNT_FORCE", 1);
   ("MNT_DETACH", 2);
   ("MNT_EXPIRE", 4)].

(** pkg/types/clocktypes.go 20-25. *)
Definition timer_masks : list (Z * string) :=
  [(524288, "TFD_CLOEXEC");
   (2048, "TFD_NONBLOCK");
   (1, "TFD_TIMER_ABSTIME");
   (2, "TFD_TIMER_CANCEL_ON_SET")].

(** The cases of TimerFlags.UnmarshalJSON (pkg/types/clocktypes.go 68-89). *)
Definition timer_keys : list (string * Z) :=
  [("TFD_CLOEXEC", 524288);
   ("TFD_NONBLOCK", 2048);
   ("TFD_TIMER_ABSTIME", 1);
   ("TFD_TIMER_CANCEL_ON_SET", 2)].

(** pkg/types/msgflags.go 12-21. *)
Definition msg_masks : list (Z * string) :=
  [(1073741824, "MSG_CMSG_CLOEXEC");
   (64, "MSG_DONTWAIT");
   (8192, "MSG_ERRQUEUE");
   (1, "MSG_OOB");
   (2, "MSG_PEEK");
   (32, "MSG_TRUNC");
   (256, "MSG_WAITALL");
   (16384, "MSG_NOSIGNAL")].

(** The cases of MsgFlags.UnmarshalJSON (pkg/types/msgflags.go 50-79). *)
Definition msg_keys : list (string * Z) :=
  [("MSG_CMSG_CLOEXEC", 1073741824);
   ("MSG_DONTWAIT", 64);
   ("MSG_ERRQUEUE", 8192);
   ("MSG_OOB", 1);
   ("MSG_PEEK", 2);
   ("MSG_TRUNC", 32);
   ("MSG_WAITALL", 256);
   ("MSG_NOSIGNAL", 16384)].

(** pkg/event/call/accept.go 25-28. *)
Definition accept_masks : list (Z * string) :=
  [(2048, "SOCK_NONBLOCK");
   (524288, "SOCK_CLOEXEC")].

(** The cases of AcceptFlags.UnmarshalJSON (pkg/event/call/accept.go 51-67). *)
Definition accept_keys : list (string * Z) :=
  [("SOCK_NONBLOCK", 2048);
   ("SOCK_CLOEXEC", 524288)].

(** pkg/event/call/mount.go 39-70. *)
Definition mount_masks : list (Z * string) :=
  [(1, "MS_RDONLY");
   (2, "MS_NOSUID");
   (4, "MS_NODEV");
   (8, "MS_NOEXEC");
   (16, "MS_SYNCHRONOUS");
   (32, "MS_REMOUNT");
   (64, "MS_MANDLOCK");
   (128, "MS_DIRSYNC");
   (1024, "MS_NOATIME");
   (2048, "MS_NODIRATIME");
   (4096, "MS_BIND");
   (8192, "MS_MOVE");
   (16384, "MS_REC");
   (32768, "MS_VERBOSE");
   (65536, "MS_POSIXACL");
   (131072, "MS_UNBINDABLE");
   (262144, "MS_PRIVATE");
   (524288, "MS_SLAVE");
   (1048576, "MS_SHARED");
   (2097152, "MS_RELATIME");
   (4194304, "MS_KERNMOUNT");
   (8388608, "MS_I_VERSION");
   (16777216, "MS_STRICTATIME");
   (33554432, "MS_LAZYTIME");
   (67108864, "MS_SUBMOUNT");
   (134217728, "MS_NOREMOTELOCK");
   (268435456, "MS_NOSEC");
   (536870912, "MS_BORN");
   (1073741824, "MS_ACTIVE");
   ((-2147483648), "MS_NOUSER")].

(** The cases of MountFlags.UnmarshalJSON (pkg/event/call/mount.go 97-170), but MS_NONE. *)
Definition mount_keys : list (string * Z) :=
  [("MS_LAZYTIME", 33554432);
   ("MS_SUBMOUNT", 67108864);
   ("MS_NOREMOTELOCK", 134217728);
   ("MS_NOSEC", 268435456);
   ("MS_BORN", 536870912);
   ("MS_ACTIVE", 1073741824);
   ("MS_NOUSER", (-2147483648));
   ("MS_STRICTATIME", 16777216);
   ("MS_RDONLY", 1);
   ("MS_NOSUID", 2);
   ("MS_NODEV", 4);
   ("MS_NOEXEC", 8);
   ("MS_SYNCHRONOUS", 16);
   ("MS_REMOUNT", 32);
   ("MS_MANDLOCK", 64);
   ("MS_DIRSYNC", 128);
   ("MS_NOATIME", 1024);
   ("MS_NODIRATIME", 2048);
   ("MS_BIND", 4096);
   ("MS_MOVE", 8192);
   ("MS_REC", 16384);
   ("MS_VERBOSE", 32768);
   ("MS_POSIXACL", 65536);
   ("MS_UNBINDABLE", 131072);
   ("MS_PRIVATE", 262144);
   ("MS_SLAVE", 524288);
   ("MS_SHARED", 1048576);
   ("MS_RELATIME", 2097152);
   ("MS_KERNMOUNT", 4194304);
   ("MS_I_VERSION", 8388608)].

(** pkg/event/call/inotify_add_watch.go 37-55. *)
Definition inotify_masks : list (Z * string) :=
  [(1, "IN_ACCESS");
   (4, "IN_ATTRIB");
   (8, "IN_CLOSE_WRITE");
   (16, "IN_CLOSE_NOWRITE");
   (256, "IN_CREATE");
   (512, "IN_DELETE");
   (1024, "IN_DELETE_SELF");
   (2, "IN_MODIFY");
   (2048, "IN_MOVE_SELF");
   (64, "IN_MOVED_FROM");
   (128, "IN_MOVED_TO");
   (32, "IN_OPEN");
   (33554432, "IN_DONT_FOLLOW");
   (67108864, "IN_EXCL_UNLINK");
   (536870912, "IN_MASK_ADD");
   (2147483648, "IN_ONESHOT");
   (16777216, "IN_ONLYDIR")].

(** The cases of InotifyMask.UnmarshalJSON (pkg/event/call/inotify_add_watch.go 82-135). *)
Definition inotify_keys : list (string * Z) :=
  [("IN_ALL_EVENTS", 4095);
   ("IN_ACCESS", 1);
   ("IN_ATTRIB", 4);
   ("IN_CLOSE_WRITE", 8);
   ("IN_CLOSE_NOWRITE", 16);
   ("IN_CREATE", 256);
   ("IN_DELETE", 512);
   ("IN_DELETE_SELF", 1024);
   ("IN_MODIFY", 2);
   ("IN_MOVE_SELF", 2048);
   ("IN_MOVED_FROM", 64);
   ("IN_MOVED_TO", 128);
   ("IN_OPEN", 32);
   ("IN_DONT_FOLLOW", 33554432);
   ("IN_EXCL_UNLINK", 67108864);
   ("IN_MASK_ADD", 536870912);
   ("IN_ONESHOT", 2147483648);
   ("IN_ONLYDIR", 16777216)].

(** sockFamilyMap, pkg/event/call/socket.go 125-154. *)
Definition family_names : list (Z * string) :=
  [(2, "AF_INET");
   (10, "AF_INET6");
   (16, "AF_NETLINK");
   (38, "AF_ALG");
   (5, "AF_APPLETALK");
   (18, "AF_ASH");
   (8, "AF_ATMPVC");
   (20, "AF_ATMSVC");
   (3, "AF_AX25");
   (31, "AF_BLUETOOTH");
   (7, "AF_BRIDGE");
   (37, "AF_CAIF");
   (29, "AF_CAN");
   (12, "AF_DECnet");
   (19, "AF_ECONET");
   (27, "AF_IB");
   (4, "AF_IPX");
   (23, "AF_IRDA");
   (34, "AF_ISDN");
   (41, "AF_KCM");
   (15, "AF_KEY");
   (28, "AF_MPLS");
   (13, "AF_NETBEUI");
   (30, "AF_TIPC");
   (17, "AF_PACKET");
   (1, "AF_UNIX");
   (40, "AF_VSOCK");
   (44, "AF_XDP")].

(** sockProtoMap, pkg/event/call/socket.go 193-220. *)
Definition proto_names : list (Z * string) :=
  [(51, "IPPROTO_AH");
   (108, "IPPROTO_COMP");
   (33, "IPPROTO_DCCP");
   (60, "IPPROTO_DSTOPTS");
   (8, "IPPROTO_EGP");
   (98, "IPPROTO_ENCAP");
   (50, "IPPROTO_ESP");
   (44, "IPPROTO_FRAGMENT");
   (47, "IPPROTO_GRE");
   (1, "IPPROTO_ICMP");
   (58, "IPPROTO_ICMPV6");
   (22, "IPPROTO_IDP");
   (2, "IPPROTO_IGMP");
   (0, "IPPROTO_IP");
   (4, "IPPROTO_IPIP");
   (41, "IPPROTO_IPV6");
   (92, "IPPROTO_MTP");
   (59, "IPPROTO_NONE");
   (255, "IPPROTO_RAW");
   (43, "IPPROTO_ROUTING");
   (46, "IPPROTO_RSVP");
   (132, "IPPROTO_SCTP");
   (6, "IPPROTO_TCP");
   (29, "IPPROTO_TP");
   (17, "IPPROTO_UDP");
   (136, "IPPROTO_UDPLITE")].

(** sockLevelMap, pkg/event/call/sockopt.go 69-82. *)
Definition level_names : list (Z * string) :=
  [(265, "SOL_AAL");
   (264, "SOL_ATM");
   (261, "SOL_DECNET");
   (58, "SOL_ICMPV6");
   (0, "SOL_IP");
   (41, "SOL_IPV6");
   (266, "SOL_IRDA");
   (263, "SOL_PACKET");
   (255, "SOL_RAW");
   (1, "SOL_SOCKET");
   (6, "SOL_TCP");
   (262, "SOL_X25")].

(** socketOpMasks, pkg/event/call/sockopt.go 121-163. *)
Definition so_names : list (Z * string) :=
  [(30, "SO_ACCEPTCONN");
   (26, "SO_ATTACH_FILTER");
   (50, "SO_ATTACH_BPF");
   (51, "SO_ATTACH_REUSEPORT_CBPF");
   (52, "SO_ATTACH_REUSEPORT_EBPF");
   (25, "SO_BINDTODEVICE");
   (6, "SO_BROADCAST");
   (14, "SO_BSDCOMPAT");
   (1, "SO_DEBUG");
   (27, "SO_DETACH_FILTER");
   (39, "SO_DOMAIN");
   (4, "SO_ERROR");
   (5, "SO_DONTROUTE");
   (49, "SO_INCOMING_CPU");
   (9, "SO_KEEPALIVE");
   (13, "SO_LINGER");
   (44, "SO_LOCK_FILTER");
   (36, "SO_MARK");
   (10, "SO_OOBINLINE");
   (16, "SO_PASSCRED");
   (42, "SO_PEEK_OFF");
   (17, "SO_PEERCRED");
   (12, "SO_PRIORITY");
   (38, "SO_PROTOCOL");
   (8, "SO_RCVBUF");
   (33, "SO_RCVBUFFORCE");
   (18, "SO_RCVLOWAT");
   (19, "SO_SNDLOWAT");
   (20, "SO_RCVTIMEO");
   (21, "SO_SNDTIMEO");
   (2, "SO_REUSEADDR");
   (15, "SO_REUSEPORT");
   (40, "SO_RXQ_OVFL");
   (7, "SO_SNDBUF");
   (31, "SO_PEERSEC");
   (32, "SO_SNDBUFFORCE");
   (29, "SO_TIMESTAMP");
   (3, "SO_TYPE");
   (46, "SO_BUSY_POLL");
   (59, "SO_PEERGROUPS");
   (28, "SO_PEERNAME")].

(** tcpOpMasks, pkg/event/call/sockopt.go 174-190. *)
Definition tcp_names : list (Z * string) :=
  [(13, "TCP_CONGESTION");
   (3, "TCP_CORK");
   (9, "TCP_DEFER_ACCEPT");
   (11, "TCP_INFO");
   (6, "TCP_KEEPCNT");
   (4, "TCP_KEEPIDLE");
   (5, "TCP_KEEPINTVL");
   (8, "TCP_LINGER2");
   (2, "TCP_MAXSEG");
   (1, "TCP_NODELAY");
   (12, "TCP_QUICKACK");
   (7, "TCP_SYNCNT");
   (18, "TCP_USER_TIMEOUT");
   (10, "TCP_WINDOW_CLAMP");
   (17, "TCP_THIN_DUPACK")].

(** ipOpMasks, pkg/event/call/sockopt.go 201-232. *)
Definition ip_names : list (Z * string) :=
  [(35, "IP_ADD_MEMBERSHIP");
   (39, "IP_ADD_SOURCE_MEMBERSHIP");
   (24, "IP_BIND_ADDRESS_NO_PORT");
   (38, "IP_BLOCK_SOURCE");
   (36, "IP_DROP_MEMBERSHIP");
   (40, "IP_DROP_SOURCE_MEMBERSHIP");
   (15, "IP_FREEBIND");
   (3, "IP_HDRINCL");
   (41, "IP_MSFILTER");
   (14, "IP_MTU");
   (10, "IP_MTU_DISCOVER");
   (49, "IP_MULTICAST_ALL");
   (32, "IP_MULTICAST_IF");
   (34, "IP_MULTICAST_LOOP");
   (33, "IP_MULTICAST_TTL");
   (22, "IP_NODEFRAG");
   (4, "IP_OPTIONS");
   (8, "IP_PKTINFO");
   (11, "IP_RECVERR");
   (6, "IP_RECVOPTS");
   (20, "IP_RECVORIGDSTADDR");
   (13, "IP_RECVTOS");
   (12, "IP_RECVTTL");
   (7, "IP_RETOPTS");
   (5, "IP_ROUTER_ALERT");
   (1, "IP_TOS");
   (19, "IP_TRANSPARENT");
   (37, "IP_UNBLOCK_SOURCE");
   (2, "IP_TTL");
   (50, "IP_UNICAST_IF")].

(** ip6OpMasks, pkg/event/call/sockopt.go 243-263. *)
Definition ip6_names : list (Z * string) :=
  [(1, "IPV6_ADDRFORM");
   (20, "IPV6_ADD_MEMBERSHIP");
   (21, "IPV6_DROP_MEMBERSHIP");
   (24, "IPV6_MTU");
   (23, "IPV6_MTU_DISCOVER");
   (18, "IPV6_MULTICAST_HOPS");
   (17, "IPV6_MULTICAST_IF");
   (19, "IPV6_MULTICAST_LOOP");
   (49, "IPV6_RECVPKTINFO");
   (57, "IPV6_RTHDR");
   (10, "IPV6_AUTHHDR");
   (59, "IPV6_DSTOPTS");
   (54, "IPV6_HOPOPTS");
   (52, "IPV6_HOPLIMIT");
   (25, "IPV6_RECVERR");
   (22, "IPV6_ROUTER_ALERT");
   (16, "IPV6_UNICAST_HOPS");
   (26, "IPV6_V6ONLY")].

(** PRresource.Parse, pkg/event/call/prlimit64.go 55-96. *)
Definition resource_names : list (Z * string) :=
  [(9, "RLIMIT_AS");
   (4, "RLIMIT_CORE");
   (0, "RLIMIT_CPU");
   (2, "RLIMIT_DATA");
   (1, "RLIMIT_FSIZE");
   (7, "RLIMIT_NOFILE");
   (3, "RLIMIT_STACK");
   (5, "RLIMIT_RSS");
   (6, "RLIMIT_NPROC");
   (8, "RLIMIT_MEMLOCK");
   (10, "RLIMIT_LOCKS");
   (11, "RLIMIT_SIGPENDING");
   (12, "RLIMIT_MSGQUEUE");
   (13, "RLIMIT_NICE");
   (14, "RLIMIT_RTPRIO");
   (15, "RLIMIT_RTTIME")].

(** The cases of PRresource.UnmarshalJSON, prlimit64.go 102-148. *)
Definition resource_keys : list (string * Z) :=
  [("RLIMIT_AS", 9);
   ("RLIMIT_CORE", 4);
   ("RLIMIT_CPU", 0);
   ("RLIMIT_DATA", 2);
   ("RLIMIT_FSIZE", 1);
   ("RLIMIT_NOFILE", 7);
   ("RLIMIT_STACK", 3);
   ("RLIMIT_RSS", 5);
   ("RLIMIT_NPROC", 6);
   ("RLIMIT_MEMLOCK", 8);
   ("RLIMIT_LOCKS", 10);
   ("RLIMIT_SIGPENDING", 11);
   ("RLIMIT_MSGQUEUE", 12);
   ("RLIMIT_NICE", 13);
   ("RLIMIT_RTPRIO", 14);
   ("RLIMIT_RTTIME", 15)].

(** errnoVals, pkg/types/errno.go 200-335, with the constants of 62-198. *)
Definition errno_names : list (Z * string) :=
  [((-1), "UNK");
   (0, "OK");
   (1, "EPERM");
   (2, "ENOENT");
   (3, "ESRCH");
   (4, "EINTR");
   (5, "EIO");
   (6, "ENXIO");
   (7, "E2BIG");
   (8, "ENOEXEC");
   (9, "EBADF");
   (10, "ECHILD");
   (11, "EAGAIN");
   (12, "ENOMEM");
   (13, "EACCES");
   (14, "EFAULT");
   (15, "ENOTBLK");
   (16, "EBUSY");
   (17, "EEXIST");
   (18, "EXDEV");
   (19, "ENODEV");
   (20, "ENOTDIR");
   (21, "EISDIR");
   (22, "EINVAL");
   (23, "ENFILE");
   (24, "EMFILE");
   (25, "ENOTTY");
   (26, "ETXTBSY");
   (27, "EFBIG");
   (28, "ENOSPC");
   (29, "ESPIPE");
   (30, "EROFS");
   (31, "EMLINK");
   (32, "EPIPE");
   (33, "EDOM");
   (34, "ERANGE");
   (35, "EDEADLK");
   (36, "ENAMETOOLONG");
   (37, "ENOLCK");
   (38, "ENOSYS");
   (39, "ENOTEMPTY");
   (40, "ELOOP");
   (42, "ENOMSG");
   (43, "EIDRM");
   (44, "ECHRNG");
   (45, "EL2NSYNC");
   (46, "EL3HLT");
   (47, "EL3RST");
   (48, "ELNRNG");
   (49, "EUNATCH");
   (50, "ENOCSI");
   (51, "EL2HLT");
   (52, "EBADE");
   (53, "EBADR");
   (54, "EXFULL");
   (55, "ENOANO");
   (56, "EBADRQC");
   (57, "EBADSLT");
   (59, "EBFONT");
   (60, "ENOSTR");
   (61, "ENODATA");
   (62, "ETIME");
   (63, "ENOSR");
   (64, "ENONET");
   (65, "ENOPKG");
   (66, "EREMOTE");
   (67, "ENOLINK");
   (68, "EADV");
   (69, "ESRMNT");
   (70, "ECOMM");
   (71, "EPROTO");
   (72, "EMULTIHOP");
   (73, "EDOTDOT");
   (74, "EBADMSG");
   (75, "EOVERFLOW");
   (76, "ENOTUNIQ");
   (77, "EBADFD");
   (78, "EREMCHG");
   (79, "ELIBACC");
   (80, "ELIBBAD");
   (81, "ELIBSCN");
   (82, "ELIBMAX");
   (83, "ELIBEXEC");
   (84, "EILSEQ");
   (85, "ERESTART");
   (86, "ESTRPIPE");
   (87, "EUSERS");
   (88, "ENOTSOCK");
   (89, "EDESTADDRREQ");
   (90, "EMSGSIZE");
   (91, "EPROTOTYPE");
   (92, "ENOPROTOOPT");
   (93, "EPROTONOSUPPORT");
   (94, "ESOCKTNOSUPPORT");
   (95, "EOPNOTSUPP");
   (96, "EPFNOSUPPORT");
   (97, "EAFNOSUPPORT");
   (98, "EADDRINUSE");
   (99, "EADDRNOTAVAIL");
   (100, "ENETDOWN");
   (101, "ENETUNREACH");
   (102, "ENETRESET");
   (103, "ECONNABORTED");
   (104, "ECONNRESET");
   (105, "ENOBUFS");
   (106, "EISCONN");
   (107, "ENOTCONN");
   (108, "ESHUTDOWN");
   (109, "ETOOMANYREFS");
   (110, "ETIMEDOUT");
   (111, "ECONNREFUSED");
   (112, "EHOSTDOWN");
   (113, "EHOSTUNREACH");
   (114, "EALREADY");
   (115, "EINPROGRESS");
   (116, "ESTALE");
   (117, "EUCLEAN");
   (118, "ENOTNAM");
   (119, "ENAVAIL");
   (120, "EISNAM");
   (122, "EDQUOT");
   (126, "ENOKEY");
   (132, "ERFKILL");
   (123, "ENOMEDIUM");
   (121, "EREMOTEIO");
   (125, "ECANCELED");
   (133, "EHWPOISON");
   (130, "EOWNERDEAD");
   (124, "EMEDIUMTYPE");
   (127, "EKEYEXPIRED");
   (128, "EKEYREVOKED");
   (129, "EKEYREJECTED");
   (131, "ENOTRECOVERABLE");
   (512, "ERESTARTSYS")].
