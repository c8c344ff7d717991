(** Turning a raw event into a trace event: DecodeSyscall, the argument decoders,
    and TraceEvent.Ingest.

    The decoders work with unsafe pointers into RawEvent.Arguments.  A read
    outside those 640 bytes has no meaning in Go, so it is [None] here.  A slice
    or pointer that is only stored is kept as its header (where it starts, how
    long it claims to be); reading through it is [show]. *)
From stdpp Require Import base list numbers strings pretty.
From Coq Require Import ZArith Lia.
From Verif Require Import RawModel.

Local Open Scope Z_scope.

(** evArgLen, evArgCount (pkg/event/raw.go 13-14). *)
Definition arg_len : nat := 128.
Definition arg_count : nat := 5.
Definition args_size : nat := (arg_len * arg_count)%nat.

(** RawEvent.Args (raw.go 43-51): a pointer to the start of each slot. *)
Definition slot_start (slot : nat) : nat := (slot * arg_len)%nat.

(** Reading [n] bytes at offset [off] of the argument buffer. *)
Definition read_bytes (args : list Z) (off n : nat) : option (list Z) :=
  if (off + n <=? length args)%nat then Some (take n (drop off args)) else None.

(** How a member of an argument struct is obtained from its slot. *)
Inductive kind :=
| KS32                  (* MakeC32 *)
| KU32                  (* MakeCU32, or MakeC32 converted to a 32-bit unsigned type *)
| KS64                  (* MakeC64, or MakeCU64 converted to int *)
| KU64                  (* MakeCU64 *)
| KStr                  (* MakeCString(slot, arglen) *)
| KSlice (n : nat)      (* MakeCBytes(slot, n) *)
| KSliceMin (cnt : nat) (* MakeCBytes(slot, min(count, arglen)), count the int64 in slot cnt *)
| KSliceMax (len : nat) (* MakeCBytes(slot, max(arglen, len)), len the int64 in slot len *)
| KSock                 (* ( *types.SockAddr)(slot) *)
| KPtr (n : nat)        (* a pointer to a struct of n bytes at the slot *)
| KCopy (n : nat)       (* a copy of the struct of n bytes at the slot *)
| KAddrs                (* the two pointers &data[slot], &data[slot+1] read as numbers *)
| KUnset.               (* a member the decoder never assigns *)

Record field := Field { f_name : string; f_slot : nat; f_kind : kind }.

(** What a decoder stores. *)
Inductive value :=
| VInt (z : Z)
| VStr (bs : list Z)
| VCopy (bs : list Z)
| VSlice (off : nat) (len : Z)
| VSock (off : nat)
| VPtr (off n : nat)
| VAddrs (slot : nat).

(** MakeC32, MakeCU32, MakeC64, MakeCU64 (pkg/types/c.go 35-49). *)
Definition c32 (args : list Z) (off : nat) : option Z :=
  match read_bytes args off 4 with Some bs => Some (s32 (le bs)) | None => None end.
Definition cu32 (args : list Z) (off : nat) : option Z :=
  match read_bytes args off 4 with Some bs => Some (u32 (le bs)) | None => None end.
Definition c64 (args : list Z) (off : nat) : option Z :=
  match read_bytes args off 8 with Some bs => Some (s64 (le bs)) | None => None end.
Definition cu64 (args : list Z) (off : nat) : option Z :=
  match read_bytes args off 8 with Some bs => Some (u64 (le bs)) | None => None end.

Definition vint (z : option Z) : option value :=
  match z with Some z => Some (VInt z) | None => None end.

(** One assignment of a DecodeArguments method. *)
Definition decode_field (args : list Z) (f : field) : option value :=
  let off := slot_start (f_slot f) in
  match f_kind f with
  | KS32 => vint (c32 args off)
  | KU32 => vint (cu32 args off)
  | KS64 => vint (c64 args off)
  | KU64 => vint (cu64 args off)
  | KStr =>
      match read_bytes args off arg_len with
      | Some bs => Some (VStr (make_cstring bs arg_len))
      | None => None
      end
  | KSlice n => Some (VSlice off (Z.of_nat n))
  | KSliceMin cnt =>
      match c64 args (slot_start cnt) with
      | Some count =>
          Some (VSlice off (if count <? Z.of_nat arg_len then count else Z.of_nat arg_len))
      | None => None
      end
  | KSliceMax len =>
      match c64 args (slot_start len) with
      | Some len =>
          Some (VSlice off (if Z.of_nat arg_len <? len then len else Z.of_nat arg_len))
      | None => None
      end
  | KSock => Some (VSock off)
  | KPtr n => Some (VPtr off n)
  | KCopy n =>
      match read_bytes args off n with Some bs => Some (VCopy bs) | None => None end
  | KAddrs => Some (VAddrs (f_slot f))
  | KUnset => Some (VInt 0)
  end.

Fixpoint decode_fields (args : list Z) (fs : list field) : option (list value) :=
  match fs with
  | [] => Some []
  | f :: fs' =>
      match decode_field args f, decode_fields args fs' with
      | Some v, Some vs => Some (v :: vs)
      | _, _ => None
      end
  end.

(** DecodeSyscall (pkg/event/call/syscall.go 13-196) with the DecodeArguments
    method of each case; numbers are those of linux/amd64.  Struct sizes:
    Stat_t 144, Rlimit 16, Itimerspec 32.  Execve's array Argv is shown as
    members argv[0] to argv[2]; its fourth element, and the members of Bind and
    Open that hold a result (Ret) and Recvfrom's OSize, are never assigned. *)
Definition decoders : list (Z * string * list field) :=
  [
    (* accept, accept.go 70-75 *)
    (43, "accept", [Field "fd" 0 KS32; Field "saddr" 1 KSock]);
    (* accept4, accept.go 94-99 *)
    (288, "accept4", [Field "fd" 0 KS32; Field "saddr" 1 KSock; Field "flags" 2 KS32]);
    (* alarm, alarm.go 15-18 *)
    (37, "alarm", [Field "seconds" 0 KU32]);
    (* acct, acct.go 15-18 *)
    (163, "acct", [Field "pathname" 0 KStr]);
    (* brk, brk.go 15-18 *)
    (12, "brk", [Field "addr" 0 KU64]);
    (* connect, connect.go 16-21 *)
    (42, "connect", [Field "fd" 0 KS32; Field "saddr" 1 KSock]);
    (* clone, clone.go 20-28 *)
    (56, "clone", [Field "flags" 0 KS64; Field "new_stack" 1 KU64; Field "child_stack" 2 KU64; Field "parent_stack" 3 KU64; Field "tls" 4 KU64]);
    (* close, close.go 15-18 *)
    (3, "close", [Field "fd" 0 KS32]);
    (* creat, creat.go 17-21 *)
    (85, "creat", [Field "pathname" 0 KStr; Field "mode" 1 KU32]);
    (* exit, exit.go 15-18 *)
    (60, "exit", [Field "code" 0 KS32]);
    (* faccessat, faccessat.go 19-25 *)
    (269, "faccessat", [Field "fd" 0 KS32; Field "pathname" 1 KStr; Field "mode" 2 KU32; Field "flags" 3 KS32]);
    (* fstat, fstat.go 17-22 *)
    (5, "fstat", [Field "fd" 0 KS32; Field "stat_buf" 1 (KPtr 144)]);
    (* ftruncate, ftruncate.go 16-21 *)
    (77, "ftruncate", [Field "fd" 0 KS32; Field "length" 1 KS32]);
    (* futex, futex.go 17-22 *)
    (202, "futex", [Field "uaddr" 0 KU32; Field "op" 1 KS32; Field "val" 2 KU32]);
    (* getcwd, getcwd.go 16-20 *)
    (79, "getcwd", [Field "buf" 0 KStr; Field "size" 1 KS64]);
    (* getpeername, getpeername.go 16-20 *)
    (52, "getpeername", [Field "fd" 0 KS32; Field "saddr" 1 KSock]);
    (* getsockname, getsockname.go 16-20 *)
    (51, "getsockname", [Field "fd" 0 KS32; Field "saddr" 1 KSock]);
    (* getsockopt, sockopt.go 31-47 *)
    (55, "getsockopt", [Field "fd" 0 KS32; Field "level" 1 KS32; Field "name" 2 KS32; Field "val" 3 (KSlice 4); Field "len" 4 KS32]);
    (* init_module, init_module.go 17-22 *)
    (175, "init_module", [Field "name" 0 KStr; Field "len" 1 KS64; Field "params" 2 KStr]);
    (* inotify_add_watch, inotify_add_watch.go 22-27 *)
    (254, "inotify_add_watch", [Field "fd" 0 KS32; Field "pathname" 1 KStr; Field "mask" 2 KU32]);
    (* kill, kill.go 16-21 *)
    (62, "kill", [Field "pid" 0 KS32; Field "sig" 1 KS32]);
    (* link, link.go 16-20 *)
    (86, "link", [Field "old_name" 0 KStr; Field "new_name" 1 KStr]);
    (* listen, listen.go 16-20 *)
    (50, "listen", [Field "sock" 0 KS32; Field "backlog" 1 KS32]);
    (* mincore, mincore.go 17-22 *)
    (27, "mincore", [Field "addr" 0 KU64; Field "len" 1 KS64; Field "vec" 2 KU64]);
    (* mkdir, mkdir.go 18-22 *)
    (83, "mkdir", [Field "pathname" 0 KStr; Field "mode" 1 KU32]);
    (* mount, mount.go 22-28 *)
    (165, "mount", [Field "device" 0 KStr; Field "directory" 1 KStr; Field "type" 2 KStr; Field "flags" 3 KS64]);
    (* mprotect, mprotect.go 21-34 *)
    (10, "mprotect", [Field "addr" 0 KU64; Field "len" 1 KS64; Field "prot" 2 KS32; Field "addr_data" 3 (KSliceMax 1)]);
    (* nanosleep, nanosleep.go 17-21 *)
    (35, "nanosleep", [Field "req" 0 KAddrs; Field "rem" 1 KAddrs]);
    (* pivot_root, pivot_root.go 16-20 *)
    (155, "pivot_root", [Field "new_root" 0 KStr; Field "old_root" 1 KStr]);
    (* prlimit64, prlimit64.go 25-32 *)
    (302, "prlimit64", [Field "pid" 0 KS32; Field "resource" 1 KS32; Field "new" 2 (KCopy 16); Field "old" 3 (KCopy 16)]);
    (* ptrace, ptrace.go 23-30 *)
    (101, "ptrace", [Field "request" 0 KS32; Field "pid" 1 KS32; Field "addr" 2 KU64; Field "data" 3 KU64]);
    (* read, read.go 17-32 *)
    (0, "read", [Field "fd" 0 KS32; Field "buf" 1 (KSliceMin 2); Field "count" 2 KS64]);
    (* readlink, readlink.go 17-32 *)
    (89, "readlink", [Field "pathname" 0 KStr; Field "buf" 1 (KSliceMin 2); Field "size" 2 KS64]);
    (* readlinkat, readlinkat.go 18-34 *)
    (267, "readlinkat", [Field "dir_fd" 0 KS32; Field "pathname" 1 KStr; Field "buf" 2 (KSliceMin 3); Field "size" 3 KS64]);
    (* recvfrom, recvfrom.go 20-30 *)
    (45, "recvfrom", [Field "fd" 0 KS32; Field "ubuf" 1 (KSlice 128); Field "size" 2 KUnset; Field "flags" 3 KU32; Field "saddr" 4 KSock]);
    (* rename, rename.go 16-20 *)
    (82, "rename", [Field "old_name" 0 KStr; Field "new_name" 1 KStr]);
    (* rmdir, rmdir.go 15-18 *)
    (84, "rmdir", [Field "pathname" 0 KStr]);
    (* seccomp, seccomp.go 17-22 *)
    (317, "seccomp", [Field "op" 0 KU32; Field "flags" 1 KU32; Field "args" 2 KStr]);
    (* sendto, sendto.go 19-27 *)
    (44, "sendto", [Field "fd" 0 KS32; Field "ubuf" 1 (KSlice 128); Field "size" 2 KS64; Field "flags" 3 KS32; Field "saddr" 4 KSock]);
    (* setns, setns.go 26-31 *)
    (308, "setns", [Field "fd" 0 KS32; Field "ns_type" 1 KS32]);
    (* setsockopt, sockopt.go 31-47 *)
    (54, "setsockopt", [Field "fd" 0 KS32; Field "level" 1 KS32; Field "name" 2 KS32; Field "val" 3 (KSlice 4); Field "len" 4 KS32]);
    (* bind, bind.go 18-23 *)
    (49, "bind", [Field "fd" 0 KS32; Field "saddr" 1 KSock]);
    (* execve, execve.go 17-23 *)
    (59, "execve", [Field "filename" 0 KStr; Field "argv[0]" 1 KStr; Field "argv[1]" 2 KStr; Field "argv[2]" 3 KStr]);
    (* open, open.go 19-25 *)
    (2, "open", [Field "filename" 0 KStr; Field "flags" 1 KS32; Field "mode" 2 KS32]);
    (* openat, openat.go 18-23 *)
    (257, "openat", [Field "dir_fd" 0 KS32; Field "pathname" 1 KStr; Field "flags" 2 KS32]);
    (* chdir, chdir.go 15-18 *)
    (80, "chdir", [Field "filename" 0 KStr]);
    (* chroot, chroot.go 15-18 *)
    (161, "chroot", [Field "filename" 0 KStr]);
    (* access, access.go 16-20 *)
    (21, "access", [Field "pathname" 0 KStr; Field "mode" 1 KS32]);
    (* write, write.go 17-32 *)
    (1, "write", [Field "fd" 0 KS32; Field "buf" 1 (KSliceMin 2); Field "count" 2 KS64]);
    (* unlink, unlink.go 15-18 *)
    (87, "unlink", [Field "pathname" 0 KStr]);
    (* umount2, umount2.go 16-20 *)
    (166, "umount2", [Field "target" 0 KStr; Field "flags" 1 KS32]);
    (* timerfd_settime, timerfd_settime.go 18-25 *)
    (286, "timerfd_settime", [Field "fd" 0 KS32; Field "flags" 1 KS32; Field "new" 2 (KCopy 32); Field "old" 3 (KCopy 32)]);
    (* timerfd_create, timerfd_create.go 16-20 *)
    (283, "timerfd_create", [Field "clock" 0 KS32; Field "flags" 1 KS32]);
    (* syslog, syslog.go 17-22 *)
    (103, "syslog", [Field "type" 0 KS32; Field "buf" 1 KStr; Field "len" 2 KS32]);
    (* symlink, symlink.go 16-20 *)
    (88, "symlink", [Field "target" 0 KStr; Field "linkpath" 1 KStr]);
    (* statfs, statfs.go 17-21 *)
    (137, "statfs", [Field "path" 0 KStr; Field "stat_buf" 1 (KCopy 144)]);
    (* stat, stat.go 17-21 *)
    (4, "stat", [Field "filename" 0 KStr; Field "stat_buf" 1 (KCopy 144)]);
    (* socket, socket.go 27-33 *)
    (41, "socket", [Field "family" 0 KS32; Field "type" 1 KS32; Field "protocol" 2 KS32]);
    (* setuid, setuid.go 15-18 *)
    (105, "setuid", [Field "uid" 0 KU32])
  ].

Definition decoder (nr : Z) : option (list field) :=
  match List.find (fun e => Z.eqb (fst (fst e)) nr) decoders with
  | Some e => Some (snd e)
  | None => None
  end.

Definition decode_syscall (nr : Z) (args : list Z) : option (option (list value)) :=
  match decoder nr with
  | Some fs => Some (decode_fields args fs)
  | None => None           (* fmt.Errorf("unhandled syscall") *)
  end.

(** Reading through what was decoded: the bytes of a string, slice or struct, the
    text of a socket address.  [None]: outside the buffer, or a negative
    length. *)
Inductive shown :=
| ShInt (z : Z)
| ShBytes (bs : list Z)
| ShSock (text : string * Z)
| ShAddrs (slot : nat).

Definition show (args : list Z) (v : value) : option shown :=
  match v with
  | VInt z => Some (ShInt z)
  | VStr bs | VCopy bs => Some (ShBytes bs)
  | VSlice off len =>
      if len <? 0 then None
      else match read_bytes args off (Z.to_nat len) with
           | Some bs => Some (ShBytes bs)
           | None => None
           end
  | VSock off => Some (ShSock (parse_sockaddr (drop off args)))
  | VPtr off n =>
      match read_bytes args off n with Some bs => Some (ShBytes bs) | None => None end
  | VAddrs slot => Some (ShAddrs slot)
  end.

(** * TraceEvent *)

(** pkg/event/trace.go 18-41, without the container. *)
Record trace_event := TraceEvent {
  t_syscall : Z;
  t_pid : Z; t_tid : Z; t_cpid : Z; t_uid : Z; t_gid : Z;
  t_comm : list Z; t_sid : Z;
  t_error : Z; t_return : Z;
  t_pid_ns : Z; t_uts_ns : Z; t_mnt_ns : Z;
  t_start : Z; t_finish : Z;
  t_argv : list value
}.

Inductive ingest_result := Ingested (t : trace_event) | IngestError | IngestPanic.

(** The dynamic types Ingest distinguishes (trace.go 229-241, raw.go 69-78). *)
Inductive ingest_input := InKernelEvent (bs : list Z) | InBytes (bs : list Z) | InOther.

(** TraceEvent.Ingest (trace.go 225-276).  When DecodeSyscall fails the code
    asserts that its own input, a byte slice, is a call.Function: that panics.
    A read outside the argument buffer would be undefined; it is a panic here.
    int(uint32) and int64(uint64) are as in Go on amd64. *)
Definition ingest (data : ingest_input) : ingest_result :=
  match data with
  | InOther => IngestError
  | InKernelEvent bs | InBytes bs =>
      match ingest_bytes bs with
      | None => IngestError
      | Some r =>
          match decode_syscall (r_syscall r) (r_args r) with
          | None => IngestPanic
          | Some None => IngestPanic
          | Some (Some argv) =>
              Ingested {|
                t_syscall := r_syscall r;
                t_pid := r_pid r; t_tid := r_tid r; t_cpid := r_ns_pid r;
                t_uid := r_uid r; t_gid := r_gid r;
                t_comm := commstr r; t_sid := r_session r;
                t_error := r_errno r; t_return := r_ret r;
                t_pid_ns := r_pid_ns r; t_uts_ns := r_uts_ns r; t_mnt_ns := r_mnt_ns r;
                t_start := s64 (r_start r); t_finish := s64 (r_finish r);
                t_argv := argv
              |}
          end
      end
  end.

(** The syscalls for which TraceEvent.UnmarshalJSON knows the type of the
    arguments (trace.go 77-196), in the order of its switch.  For any other
    number it hands a nil target to json.Unmarshal, which is an error. *)
Definition unmarshal_known : list Z :=
  [43; 288; 37; 163; 12; 42; 56; 3; 85; 60; 269; 5; 77; 202; 79; 52; 51; 55; 175;
   254; 62; 86; 50; 27; 83; 165; 10; 35; 155; 302; 101; 0; 89; 267; 45; 82; 84; 317;
   44; 308; 54; 49; 59; 2; 257; 80; 161; 21; 1; 87; 166; 286; 283; 103; 88; 137; 4;
   41; 105].
