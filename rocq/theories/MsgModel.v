(** The text of the message the server sends for an event: what c.WriteJSON(ev)
    writes (cmd/server.go 214, 253), encoding/json over TraceEvent
    (pkg/event/trace.go 18-34), types.Container (pkg/types/container.go 5-15),
    syscalls.Syscall (pkg/syscalls/syscalls.go 10-15) and the argument structs of
    pkg/event/call.

    Text is a list of bytes.  syscall.Stat_t and syscall.Rlimit are those of Go on
    linux/amd64. *)
From Coq Require Import ZArith String Ascii Lia.
From stdpp Require Import base list numbers strings pretty gmap.
From Verif Require Import SyscallModel TopoModel RawModel CodecTables CodecModel JsonModel LineModel
  DecodeModel.

Local Open Scope string_scope.
Local Open Scope list_scope.
Local Open Scope Z_scope.

(** * encoding/json's texts *)

Definition hexd (d : Z) : Z := if d <? 10 then 48 + d else 87 + d.

(** encodeState.string with escapeHTML, as json.Marshal and json.NewEncoder have it:
    one byte below 0x80. *)
Definition esc_byte (b : Z) : list Z :=
  if (b =? 34) || (b =? 92) then [92; b]
  else if b =? 10 then [92; 110]
  else if b =? 13 then [92; 114]
  else if b =? 9 then [92; 116]
  else if (b <? 32) || (b =? 60) || (b =? 62) || (b =? 38)
       then txt "\u00" ++ [hexd (b / 16); hexd (b mod 16)]
  else [b].

(** U+2028 and U+2029 are escaped too. *)
Definition line_sep (b0 b1 b2 : Z) : bool :=
  (b0 =? 226) && (b1 =? 128) && ((b2 =? 168) || (b2 =? 169)).

(** encodeState.string: the bytes between the quotes.  A byte that is not part of a
    well-formed sequence becomes \ufffd (JsonModel.json_text is what a reader makes
    of it). *)
Fixpoint esc (bs : list Z) : list Z :=
  match bs with
  | [] => []
  | b0 :: t =>
      if b0 <? 128 then esc_byte b0 ++ esc t
      else match t with
      | b1 :: t1 =>
          if seq2 b0 b1 then b0 :: b1 :: esc t1
          else match t1 with
          | b2 :: t2 =>
              if seq3 b0 b1 b2
              then (if line_sep b0 b1 b2 then txt "\u202" ++ [b2 - 112] else [b0; b1; b2])
                   ++ esc t2
              else match t2 with
              | b3 :: t3 =>
                  if seq4 b0 b1 b2 b3 then b0 :: b1 :: b2 :: b3 :: esc t3
                  else txt "\ufffd" ++ esc t
              | [] => txt "\ufffd" ++ esc t
              end
          | [] => txt "\ufffd" ++ esc t
          end
      | [] => txt "\ufffd" ++ esc t
      end
  end.

Definition quote (bs : list Z) : list Z := [34] ++ esc bs ++ [34].

(** A Go string whose bytes are the characters of [s]. *)
Definition qs (s : string) : list Z := quote (txt s).

Definition num (z : Z) : list Z := txt (pretty z).

(** Items separated by commas. *)
Fixpoint commas (l : list (list Z)) : list Z :=
  match l with
  | [] => []
  | [x] => x
  | x :: l' => x ++ [44] ++ commas l'
  end.

Definition arr (l : list (list Z)) : list Z := [91] ++ commas l ++ [93].
Definition obj (l : list (string * list Z)) : list Z :=
  [123] ++ commas (map (fun e => qs (fst e) ++ [58] ++ snd e) l) ++ [125].

(** base64.StdEncoding, which encoding/json uses for []byte. *)
Definition b64_char (v : Z) : Z :=
  if v <? 26 then 65 + v else if v <? 52 then 71 + v else if v <? 62 then v - 4
  else if v =? 62 then 43 else 47.
Fixpoint b64 (bs : list Z) : list Z :=
  match bs with
  | [] => []
  | [a] => [b64_char (a / 4); b64_char (a mod 4 * 16); 61; 61]
  | [a; b] => [b64_char (a / 4); b64_char (a mod 4 * 16 + b / 16); b64_char (b mod 16 * 4); 61]
  | a :: b :: c :: t =>
      [b64_char (a / 4); b64_char (a mod 4 * 16 + b / 16);
       b64_char (b mod 16 * 4 + c / 64); b64_char (c mod 64)] ++ b64 t
  end.

(** * Members of the argument structs *)

(** [j_order]: the order in which the loops over Go maps meet the entries of a
    table; [j_base]: the address of the arguments' buffer; [j_heap]: the memory
    behind it, as far as it can be read. *)
Record jparams := JParams {
  j_order : list (Z * string) -> list (Z * string);
  j_base : Z;
  j_heap : list Z
}.

(** SockAddr.MarshalJSON (sockaddr.go 75-87): Family, Data, decoded. *)
Definition sock_text (mem : list Z) : list Z :=
  obj [("Family", num (le (take 2 mem)));
       ("Data", arr (map (fun b => num (s8 b)) (take 14 (drop 2 mem))));
       ("decoded", qs (sockaddr_string mem))].

(** A number, by the JSON method of its type. *)
Definition int_text (p : jparams) (args : list Z) (nr : Z) (name : string) (z : Z) : list Z :=
  match jtype_of nr name with
  | JPlain => num z
  | JFlags c => arr (map qs (encode c (j_order p (c_masks c)) z))
  | JNames names => qs (render names z)
  | JResource => qs (render resource_names z)
  | JSockType => arr (map qs (encode_socktype z))
  | JOption => qs (render_option (option_level args) z)
  end.

(** Structs of numbers.  types.Timespec and Itimerspec (clocktypes.go 37-45). *)
Definition s64_at (bs : list Z) (off : nat) : list Z := num (s64 (le (take 8 (drop off bs)))).
Definition u64_at (bs : list Z) (off : nat) : list Z := num (u64 (le (take 8 (drop off bs)))).
Definition s32_at (bs : list Z) (off : nat) : list Z := num (s32 (le (take 4 (drop off bs)))).
Definition u32_at (bs : list Z) (off : nat) : list Z := num (u32 (le (take 4 (drop off bs)))).
Definition timespec_text (sec nsec : list Z) : list Z := obj [("Sec", sec); ("Nsec", nsec)].
Definition timespec_at (bs : list Z) (off : nat) : list Z :=
  timespec_text (s64_at bs off) (s64_at bs (off + 8)).
Definition itimerspec_text (bs : list Z) : list Z :=
  obj [("Interval", timespec_at bs 0); ("Value", timespec_at bs 16)].
(** Rlimit (prlimit64.go 13). *)
Definition rlimit_text (bs : list Z) : list Z := obj [("Cur", u64_at bs 0); ("Max", u64_at bs 8)].
(** syscall.Stat_t. *)
Definition stat_text (bs : list Z) : list Z :=
  obj [("Dev", u64_at bs 0); ("Ino", u64_at bs 8); ("Nlink", u64_at bs 16); ("Mode", u32_at bs 24);
       ("Uid", u32_at bs 28); ("Gid", u32_at bs 32); ("X__pad0", s32_at bs 36); ("Rdev", u64_at bs 40);
       ("Size", s64_at bs 48); ("Blksize", s64_at bs 56); ("Blocks", s64_at bs 64);
       ("Atim", timespec_at bs 72); ("Mtim", timespec_at bs 88); ("Ctim", timespec_at bs 104);
       ("X__unused", arr [s64_at bs 120; s64_at bs 128; s64_at bs 136])].
(** The struct members of prlimit64 (prlimit64.go 19-20), timerfd_settime
    (timerfd_settime.go 12-13), stat, fstat and statfs (stat.go 12, fstat.go 12,
    statfs.go 12). *)
Definition struct_text (nr : Z) (bs : list Z) : list Z :=
  if nr =? 302 then rlimit_text bs else if nr =? 286 then itimerspec_text bs else stat_text bs.
(** nanosleep's structs hold the addresses of two slots (nanosleep.go 18-19). *)
Definition slot_address (p : jparams) (slot : nat) : list Z := num (s64 (j_base p + Z.of_nat (slot_start slot))).

(** A buffer is the memory from the slot on (c.go 9-18), whatever its length. *)
Definition member_text (p : jparams) (args : list Z) (nr : Z) (name : string) (v : value)
  : list Z :=
  match v with
  | VInt z => int_text p args nr name z
  | VStr bs => quote bs
  | VSlice off len => [34] ++ b64 (take (Z.to_nat len) (drop off args ++ j_heap p)) ++ [34]
  | VSock off => sock_text (drop off args ++ j_heap p)
  | VCopy bs => struct_text nr bs
  | VPtr off n => struct_text nr (take n (drop off args))
  | VAddrs slot => timespec_text (slot_address p slot) (slot_address p (S slot))
  end.

(** The exported fields of a struct in the order encoding/json writes them:
    under [name] the member called [member] in DecodeModel.decoders; a number that
    is never assigned; execve's array of four strings, the last never assigned. *)
Inductive jfield := JOf (name member : string) | JZero (name : string)
  | JWords (name : string) (members : list string).

(** Each struct, and the name it is nested under (getsockopt.go 3-5). *)
Definition json_structs : list (Z * option string * list jfield) :=
  [
    (* accept, accept.go 14-17 *)
    (43, None, [JOf "fd" "fd"; JOf "saddr" "saddr"]);
    (* accept4, accept.go 19-23 *)
    (288, None, [JOf "fd" "fd"; JOf "saddr" "saddr"; JOf "flags" "flags"]);
    (* alarm, alarm.go 9-11 *)
    (37, None, [JOf "seconds" "seconds"]);
    (* acct, acct.go 9-11 *)
    (163, None, [JOf "pathname" "pathname"]);
    (* brk, brk.go 9-11 *)
    (12, None, [JOf "addr" "addr"]);
    (* connect, connect.go 9-12 *)
    (42, None, [JOf "fd" "fd"; JOf "Saddr" "saddr"]);
    (* clone, clone.go 10-16 *)
    (56, None, [JOf "flags" "flags"; JOf "new_stack" "new_stack"; JOf "child_stack" "child_stack"; JOf "parent_stack" "parent_stack"; JOf "tls" "tls"]);
    (* close, close.go 9-11 *)
    (3, None, [JOf "FD" "fd"]);
    (* creat, creat.go 10-13 *)
    (85, None, [JOf "pathname" "pathname"; JOf "mode" "mode"]);
    (* exit, exit.go 9-11 *)
    (60, None, [JOf "code" "code"]);
    (* faccessat, faccessat.go 10-15 *)
    (269, None, [JOf "fd" "fd"; JOf "pathname" "pathname"; JOf "mode" "mode"; JOf "flags" "flags"]);
    (* fstat, fstat.go 10-13 *)
    (5, None, [JOf "fd" "fd"; JOf "stat_buf" "stat_buf"]);
    (* ftruncate, ftruncate.go 9-12 *)
    (77, None, [JOf "fd" "fd"; JOf "length" "length"]);
    (* futex, futex.go 9-13 *)
    (202, None, [JOf "uaddr" "uaddr"; JOf "op" "op"; JOf "val" "val"]);
    (* getcwd, getcwd.go 9-12 *)
    (79, None, [JOf "buf" "buf"; JOf "size" "size"]);
    (* getpeername, getpeername.go 9-12 *)
    (52, None, [JOf "fd" "fd"; JOf "saddr" "saddr"]);
    (* getsockname, getsockname.go 9-12 *)
    (51, None, [JOf "fd" "fd"; JOf "saddr" "saddr"]);
    (* getsockopt, getsockopt.go 3-5, sockopt.go 23-29 *)
    (55, Some "sockopt", [JOf "fd" "fd"; JOf "level" "level"; JOf "name" "name"; JOf "val" "val"; JOf "len" "len"]);
    (* init_module, init_module.go 9-13 *)
    (175, None, [JOf "name" "name"; JOf "len" "len"; JOf "params" "params"]);
    (* inotify_add_watch, inotify_add_watch.go 14-18 *)
    (254, None, [JOf "fd" "fd"; JOf "pathname" "pathname"; JOf "mask" "mask"]);
    (* kill, kill.go 9-12 *)
    (62, None, [JOf "pid" "pid"; JOf "sig" "sig"]);
    (* link, link.go 9-12 *)
    (86, None, [JOf "old_name" "old_name"; JOf "new_name" "new_name"]);
    (* listen, listen.go 9-12 *)
    (50, None, [JOf "sock" "sock"; JOf "backlog" "backlog"]);
    (* mincore, mincore.go 9-13 *)
    (27, None, [JOf "addr" "addr"; JOf "len" "len"; JOf "vec" "vec"]);
    (* mkdir, mkdir.go 11-14 *)
    (83, None, [JOf "pathname" "pathname"; JOf "mode" "mode"]);
    (* mount, mount.go 13-18 *)
    (165, None, [JOf "device" "device"; JOf "directory" "directory"; JOf "type" "type"; JOf "flags" "flags"]);
    (* mprotect, mprotect.go 12-17 *)
    (10, None, [JOf "addr" "addr"; JOf "len" "len"; JOf "prot" "prot"; JOf "addr_data" "addr_data"]);
    (* nanosleep, nanosleep.go 10-13 *)
    (35, None, [JOf "req" "req"; JOf "rem" "rem"]);
    (* pivot_root, pivot_root.go 9-12 *)
    (155, None, [JOf "new_root" "new_root"; JOf "old_root" "old_root"]);
    (* prlimit64, prlimit64.go 16-21 *)
    (302, None, [JOf "pid" "pid"; JOf "resource" "resource"; JOf "new" "new"; JOf "old" "old"]);
    (* ptrace, ptrace.go 14-19 *)
    (101, None, [JOf "request" "request"; JOf "pid" "pid"; JOf "addr" "addr"; JOf "data" "data"]);
    (* read, read.go 9-13 *)
    (0, None, [JOf "fd" "fd"; JOf "buf" "buf"; JOf "count" "count"]);
    (* readlink, readlink.go 9-13 *)
    (89, None, [JOf "pathname" "pathname"; JOf "buf" "buf"; JOf "size" "size"]);
    (* readlinkat, readlinkat.go 9-14 *)
    (267, None, [JOf "dir_fd" "dir_fd"; JOf "pathname" "pathname"; JOf "buf" "buf"; JOf "size" "size"]);
    (* recvfrom, recvfrom.go 9-16 *)
    (45, None, [JOf "fd" "fd"; JOf "ubuf" "ubuf"; JOf "size" "size"; JZero "o_size"; JOf "flags" "flags"; JOf "saddr" "saddr"]);
    (* rename, rename.go 9-12 *)
    (82, None, [JOf "old_name" "old_name"; JOf "new_name" "new_name"]);
    (* rmdir, rmdir.go 9-11 *)
    (84, None, [JOf "pathname" "pathname"]);
    (* seccomp, seccomp.go 9-13 *)
    (317, None, [JOf "op" "op"; JOf "flags" "flags"; JOf "args" "args"]);
    (* sendto, sendto.go 9-15 *)
    (44, None, [JOf "fd" "fd"; JOf "ubuf" "ubuf"; JOf "size" "size"; JOf "flags" "flags"; JOf "saddr" "saddr"]);
    (* setns, setns.go 9-12 *)
    (308, None, [JOf "fd" "fd"; JOf "ns_type" "ns_type"]);
    (* setsockopt, setsockopt.go 3-5, sockopt.go 23-29 *)
    (54, None, [JOf "fd" "fd"; JOf "level" "level"; JOf "name" "name"; JOf "val" "val"; JOf "len" "len"]);
    (* bind, bind.go 9-13 *)
    (49, None, [JOf "FD" "fd"; JZero "Ret"; JOf "Saddr" "saddr"]);
    (* execve, execve.go 10-13 *)
    (59, None, [JOf "filename" "filename"; JWords "argv" ["argv[0]"; "argv[1]"; "argv[2]"]]);
    (* open, open.go 9-14 *)
    (2, None, [JOf "filename" "filename"; JOf "flags" "flags"; JOf "mode" "mode"; JZero "ret"]);
    (* openat, openat.go 9-13 *)
    (257, None, [JOf "dir_fd" "dir_fd"; JOf "pathname" "pathname"; JOf "flags" "flags"]);
    (* chdir, chdir.go 9-11 *)
    (80, None, [JOf "filename" "filename"]);
    (* chroot, chroot.go 9-11 *)
    (161, None, [JOf "filename" "filename"]);
    (* access, access.go 9-12 *)
    (21, None, [JOf "pathname" "pathname"; JOf "mode" "mode"]);
    (* write, write.go 9-13 *)
    (1, None, [JOf "fd" "fd"; JOf "buf" "buf"; JOf "count" "count"]);
    (* unlink, unlink.go 9-11 *)
    (87, None, [JOf "pathname" "pathname"]);
    (* umount2, umount2.go 9-12 *)
    (166, None, [JOf "target" "target"; JOf "flags" "flags"]);
    (* timerfd_settime, timerfd_settime.go 9-14 *)
    (286, None, [JOf "fd" "fd"; JOf "flags" "flags"; JOf "new" "new"; JOf "old" "old"]);
    (* timerfd_create, timerfd_create.go 9-12 *)
    (283, None, [JOf "clock" "clock"; JOf "flags" "flags"]);
    (* syslog, syslog.go 9-13 *)
    (103, None, [JOf "type" "type"; JOf "buf" "buf"; JOf "len" "len"]);
    (* symlink, symlink.go 9-12 *)
    (88, None, [JOf "target" "target"; JOf "linkpath" "linkpath"]);
    (* statfs, statfs.go 10-13 *)
    (137, None, [JOf "path" "path"; JOf "stat_buf" "stat_buf"]);
    (* stat, stat.go 10-13 *)
    (4, None, [JOf "filename" "filename"; JOf "stat_buf" "stat_buf"]);
    (* socket, socket.go 19-23 *)
    (41, None, [JOf "family" "family"; JOf "type" "type"; JOf "protocol" "protocol"]);
    (* setuid, setuid.go 9-11 *)
    (105, None, [JOf "uid" "uid"])
  ].

Fixpoint named_value (fs : list field) (vs : list value) (name : string) : option value :=
  match fs, vs with
  | f :: fs', v :: vs' => if String.eqb (f_name f) name then Some v else named_value fs' vs' name
  | _, _ => None
  end.

Definition field_text (p : jparams) (args : list Z) (nr : Z) (fs : list field) (vs : list value)
    (j : jfield) : string * list Z :=
  let at_ m := match named_value fs vs m with Some v => member_text p args nr m v | None => [] end in
  match j with
  | JOf n m => (n, at_ m)
  | JZero n => (n, num 0)
  | JWords n ms => (n, arr (map at_ ms ++ [quote []]))
  end.

(** encodeByteSlice panics on a slice of negative length; memory that cannot be read is a
    fault.  Both end the process. *)
Definition slice_ok (p : jparams) (args : list Z) (v : value) : bool :=
  match v with
  | VSlice off len => (0 <=? len) && (Z.to_nat len <=? length (drop off args ++ j_heap p))%nat
  | _ => true
  end.

(** [None]: the process ends. *)
Definition args_text (p : jparams) (args : list Z) (nr : Z) (vs : list value) : option (list Z) :=
  match List.find (fun e => fst (fst e) =? nr) json_structs, decoder nr with
  | Some (_, nest, js), Some fs =>
      let o := obj (map (field_text p args nr fs vs) js) in
      if negb (forallb (slice_ok p args) vs) then None
      else Some (match nest with Some n => obj [(n, o)] | None => o end)
  | _, _ => None
  end.

(** * The event *)

(** syscalls.go 10-15; the pointer is nil for a number without an entry. *)
Definition syscall_text (sc : option syscall) : list Z :=
  match sc with
  | Some s => obj [("nr", num (sc_nr s)); ("name", qs (sc_name s)); ("class", qs (sc_class s));
                   ("group", qs (sc_group s))]
  | None => txt "null"
  end.

(** container.go 5-15, every member omitempty; the labels come in
    ascending order of their keys. *)
Definition nonempty (n : string) (s : string) : list (string * list Z) :=
  if String.eqb s "" then [] else [(n, qs s)].
Definition nonzero (n : string) (z : Z) : list (string * list Z) :=
  if z =? 0 then [] else [(n, num z)].
Definition container_text (c : option (container (list (string * string)))) : list Z :=
  match c with
  | Some c =>
      obj (nonempty "id" (c_id c) ++ nonempty "pod" (c_pod c)
           ++ nonempty "sandbox-id" (c_sandbox c) ++ nonempty "name" (c_name c)
           ++ nonempty "image" (c_image c) ++ nonempty "namespace" (c_namespace c)
           ++ (match c_labels c with
               | [] => []
               | ls => [("labels", obj (map (fun kv => (fst kv, qs (snd kv))) ls))]
               end)
           ++ nonzero "pid" (c_pid c) ++ nonzero "pid-namespace" (c_pidns c))
  | None => txt "null"
  end.

(** trace.go 18-34; json.Encoder ends the text with a line feed (WriteJSON of
    gorilla/websocket 1.4.2 uses it). *)
Definition message (p : jparams) (sc : option syscall)
    (c : option (container (list (string * string)))) (args : list Z) (t : trace_event)
  : option (list Z) :=
  match args_text p args (t_syscall t) (t_argv t) with
  | Some a =>
      Some (obj [("syscall", syscall_text sc); ("pid", num (t_pid t)); ("tid", num (t_tid t));
                 ("container_pid", num (t_cpid t)); ("uid", num (t_uid t)); ("gid", num (t_gid t));
                 ("comm", quote (t_comm t)); ("session", num (t_sid t));
                 ("container", container_text c); ("error", qs (errno_to_string (t_error t)));
                 ("return", num (t_return t)); ("pid_ns", num (t_pid_ns t));
                 ("uts_ns", num (t_uts_ns t)); ("mount_ns", num (t_mnt_ns t));
                 ("start", num (t_start t)); ("finish", num (t_finish t)); ("args", a)] ++ [10])
  | None => None
  end.
