(** What the client prints for an event it received (cmd/client.go 110-140 and
    287-333, pkg/event/trace.go 53-61, pkg/types/errno.go 14-20).

    The event is the one UnmarshalJSON makes of the server's message (JsonModel.v);
    the writing of single values is that of LineModel.v and TextModel.v.  The format
    "json" of the create command is in LogModel.v. *)
From Coq Require Import ZArith String Ascii Lia.
From stdpp Require Import base list numbers strings pretty.
From Verif Require Import ChartModel TopModel RawModel DecodeModel CodecTables CodecModel JsonModel LineModel TextModel.

Local Open Scope string_scope.
Local Open Scope list_scope.
Local Open Scope Z_scope.

(** * The event the client has *)

(** pkg/event/trace.go 18-35, as far as it is printed.  The container: name, pod and
    namespace. *)
Record client_event := ClientEvent {
  ce_nr : Z; ce_name : list Z; ce_comm : list Z; ce_sid : Z; ce_error : Z;
  ce_container : option (list Z * list Z * list Z);
  ce_fields : list field; ce_members : list JsonModel.member
}.
Definition client_container (c : option (list Z * list Z * list Z)) : option (list Z * list Z * list Z) :=
  match c with
  | Some (name, pod, ns) => Some (json_text name, json_text pod, json_text ns)
  | None => None
  end.
(** endpoint.go 223-227 with UnmarshalJSON (trace.go 63-195): [None] if the message is
    skipped.  [name] is the system call's; the names of the table are ASCII. *)
Definition received (order : list (Z * string) -> list (Z * string)) (heap : list Z)
    (name : list Z) (c : option (list Z * list Z * list Z)) (t : trace_event) (raw : list Z) : option client_event :=
  match decoder (t_syscall t) with
  | None => None
  | Some fs =>
      match client_members order heap raw (t_syscall t) fs (t_argv t) with
      | None => None
      | Some ms => Some (ClientEvent (t_syscall t) name (client_comm t) (t_sid t) (client_error order t)
                           (client_container c) fs ms)
      end
  end.

(** * Its members *)

Definition shown_of (m : JsonModel.member) : shown :=
  match m with
  | MInt z => ShInt z
  | MOption _ tp => ShInt tp
  | MBytes bs => ShBytes bs
  | MSock text => ShSock text
  | MAddrs slot => ShAddrs slot
  end.
Definition client_member_of (e : client_event) (name : string) : option shown :=
  match List.find (fun m => String.eqb (f_name (fst m)) name) (combine (ce_fields e) (ce_members e)) with
  | Some (_, m) => Some (shown_of m)
  | None => None
  end.
(** The member Lv of the SockoptName (sockopt.go 16-19), if there is one. *)
Definition client_level (e : client_event) : Z :=
  match List.find (fun m => match m with MOption _ _ => true | _ => false end) (ce_members e) with
  | Some (MOption lv _) => lv
  | _ => 0
  end.
Definition client_printer (order : list (Z * string) -> list (Z * string)) (base : Z) (e : client_event) : printer :=
  Printer (fun nr member sh => match other_of nr member with Some o => other_text order (client_level e) base o sh | None => [] end) ms_text.

(** * swoll client create --oneshot -o cli *)

Definition client_arg (p : printer) (e : client_event) (src : source) : option (list Z) :=
  match src with
  | One name s =>
      match client_member_of e name with
      | Some sh => Some (write_value p (ce_nr e) name s sh)
      | None => None
      end
  | Words names =>
      match mapM (fun n => bytes_shown (client_member_of e n)) names with
      | Some ws => Some (join (txt " ") (ws ++ [[]]))
      | None => None
      end
  end.
Definition client_arguments (p : printer) (e : client_event) : option (list (string * string * list Z)) :=
  match call (ce_nr e) with
  | Some (_, shs) =>
      mapM (fun a => match client_arg p e (a_src a) with
                     | Some bs => Some (a_type a, a_label a, bs)
                     | None => None
                     end) shs
  | None => None
  end.
(** client.go 292: color.Bold *)
Definition bold (tty : bool) (bs : list Z) : list Z :=
  if tty then [27] ++ txt "[1m" ++ bs ++ [27] ++ txt "[0m" else bs.
(** client.go 297-303 *)
Definition client_error_text (tty : bool) (e : Z) : list Z :=
  if e =? 0 then bold tty (paint tty Green (txt "OK")) else paint tty Red (txt (errno_to_string e)).
(** client.go 305-308 *)
Definition client_header (tty : bool) (e : client_event) (name : string) : list Z :=
  right_align 35 (bold tty (paint tty Green (fqdn (ce_container e)))) ++ txt ": ["
  ++ right_align 11 (ce_comm e) ++ txt "] (" ++ right_align 11 (client_error_text tty (ce_error e)) ++ txt ") "
  ++ bold tty (paint tty Cyan (txt name)) ++ txt "(".
(** client.go 310-319 *)
Definition client_one_arg (tty : bool) (a : string * string * list Z) : list Z :=
  let '(ty, label, bs) := a in
  txt "(" ++ txt ty ++ txt ")" ++ bold tty (txt label) ++ txt "=" ++ paint tty BgBlack (paint tty White bs).
(** client.go 283-322; [None] is a panic. *)
Definition create_line (order : list (Z * string) -> list (Z * string)) (base : Z) (tty : bool) (e : client_event) : option (list Z) :=
  match call (ce_nr e), client_arguments (client_printer order base e) e with
  | Some (name, _), Some args =>
      Some (client_header tty e name ++ join (txt ", ") (map (client_one_arg tty) args) ++ txt ")" ++ [10])
  | _, _ => None
  end.
(** client.go 279-330: the formats; [json] stands for the format "json". *)
Definition create_output (json : client_event -> list Z) (out : string)
    (order : list (Z * string) -> list (Z * string)) (base : Z) (tty : bool) (e : client_event) : option (list Z) :=
  if String.eqb out "cli" then create_line order base tty e
  else if String.eqb out "json" then Some (json e ++ [10])
  else Some [].

(** * swoll client watch *)

(** How fmt writes the members of a struct behind %s (print.go printValue,
    handleMethods, badVerb): text and byte slices as they are; what has a String
    method says itself; a number without one is a bad verb, written with its type; the
    members of a struct one by one; a pointer to a struct without String is a bad verb,
    behind which the struct is written as by %v. *)
Inductive watch_field :=
| WText (member : string)
| WNumber (type member : string)
| WSays (member : string) (s : style)
| WStruct (member : string) (s : shape)
| WBehind (type member : string) (s : shape)
| WAddrs (member : string)
| WWords (members : list string)
| WUnset (type : string).

(** The struct of each call and whether it is embedded in another (pkg/event/call). *)
Definition structs : list (Z * bool * list watch_field) :=
  [
    (* accept.go 14-17 *)
    (43, false, [WNumber "types.InputFD" "fd"; WSays "saddr" Sock]);
    (* accept.go 19-23 *)
    (288, false, [WNumber "types.InputFD" "fd"; WSays "saddr" Sock; WSays "flags" Other]);
    (* alarm.go 9-11 *)
    (37, false, [WNumber "uint32" "seconds"]);
    (* acct.go 9-11 *)
    (163, false, [WText "pathname"]);
    (* brk.go 9-11 *)
    (12, false, [WNumber "uint64" "addr"]);
    (* connect.go 9-12 *)
    (42, false, [WNumber "types.InputFD" "fd"; WSays "saddr" Sock]);
    (* clone.go 10-16 *)
    (56, false, [WSays "flags" Other; WNumber "uint64" "new_stack"; WNumber "uint64" "child_stack"; WNumber "uint64" "parent_stack"; WNumber "uint64" "tls"]);
    (* close.go 9-11 *)
    (3, false, [WNumber "types.InputFD" "fd"]);
    (* creat.go 10-13 *)
    (85, false, [WText "pathname"; WSays "mode" Other]);
    (* exit.go 9-11 *)
    (60, false, [WNumber "int" "code"]);
    (* faccessat.go 10-15 *)
    (269, false, [WSays "fd" Dir; WText "pathname"; WSays "mode" Other; WNumber "int" "flags"]);
    (* fstat.go 10-13 *)
    (5, false, [WNumber "types.InputFD" "fd"; WBehind "*syscall.Stat_t" "stat_buf" stat_t]);
    (* ftruncate.go 9-12 *)
    (77, false, [WNumber "types.InputFD" "fd"; WNumber "int" "length"]);
    (* futex.go 9-13 *)
    (202, false, [WNumber "uint32" "uaddr"; WNumber "int" "op"; WNumber "uint32" "val"]);
    (* getcwd.go 9-12 *)
    (79, false, [WText "buf"; WNumber "int" "size"]);
    (* getpeername.go 9-12 *)
    (52, false, [WNumber "types.InputFD" "fd"; WSays "saddr" Sock]);
    (* getsockname.go 9-12 *)
    (51, false, [WNumber "types.InputFD" "fd"; WSays "saddr" Sock]);
    (* getsockopt.go 3-5 *)
    (55, true, [WNumber "types.InputFD" "fd"; WSays "level" Other; WSays "name" Other; WText "val"; WNumber "int" "len"]);
    (* init_module.go 9-13 *)
    (175, false, [WText "name"; WNumber "int" "len"; WText "params"]);
    (* inotify_add_watch.go 14-18 *)
    (254, false, [WNumber "types.InputFD" "fd"; WText "pathname"; WSays "mask" Other]);
    (* kill.go 9-12 *)
    (62, false, [WNumber "int32" "pid"; WNumber "int32" "sig"]);
    (* link.go 9-12 *)
    (86, false, [WText "old_name"; WText "new_name"]);
    (* listen.go 9-12 *)
    (50, false, [WNumber "types.InputFD" "sock"; WNumber "int" "backlog"]);
    (* mincore.go 9-13 *)
    (27, false, [WNumber "uintptr" "addr"; WNumber "int" "len"; WNumber "uintptr" "vec"]);
    (* mkdir.go 11-14 *)
    (83, false, [WText "pathname"; WSays "mode" Other]);
    (* mount.go 13-18 *)
    (165, false, [WText "device"; WText "directory"; WText "type"; WSays "flags" Other]);
    (* mprotect.go 12-17 *)
    (10, false, [WNumber "uintptr" "addr"; WNumber "int" "len"; WSays "prot" Other; WText "addr_data"]);
    (* nanosleep.go 10-13 *)
    (35, false, [WAddrs "req"; WAddrs "rem"]);
    (* pivot_root.go 9-12 *)
    (155, false, [WText "new_root"; WText "old_root"]);
    (* prlimit64.go 16-21 *)
    (302, false, [WNumber "int" "pid"; WSays "resource" Other; WStruct "new" rlimit; WStruct "old" rlimit]);
    (* ptrace.go 14-19 *)
    (101, false, [WSays "request" Other; WNumber "int" "pid"; WNumber "uint64" "addr"; WNumber "call.PtraceData" "data"]);
    (* read.go 9-13 *)
    (0, false, [WNumber "types.InputFD" "fd"; WText "buf"; WNumber "int" "count"]);
    (* readlink.go 9-13 *)
    (89, false, [WText "pathname"; WText "buf"; WNumber "int" "size"]);
    (* readlinkat.go 9-14 *)
    (267, false, [WSays "dir_fd" Dir; WText "pathname"; WText "buf"; WNumber "int" "size"]);
    (* recvfrom.go 9-16 *)
    (45, false, [WNumber "types.InputFD" "fd"; WText "ubuf"; WNumber "int" "size"; WUnset "int"; WSays "flags" Other; WSays "saddr" Sock]);
    (* rename.go 9-12 *)
    (82, false, [WText "old_name"; WText "new_name"]);
    (* rmdir.go 9-11 *)
    (84, false, [WText "pathname"]);
    (* seccomp.go 9-13 *)
    (317, false, [WNumber "int" "op"; WNumber "int" "flags"; WText "args"]);
    (* sendto.go 9-15 *)
    (44, false, [WNumber "types.InputFD" "fd"; WText "ubuf"; WNumber "int" "size"; WSays "flags" Other; WSays "saddr" Sock]);
    (* setns.go 9-12 *)
    (308, false, [WNumber "types.InputFD" "fd"; WSays "ns_type" Other]);
    (* setsockopt.go 3-5 *)
    (54, true, [WNumber "types.InputFD" "fd"; WSays "level" Other; WSays "name" Other; WText "val"; WNumber "int" "len"]);
    (* bind.go 9-13 *)
    (49, false, [WNumber "types.InputFD" "fd"; WUnset "types.OutputFD"; WSays "saddr" Sock]);
    (* execve.go 10-13 *)
    (59, false, [WText "filename"; WWords ["argv[0]"; "argv[1]"; "argv[2]"]]);
    (* open.go 9-14 *)
    (2, false, [WText "filename"; WSays "flags" Other; WNumber "int" "mode"; WUnset "types.OutputFD"]);
    (* openat.go 9-13 *)
    (257, false, [WSays "dir_fd" Dir; WText "pathname"; WSays "flags" Other]);
    (* chdir.go 9-11 *)
    (80, false, [WText "filename"]);
    (* chroot.go 9-11 *)
    (161, false, [WText "filename"]);
    (* access.go 9-12 *)
    (21, false, [WText "pathname"; WSays "mode" Other]);
    (* write.go 9-13 *)
    (1, false, [WNumber "types.InputFD" "fd"; WText "buf"; WNumber "int" "count"]);
    (* unlink.go 9-11 *)
    (87, false, [WText "pathname"]);
    (* umount2.go 9-12 *)
    (166, false, [WText "target"; WSays "flags" Other]);
    (* timerfd_settime.go 9-14 *)
    (286, false, [WNumber "types.InputFD" "fd"; WSays "flags" Other; WStruct "new" itimerspec; WStruct "old" itimerspec]);
    (* timerfd_create.go 9-12 *)
    (283, false, [WNumber "types.TFDClock" "clock"; WSays "flags" Other]);
    (* syslog.go 9-13 *)
    (103, false, [WNumber "int" "type"; WText "buf"; WNumber "int" "len"]);
    (* symlink.go 9-12 *)
    (88, false, [WText "target"; WText "linkpath"]);
    (* statfs.go 10-13 *)
    (137, false, [WText "path"; WStruct "stat_buf" stat_t]);
    (* stat.go 10-13 *)
    (4, false, [WText "filename"; WStruct "stat_buf" stat_t]);
    (* socket.go 19-23 *)
    (41, false, [WSays "family" Other; WSays "type" Other; WSays "protocol" Other]);
    (* setuid.go 9-11 *)
    (105, false, [WNumber "int" "uid"])

  ].
Definition struct_of (nr : Z) : option (bool * list watch_field) :=
  match List.find (fun e => Z.eqb (fst (fst e)) nr) structs with
  | Some e => Some (snd (fst e), snd e)
  | None => None
  end.

(** badVerb *)
Definition bad_verb (type : string) (bs : list Z) : list Z :=
  txt "%!s(" ++ txt type ++ txt "=" ++ bs ++ txt ")".
Definition number_type (size : nat) (signed : bool) : string :=
  (if signed then "int" else "uint") ++ (if Nat.eqb size 4 then "32" else "64").
Fixpoint watch_pieces (ps : list piece) (bs : list Z) : list Z :=
  match ps with
  | [] => []
  | Lit s :: ps => txt s ++ watch_pieces ps bs
  | Value size signed :: ps =>
      bad_verb (number_type size signed) (txt (pretty (number_of size signed bs))) ++ watch_pieces ps (drop size bs)
  end.

Definition watch_value (p : printer) (base : Z) (e : client_event) (f : watch_field) : option (list Z) :=
  match f with
  | WText m => bytes_shown (client_member_of e m)
  | WNumber ty m => match client_member_of e m with Some (ShInt z) => Some (bad_verb ty (txt (pretty z))) | _ => None end
  | WSays m s => match client_member_of e m with Some sh => Some (write_value p (ce_nr e) m s sh) | None => None end
  | WStruct m s => match client_member_of e m with Some (ShBytes bs) => Some (watch_pieces (pieces s) bs) | _ => None end
  | WBehind ty m s =>
      match client_member_of e m with
      | Some (ShBytes bs) => Some (bad_verb ty (txt "&" ++ write_pieces (pieces s) bs))
      | _ => None
      end
  | WAddrs m =>
      match client_member_of e m with
      | Some (ShAddrs slot) =>
          Some (txt "{" ++ bad_verb "int64" (txt (pretty (s64 (base + 128 * Z.of_nat slot)))) ++ txt " "
                ++ bad_verb "int64" (txt (pretty (s64 (base + 128 * Z.of_nat (S slot))))) ++ txt "}")
      | _ => None
      end
  | WWords ms =>
      match mapM (fun n => bytes_shown (client_member_of e n)) ms with
      | Some ws => Some (txt "[" ++ join (txt " ") (ws ++ [[]]) ++ txt "]")
      | None => None
      end
  | WUnset ty => Some (bad_verb ty (txt "0"))
  end.
Definition watch_args (p : printer) (base : Z) (e : client_event) : option (list Z) :=
  match struct_of (ce_nr e) with
  | Some (embedded, fs) =>
      match mapM (watch_value p base e) fs with
      | Some vs => Some (txt (if embedded then "&{{" else "&{") ++ join (txt " ") vs ++ txt (if embedded then "}}" else "}"))
      | None => None
      end
  | None => None
  end.

(** errno.go 14-20 *)
Definition coloured_error (e : Z) : list Z :=
  [27] ++ txt (if e =? 0 then "[1;32m" else "[1;31m") ++ txt (errno_to_string e) ++ [27] ++ txt "[0m".
(** trace.go 53-61 and client.go 132: the escape sequences are written whether or not
    there is a terminal. *)
Definition watch_text (e : client_event) (args : list Z) : list Z :=
  [27] ++ txt "[1m" ++ fqdn (ce_container e) ++ txt ":" ++ [27] ++ txt "[0m [" ++ [27] ++ txt "[4m" ++ ce_comm e
  ++ [27] ++ txt "[0m] " ++ ce_name e ++ txt "(" ++ args ++ txt ") err=" ++ coloured_error (ce_error e)
  ++ txt " ses=" ++ txt (pretty (ce_sid e)) ++ [10].
Definition watch_line (order : list (Z * string) -> list (Z * string)) (base : Z) (e : client_event) : option (list Z) :=
  match watch_args (client_printer order base e) base e with
  | Some args => Some (watch_text e args)
  | None => None
  end.
