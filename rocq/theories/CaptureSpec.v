(** What the members of a decoded call should be, read off the Linux system call
    prototypes (man 2) and the Go struct tags, without the fillers or the
    decoders. *)
From stdpp Require Import base list numbers strings.
From Coq Require Import ZArith Lia.
From Verif Require Import RawModel DecodeModel CaptureModel.

Local Open Scope Z_scope.

Inductive ctype := Int | UInt | Long | ULong.

(** The meaning of a member, in terms of the arguments of the system call,
    counted from 0. *)
Inductive meaning :=
| Arg (t : ctype) (i : nat)   (* the argument itself; sizes and flag words that Go
                                 holds in an int are [Long] *)
| Text (i : nat)              (* the string it points to, at most 128 bytes *)
| Bytes (i n : nat)           (* the n bytes it points to *)
| Data (i cnt : nat)          (* the first min(argument cnt, 128) bytes it points to *)
| DerefInt (i : nat)          (* the int it points to *)
| DerefLong (i : nat)         (* the unsigned long it points to *)
| Address (i : nat)           (* the socket address it points to *)
| Elem (i k : nat)            (* the string the k-th element of the vector points to *)
| Nothing.                    (* the system call has no such argument *)

Fixpoint until_nul (bs : list Z) : list Z :=
  match bs with
  | [] => []
  | b :: bs' => if Z.eqb b 0 then [] else b :: until_nul bs'
  end.

Definition convert (t : ctype) (v : Z) : Z :=
  match t with
  | Int => s32 v
  | UInt => v mod 2 ^ 32
  | Long => s64 v
  | ULong => v mod 2 ^ 64
  end.

(** What should be shown; [None] when the claim says nothing: the 128 bytes from
    the pointer are not all readable, the count is negative, or there is no such
    argument. *)
Definition expected (regs : list Z) (mem : memory) (m : meaning) : option shown :=
  let a i := nth i regs 0 in
  match m with
  | Arg t i => Some (ShInt (convert t (a i)))
  | Text i =>
      match load mem (a i) 128 with Some bs => Some (ShBytes (until_nul bs)) | None => None end
  | Bytes i n =>
      match load mem (a i) (Nat.max n 128) with
      | Some bs => Some (ShBytes (take n bs))
      | None => None
      end
  | Data i cnt =>
      match load mem (a i) 128 with
      | Some bs =>
          if s64 (a cnt) <? 0 then None
          else Some (ShBytes (take (Z.to_nat (s64 (a cnt))) bs))
      | None => None
      end
  | DerefInt i =>
      match load mem (a i) 128 with
      | Some bs => Some (ShInt (s32 (le (take 4 bs))))
      | None => None
      end
  | DerefLong i =>
      match load mem (a i) 128 with
      | Some bs => Some (ShInt (le (take 8 bs) mod 2 ^ 64))
      | None => None
      end
  | Address i =>
      match load mem (a i) 128 with
      | Some bs => Some (ShSock (parse_sockaddr bs))
      | None => None
      end
  | Elem i k =>
      match load mem (a i + 8 * Z.of_nat k) 8 with
      | Some p =>
          match load mem (le p) 128 with
          | Some bs => Some (ShBytes (until_nul bs))
          | None => None
          end
      | None => None
      end
  | Nothing => None
  end.

(** man 2 of each decoded system call.  statfs: the member is declared to be a
    struct stat. *)
Definition documented : list (Z * list (string * meaning)) :=
  [
    (43, [("fd", Arg Int 0); ("saddr", Address 1)]);
    (288, [("fd", Arg Int 0); ("saddr", Address 1); ("flags", Arg Int 3)]);
    (37, [("seconds", Arg UInt 0)]);
    (163, [("pathname", Text 0)]);
    (12, [("addr", Arg ULong 0)]);
    (42, [("fd", Arg Int 0); ("saddr", Address 1)]);
    (56, [("flags", Arg Long 0); ("new_stack", Arg ULong 1); ("child_stack", Arg ULong 3); ("parent_stack", Arg ULong 2); ("tls", Arg ULong 4)]);
    (3, [("fd", Arg Int 0)]);
    (85, [("pathname", Text 0); ("mode", Arg UInt 1)]);
    (60, [("code", Arg Int 0)]);
    (269, [("fd", Arg Int 0); ("pathname", Text 1); ("mode", Arg UInt 2); ("flags", Nothing)]);
    (5, [("fd", Arg Int 0); ("stat_buf", Bytes 1 144)]);
    (77, [("fd", Arg Int 0); ("length", Arg Long 1)]);
    (202, [("uaddr", Arg ULong 0); ("op", Arg Int 1); ("val", Arg UInt 2)]);
    (79, [("buf", Text 0); ("size", Arg Long 1)]);
    (52, [("fd", Arg Int 0); ("saddr", Address 1)]);
    (51, [("fd", Arg Int 0); ("saddr", Address 1)]);
    (55, [("fd", Arg Int 0); ("level", Arg Int 1); ("name", Arg Int 2); ("val", Bytes 3 4); ("len", DerefInt 4)]);
    (175, [("name", Text 0); ("len", Arg Long 1); ("params", Text 2)]);
    (254, [("fd", Arg Int 0); ("pathname", Text 1); ("mask", Arg UInt 2)]);
    (62, [("pid", Arg Int 0); ("sig", Arg Int 1)]);
    (86, [("old_name", Text 0); ("new_name", Text 1)]);
    (50, [("sock", Arg Int 0); ("backlog", Arg Int 1)]);
    (27, [("addr", Arg ULong 0); ("len", Arg Long 1); ("vec", Arg ULong 2)]);
    (83, [("pathname", Text 0); ("mode", Arg UInt 1)]);
    (165, [("device", Text 0); ("directory", Text 1); ("type", Text 2); ("flags", Arg Long 3)]);
    (10, [("addr", Arg ULong 0); ("len", Arg Long 1); ("prot", Arg Int 2); ("addr_data", Data 0 1)]);
    (35, [("req", Bytes 0 16); ("rem", Bytes 1 16)]);
    (155, [("new_root", Text 0); ("old_root", Text 1)]);
    (302, [("pid", Arg Int 0); ("resource", Arg Int 1); ("new", Bytes 2 16); ("old", Bytes 3 16)]);
    (101, [("request", Arg Long 0); ("pid", Arg Int 1); ("addr", Arg ULong 2); ("data", Arg ULong 3)]);
    (0, [("fd", Arg Int 0); ("buf", Data 1 2); ("count", Arg Long 2)]);
    (89, [("pathname", Text 0); ("buf", Data 1 2); ("size", Arg Long 2)]);
    (267, [("dir_fd", Arg Int 0); ("pathname", Text 1); ("buf", Data 2 3); ("size", Arg Long 3)]);
    (45, [("fd", Arg Int 0); ("ubuf", Data 1 2); ("size", Arg Long 2); ("flags", Arg UInt 3); ("saddr", Address 4)]);
    (82, [("old_name", Text 0); ("new_name", Text 1)]);
    (84, [("pathname", Text 0)]);
    (317, [("op", Arg UInt 0); ("flags", Arg UInt 1); ("args", Text 2)]);
    (44, [("fd", Arg Int 0); ("ubuf", Data 1 2); ("size", Arg Long 2); ("flags", Arg Int 3); ("saddr", Address 4)]);
    (308, [("fd", Arg Int 0); ("ns_type", Arg Int 1)]);
    (54, [("fd", Arg Int 0); ("level", Arg Int 1); ("name", Arg Int 2); ("val", Bytes 3 4); ("len", Arg Int 4)]);
    (49, [("fd", Arg Int 0); ("saddr", Address 1)]);
    (59, [("filename", Text 0); ("argv[0]", Elem 1 0); ("argv[1]", Elem 1 1); ("argv[2]", Elem 1 2)]);
    (2, [("filename", Text 0); ("flags", Arg Int 1); ("mode", Arg Int 2)]);
    (257, [("dir_fd", Arg Int 0); ("pathname", Text 1); ("flags", Arg Int 2)]);
    (80, [("filename", Text 0)]);
    (161, [("filename", Text 0)]);
    (21, [("pathname", Text 0); ("mode", Arg Int 1)]);
    (1, [("fd", Arg Int 0); ("buf", Data 1 2); ("count", Arg Long 2)]);
    (87, [("pathname", Text 0)]);
    (166, [("target", Text 0); ("flags", Arg Int 1)]);
    (286, [("fd", Arg Int 0); ("flags", Arg Int 1); ("new", Bytes 2 32); ("old", Bytes 3 32)]);
    (283, [("clock", Arg Int 0); ("flags", Arg Int 1)]);
    (103, [("type", Arg Int 0); ("buf", Text 1); ("len", Arg Int 2)]);
    (88, [("target", Text 0); ("linkpath", Text 1)]);
    (137, [("path", Text 0); ("stat_buf", Bytes 1 144)]);
    (4, [("filename", Text 0); ("stat_buf", Bytes 1 144)]);
    (41, [("family", Arg Int 0); ("type", Arg Int 1); ("protocol", Arg Int 2)]);
    (105, [("uid", Arg UInt 0)])
  ].

(** The members that do not mean what they should, with what they show instead,
    where that is a function of the call. *)
Definition wrong_members : list (Z * string * option meaning) :=
  [ (288, "flags", Some (Arg Int 2));            (* accept4: the addrlen pointer *)
    (286, "fd", Some (Arg Int 1));               (* timerfd_settime: the flags *)
    (286, "flags", Some (Arg Int 0));            (* timerfd_settime: the descriptor *)
    (56, "child_stack", Some (DerefLong 2));     (* clone: memory at parent_tid *)
    (56, "parent_stack", Some (DerefLong 3));    (* clone: memory at child_tid *)
    (27, "vec", Some (DerefLong 2));             (* mincore: memory at vec *)
    (77, "length", Some (Arg Int 1));            (* ftruncate: 32 of 64 bits *)
    (101, "request", Some (Arg Int 0));          (* ptrace: 32 of 64 bits *)
    (202, "uaddr", Some (Arg UInt 0));           (* futex: 32 of 64 bits *)
    (59, "argv[0]", Some (Elem 1 1));            (* execve: off by one *)
    (59, "argv[1]", Some (Elem 1 2));
    (59, "argv[2]", Some (Elem 1 3));
    (44, "ubuf", Some (Bytes 1 128));            (* sendto: whatever the size *)
    (45, "ubuf", Some (Bytes 1 128));            (* recvfrom: whatever the size *)
    (45, "size", None);                          (* recvfrom: always 0 *)
    (269, "flags", None);                        (* faccessat: a stale slot *)
    (35, "req", None); (35, "rem", None);        (* nanosleep: addresses in the tracer *)
    (5, "stat_buf", None); (137, "stat_buf", None); (4, "stat_buf", None);
                                                 (* 16 of 144 bytes are stale *)
    (10, "addr_data", None) ].                   (* mprotect: at least 128 bytes *)

Definition is_wrong (nr : Z) (name : string) : bool :=
  existsb (fun e => Z.eqb (fst (fst e)) nr && String.eqb (snd (fst e)) name) wrong_members.

(** The slots after the call of [nr] has been captured, on the path that reports
    it: execve has its own tracepoint. *)
Definition captured_args (nr : Z) (regs : list Z) (mem : memory) (ret : Z) (old : list Z) : list Z :=
  if Z.eqb nr 59 then c_args (capture_execve regs mem old)
  else c_args (capture nr regs mem ret old).

(** What a user sees of one member. *)
Definition member_shown (f : field) (args : list Z) : option shown :=
  match decode_field args f with Some v => show args v | None => None end.

Definition doc (nr : Z) (name : string) : option meaning :=
  match List.find (fun e => Z.eqb (fst e) nr) documented with
  | Some (_, ms) =>
      match List.find (fun e => String.eqb (fst e) name) ms with
      | Some (_, m) => Some m
      | None => None
      end
  | None => None
  end.

(** The members whose value may contain bytes of an earlier call on the same CPU,
    possibly of another container. *)
Definition stale_members : list (Z * string) :=
  [ (269, "flags"); (5, "stat_buf"); (137, "stat_buf"); (4, "stat_buf"); (10, "addr_data") ].

Definition may_be_stale (nr : Z) (name : string) : bool :=
  existsb (fun e => Z.eqb (fst e) nr && String.eqb (snd e) name) stale_members.

(** What the kernel supplies fits its types. *)
Record surroundings_ok (e : KernelModel.kevent) (su : surroundings) : Prop := {
  so_tid : 0 <= KernelModel.ev_tid e < 2 ^ 64;
  so_ugid : 0 <= KernelModel.ev_ugid e < 2 ^ 64;
  so_nr : 0 <= KernelModel.ev_nr e < 2 ^ 32;
  so_entr : 0 <= KernelModel.ev_entr e < 2 ^ 64;
  so_exit : 0 <= KernelModel.ev_exit e < 2 ^ 64;
  so_pidns : 0 <= KernelModel.ev_pidns e < 2 ^ 32;
  so_ns_pid : 0 <= su_ns_pid su < 2 ^ 32;
  so_session : - 2 ^ 31 <= su_session su < 2 ^ 31;
  so_uts : 0 <= su_uts_ns su < 2 ^ 32;
  so_mnt : 0 <= su_mnt_ns su < 2 ^ 32;
  so_ipc : 0 <= su_ipc_ns su < 2 ^ 32;
  so_cgr : 0 <= su_cgr_ns su < 2 ^ 32;
  so_sw : 0 <= su_context_sw su < 2 ^ 64;
  so_comm : length (su_comm su) = 16%nat
}.
