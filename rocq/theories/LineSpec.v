(** The parameters of the decoded system calls, from man 2, and what it means for
    output to be lines.  Nothing here mentions the printing code. *)
From Coq Require Import ZArith String Ascii Lia.
From stdpp Require Import base list numbers strings pretty.
From Verif Require Import RawModel DecodeModel CaptureSpec.

Local Open Scope string_scope.
Local Open Scope list_scope.
Local Open Scope Z_scope.

(** The system call's name and its parameters in order; where the manual pages,
    the kernel or older manual pages use several names, all of them.  x86-64
    clone: the raw system call, not glibc's wrapper. *)
Definition prototypes : list (Z * string * list (list string)) :=
  [ (43, "accept", [["sockfd"]; ["addr"]; ["addrlen"]]);
    (288, "accept4", [["sockfd"]; ["addr"]; ["addrlen"]; ["flags"]]);
    (37, "alarm", [["seconds"]]);
    (163, "acct", [["filename"; "pathname"]]);
    (12, "brk", [["addr"]]);
    (42, "connect", [["sockfd"]; ["addr"]; ["addrlen"]]);
    (56, "clone", [["flags"]; ["stack"; "child_stack"]; ["parent_tid"]; ["child_tid"]; ["tls"]]);
    (3, "close", [["fd"]]);
    (85, "creat", [["pathname"]; ["mode"]]);
    (60, "exit", [["status"]]);
    (269, "faccessat", [["dirfd"]; ["pathname"]; ["mode"]]);
    (5, "fstat", [["fd"]; ["statbuf"]]);
    (77, "ftruncate", [["fd"]; ["length"]]);
    (202, "futex", [["uaddr"]; ["futex_op"]; ["val"]; ["timeout"]; ["uaddr2"]; ["val3"]]);
    (79, "getcwd", [["buf"]; ["size"]]);
    (52, "getpeername", [["sockfd"]; ["addr"]; ["addrlen"]]);
    (51, "getsockname", [["sockfd"]; ["addr"]; ["addrlen"]]);
    (55, "getsockopt", [["sockfd"]; ["level"]; ["optname"]; ["optval"]; ["optlen"]]);
    (175, "init_module", [["module_image"]; ["len"]; ["param_values"]]);
    (254, "inotify_add_watch", [["fd"]; ["pathname"]; ["mask"]]);
    (62, "kill", [["pid"]; ["sig"]]);
    (86, "link", [["oldpath"]; ["newpath"]]);
    (50, "listen", [["sockfd"]; ["backlog"]]);
    (27, "mincore", [["addr"]; ["length"; "len"]; ["vec"]]);
    (83, "mkdir", [["pathname"]; ["mode"]]);
    (165, "mount", [["source"]; ["target"]; ["filesystemtype"]; ["mountflags"]; ["data"]]);
    (10, "mprotect", [["addr"]; ["len"]; ["prot"]]);
    (35, "nanosleep", [["req"; "duration"]; ["rem"]]);
    (155, "pivot_root", [["new_root"]; ["put_old"]]);
    (302, "prlimit64", [["pid"]; ["resource"]; ["new_limit"]; ["old_limit"]]);
    (101, "ptrace", [["request"]; ["pid"]; ["addr"]; ["data"]]);
    (0, "read", [["fd"]; ["buf"]; ["count"]]);
    (89, "readlink", [["pathname"]; ["buf"]; ["bufsiz"]]);
    (267, "readlinkat", [["dirfd"]; ["pathname"]; ["buf"]; ["bufsiz"]]);
    (45, "recvfrom", [["sockfd"]; ["buf"]; ["len"]; ["flags"]; ["src_addr"]; ["addrlen"]]);
    (82, "rename", [["oldpath"]; ["newpath"]]);
    (84, "rmdir", [["pathname"]]);
    (317, "seccomp", [["operation"]; ["flags"]; ["args"]]);
    (44, "sendto", [["sockfd"]; ["buf"]; ["len"]; ["flags"]; ["dest_addr"]; ["addrlen"]]);
    (308, "setns", [["fd"]; ["nstype"]]);
    (54, "setsockopt", [["sockfd"]; ["level"]; ["optname"]; ["optval"]; ["optlen"]]);
    (49, "bind", [["sockfd"]; ["addr"]; ["addrlen"]]);
    (59, "execve", [["pathname"; "filename"]; ["argv"; "argv[]"]; ["envp"; "envp[]"]]);
    (2, "open", [["pathname"]; ["flags"]; ["mode"]]);
    (257, "openat", [["dirfd"]; ["pathname"]; ["flags"]; ["mode"]]);
    (80, "chdir", [["path"]]);
    (161, "chroot", [["path"]]);
    (21, "access", [["pathname"]; ["mode"]]);
    (1, "write", [["fd"]; ["buf"]; ["count"]]);
    (87, "unlink", [["pathname"]]);
    (166, "umount2", [["target"]; ["flags"]]);
    (286, "timerfd_settime", [["fd"]; ["flags"]; ["new_value"]; ["old_value"]]);
    (283, "timerfd_create", [["clockid"]; ["flags"]]);
    (103, "syslog", [["type"]; ["bufp"]; ["len"]]);
    (88, "symlink", [["target"]; ["linkpath"]]);
    (137, "statfs", [["path"]; ["buf"]]);
    (4, "stat", [["pathname"]; ["statbuf"]]);
    (41, "socket", [["domain"]; ["type"]; ["protocol"]]);
    (105, "setuid", [["uid"]]) ].

Definition prototype (nr : Z) : option (string * list (list string)) :=
  match List.find (fun e => Z.eqb (fst (fst e)) nr) prototypes with
  | Some e => Some (snd (fst e), snd e)
  | None => None
  end.

(** [label] is a name of parameter [i] of the system call. *)
Definition names_parameter (nr : Z) (i : nat) (label : string) : Prop :=
  exists call ps names,
    prototype nr = Some (call, ps) /\ ps !! i = Some names /\ label ∈ names.

(** The parameter a member is about. *)
Definition about (m : meaning) : option nat :=
  match m with
  | Arg _ i | Text i | Bytes i _ | Data i _ | DerefInt i | DerefLong i | Address i | Elem i _ => Some i
  | Nothing => None
  end.

(** The labels that do not stand before what they name. *)
Definition mislabelled : list (Z * string) :=
  [ (56, "fn"); (56, "child_stack");   (* clone *)
    (269, "flags");                    (* faccessat has no such parameter *)
    (59, "argv[]") ].                  (* execve: several members in one *)

(** The parameters no label names. *)
Definition unprinted : list (Z * nat) :=
  [ (43, 2%nat); (288, 2%nat); (42, 2%nat); (52, 2%nat); (51, 2%nat); (49, 2%nat); (* addrlen *)
    (44, 5%nat); (45, 5%nat);
    (56, 2%nat); (56, 3%nat); (56, 4%nat);     (* clone: parent_tid, child_tid, tls *)
    (202, 3%nat); (202, 4%nat); (202, 5%nat);  (* futex: timeout, uaddr2, val3 *)
    (165, 4%nat);                              (* mount: data *)
    (59, 2%nat);                               (* execve: envp *)
    (257, 3%nat) ].                            (* openat: mode *)

(** The labels whose values are written by code outside this model: flag sets,
    named numbers, file modes, structs. *)
Definition elsewhere : list (Z * string) :=
  [ (288, "flags"); (56, "flags"); (85, "mode"); (269, "mode"); (5, "statbuf"); (55, "level");
    (55, "optname"); (254, "mask"); (83, "mode"); (165, "mountflags"); (10, "prot");
    (35, "req"); (35, "rem"); (302, "resource"); (302, "new_limit"); (302, "old_limit");
    (101, "request"); (45, "flags"); (44, "flags"); (308, "nstype"); (54, "level");
    (54, "optname"); (2, "flags"); (257, "flags"); (21, "mode"); (166, "flags"); (286, "flags");
    (286, "new_value"); (286, "old_value"); (283, "flags"); (137, "buf"); (4, "statbuf");
    (41, "domain"); (41, "type"); (41, "protocol") ].

(** The bytes of a plain text. *)
Fixpoint text_bytes (s : string) : list Z :=
  match s with
  | EmptyString => []
  | String c s' => Z.of_N (Ascii.N_of_ascii c) :: text_bytes s'
  end.

(** How the value of a parameter should look: a string as it is, an address as
    address:port, other bytes as their decimal values in brackets, a number in
    decimal except the directory descriptor -100. *)
Definition rendering (nr : Z) (label : string) (m : meaning) (sh : shown) (other : list Z) : list Z :=
  if existsb (fun e => Z.eqb (fst e) nr && String.eqb (snd e) label) elsewhere then other
  else match sh, m with
       | ShInt z, _ =>
           if String.eqb label "dirfd" && (z =? -100) then text_bytes "AT_FDCWD"
           else text_bytes (pretty z)
       | ShBytes bs, Text _ => bs
       | ShBytes bs, _ => text_bytes ("[" +:+ join_ints bs +:+ "]")
       | ShSock (addr, port), _ => text_bytes (addr +:+ ":" +:+ pretty port)
       | ShAddrs _, _ => other
       end.

(** No string or unix socket path among the captured arguments contains a line
    feed. *)
Definition no_line_feed (raw : list Z) (f : field) : Prop :=
  let slot := take 128 (drop (128 * f_slot f) raw) in
  match f_kind f with
  | KStr => 10 ∉ until_nul slot
  | KSock => le (take 2 slot) = 1 -> 10 ∉ until_nul (take 108 (drop 2 slot))
  | _ => True
  end.

(** One line of output: no line feed but a final one. *)
Definition one_line (out : list Z) : Prop := exists l, out = l ++ [10] /\ 10 ∉ l.

(** [l] is one of the lines of the output. *)
Definition has_line (l out : list Z) : Prop :=
  10 ∉ l /\
  exists before after, out = before ++ l ++ [10] ++ after
    /\ (before = [] \/ exists b, before = b ++ [10]).

(** fmt.Sprintf for %s and %v of texts, with a width, to the right or (with "-") to the
    left; [count] is the number of characters of a text. *)
Definition padded (count : list Z -> nat) (lft : bool) (width : nat) (bs : list Z) : list Z :=
  if lft then bs ++ repeat 32 (width - count bs) else repeat 32 (width - count bs) ++ bs.
Definition digit_of (c : Ascii.ascii) : option nat :=
  let n := Ascii.nat_of_ascii c in if (48 <=? n)%nat && (n <=? 57)%nat then Some (n - 48)%nat else None.
(** [verb]: the width and the side so far, inside a verb. *)
Fixpoint printf (count : list Z -> nat) (verb : option (bool * nat)) (format : string) (args : list (list Z)) : list Z :=
  match format with
  | EmptyString => []
  | String c format =>
      match verb with
      | None =>
          if Ascii.eqb c "%"%char then printf count (Some (false, 0%nat)) format args
          else Z.of_N (Ascii.N_of_ascii c) :: printf count None format args
      | Some (lft, width) =>
          if Ascii.eqb c "-"%char then printf count (Some (true, width)) format args
          else match digit_of c with
               | Some d => printf count (Some (lft, (10 * width + d)%nat)) format args
               | None => match args with
                         | a :: args => padded count lft width a ++ printf count None format args
                         | [] => []
                         end
               end
      end
  end.

(** Texts with a text between them. *)
Fixpoint separated (sep : list Z) (ls : list (list Z)) : list Z :=
  match ls with
  | [] => []
  | [l] => l
  | l :: ls => l ++ sep ++ separated sep ls
  end.
