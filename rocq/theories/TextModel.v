(** How `swoll trace` writes the values LineModel.v leaves open: flag sets, named
    numbers, file modes, structs and the latency. *)
From Coq Require Import ZArith String Ascii Lia.
From stdpp Require Import base list numbers strings pretty.
From Verif Require Import RawModel DecodeModel CodecTables CodecModel LineModel.

Local Open Scope string_scope.
Local Open Scope list_scope.
Local Open Scope Z_scope.

(** * Tables that only the printed line uses *)

(** pkg/types/cloneflags.go 12-35 *)
Definition clone_masks : list (Z * string) :=
  [(2097152, "CLONE_CHILD_CLEARTID"); (16777216, "CLONE_CHILD_SETTID"); (1024, "CLONE_FILES"); (512, "CLONE_FS");
   (2147483648, "CLONE_IO"); (33554432, "CLONE_NEWCGROUP"); (134217728, "CLONE_NEWIPC"); (1073741824, "CLONE_NEWNET");
   (131072, "CLONE_NEWNS"); (536870912, "CLONE_NEWPID"); (268435456, "CLONE_NEWUSER"); (67108864, "CLONE_NEWUTS");
   (32768, "CLONE_PARENT"); (1048576, "CLONE_PARENT_SETTID"); (8192, "CLONE_PTRACE"); (524288, "CLONE_SETTLS");
   (2048, "CLONE_SIGHAND"); (262144, "CLONE_SYSVSEM"); (65536, "CLONE_THREAD"); (8388608, "CLONE_UNTRACED");
   (16384, "CLONE_VFORK"); (256, "CLONE_VM")].
(** pkg/types/xmode.go 11-15 *)
Definition xmode_masks : list (Z * string) := [(4, "R_OK"); (2, "W_OK"); (1, "X_OK")].
(** pkg/event/call/mprotect.go 44-54 *)
Definition prot_masks : list (Z * string) :=
  [(0, "PROT_NONE"); (1, "PROT_READ"); (2, "PROT_WRITE"); (4, "PROT_EXEC"); (8, "PROT_SEM"); (33554432, "PROT_GROWSUP"); (16777216, "PROT_GROWSDOWN")].
(** pkg/event/call/ptrace.go 41-82 *)
Definition ptrace_names : list (Z * string) :=
  [(16908, "PTRACE_SECCOMP_GET_FILTER"); (16904, "PTRACE_LISTEN"); (16905, "PTRACE_PEEKSIGINFO"); (16903, "PTRACE_INTERRUPT");
   (16902, "PTRACE_SEIZE"); (16910, "PTRACE_GET_SYSCALL_INFO"); (2, "PTRACE_PEEKDATA"); (3, "PTRACE_PEEKUSER");
   (0, "PTRACE_TRACEME"); (1, "PTRACE_PEEKTEXT"); (4, "PTRACE_POKETEXT"); (12, "PTRACE_GETREGS"); (14, "PTRACE_GETFPREGS");
   (16900, "PTRACE_GETREGSET"); (13, "PTRACE_SETREGS"); (15, "PTRACE_SETFPREGS"); (16901, "PTRACE_SETREGSET");
   (16898, "PTRACE_GETSIGINFO"); (16899, "PTRACE_SETSIGINFO"); (16896, "PTRACE_SETOPTIONS"); (16897, "PTRACE_GETEVENTMSG");
   (7, "PTRACE_CONT"); (24, "PTRACE_SYSCALL"); (9, "PTRACE_SINGLESTEP"); (31, "PTRACE_SYSEMU"); (32, "PTRACE_SYSEMU_SINGLESTEP");
   (8, "PTRACE_KILL"); (16, "PTRACE_ATTACH"); (17, "PTRACE_DETACH"); (25, "PTRACE_GET_THREAD_AREA"); (26, "PTRACE_SET_THREAD_AREA")].

(** cloneflags.go 37-47, xmode.go 17-31, mprotect.go 56-71; they have no UnmarshalJSON. *)
Definition clone_codec := Codec clone_masks [] [] [] false.
Definition xmode_codec := Codec xmode_masks [] [(0, "F_OK")] [] false.
Definition prot_codec := Codec prot_masks [] [(0, "PROT_NONE")] [] false.

(** * Structs *)

(** The members of a struct in memory, as fmt meets them (print.go printValue): numbers
    of [size] bytes, structs, arrays. *)
Inductive shape := Num_ (size : nat) (signed : bool) | Rec_ (l : list shape) | Arr_ (l : list shape).
Definition i64 := Num_ 8 true.
Definition w64 := Num_ 8 false.
(** clocktypes.go 36-44; syscall.Rlimit; syscall.Stat_t of linux/amd64 *)
Definition timespec := Rec_ [i64; i64].
Definition itimerspec := Rec_ [timespec; timespec].
Definition rlimit := Rec_ [w64; w64].
Definition stat_t := Rec_ [w64; w64; w64; Num_ 4 false; Num_ 4 false; Num_ 4 false; Num_ 4 true; w64; i64; i64; i64;
                           timespec; timespec; timespec; Arr_ [i64; i64; i64]].

(** What is written: texts and numbers. *)
Inductive piece := Lit (s : string) | Value (size : nat) (signed : bool).
Fixpoint between (ls : list (list piece)) : list piece :=
  match ls with
  | [] => []
  | [l] => l
  | l :: ls => l ++ Lit " " :: between ls
  end.
(** printValue: {a b} for structs, [a b] for arrays *)
Fixpoint pieces (s : shape) : list piece :=
  match s with
  | Num_ size signed => [Value size signed]
  | Rec_ l => Lit "{" :: between (map pieces l) ++ [Lit "}"]
  | Arr_ l => Lit "[" :: between (map pieces l) ++ [Lit "]"]
  end.
(** A number of [size] bytes; there is no padding in the structs above. *)
Definition number_of (size : nat) (signed : bool) (bs : list Z) : Z :=
  let v := le (take size bs) in
  if signed then if Nat.eqb size 4 then s32 v else s64 v else if Nat.eqb size 4 then u32 v else u64 v.
Fixpoint write_pieces (ps : list piece) (bs : list Z) : list Z :=
  match ps with
  | [] => []
  | Lit s :: ps => txt s ++ write_pieces ps bs
  | Value size signed :: ps => txt (pretty (number_of size signed bs)) ++ write_pieces ps (drop size bs)
  end.

(** * File modes *)

(** os.FileMode.String: a letter for each of the thirteen highest bits that is set, or a
    dash; then the permissions. *)
Definition bit_set (v : Z) (i : Z) : bool := Z.testbit v i.
Fixpoint mode_letters (v : Z) (i : Z) (s : string) : list Z :=
  match s with
  | EmptyString => []
  | String c s => (if bit_set v i then txt (String c EmptyString) else []) ++ mode_letters v (i - 1) s
  end.
Fixpoint mode_rwx (v : Z) (i : Z) (s : string) : list Z :=
  match s with
  | EmptyString => []
  | String c s => (if bit_set v i then txt (String c EmptyString) else txt "-") ++ mode_rwx v (i - 1) s
  end.
Definition mode_text (v : Z) : list Z :=
  let high := mode_letters v 31 "dalTLDpSugct?" in
  (match high with [] => txt "-" | _ => high end) ++ mode_rwx v 8 "rwxrwxrwx".

(** * The String methods *)

(** strings.Join of Parse, e.g. fileflags.go 48-50; MsgFlags.String (msgflags.go 36-44)
    writes a number if there is no name. *)
Inductive other :=
  | Flags (c : codec) (number : bool)
  | Names (l : list (Z * string))
  | OptionName                      (* *SockoptName, sockopt.go 273-290 *)
  | SocketType                      (* socket.go 116-118 *)
  | Mode
  | Record_ (ref : bool) (s : shape) (* with & before it: a pointer *)
  | Pointers.                       (* nanosleep.go 17-21: two addresses as a Timespec *)

(** The members of style [Other] and their types. *)
Definition others : list (Z * string * other) :=
  [ (288, "flags", Flags accept_codec false);
    (56, "flags", Flags clone_codec false);
    (85, "mode", Mode);
    (269, "mode", Mode);
    (5, "stat_buf", Record_ true stat_t);
    (55, "level", Names level_names);
    (55, "name", OptionName);
    (254, "mask", Flags inotify_codec false);
    (83, "mode", Mode);
    (165, "flags", Flags mount_codec false);
    (10, "prot", Flags prot_codec false);
    (35, "req", Pointers);
    (35, "rem", Pointers);
    (302, "resource", Names resource_names);
    (302, "new", Record_ false rlimit);
    (302, "old", Record_ false rlimit);
    (101, "request", Names ptrace_names);
    (45, "flags", Flags msg_codec true);
    (44, "flags", Flags msg_codec true);
    (308, "ns_type", Flags clone_codec false);
    (54, "level", Names level_names);
    (54, "name", OptionName);
    (2, "flags", Flags file_codec false);
    (257, "flags", Flags file_codec false);
    (21, "mode", Flags xmode_codec false);
    (166, "flags", Flags umount_codec false);
    (286, "flags", Flags timer_codec false);
    (286, "new", Record_ false itimerspec);
    (286, "old", Record_ false itimerspec);
    (283, "flags", Flags timer_codec false);
    (137, "stat_buf", Record_ false stat_t);
    (4, "stat_buf", Record_ false stat_t);
    (41, "family", Names family_names);
    (41, "type", SocketType);
    (41, "protocol", Names proto_names) ].
Definition other_of (nr : Z) (member : string) : option other :=
  match List.find (fun e => Z.eqb (fst (fst e)) nr && String.eqb (snd (fst e)) member) others with
  | Some e => Some (snd e)
  | None => None
  end.

Definition bars (names : list string) : list Z := join (txt "|") (map txt names).
(** [order]: the order a loop over a Go map takes; [level]: the member Lv of a
    SockoptName; [base]: where the argument buffer is in memory. *)
Definition other_text (order : list (Z * string) -> list (Z * string)) (level base : Z) (o : other) (sh : shown) : list Z :=
  match o, sh with
  | Flags c number, ShInt v =>
      match encode c (order (c_masks c)) v with
      | [] => if number then txt (pretty v) else []
      | names => bars names
      end
  | Names l, ShInt v => txt (render l v)
  | OptionName, ShInt v => txt (render_option level v)
  | SocketType, ShInt v => bars (encode_socktype v)
  | Mode, ShInt v => mode_text v
  | Record_ ref s, ShBytes bs => (if ref then txt "&" else []) ++ write_pieces (pieces s) bs
  | Pointers, ShAddrs slot =>
      txt "{" ++ txt (pretty (s64 (base + 128 * Z.of_nat slot))) ++ txt " " ++ txt (pretty (s64 (base + 128 * Z.of_nat (S slot)))) ++ txt "}"
  | _, _ => []
  end.

(** * The latency *)

(** The nearest integer to a / b, an even one if two are. *)
Definition rne (a b : Z) : Z :=
  let q := a / b in let r := a mod b in
  if (2 * r <? b) || ((2 * r =? b) && Z.even q) then q else q + 1.
(** float64 division of a positive integer below 2^64 by a million (event/trace.go
    218-220): the significand, of 53 bits, and the power of two it is to be divided by. *)
Definition divided (n : Z) : Z * Z :=
  let s := 52 - (Z.log2 (n * 2 ^ 80 / 1000000) - 80) in (rne (n * 2 ^ s) 1000000, s).
(** strconv: the thousandths %.3f writes, of the exact value of the float64 *)
Definition thousandths (n : Z) : Z :=
  if n =? 0 then 0 else let '(m, s) := divided n in rne (1000 * m) (2 ^ s).
Definition three_digits (z : Z) : list Z := [48 + z / 100; 48 + z / 10 mod 10; 48 + z mod 10].
(** "%6.3f" (cmd/trace.go 131-137) *)
Definition ms_text (ns : Z) : list Z :=
  let p := thousandths (Z.abs ns) in
  right_align 6 ((if ns <? 0 then txt "-" else []) ++ txt (pretty (p / 1000)) ++ txt "." ++ three_digits (p mod 1000)).

(** * The printer *)

(** The member Lv of a SockoptName is the member Level (sockopt.go 33-38). *)
Definition level_of (argv : list value) : Z := match argv !! 1%nat with Some (VInt z) => z | _ => 0 end.
Definition line_printer (order : list (Z * string) -> list (Z * string)) (base : Z) (argv : list value) : printer :=
  Printer (fun nr member sh => match other_of nr member with Some o => other_text order (level_of argv) base o sh | None => [] end) ms_text.
(** cmd/trace.go 105-153 *)
Definition line_of (order : list (Z * string) -> list (Z * string)) (base : Z) (tty no_containers : bool)
    (c : option (list Z * list Z * list Z)) (t : trace_event) (raw : list Z) : option (list Z) :=
  cli_output (line_printer order base (t_argv t)) tty no_containers c t raw.
