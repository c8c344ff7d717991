(** How the client makes an event of a message: json.Unmarshal(msg, &ev) in
    readWebsock (pkg/client/endpoint.go 223-227), with TraceEvent.UnmarshalJSON
    (pkg/event/trace.go 63-209) and the UnmarshalJSON methods of the argument types.

    The JSON text itself is read by ReadSpec.read_json, which stands for encoding/json's
    scanner (trusted); numbers with a fraction, which the server does not write, are
    refused by it.  Keys are found without regard to upper and lower case; if
    a key is there twice the first one counts (the server writes each key once).  The
    ranges of the Go integer types are not checked. *)
From Coq Require Import ZArith String Ascii Lia.
From stdpp Require Import base list numbers strings pretty gmap.
From Verif Require Import RawModel DecodeModel CodecTables CodecModel JsonModel LineModel MsgSpec ReadSpec PrintModel.

Local Open Scope string_scope.
Local Open Scope list_scope.
Local Open Scope Z_scope.

(** * Members of the event *)

(** A number; what is missing or null leaves the zero value ([None]: an error). *)
Definition num_at (ms : list (list Z * json)) (key : string) : option Z :=
  match member_of ms key with
  | None | Some JsNull => Some 0
  | Some (JsNum z) => Some z
  | Some _ => None
  end.
Definition text_at (ms : list (list Z * json)) (key : string) : option (list Z) :=
  match member_of ms key with
  | None | Some JsNull => Some []
  | Some (JsStr s) => Some s
  | Some _ => None
  end.
(** json.Unmarshal into a string, for the UnmarshalJSON methods. *)
Definition text_of (j : json) : option string :=
  match j with
  | JsNull => Some ""
  | JsStr s => Some (string_of_bytes s)
  | _ => None
  end.

(** syscalls.go 10-15, a pointer: number and name. *)
Definition un_syscall (ms : list (list Z * json)) : option (option (Z * list Z)) :=
  match member_of ms "syscall" with
  | None | Some JsNull => Some None
  | Some (JsObj l) =>
      match num_at l "nr", text_at l "name", text_at l "class", text_at l "group" with
      | Some nr, Some name, Some _, Some _ => Some (Some (nr, name))
      | _, _, _, _ => None
      end
  | Some _ => None
  end.
(** container.go 5-15, a pointer: name, pod and namespace.  The labels: a map of
    strings. *)
Definition un_labels (ms : list (list Z * json)) : bool :=
  match member_of ms "labels" with
  | None | Some JsNull => true
  | Some (JsObj l) => forallb (fun e => match snd e with JsStr _ | JsNull => true | _ => false end) l
  | Some _ => false
  end.
Definition un_container (ms : list (list Z * json)) : option (option (list Z * list Z * list Z)) :=
  match member_of ms "container" with
  | None | Some JsNull => Some None
  | Some (JsObj l) =>
      if un_labels l
         && forallb (fun k => bool_decide (is_Some (text_at l k))) ["id"; "sandbox-id"; "image"]
         && forallb (fun k => bool_decide (is_Some (num_at l k))) ["pid"; "pid-namespace"]
      then match text_at l "name", text_at l "pod", text_at l "namespace" with
           | Some name, Some pod, Some ns => Some (Some (name, pod, ns))
           | _, _, _ => None
           end
      else None
  | Some _ => None
  end.
(** errno.go 22-33: called for null as well. *)
Definition un_error (order : list (Z * string) -> list (Z * string)) (ms : list (list Z * json)) : option Z :=
  match member_of ms "error" with
  | None => Some 0
  | Some j =>
      match text_of j with
      | Some s => Some (string_to_errno (reverse (order errno_names)) s)
      | None => None
      end
  end.

(** * Arguments *)

(** The methods: fileflags.go 56, umountflags.go 38, clocktypes.go 68, msgflags.go 50,
    mount.go 97, accept.go 51, inotify_add_watch.go 82 (flags); socket.go 47, 168, 238;
    sockopt.go 96, 296; prlimit64.go 102. *)
Definition un_int (order : list (Z * string) -> list (Z * string)) (nr : Z) (name : string) (j : json) : option JsonModel.member :=
  match jtype_of nr name, j with
  | JPlain, JsNum z => Some (MInt z)
  | JFlags c, JsArr l =>
      match mapM text_of l with Some names => Some (MInt (decode c 0 names)) | None => None end
  | JSockType, JsArr l =>
      match mapM text_of l with Some names => Some (MInt (decode_socktype names)) | None => None end
  | JNames names, JsStr s =>
      match unrender (reverse (order names)) (string_of_bytes s) with Some z => Some (MInt z) | None => None end
  | JResource, JsStr s =>
      match unrender_resource (string_of_bytes s) with Some z => Some (MInt z) | None => None end
  | JOption, JsStr s =>
      match unrender_option (reverse (order so_names)) (reverse (order tcp_names))
              (reverse (order ip_names)) (reverse (order ip6_names)) (0, 0) (string_of_bytes s) with
      | ((lv, tp), true) => Some (MOption lv tp)
      | (_, false) => None
      end
  | _, _ => None
  end.

(** Structs of numbers: the bytes the client's struct has in its memory. *)
Inductive layout :=
| LNum (width : nat)
| LNums (count width : nat)
| LPair (key1 key2 : string) (width : nat).
Definition un_num (width : nat) (j : json) : option (list Z) :=
  match j with JsNum z => Some (to_le width z) | _ => None end.
Definition un_layout (l : layout) (j : json) : option (list Z) :=
  match l, j with
  | LNum w, _ => un_num w j
  | LNums n w, JsArr js =>
      if Nat.eqb (length js) n
      then match mapM (un_num w) js with Some bs => Some (concat bs) | None => None end
      else None
  | LPair k1 k2 w, JsObj ms =>
      match num_at ms k1, num_at ms k2 with
      | Some a, Some b => Some (to_le w a ++ to_le w b)
      | _, _ => None
      end
  | _, _ => None
  end.
Fixpoint un_struct (fs : list (string * layout)) (ms : list (list Z * json)) : option (list Z) :=
  match fs with
  | [] => Some []
  | (k, l) :: fs =>
      match member_of ms k with
      | Some j =>
          match un_layout l j, un_struct fs ms with
          | Some a, Some b => Some (a ++ b)
          | _, _ => None
          end
      | None => None
      end
  end.
(** syscall.Rlimit, types.Itimerspec (clocktypes.go 37-45), syscall.Stat_t. *)
Definition timespec_layout : layout := LPair "Sec" "Nsec" 8.
Definition layout_of (nr : Z) : list (string * layout) :=
  if nr =? 302 then [("Cur", LNum 8); ("Max", LNum 8)]
  else if nr =? 286 then [("Interval", timespec_layout); ("Value", timespec_layout)]
  else [("Dev", LNum 8); ("Ino", LNum 8); ("Nlink", LNum 8); ("Mode", LNum 4); ("Uid", LNum 4); ("Gid", LNum 4);
        ("X__pad0", LNum 4); ("Rdev", LNum 8); ("Size", LNum 8); ("Blksize", LNum 8); ("Blocks", LNum 8);
        ("Atim", timespec_layout); ("Mtim", timespec_layout); ("Ctim", timespec_layout); ("X__unused", LNums 3 8)].

(** SockAddr has no UnmarshalJSON: Family and Data are filled in, "decoded" is not a
    field of it. *)
Definition un_sockaddr (heap : list Z) (ms : list (list Z * json)) : option JsonModel.member :=
  match un_struct [("Family", LNum 2); ("Data", LNums 14 1)] ms with
  | Some bs => Some (MSock (parse_sockaddr (bs ++ heap)))
  | None => None
  end.

(** An argument by its type in pkg/event/call (of_kind says what that is).  The
    numbers in nanosleep's structs are addresses of slots: [base] is that of the first. *)
Definition un_member (order : list (Z * string) -> list (Z * string)) (heap : list Z) (base nr : Z)
    (f : field) (j : json) : option JsonModel.member :=
  match f_kind f, j with
  | KS32, _ | KU32, _ | KS64, _ | KU64, _ | KUnset, _ => un_int order nr (f_name f) j
  | KStr, JsStr s => Some (MBytes s)
  | KSlice _, JsStr s | KSliceMin _, JsStr s | KSliceMax _, JsStr s =>
      match unb64 s with Some bs => Some (MBytes bs) | None => None end
  | KSock, JsObj ms => un_sockaddr heap ms
  | KCopy _, JsObj ms | KPtr _, JsObj ms =>
      match un_struct (layout_of nr) ms with Some bs => Some (MBytes bs) | None => None end
  | KAddrs, JsObj ms =>
      match num_at ms "Sec", num_at ms "Nsec" with
      | Some a, Some _ => Some (MAddrs (Z.to_nat ((a - base) / 128)))
      | _, _ => None
      end
  | _, _ => None
  end.

(** getsockopt's struct embeds another under the key "sockopt" (getsockopt.go 3-5). *)
Definition args_members (nr : Z) (a : json) : option (list (list Z * json)) :=
  match a with
  | JsObj ms =>
      if nr =? 55
      then match member_of ms "sockopt" with Some (JsObj ms') => Some ms' | _ => None end
      else Some ms
  | _ => None
  end.

(** * The event *)

(** [Read e]: the event [e] goes to the command; [ReadNil]: a nil event does (the text
    "null" leaves the pointer nil, without an error); [Skipped]: json.Unmarshal returns
    an error and readWebsock goes on with the next message; [Crashed]: ev.Syscall is nil
    when trace.go 77 reads its number, which ends the client; [Unmodelled]: an argument
    is missing or null. *)
Inductive outcome := Read (e : client_event) | ReadNil | Skipped | Crashed | Unmodelled.

Definition present (ms : list (list Z * json)) (f : field) : bool :=
  match argument_of ms (f_name f) with None | Some JsNull => false | Some _ => true end.

(** trace.go 72-74: the numbers of the event that are not printed. *)
Definition numbers : list string :=
  ["pid"; "tid"; "container_pid"; "uid"; "gid"; "return"; "pid_ns"; "uts_ns"; "mount_ns"; "start"; "finish"].

Definition un_event (order : list (Z * string) -> list (Z * string)) (heap : list Z) (base : Z) (j : json) : outcome :=
  match j with
  | JsNull => ReadNil
  | JsObj ms =>
      match un_syscall ms, text_at ms "comm", num_at ms "session", un_error order ms, un_container ms with
      | Some sc, Some comm, Some sid, Some err, Some c =>
          if forallb (fun k => bool_decide (is_Some (num_at ms k))) numbers
          then match sc with
               | None => Crashed
               | Some (nr, name) =>
                   match decoder nr, member_of ms "args" with
                   | Some fs, Some a =>
                       match args_members nr a with
                       | Some l =>
                           if forallb (present l) fs
                           then match mapM (fun f => match argument_of l (f_name f) with
                                                     | Some j => un_member order heap base nr f j
                                                     | None => None
                                                     end) fs with
                                | Some vs => Read (ClientEvent nr name comm sid err c fs vs)
                                | None => Skipped
                                end
                           else Unmodelled
                       | None => match a with JsNull | JsObj _ => Unmodelled | _ => Skipped end
                       end
                   | _, _ => Skipped
                   end
               end
          else Skipped
      | _, _, _, _, _ => Skipped
      end
  | _ => Skipped
  end.
(** endpoint.go 223-227 *)
Definition unmarshal (order : list (Z * string) -> list (Z * string)) (heap : list Z) (base : Z) (msg : list Z) : outcome :=
  match read_json msg with
  | Some j => un_event order heap base j
  | None => Skipped
  end.
