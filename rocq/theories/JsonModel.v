(** What a client reads back of an event it received as JSON.

    Numbers, arrays of numbers and byte slices (base64) come back from
    encoding/json unchanged (trusted).  Strings are modelled here, and the types
    with methods of their own in CodecModel. *)
From stdpp Require Import base list numbers strings pretty gmap.
From Coq Require Import ZArith String.
From Verif Require Import RawModel DecodeModel CodecTables CodecModel.

Local Open Scope string_scope.
Local Open Scope Z_scope.

(** * Strings *)

(** A byte that continues an UTF-8 sequence (0x80-0xbf). *)
Definition cont (b : Z) : bool := (128 <=? b) && (b <=? 191).

(** Go's unicode/utf8 acceptRanges: which first bytes start a sequence of 2, 3, 4
    bytes, and what the second byte may be. *)
Definition seq2 (b0 b1 : Z) : bool := (194 <=? b0) && (b0 <=? 223) && cont b1.

Definition seq3 (b0 b1 b2 : Z) : bool :=
  ((b0 =? 224) && (160 <=? b1) && (b1 <=? 191)
   || (225 <=? b0) && (b0 <=? 236) && cont b1
   || (b0 =? 237) && (128 <=? b1) && (b1 <=? 159)
   || (238 <=? b0) && (b0 <=? 239) && cont b1)
  && cont b2.

Definition seq4 (b0 b1 b2 b3 : Z) : bool :=
  ((b0 =? 240) && (144 <=? b1) && (b1 <=? 191)
   || (241 <=? b0) && (b0 <=? 243) && cont b1
   || (b0 =? 244) && (128 <=? b1) && (b1 <=? 143))
  && cont b2 && cont b3.

(** Marshalling a Go string and unmarshalling it again: encoding/json writes
    U+FFFD (ef bf bd) for each byte that is not part of a well-formed sequence. *)
Fixpoint json_text (bs : list Z) : list Z :=
  match bs with
  | [] => []
  | b0 :: t =>
      if b0 <? 128 then b0 :: json_text t
      else match t with
      | b1 :: t1 =>
          if seq2 b0 b1 then b0 :: b1 :: json_text t1
          else match t1 with
          | b2 :: t2 =>
              if seq3 b0 b1 b2 then b0 :: b1 :: b2 :: json_text t2
              else match t2 with
              | b3 :: t3 =>
                  if seq4 b0 b1 b2 b3 then b0 :: b1 :: b2 :: b3 :: json_text t3
                  else 239 :: 191 :: 189 :: json_text t
              | [] => 239 :: 191 :: 189 :: json_text t
              end
          | [] => 239 :: 191 :: 189 :: json_text t
          end
      | [] => 239 :: 191 :: 189 :: json_text t
      end
  end.

(** * Socket addresses *)

(** SockAddr has a MarshalJSON (sockaddr.go 75-87) but no UnmarshalJSON: the
    client fills in Family and Data, the 16 bytes of a RawSockaddr.  Printing it
    (String, parseSockAddr) casts the pointer to the larger struct of the family,
    so it goes on reading whatever lies behind: [heap]. *)
Definition client_sockaddr (mem heap : list Z) : list Z := (take 16 mem ++ heap)%list.

(** * Members *)

(** The types of number members that have JSON methods. *)
Inductive jtype :=
| JPlain
| JFlags (c : codec)
| JNames (names : list (Z * string))
| JResource
| JSockType
| JOption.

(** The declared member types, pkg/event/call; every other number member is
    a plain integer (the methods of XmodeFlags, CloneFlags, ProtFlags and DirFD are
    commented out). *)
Definition jtype_table : list (Z * string * jtype) :=
  [ (288, "flags", JFlags accept_codec);       (* accept.go 22 *)
    (254, "mask", JFlags inotify_codec);       (* inotify_add_watch.go 17 *)
    (165, "flags", JFlags mount_codec);        (* mount.go 17 *)
    (2, "flags", JFlags file_codec);           (* open.go 11 *)
    (257, "flags", JFlags file_codec);         (* openat.go 12 *)
    (45, "flags", JFlags msg_codec);           (* recvfrom.go 14 *)
    (44, "flags", JFlags msg_codec);           (* sendto.go 13 *)
    (166, "flags", JFlags umount_codec);       (* umount2.go 11 *)
    (283, "flags", JFlags timer_codec);        (* timerfd_create.go 11 *)
    (286, "flags", JFlags timer_codec);        (* timerfd_settime.go 11 *)
    (302, "resource", JResource);              (* prlimit64.go 18 *)
    (41, "family", JNames family_names);       (* socket.go 18-22 *)
    (41, "type", JSockType);
    (41, "protocol", JNames proto_names);
    (55, "level", JNames level_names);         (* sockopt.go 23-29 *)
    (55, "name", JOption);
    (54, "level", JNames level_names);
    (54, "name", JOption) ].

Definition jtype_of (nr : Z) (name : string) : jtype :=
  match List.find (fun e => (fst (fst e) =? nr) && String.eqb (snd (fst e)) name) jtype_table with
  | Some e => snd e
  | None => JPlain
  end.

(** What can be told from a member. *)
Inductive member :=
| MInt (z : Z)
| MOption (lv tp : Z)
| MBytes (bs : list Z)
| MSock (text : string * Z)
| MAddrs (slot : nat).

Definition of_shown (s : shown) : member :=
  match s with
  | ShInt z => MInt z
  | ShBytes bs => MBytes bs
  | ShSock t => MSock t
  | ShAddrs slot => MAddrs slot
  end.

(** The level a getsockopt or setsockopt names (sockopt.go 33-39). *)
Definition option_level (args : list Z) : Z :=
  match c32 args (slot_start 1) with Some lv => lv | None => 0 end.

(** The member as the server has it. *)
Definition server_member (args : list Z) (nr : Z) (f : field) (v : value) : option member :=
  match v, jtype_of nr (f_name f) with
  | VInt z, JOption => Some (MOption (option_level args) z)
  | _, _ => match show args v with Some s => Some (of_shown s) | None => None end
  end.

(** [order] says in which order the loops over the Go maps of both programs meet
    the entries of a table. *)
Definition client_int (order : list (Z * string) -> list (Z * string)) (args : list Z)
    (nr : Z) (f : field) (z : Z) : option member :=
  match jtype_of nr (f_name f) with
  | JPlain => Some (MInt z)
  | JFlags c => Some (MInt (decode c 0 (encode c (order (c_masks c)) z)))
  | JNames names =>
      match unrender (reverse (order names)) (render names z) with
      | Some z' => Some (MInt z')
      | None => None
      end
  | JResource =>
      match unrender_resource (render resource_names z) with
      | Some z' => Some (MInt z')
      | None => None
      end
  | JSockType => Some (MInt (decode_socktype (encode_socktype z)))
  | JOption =>
      match unrender_option (reverse (order so_names)) (reverse (order tcp_names))
              (reverse (order ip_names)) (reverse (order ip6_names)) (0, 0)
              (render_option (option_level args) z) with
      | ((lv, tp), true) => Some (MOption lv tp)
      | (_, false) => None
      end
  end.

(** The member as the client has it; [None]: UnmarshalJSON returns an error, or
    the server could not read the member in the first place. *)
Definition client_member (order : list (Z * string) -> list (Z * string)) (heap : list Z)
    (args : list Z) (nr : Z) (f : field) (v : value) : option member :=
  match v with
  | VInt z => client_int order args nr f z
  | VStr bs => Some (MBytes (json_text bs))
  | VSock off => Some (MSock (parse_sockaddr (client_sockaddr (drop off args) heap)))
  | _ => match show args v with Some s => Some (of_shown s) | None => None end
  end.

(** * Events *)

(** The command name and the error of a TraceEvent after JSON (trace.go 18-38);
    its other members are plain integers. *)
Definition client_comm (t : trace_event) : list Z := json_text (t_comm t).
Definition client_error (order : list (Z * string) -> list (Z * string)) (t : trace_event) : Z :=
  string_to_errno (reverse (order errno_names)) (errno_to_string (t_error t)).

Fixpoint client_members (order : list (Z * string) -> list (Z * string)) (heap : list Z)
    (args : list Z) (nr : Z) (fs : list field) (vs : list value) : option (list member) :=
  match fs, vs with
  | f :: fs', v :: vs' =>
      match client_member order heap args nr f v, client_members order heap args nr fs' vs' with
      | Some m, Some ms => Some (m :: ms)
      | _, _ => None
      end
  | _, _ => Some []
  end.

Fixpoint server_members (args : list Z) (nr : Z) (fs : list field) (vs : list value)
  : option (list member) :=
  match fs, vs with
  | f :: fs', v :: vs' =>
      match server_member args nr f v, server_members args nr fs' vs' with
      | Some m, Some ms => Some (m :: ms)
      | _, _ => None
      end
  | _, _ => Some []
  end.
