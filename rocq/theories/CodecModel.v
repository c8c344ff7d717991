(** The JSON encoders and decoders of flag sets, named numbers and errnos.

    A JSON document is represented by the Go value handed to encoding/json: a
    string or a list of strings.  All names are plain ASCII, so encoding/json
    gives them back unchanged (trusted).  Go's int is int64 here (linux/amd64);
    Z.land and Z.lor are its & and | on two's complement numbers. *)
From stdpp Require Import base list numbers strings pretty gmap.
From Coq Require Import ZArith String Ascii.
From Verif Require Import CodecTables.

Local Open Scope string_scope.
Local Open Scope Z_scope.

(** * Flag sets *)

(** One flag type.  [c_exact]: values Parse gives a single name of their own;
    [c_zero]: names whose case assigns 0 instead of or-ing; [c_clears]: whether
    UnmarshalJSON starts with *f = 0. *)
Record codec := Codec {
  c_masks : list (Z * string);
  c_keys : list (string * Z);
  c_exact : list (Z * string);
  c_zero : list string;
  c_clears : bool
}.

(** fileflags.go 31-104 *)
Definition file_codec := Codec file_masks file_keys [(0, "O_RDONLY")] [] true.
(** umountflags.go 17-57 *)
Definition umount_codec := Codec umount_masks umount_keys [] [] false.
(** clocktypes.go 47-89 *)
Definition timer_codec := Codec timer_masks timer_keys [] [] false.
(** msgflags.go 23-79 *)
Definition msg_codec := Codec msg_masks msg_keys [] [] false.
(** accept.go 30-67 *)
Definition accept_codec := Codec accept_masks accept_keys [] [] false.
(** mount.go 72-170 *)
Definition mount_codec := Codec mount_masks mount_keys [(0, "MS_NONE")] ["MS_NONE"] false.
(** inotify_add_watch.go 57-135; IN_ALL_EVENTS is 0xfff *)
Definition inotify_codec := Codec inotify_masks inotify_keys [(4095, "IN_ALL_EVENTS")] [] false.

Fixpoint assoc_z {A} (l : list (Z * A)) (k : Z) : option A :=
  match l with
  | [] => None
  | (x, a) :: l' => if x =? k then Some a else assoc_z l' k
  end.

Fixpoint assoc_s {A} (l : list (string * A)) (k : string) : option A :=
  match l with
  | [] => None
  | (x, a) :: l' => if String.eqb x k then Some a else assoc_s l' k
  end.

(** [fint & flag != 0] *)
Definition hits (v m : Z) : bool := negb (Z.land v m =? 0).

(** Parse, e.g. fileflags.go 31-46.  The loop ranges over a Go map, so it sees
    the entries in any order: [order] is a permutation of [c_masks]. *)
Definition encode (c : codec) (order : list (Z * string)) (v : Z) : list string :=
  match assoc_z (c_exact c) v with
  | Some n => [n]
  | None => map snd (List.filter (fun e => hits v (fst e)) order)
  end.

(** One iteration of UnmarshalJSON's loop; a name without a case is skipped. *)
Definition decode_step (c : codec) (acc : Z) (n : string) : Z :=
  if existsb (String.eqb n) (c_zero c) then 0
  else match assoc_s (c_keys c) n with
       | Some m => Z.lor acc m
       | None => acc
       end.

(** UnmarshalJSON into a variable holding [start]. *)
Definition decode (c : codec) (start : Z) (names : list string) : Z :=
  fold_left (decode_step c) names (if c_clears c then 0 else start).

(** * Named numbers *)

(** strconv.Atoi: an optional sign and at least one decimal digit, in the range of
    int64.  (Underscores and prefixes are not accepted in base 10.) *)
Definition digit (c : ascii) : option Z :=
  let n := Z.of_N (N_of_ascii c) in
  if (48 <=? n) && (n <=? 57) then Some (n - 48) else None.

Fixpoint digits (acc : Z) (s : string) : option Z :=
  match s with
  | EmptyString => Some acc
  | String c s' =>
      match digit c with
      | Some d => digits (acc * 10 + d) s'
      | None => None
      end
  end.

Definition number (s : string) : option Z :=
  match s with
  | EmptyString => None
  | String "-" EmptyString => None
  | String "+" EmptyString => None
  | String "-" s' => match digits 0 s' with Some n => Some (- n) | None => None end
  | String "+" s' => digits 0 s'
  | _ => digits 0 s
  end.

Definition in_int64 (z : Z) : bool := (- 2 ^ 63 <=? z) && (z <? 2 ^ 63).

Definition atoi (s : string) : option Z :=
  match number s with
  | Some n => if in_int64 n then Some n else None
  | None => None
  end.

(** SockFamily.Parse (socket.go 156-162), SockProtocol.Parse (222-228),
    SockoptLevel.Parse (sockopt.go 84-90), PRresource.Parse (prlimit64.go 55-96):
    the name, else "%d". *)
Definition render (names : list (Z * string)) (v : Z) : string :=
  match assoc_z names v with Some s => s | None => pretty v end.

(** The reverse maps built in init: a range over the Go map, in any order, each
    iteration storing [keys[v] = k]. *)
Definition reverse (order : list (Z * string)) : gmap string Z :=
  fold_left (fun m e => <[snd e := fst e]> m) order ∅.

(** SockFamily.UnmarshalJSON (socket.go 168-188), SockProtocol (238-256),
    SockoptLevel (sockopt.go 96-112); [None] is the error of Atoi. *)
Definition unrender (keys : gmap string Z) (s : string) : option Z :=
  match keys !! s with Some v => Some v | None => atoi s end.

(** PRresource.UnmarshalJSON (prlimit64.go 102-148): a switch on the name. *)
Definition unrender_resource (s : string) : option Z :=
  match assoc_s resource_keys s with Some v => Some v | None => atoi s end.

(** * Socket options *)

(** syscall.SOL_* *)
Definition SOL_IP := 0.
Definition SOL_SOCKET := 1.
Definition SOL_TCP := 6.
Definition SOL_IPV6 := 41.

(** SockoptName.Parse (sockopt.go 273-286) with parseSocketOpt, parseTcpOpt,
    parseIpOpt, parseIp6Opt (165-271). *)
Definition render_option (lv tp : Z) : string :=
  if lv =? SOL_SOCKET then render so_names tp
  else if lv =? SOL_TCP then render tcp_names tp
  else if lv =? SOL_IP then render ip_names tp
  else if lv =? SOL_IPV6 then render ip6_names tp
  else pretty tp.

(** SockoptName.UnmarshalJSON (sockopt.go 296-337) into a variable holding
    [start], on the four reverse maps (built in init 339-364): what the variable
    holds afterwards, and whether the error is nil.  The case for IPv6 names does
    not return, so Atoi runs on the name. *)
Definition unrender_option (so tcp ip ip6 : gmap string Z) (start : Z * Z) (s : string)
  : (Z * Z) * bool :=
  match so !! s with
  | Some v => ((SOL_SOCKET, v), true)
  | None =>
  match tcp !! s with
  | Some v => ((SOL_TCP, v), true)
  | None =>
  match ip !! s with
  | Some v => ((SOL_IP, v), true)
  | None =>
  let cur := match ip6 !! s with Some v => (SOL_IPV6, v) | None => start end in
  match atoi s with
  | Some tp => ((0, tp), true)
  | None => (cur, false)
  end end end end.

(** * Socket types *)

(** unix.SOCK_* *)
Definition socktype_names : list (Z * string) :=
  [(1, "SOCK_STREAM"); (2, "SOCK_DGRAM"); (5, "SOCK_SEQPACKET"); (3, "SOCK_RAW");
   (4, "SOCK_RDM"); (10, "SOCK_PACKET")].
Definition SOCK_CLOEXEC := 524288.
Definition SOCK_NONBLOCK := 2048.

(** SockType.Parse (socket.go 82-114). *)
Definition encode_socktype (t : Z) : list string :=
  let flags := Z.land t (Z.lnot 15) in
  let ttype := Z.land t 15 in
  ((match assoc_z socktype_names ttype with
    | Some n => [n]
    | None => ["<" +:+ pretty ttype +:+ ">"]
    end)
   ++ (if 0 <? Z.land flags SOCK_CLOEXEC then ["SOCK_CLOEXEC"] else [])
   ++ (if 0 <? Z.land flags SOCK_NONBLOCK then ["SOCK_NONBLOCK"] else []))%list.

(** One iteration of SockType.UnmarshalJSON's loop (socket.go 56-75) on
    (sType, sFlags). *)
Definition socktype_step (s : Z * Z) (n : string) : Z * Z :=
  let '(ty, fl) := s in
  if String.eqb n "SOCK_STREAM" then (1, fl)
  else if String.eqb n "SOCK_DGRAM" then (2, fl)
  else if String.eqb n "SOCK_SEQPACKET" then (5, fl)
  else if String.eqb n "SOCK_RAW" then (3, fl)
  else if String.eqb n "SOCK_RDM" then (4, fl)
  else if String.eqb n "SOCK_PACKET" then (10, fl)
  else if String.eqb n "SOCK_CLOEXEC" then (ty, Z.lor fl SOCK_CLOEXEC)
  else if String.eqb n "SOCK_NONBLOCK" then (ty, Z.lor fl SOCK_NONBLOCK)
  else (ty, fl).

(** SockType.UnmarshalJSON (socket.go 47-78); the old value is overwritten. *)
Definition decode_socktype (names : list string) : Z :=
  let '(ty, fl) := fold_left socktype_step names (0, 0) in Z.lor ty fl.

(** * Errnos *)

(** errnoToString (errno.go 43-49) *)
Definition errno_to_string (e : Z) : string :=
  match assoc_z errno_names e with Some s => s | None => "UNK" end.

(** stringToErrno (errno.go 35-41) on the map built by init (55-60) *)
Definition string_to_errno (keys : gmap string Z) (s : string) : Z :=
  match keys !! s with Some v => v | None => -1 end.
