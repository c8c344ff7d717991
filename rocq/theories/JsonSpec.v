(** Well-formed text, and which members survive the trip to a client. *)
From stdpp Require Import base list strings pretty.
From Coq Require Import ZArith String.
From Verif Require Import RawModel DecodeModel CodecTables CodecModel CodecSpec JsonModel.

Local Open Scope string_scope.
Local Open Scope Z_scope.

(** Unicode scalar values and their UTF-8 encoding (RFC 3629). *)
Definition scalar (c : Z) : Prop := 0 <= c < 55296 \/ 57344 <= c < 1114112.

Definition utf8 (c : Z) : list Z :=
  if c <? 128 then [c]
  else if c <? 2048 then [192 + c / 64; 128 + c mod 64]
  else if c <? 65536 then [224 + c / 4096; 128 + c / 64 mod 64; 128 + c mod 64]
  else [240 + c / 262144; 128 + c / 4096 mod 64; 128 + c / 64 mod 64; 128 + c mod 64].

Definition well_formed (bs : list Z) : Prop :=
  exists cs, Forall scalar cs /\ bs = List.concat (List.map utf8 cs).

Definition bytes (bs : list Z) : Prop := Forall (fun b => 0 <= b < 256) bs.

(** The flags of a type that survive JSON (C38). *)
Definition surviving (c : codec) : list Z := flags_but ["O_DSYNC"] (c_masks c).

(** A socket type that survives (C60). *)
Definition plain_socktype (t : Z) : Prop :=
  exists ty, In ty [0; 1; 2; 3; 4; 5; 10] /\
    (t = ty \/ t = ty + SOCK_NONBLOCK \/ t = ty + SOCK_CLOEXEC
     \/ t = ty + SOCK_NONBLOCK + SOCK_CLOEXEC).

(** A socket option that survives. *)
Definition plain_option (lv tp : Z) : Prop :=
  lv = SOL_IP
  \/ lv = SOL_SOCKET /\ In tp (map fst so_names)
  \/ lv = SOL_TCP /\ In tp (map fst tcp_names).

(** A socket address whose text fits the 16 bytes the client keeps. *)
Definition short_address (mem : list Z) : Prop :=
  let family := le (take 2 mem) in
  family <> AF_INET6 /\ (family = AF_UNIX -> In 0 (take 14 (drop 2 mem))).

(** The arguments that are flag sets, socket types and socket options, by system call. *)
Definition among (l : list (Z * string)) (nr : Z) (name : string) : Prop :=
  existsb (fun e => (fst e =? nr) && String.eqb (snd e) name)%bool l = true.
Definition int_survives (args : list Z) (nr : Z) (name : string) (z : Z) : Prop :=
  (among [(2, "flags"); (257, "flags")] nr name -> made_of (surviving file_codec) z) /\
  (among [(288, "flags")] nr name -> made_of (surviving accept_codec) z) /\
  (among [(254, "mask")] nr name -> made_of (surviving inotify_codec) z) /\
  (among [(165, "flags")] nr name -> made_of (surviving mount_codec) z) /\
  (among [(44, "flags"); (45, "flags")] nr name -> made_of (surviving msg_codec) z) /\
  (among [(166, "flags")] nr name -> made_of (surviving umount_codec) z) /\
  (among [(283, "flags"); (286, "flags")] nr name -> made_of (surviving timer_codec) z) /\
  (among [(41, "type")] nr name -> plain_socktype z) /\
  (among [(54, "name"); (55, "name")] nr name -> plain_option (option_level args) z).

Definition survives (args : list Z) (nr : Z) (f : field) (v : value) : Prop :=
  match v with
  | VInt z => int_survives args nr (f_name f) z
  | VStr bs => well_formed bs
  | VSock off => short_address (drop off args)
  | VCopy _ | VSlice _ _ | VPtr _ _ | VAddrs _ => True
  end.
