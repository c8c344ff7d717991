(** The event as bytes: the C struct the kernel program fills in, the Go code
    that turns a perf record into a [RawEvent], C strings, and socket
    addresses.

    Bytes are integers in [0, 256).  Both ends are little endian: the BPF
    target is, and the Go code names the byte order. *)
From stdpp Require Import base list numbers strings pretty.
From Coq Require Import ZArith Lia Ascii.

Local Open Scope Z_scope.

(** * Little-endian integers *)

(** encoding/binary LittleEndian.Uint16/32/64, used by binary.Read
    (pkg/event/raw.go 54-60) and by pkg/types/c.go 35-49. *)
Fixpoint le (bs : list Z) : Z :=
  match bs with
  | [] => 0
  | b :: bs' => b + 256 * le bs'
  end.

(** How an [n]-byte integer lies in memory on the BPF side. *)
Fixpoint to_le (n : nat) (v : Z) : list Z :=
  match n with
  | O => []
  | S n' => v mod 256 :: to_le n' (v / 256)
  end.

(** Go's conversion uint32 -> int32 (and C's). *)
Definition s32 (v : Z) : Z :=
  let m := v mod 2 ^ 32 in if m <? 2 ^ 31 then m else m - 2 ^ 32.

(** Go's conversion uint64 -> int64. *)
Definition s64 (v : Z) : Z :=
  let m := v mod 2 ^ 64 in if m <? 2 ^ 63 then m else m - 2 ^ 64.

Definition u32 (v : Z) : Z := v mod 2 ^ 32.
Definition u64 (v : Z) : Z := v mod 2 ^ 64.

(** * The C struct *)

(** struct swoll_event, internal/bpf/probe.c 115-147, before it is laid out.
    The union of arguments is one array of 640 bytes. *)
Record kernel_event := KernelEvent {
  k_pid_tid : Z;
  k_uid_gid : Z;
  k_syscall : Z;
  k_ns_pid : Z;
  k_entr : Z;
  k_exit : Z;
  k_session : Z;
  k_pid_ns : Z;
  k_uts_ns : Z;
  k_mnt_ns : Z;
  k_ipc_ns : Z;
  k_cgr_ns : Z;
  k_context_sw : Z;
  k_errno : Z;
  k_ret : Z;
  k_comm : list Z;
  k_args : list Z
}.

(** Size and alignment of each member of struct swoll_event
    (probe.c 115-147): __u64 8, __u32 and __s32 4, __u8 arrays 1; the union
    holds a struct with __u16 members (107-111), so it is aligned to 2. *)
Definition swoll_event_members : list (nat * nat) :=
  [ (8, 8); (8, 8); (4, 4); (4, 4); (8, 8); (8, 8); (4, 4); (4, 4); (4, 4);
    (4, 4); (4, 4); (4, 4); (8, 8); (4, 4); (4, 4); (16, 1); (640, 2) ]%nat.

(** The offsets a C compiler gives the members: each at the next multiple of
    its alignment. *)
Fixpoint c_offsets (o : nat) (ms : list (nat * nat)) : list nat :=
  match ms with
  | [] => []
  | (size, align) :: ms' =>
      let o' := ((o + align - 1) / align * align)%nat in
      o' :: c_offsets (o' + size) ms'
  end.

(** sizeof(struct swoll_event), the number of bytes handed to
    bpf_perf_event_output (probe.c 2723-2724). *)
Definition swoll_event_size : nat := 736.

(** A store of [bs] at offset [o]. *)
Definition write_at (o : nat) (bs buf : list Z) : list Z :=
  take o buf ++ bs ++ drop (o + length bs) buf.

(** What each member holds, in the order of [swoll_event_members]. *)
Definition member_bytes (k : kernel_event) : list (list Z) :=
  [ to_le 8 (k_pid_tid k); to_le 8 (k_uid_gid k); to_le 4 (k_syscall k);
    to_le 4 (k_ns_pid k); to_le 8 (k_entr k); to_le 8 (k_exit k);
    to_le 4 (k_session k); to_le 4 (k_pid_ns k); to_le 4 (k_uts_ns k);
    to_le 4 (k_mnt_ns k); to_le 4 (k_ipc_ns k); to_le 4 (k_cgr_ns k);
    to_le 8 (k_context_sw k); to_le 4 (k_errno k); to_le 4 (k_ret k);
    k_comm k; k_args k ].

(** The per-CPU scratch buffer, whatever it held before, after every member
    has been stored. *)
Definition kernel_image (k : kernel_event) (scratch : list Z) : list Z :=
  fold_left (fun buf ob => write_at ob.1 ob.2 buf)
    (zip (c_offsets 0 swoll_event_members) (member_bytes k)) scratch.

(** * RawEvent *)

(** pkg/event/raw.go 19-39. *)
Record raw_event := RawEvent {
  r_pid : Z;
  r_tid : Z;
  r_uid : Z;
  r_gid : Z;
  r_syscall : Z;
  r_ns_pid : Z;
  r_start : Z;
  r_finish : Z;
  r_session : Z;
  r_pid_ns : Z;
  r_uts_ns : Z;
  r_mnt_ns : Z;
  r_ipc_ns : Z;
  r_cgr_ns : Z;
  r_context_sw : Z;
  r_errno : Z;
  r_ret : Z;
  r_comm : list Z;
  r_args : list Z
}.

(** One integer member taken by binary.Read from the front of the buffer. *)
Definition take_le (n : nat) (bs : list Z) : Z * list Z :=
  (le (take n bs), drop n bs).

(** IngestBytes (raw.go 54-60): binary.Read with LittleEndian into the struct.
    binary.Read first reads exactly the struct's size (io.ReadFull; a shorter
    buffer is an error and leaves the struct alone), then fills the members in
    order without padding. *)
Definition ingest_bytes (data : list Z) : option raw_event :=
  if (length data <? swoll_event_size)%nat then None else
  let '(pid, b) := take_le 4 data in
  let '(tid, b) := take_le 4 b in
  let '(uid, b) := take_le 4 b in
  let '(gid, b) := take_le 4 b in
  let '(nr, b) := take_le 4 b in
  let '(ns_pid, b) := take_le 4 b in
  let '(start, b) := take_le 8 b in
  let '(finish, b) := take_le 8 b in
  let '(session, b) := take_le 4 b in
  let '(pid_ns, b) := take_le 4 b in
  let '(uts_ns, b) := take_le 4 b in
  let '(mnt_ns, b) := take_le 4 b in
  let '(ipc_ns, b) := take_le 4 b in
  let '(cgr_ns, b) := take_le 4 b in
  let '(csw, b) := take_le 8 b in
  let '(errno, b) := take_le 4 b in
  let '(ret, b) := take_le 4 b in
  Some (RawEvent pid tid uid gid nr ns_pid start finish (s32 session) pid_ns
          uts_ns mnt_ns ipc_ns cgr_ns csw errno ret
          (take 16 b) (take 640 (drop 16 b))).

(** * C strings and comm *)

(** The counting loop of MakeCString (pkg/types/c.go 22-30) and of Commstr
    (raw.go 92-100). *)
Fixpoint nul_count (bs : list Z) : nat :=
  match bs with
  | [] => 0
  | b :: bs' => if Z.eqb b 0 then 0 else S (nul_count bs')
  end%nat.

(** MakeCString over the [n] bytes at [mem] (c.go 20-33).  [mem] is the memory
    from the pointer on; whether those [n] bytes may be read is the subject of
    DecodeModel.v. *)
Definition make_cstring (mem : list Z) (n : nat) : list Z :=
  let bytes := take n mem in take (nul_count bytes) bytes.

(** Commstr (raw.go 91-103). *)
Definition commstr (r : raw_event) : list Z :=
  take (nul_count (r_comm r)) (r_comm r).

(** * Socket addresses *)

Definition AF_UNSPEC : Z := 0.
Definition AF_UNIX : Z := 1.
Definition AF_INET : Z := 2.
Definition AF_INET6 : Z := 10.

(** ntohs (pkg/types/sockaddr.go 14-18): PutUint16 big endian, read back little
    endian. *)
Definition ntohs (port : Z) : Z := le [port / 256 mod 256; port mod 256].

Definition hex_digit (d : Z) : ascii :=
  ascii_of_N (Z.to_N (if d <? 10 then 48 + d else 87 + d)).

(** fmt's %02x of a byte. *)
Definition hex2 (b : Z) : string :=
  String (hex_digit (b / 16)) (String (hex_digit (b mod 16)) EmptyString).

(** A Go string made of the given bytes. *)
Fixpoint string_of_bytes (bs : list Z) : string :=
  match bs with
  | [] => EmptyString
  | b :: bs' => String (ascii_of_N (Z.to_N b)) (string_of_bytes bs')
  end.

(** Go's int8 value of a byte (RawSockaddr.Data is [14]int8 on amd64). *)
Definition s8 (b : Z) : Z := if b <? 128 then b else b - 256.

(** fmt's %v of an array of integers. *)
Fixpoint join_ints (l : list Z) : string :=
  match l with
  | [] => ""
  | [x] => pretty x
  | x :: l' => (pretty x ++ " " ++ join_ints l')%string
  end.

Definition hex_pair (bs : list Z) (i : nat) : string :=
  (hex2 (nth i bs 0) ++ hex2 (nth (S i) bs 0))%string.

(** parseSockAddr (sockaddr.go 20-63) on the memory the pointer points to.
    Offsets are those of RawSockaddr{,Inet4,Inet6,Unix} on amd64: Family 0-1;
    Inet4 Port 2-3 Addr 4-7; Inet6 Port 2-3 Flowinfo 4-7 Addr 8-23; Unix Path
    2-109; RawSockaddr Data 2-15. *)
Definition parse_sockaddr (mem : list Z) : string * Z :=
  let family := le (take 2 mem) in
  let at_ i := nth i mem 0 in
  if family =? AF_INET then
    (("ipv4:" ++ pretty (at_ 4%nat) ++ "." ++ pretty (at_ 5%nat) ++ "."
       ++ pretty (at_ 6%nat) ++ "." ++ pretty (at_ 7%nat))%string,
     ntohs (le (take 2 (drop 2 mem))))
  else if family =? AF_INET6 then
    (("ipv6:" ++ hex_pair mem 8 ++ ":" ++ hex_pair mem 10 ++ ":" ++ hex_pair mem 12
       ++ ":" ++ hex_pair mem 14 ++ ":" ++ hex_pair mem 16 ++ ":" ++ hex_pair mem 18
       ++ ":" ++ hex_pair mem 20 ++ ":" ++ hex_pair mem 22)%string,
     le (take 2 (drop 2 mem)))
  else if family =? AF_UNIX then
    (("unix:" ++ string_of_bytes (make_cstring (drop 2 mem) 108))%string, 0)
  else if family =? AF_UNSPEC then
    (("unspec:[" ++ join_ints (map s8 (take 14 (drop 2 mem))) ++ "]")%string, 0)
  else (pretty family, 0).

(** SockAddr.String, and the "decoded" member of its JSON (sockaddr.go 65-87):
    the address is never empty, so both are "%s:%d". *)
Definition sockaddr_string (mem : list Z) : string :=
  let '(addr, port) := parse_sockaddr mem in (addr ++ ":" ++ pretty port)%string.
