(** What the property list says about event bytes, C strings and socket
    addresses, without the decoders. *)
From stdpp Require Import base list numbers strings pretty.
From Coq Require Import ZArith Ascii.
From Verif Require Import RawModel.

Local Open Scope Z_scope.

Definition is_byte (b : Z) : Prop := 0 <= b < 256.

(** The values the members of the C struct can hold. *)
Record kernel_event_ok (k : kernel_event) : Prop := {
  ok_pid_tid : 0 <= k_pid_tid k < 2 ^ 64;
  ok_uid_gid : 0 <= k_uid_gid k < 2 ^ 64;
  ok_syscall : 0 <= k_syscall k < 2 ^ 32;
  ok_ns_pid : 0 <= k_ns_pid k < 2 ^ 32;
  ok_entr : 0 <= k_entr k < 2 ^ 64;
  ok_exit : 0 <= k_exit k < 2 ^ 64;
  ok_session : - 2 ^ 31 <= k_session k < 2 ^ 31;
  ok_pid_ns : 0 <= k_pid_ns k < 2 ^ 32;
  ok_uts_ns : 0 <= k_uts_ns k < 2 ^ 32;
  ok_mnt_ns : 0 <= k_mnt_ns k < 2 ^ 32;
  ok_ipc_ns : 0 <= k_ipc_ns k < 2 ^ 32;
  ok_cgr_ns : 0 <= k_cgr_ns k < 2 ^ 32;
  ok_context_sw : 0 <= k_context_sw k < 2 ^ 64;
  ok_errno : 0 <= k_errno k < 2 ^ 32;
  ok_ret : 0 <= k_ret k < 2 ^ 32;
  ok_comm : length (k_comm k) = 16%nat;
  ok_args : length (k_args k) = 640%nat
}.

(** The RawEvent a reader of the Go declaration expects.  The two 64-bit words
    that pack two 32-bit numbers come apart: the low half is first. *)
Definition raw_of (k : kernel_event) : raw_event := {|
  r_pid := k_pid_tid k mod 2 ^ 32;
  r_tid := k_pid_tid k / 2 ^ 32;
  r_uid := k_uid_gid k mod 2 ^ 32;
  r_gid := k_uid_gid k / 2 ^ 32;
  r_syscall := k_syscall k;
  r_ns_pid := k_ns_pid k;
  r_start := k_entr k;
  r_finish := k_exit k;
  r_session := k_session k;
  r_pid_ns := k_pid_ns k;
  r_uts_ns := k_uts_ns k;
  r_mnt_ns := k_mnt_ns k;
  r_ipc_ns := k_ipc_ns k;
  r_cgr_ns := k_cgr_ns k;
  r_context_sw := k_context_sw k;
  r_errno := k_errno k;
  r_ret := k_ret k;
  r_comm := k_comm k;
  r_args := k_args k
|}.

(** bpf_get_current_pid_tgid() packs the process id (the kernel's "tgid") above
    the thread id (the kernel's "pid"); bpf_get_current_uid_gid() packs the gid
    above the uid. *)
Definition pid_tgid (tgid tid : Z) : Z := tgid * 2 ^ 32 + tid.
Definition uid_gid (uid gid : Z) : Z := gid * 2 ^ 32 + uid.

(** [s] is the C string at the start of [bs]: what precedes the first NUL, or
    everything when there is none. *)
Definition is_cstring (bs s : list Z) : Prop :=
  s `prefix_of` bs /\ 0 ∉ s /\ (s = bs \/ bs !! length s = Some 0).

(** The bytes of a 16-bit number in network order. *)
Definition net16 (p : Z) : list Z := [p / 256; p mod 256].

(** struct sockaddr_in, sockaddr_in6 and sockaddr_un as a task lays them out;
    [rest] is whatever follows. *)
Definition sockaddr_in (port : Z) (a b c d : Z) (rest : list Z) : list Z :=
  ([2; 0] ++ net16 port ++ [a; b; c; d] ++ rest)%list.

Definition sockaddr_in6 (port : Z) (flow addr rest : list Z) : list Z :=
  ([10; 0] ++ net16 port ++ flow ++ addr ++ rest)%list.

Definition sockaddr_un (path rest : list Z) : list Z :=
  ([1; 0] ++ path ++ rest)%list.

(** Dotted-decimal text of an IPv4 address. *)
Definition dotted (a b c d : Z) : string :=
  (pretty a ++ "." ++ pretty b ++ "." ++ pretty c ++ "." ++ pretty d)%string.

(** The text of an IPv6 address: eight groups of four hexadecimal digits. *)
Fixpoint groups (addr : list Z) : list string :=
  match addr with
  | a :: b :: addr' => (hex2 a ++ hex2 b)%string :: groups addr'
  | _ => []
  end.

Fixpoint join (sep : string) (l : list string) : string :=
  match l with
  | [] => ""
  | [x] => x
  | x :: l' => (x ++ sep ++ join sep l')%string
  end.
