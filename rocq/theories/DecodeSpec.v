(** When what a decoder stored can be read. *)
From stdpp Require Import base list numbers strings.
From Coq Require Import ZArith.
From Verif Require Import RawModel DecodeModel.

Local Open Scope Z_scope.

(** The bytes a stored slice or pointer covers lie in the 640 bytes of the
    event.  A socket address is at most 110 bytes (struct sockaddr_un). *)
Definition inside_buffer (v : value) : Prop :=
  match v with
  | VSlice off len => 0 <= len /\ Z.of_nat off + len <= Z.of_nat args_size
  | VSock off => (off + 110 <= args_size)%nat
  | VPtr off n => (off + n <= args_size)%nat
  | _ => True
  end.

(** The members whose length is chosen by the traced task: the buffers of read,
    write, readlink and readlinkat, and mprotect's addr_data. *)
Definition lazy_exception (nr : Z) (f : field) : bool :=
  match f_kind f with
  | KSliceMin _ => true
  | KSliceMax _ => true
  | _ => false
  end.
