(** Model of pkg/topology/hash.go and of the paths hub.go builds with it. *)
From Coq Require Import NArith ZArith Strings.String Strings.Ascii List.
Import ListNotations.
Open Scope N_scope.

(** hash/crc64: the ECMA polynomial in reversed bit order (crc64.ECMA). *)
Definition ecma : N := 0xC96C5795D7870F42.
Definition mask64 : N := 0xFFFFFFFFFFFFFFFF.

(** hash/crc64 makeTable, inner loop body: one bit. *)
Definition bit_step (crc : N) : N :=
  if N.odd crc then N.lxor (N.shiftr crc 1) ecma else N.shiftr crc 1.
(** makeTable, inner loop: eight bits. *)
Definition table_entry (i : N) : N := Nat.iter 8 bit_step i.
(** hash.go 5: crcTable = crc64.MakeTable(crc64.ECMA): 256 entries. *)
Definition crc_table : list N := map (fun i => table_entry (N.of_nat i)) (seq 0 256).

(** hash/crc64 update, loop body: tab[byte(crc)^v] ^ (crc >> 8). The library also
    has an 8-bytes-at-a-time variant for inputs of 64 bytes and more, which it
    documents as computing the same value; it is not modelled. An index outside
    the table would be a Go panic; [nth] would give 0 there, and the index is
    always < 256 (lemma [byte_step_index]). *)
Definition byte_step (crc v : N) : N :=
  N.lxor (nth (N.to_nat (N.lxor (N.land crc 255) v)) crc_table 0) (N.shiftr crc 8).

Definition bytes_of (s : string) : list N := map N_of_ascii (list_ascii_of_string s).

(** hash/crc64 Checksum = ^update(^0, tab, data). *)
Definition checksum (bs : list N) : N :=
  N.lxor (fold_left byte_step bs (N.lxor 0 mask64)) mask64.

(** hash.go 7-15. *)
Definition hash (s : string) : Z :=
  let h := checksum (bytes_of s) in
  if N.eqb h 0 then 1%Z else Z.of_N h.

(** hash.go 17-29: the loop over the components. *)
Fixpoint hash_components (paths : list string) : list Z :=
  match paths with
  | [] => []
  | p :: ps => if String.eqb p "" then [] else hash p :: hash_components ps
  end.
Definition hash_path (paths : list string) : list Z := hash "/" :: hash_components paths.

(** consts.go 5, 7. *)
Definition job_stream : string := "job".
Definition ns_stream : string := "ns".

(** hub.go 436-444 (AttachPath): the path subscribed to. *)
Definition attach_path (paths : list string) : list Z := hash_path (ns_stream :: paths).
(** hub.go 447-452 (AttachTrace): the path subscribed to. *)
Definition attach_trace (jobid : string) : list Z := hash_path [job_stream; jobid].
(** hub.go 190-194 (WriteEvent): the path an event is published on. *)
Definition event_path (namespace pod container syscall : string) : list Z :=
  hash_path [ns_stream; namespace; pod; container; syscall].
(** job.go 232, 241, 245 (Job.WriteEvent): the path of a job's events. *)
Definition job_path (jobid : string) : list Z := hash_path [job_stream; jobid].
