(** C33, C34: which events Ingest accepts, and where the decoders read. *)
From stdpp Require Import base list numbers strings.
From Coq Require Import ZArith Lia.
From Verif Require Import RawModel RawSpec RawProofs DecodeModel DecodeSpec DecodeProofs.

Local Open Scope Z_scope.

(** ** C33 *)

(** The three outcomes of Ingest, for every byte slice: an error exactly when it
    is short, an event exactly when the syscall has a decoder... *)
Theorem C33_error_exactly_for_short_or_foreign_input :
  forall d,
    ingest d = IngestError <->
    match d with
    | InOther => True
    | InBytes bs | InKernelEvent bs => (length bs < 736)%nat
    end.
Proof. exact ingest_errors. Qed.

Theorem C33_known_syscalls_are_ingested :
  forall bs r,
    ingest_bytes bs = Some r -> r_syscall r ∈ map (fun e => e.1.1) decoders ->
    exists t, ingest (InBytes bs) = Ingested t /\ ingest (InKernelEvent bs) = Ingested t.
Proof. exact ingest_known. Qed.

(** ... and otherwise a panic, where an error was meant. *)
Theorem C33_unknown_syscall_is_an_error_refuted :
  forall bs r,
    ingest_bytes bs = Some r -> r_syscall r ∉ map (fun e => e.1.1) decoders ->
    ingest (InBytes bs) = IngestPanic /\ ingest (InKernelEvent bs) = IngestPanic.
Proof. exact ingest_unknown. Qed.

(** What the server can decode, a client can read back. *)
Theorem C33_clients_know_every_decoded_syscall :
  forall nr, nr ∈ unmarshal_known <-> decoder nr <> None.
Proof. exact client_knows. Qed.

(** No syscall has two decoders, so the order of the cases is irrelevant. *)
Theorem C33_one_decoder_per_syscall :
  forall nr name fs,
    (nr, name, fs) ∈ decoders -> decoder nr = Some fs.
Proof. exact decoder_unique. Qed.

(** An event of 736 zero bytes is a read and is ingested; with 39 (getpid) in
    the syscall member the same bytes crash Ingest. *)
Example C33_example_read :
  exists r, ingest_bytes (repeat 0 736) = Some r
    /\ r_syscall r ∈ map (fun e => e.1.1) decoders.
Proof.
  eexists. split; [reflexivity|]. vm_compute r_syscall.
  apply elem_of_list_In. vm_compute. tauto.
Qed.

Example C33_example_getpid :
  exists r, ingest_bytes (repeat 0 16 ++ [39] ++ repeat 0 719) = Some r
    /\ r_syscall r = 39 /\ r_syscall r ∉ map (fun e => e.1.1) decoders.
Proof.
  eexists. split; [reflexivity|]. split; [reflexivity|].
  apply decoder_none. vm_compute. reflexivity.
Qed.

(** ** C34 *)

(** Decoding itself never reads outside the 640 bytes of the event, whatever
    they are, and finds a value for every member. *)
Theorem C34_decoding_stays_inside :
  forall nr fs args,
    decoder nr = Some fs -> length args = 640%nat ->
    exists vs, decode_fields args fs = Some vs
      /\ Forall2 (fun f v => decode_field args f = Some v) fs vs.
Proof. exact decoder_total. Qed.

(** Using what was decoded stays inside too, except for the members whose length
    the traced task chooses. *)
Theorem C34_use_stays_inside :
  forall nr fs f args v,
    decoder nr = Some fs -> In f fs -> length args = 640%nat ->
    decode_field args f = Some v -> lazy_exception nr f = false ->
    inside_buffer v /\ exists sh, show args v = Some sh.
Proof. exact use_inside. Qed.

(** Those are the buffers of read (0), write (1), readlink (89), readlinkat (267)
    and mprotect's (10) addr_data. *)
Theorem C34_task_chosen_lengths :
  forall nr fs f,
    decoder nr = Some fs -> In f fs -> lazy_exception nr f = true ->
    (nr ∈ [0; 1; 89; 267] /\ f_name f = "buf" /\ exists c, f_kind f = KSliceMin c)
    \/ (nr = 10 /\ f_name f = "addr_data" /\ f_kind f = KSliceMax 1 /\ f_slot f = 3%nat).
Proof. exact exceptions_are. Qed.

(** The first kind is safe exactly when the count is not negative. *)
Theorem C34_counted_buffers :
  forall nr fs f c args count,
    decoder nr = Some fs -> In f fs -> f_kind f = KSliceMin c -> length args = 640%nat ->
    c64 args (slot_start c) = Some count ->
    exists v, decode_field args f = Some v
      /\ (inside_buffer v <-> 0 <= count)
      /\ (count < 0 -> show args v = None).
Proof. exact counted_buffer. Qed.

(** The second exactly when the length is at most 256; beyond that the member
    covers memory after the event. *)
Theorem C34_mprotect_data :
  forall args len,
    length args = 640%nat -> c64 args 128 = Some len ->
    exists v, decode_field args (Field "addr_data" 3 (KSliceMax 1)) = Some v
      /\ (inside_buffer v <-> len <= 256)
      /\ (256 < len -> show args v = None).
Proof. exact mprotect_buffer. Qed.

(** So the unconditional claim is false, for both kinds. *)
Theorem C34_use_always_inside_refuted :
  (exists fs f args v, decoder 10 = Some fs /\ In f fs /\ length args = 640%nat
    /\ decode_field args f = Some v /\ show args v = None)
  /\ (exists fs f args v, decoder 0 = Some fs /\ In f fs /\ length args = 640%nat
    /\ decode_field args f = Some v /\ show args v = None).
Proof. exact use_outside. Qed.

(** A socket address is read no further than struct sockaddr_un. *)
Theorem C34_socket_addresses_read_110_bytes :
  forall a b, take 110 a = take 110 b -> parse_sockaddr a = parse_sockaddr b.
Proof. exact parse_sockaddr_local. Qed.

Example C34_example :
  exists fs f v, decoder 42 = Some fs /\ In f fs
    /\ decode_field (repeat 7 640) f = Some v /\ lazy_exception 42 f = false /\ v = VSock 128.
Proof.
  eexists _, (Field "saddr" 1 KSock), _. split; [vm_compute; reflexivity|].
  split; [cbn; tauto|]. split; [reflexivity|]. done.
Qed.

Example C34_example_counts :
  c64 (repeat 0 128 ++ [1; 1] ++ repeat 0 510) 128 = Some 257
  /\ c64 (repeat 255 640) 256 = Some (-1).
Proof. split; reflexivity. Qed.

Print Assumptions C33_error_exactly_for_short_or_foreign_input.
Print Assumptions C33_known_syscalls_are_ingested.
Print Assumptions C33_unknown_syscall_is_an_error_refuted.
Print Assumptions C33_clients_know_every_decoded_syscall.
Print Assumptions C33_one_decoder_per_syscall.
Print Assumptions C34_decoding_stays_inside.
Print Assumptions C34_use_stays_inside.
Print Assumptions C34_task_chosen_lengths.
Print Assumptions C34_counted_buffers.
Print Assumptions C34_mprotect_data.
Print Assumptions C34_use_always_inside_refuted.
Print Assumptions C34_socket_addresses_read_110_bytes.
