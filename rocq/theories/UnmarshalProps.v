(** C110: the client makes of a message the event the server had. *)
From Coq Require Import ZArith String Ascii Lia.
From stdpp Require Import base list numbers strings pretty gmap.
From Verif Require Import TopModel SyscallTable SyscallModel SyscallSpec SyscallProofs TopoModel RawModel RawSpec DecodeModel CodecTables CodecModel JsonModel JsonSpec LineModel TextModel
  MsgModel MsgSpec ReadSpec ReadTop MsgProps ReadProps PrintModel PrintSpec UnmarshalModel UnmarshalSpec UnmarshalTop.

Local Open Scope string_scope.
Local Open Scope list_scope.
Local Open Scope Z_scope.

(** From the text alone the client makes the event C63 and C109 speak of: if the
    arguments are in the buffer, json.Unmarshal of the server's message gives [received],
    and is an error exactly if that is nothing (an IPv6 socket option, C63). *)
Theorem C110_client_reads_the_event : forall p tbl c heap bs r t fs srv msg,
  go_table tbl -> reasonable p -> bytes bs -> ingest (InBytes bs) = Ingested t -> ingest_bytes bs = Some r ->
  decoder (t_syscall t) = Some fs -> server_members (r_args r) (t_syscall t) fs (t_argv t) = Some srv ->
  message p (lookup_sc tbl (ByInt (t_syscall t))) c (r_args r) t = Some msg ->
  exists s, lookup_sc tbl (ByInt (t_syscall t)) = Some s
  /\ unmarshal (j_order p) heap (j_base p) msg
     = match received (j_order p) heap (json_text (txt (sc_name s))) (names_of c) t (r_args r) with Some e => Read e | None => Skipped end.
Proof. exact client_reads_table. Qed.

(** So, for an event that survives JSON (C63), the text of the message makes "swoll client
    create --oneshot" print the line swoll trace prints on the server's machine, without
    the latency and with two more columns for the command. *)
Theorem C110_message_prints_the_trace_line : forall p tbl c heap order' base bs r t fs srv line msg,
  go_table tbl -> reasonable p ->
  bytes bs -> ingest_bytes bs = Some r -> ingest (InBytes bs) = Ingested t -> decoder (t_syscall t) = Some fs ->
  server_members (r_args r) (t_syscall t) fs (t_argv t) = Some srv ->
  well_formed (t_comm t) -> In (t_error t) (map fst errno_names) -> Forall2 (survives (r_args r) (t_syscall t)) fs (t_argv t) ->
  container_utf8 (names_of c) -> bytes heap ->
  line_of order' base false false (names_of c) t (r_args r) = Some line ->
  message p (lookup_sc tbl (ByInt (t_syscall t))) c (r_args r) t = Some msg ->
  exists e a b, unmarshal (j_order p) heap (j_base p) msg = Read e
    /\ line = txt "(" ++ ms_text (latency (t_start t) (t_finish t)) ++ txt "ms) " ++ a ++ right_align 9 (t_comm t) ++ b
    /\ create_line order' base false e = Some (a ++ right_align 11 (t_comm t) ++ b).
Proof. exact client_prints. Qed.

(** Whatever the event is, the server's message for it does not end the client: it is
    skipped, or read with the number, the name, the command, the session and the container
    of the event. *)
Theorem C110_server_messages_do_no_harm : forall p tbl c heap bs r t fs msg,
  go_table tbl -> reasonable p -> bytes bs -> ingest (InBytes bs) = Ingested t -> ingest_bytes bs = Some r ->
  decoder (t_syscall t) = Some fs -> message p (lookup_sc tbl (ByInt (t_syscall t))) c (r_args r) t = Some msg ->
  unmarshal (j_order p) heap (j_base p) msg = Skipped
  \/ exists ms, unmarshal (j_order p) heap (j_base p) msg
       = Read (ClientEvent (t_syscall t) (match lookup_sc tbl (ByInt (t_syscall t)) with Some s => json_text (txt (sc_name s)) | None => [] end)
                 (json_text (t_comm t)) (t_sid t) (client_error (j_order p) t) (client_container (names_of c)) fs ms).
Proof. exact goes_on. Qed.

(** "No message ends the client" is false: the message of an event whose system call is
    not in the server's table would, for every such event, and so does the empty object.
    The text null reaches the command as an event that is not there. *)
Theorem C110_no_message_ends_the_client_refuted :
  (forall p c heap bs r t fs msg, reasonable p -> bytes bs -> ingest (InBytes bs) = Ingested t -> ingest_bytes bs = Some r ->
     decoder (t_syscall t) = Some fs -> message p None c (r_args r) t = Some msg ->
     unmarshal (j_order p) heap (j_base p) msg = Crashed)
  /\ (forall order heap base, unmarshal order heap base (txt "{}") = Crashed)
  /\ (forall order heap base, unmarshal order heap base (txt "null") = ReadNil).
Proof. split; [exact no_syscall|]. split; [intros order heap base; reflexivity|intros; reflexivity]. Qed.

(** * Concrete cases *)

(** openat(AT_FDCWD, "/tmp/<x>", O_WRONLY|O_CREAT) by sh: the message and what the client
    makes of it. *)
Example C110_openat :
  match ingest (InBytes openat_event), ingest_bytes openat_event with
  | Ingested t, Some r =>
      match message (plain_params []) (lookup_sc table (ByInt (t_syscall t))) None (r_args r) t with
      | Some msg =>
          match unmarshal (fun l => l) [] 0 msg with
          | Read e => Some (ce_nr e, ce_name e, ce_comm e, map f_name (ce_fields e), ce_members e)
          | _ => None
          end
      | None => None
      end
  | _, _ => None
  end
  = Some (257, txt "sys_openat", txt "sh", ["dir_fd"; "pathname"; "flags"], [MInt (-100); MBytes (txt "/tmp/<x>"); MInt 65]).
Proof. vm_compute. reflexivity. Qed.

(** Messages that are no events are skipped. *)
Example C110_skipped :
  unmarshal (fun l => l) [] 0 (txt "[]") = Skipped /\ unmarshal (fun l => l) [] 0 (txt "{") = Skipped
  /\ unmarshal (fun l => l) [] 0 (js "{'syscall':{'nr':999,'name':'x'},'args':{}}") = Skipped
  /\ unmarshal (fun l => l) [] 0 (js "{'syscall':{'nr':3},'pid':'x','args':{'fd':1}}") = Skipped
  /\ unmarshal (fun l => l) [] 0 (js "{'syscall':{'nr':3}}") = Skipped
  /\ unmarshal (fun l => l) [] 0 (js "{'syscall':{'nr':54},'args':{'fd':3,'level':'SOL_IPV6','name':'IPV6_V6ONLY','val':'AAAAAA==','len':4}}") = Skipped
  /\ unmarshal (fun l => l) [] 0 (js "{'Syscall':{'Nr':3},'ARGS':{'fd':1}}") = Read (ClientEvent 3 [] [] 0 0 None [Field "fd" 0 KS32] [MInt 1]).
Proof. vm_compute. repeat split. Qed.

Print Assumptions C110_client_reads_the_event.
Print Assumptions C110_message_prints_the_trace_line.
Print Assumptions C110_server_messages_do_no_harm.
Print Assumptions C110_no_message_ends_the_client_refuted.
