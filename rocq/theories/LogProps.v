(** C112, C113: the log of the client and the program that prints it. *)
From Coq Require Import ZArith String Ascii Lia.
From stdpp Require Import base list numbers strings pretty gmap.
From Verif Require Import TopModel SyscallTable SyscallModel SyscallSpec SyscallProofs TopoModel RawModel RawSpec DecodeModel CodecTables CodecModel JsonModel JsonSpec LineModel TextModel
  MsgModel MsgSpec ReadSpec MsgProps ReadProps PrintModel UnmarshalModel UnmarshalSpec LogModel LogSpec LogSame LogPretty.
From Verif Require LogTop.

Local Open Scope string_scope.
Local Open Scope list_scope.
Local Open Scope Z_scope.

(** * C112 *)

(** Of an event that survives JSON (C63) the client's log has the server's message: the
    line is the endpoint and the text the server would have sent if it had gone through
    its maps in the client's order. *)
Theorem C112_line_holds_the_message : forall p tbl c order heap ep bs r t fs msg,
  go_table tbl -> reasonable p -> bytes bs -> ingest (InBytes bs) = Ingested t -> ingest_bytes bs = Some r ->
  decoder (t_syscall t) = Some fs -> well_formed (t_comm t) -> Forall2 (survives (r_args r) (t_syscall t)) fs (t_argv t) -> utf8_container c ->
  message p (lookup_sc tbl (ByInt (t_syscall t))) c (r_args r) t = Some msg ->
  exists h body, holds (j_order p) msg = Some h
    /\ message (JParams order (j_base p) (j_heap p)) (lookup_sc tbl (ByInt (t_syscall t))) c (r_args r) t = Some (body ++ [10])
    /\ log_line order heap ep h
       = js "{'endpoint':{'hostname':" ++ quote (txt (ep_host ep)) ++ js ",'port':" ++ num (ep_port ep)
         ++ js ",'UseTLS':" ++ txt (if ep_tls ep then "true" else "false") ++ js "},'payload':" ++ body ++ js "}" ++ [10].
Proof. exact line_has_message. Qed.

(** With the server's order it is the message itself. *)
Theorem C112_same_order_same_text : forall p tbl c heap ep bs r t fs msg,
  go_table tbl -> reasonable p -> bytes bs -> ingest (InBytes bs) = Ingested t -> ingest_bytes bs = Some r ->
  decoder (t_syscall t) = Some fs -> well_formed (t_comm t) -> Forall2 (survives (r_args r) (t_syscall t)) fs (t_argv t) -> utf8_container c ->
  message p (lookup_sc tbl (ByInt (t_syscall t))) c (r_args r) t = Some msg ->
  exists h body, holds (j_order p) msg = Some h /\ msg = body ++ [10]
    /\ log_line (j_order p) heap ep h
       = js "{'endpoint':{'hostname':" ++ quote (txt (ep_host ep)) ++ js ",'port':" ++ num (ep_port ep)
         ++ js ",'UseTLS':" ++ txt (if ep_tls ep then "true" else "false") ++ js "},'payload':" ++ body ++ js "}" ++ [10].
Proof. exact line_same_order. Qed.

(** Whatever the message is, whoever sent it, the client writes one line for it: names
    with line ends in them cannot forge one. *)
Theorem C112_one_line : forall order order' heap ep msg h,
  bytes msg -> holds order msg = Some h -> one_line (log_line order' heap ep h).
Proof. exact LogTop.one_line. Qed.

(** "The log tells the events apart" is false: the addresses of two connections to IPv6
    hosts are in the messages, and their log lines are the same. *)
Definition connect6 (host : Z) : list Z :=
  event_bytes 42 (txt "sh") ([3; 0; 0; 0] ++ replicate 124 0 ++ [10; 0; 0; 80; 0; 0; 0; 0; 32; 1; 13; 184; 0; 0; 0; 0; 0; 0; 0; 0; 0; 0; 0; host]).
Definition sent (bs : list Z) : option (list Z) :=
  match ingest (InBytes bs), ingest_bytes bs with
  | Ingested t, Some r => message (plain_params []) (lookup_sc table (ByInt (t_syscall t))) None (r_args r) t
  | _, _ => None
  end.
Theorem C112_log_tells_addresses_apart_refuted :
  exists m1 m2 h, sent (connect6 1) = Some m1 /\ sent (connect6 2) = Some m2 /\ m1 <> m2
    /\ holds (fun l => l) m1 = Some h /\ holds (fun l => l) m2 = Some h.
Proof.
  eexists _, _, _. split; [vm_compute; reflexivity|]. split; [vm_compute; reflexivity|]. split; [|split; vm_compute; reflexivity].
  intros H. apply (f_equal (fold_right Z.add 0)) in H. vm_compute in H. discriminate H.
Qed.

(** * C113 *)

(** The log line of an event that survives makes pretty_logs print the line swoll trace
    prints on the server's machine, without the latency and with one column less for the
    command. *)
Theorem C113_prints_the_trace_line : forall p tbl c order heap ep order' heap' bs r t fs srv line msg,
  go_table tbl -> reasonable p ->
  bytes bs -> ingest_bytes bs = Some r -> ingest (InBytes bs) = Ingested t -> decoder (t_syscall t) = Some fs ->
  server_members (r_args r) (t_syscall t) fs (t_argv t) = Some srv ->
  well_formed (t_comm t) -> In (t_error t) (map fst errno_names) -> Forall2 (survives (r_args r) (t_syscall t)) fs (t_argv t) ->
  utf8_container c -> (forall l, order l ≡ₚ l) -> (forall l, order' l ≡ₚ l) -> bytes heap' ->
  line_of order' (j_base p) false false (names_of c) t (r_args r) = Some line ->
  message p (lookup_sc tbl (ByInt (t_syscall t))) c (r_args r) t = Some msg ->
  exists h a b, holds (j_order p) msg = Some h
    /\ line = txt "(" ++ ms_text (latency (t_start t) (t_finish t)) ++ txt "ms) " ++ a ++ right_align 9 (t_comm t) ++ b
    /\ (Z.of_nat (length (log_line order heap ep h)) <= 65536 ->
        pretty_logs order' heap' (j_base p) false (log_line order heap ep h) = (a ++ right_align 8 (t_comm t) ++ b, true)).
Proof. exact logged_line. Qed.

(** A log of lines clients wrote, for whatever messages, is printed to its end, line by
    line and in order, if no line is longer than 65536 bytes. *)
Theorem C113_whole_log_is_printed : forall order' heap' base' tty l,
  Forall (fun line => Z.of_nat (length line) <= 65536
                      /\ exists order0 msg order heap ep h, bytes msg /\ holds order0 msg = Some h /\ line = log_line order heap ep h) l ->
  exists outs, Forall2 (fun line out => pretty_logs order' heap' base' tty line = (out, true)) l outs
    /\ pretty_logs order' heap' base' tty (concat l) = (concat outs, true).
Proof. exact logs_go_on. Qed.

(** Lines that are no JSON texts, such as the client's own messages, are passed over. *)
Theorem C113_other_lines_are_passed_over : forall order heap base tty b rest,
  ~ In 10 b -> last b <> Some 13 -> (2 <= length b)%nat -> Z.of_nat (length b) < 65536 -> read_json b = None ->
  pretty_logs order heap base tty (b ++ 10 :: rest) = pretty_logs order heap base tty rest.
Proof. exact other_line. Qed.

(** "Every log is printed to its end" is false: a line of one byte, null and objects
    without an event end the program, and a line of 65536 bytes ends the reading, whatever
    follows. *)
Theorem C113_every_log_is_printed_refuted : forall order heap base tty rest,
  (forall b, b <> 10 -> b <> 13 -> pretty_logs order heap base tty (b :: 10 :: rest) = ([], false))
  /\ pretty_logs order heap base tty (txt "null" ++ 10 :: rest) = ([], false)
  /\ pretty_logs order heap base tty (txt "{}" ++ 10 :: rest) = ([], false)
  /\ pretty_logs order heap base tty (js "{'payload':null}" ++ 10 :: rest) = ([], false)
  /\ pretty_logs order heap base tty (js "{'payload':{}}" ++ 10 :: rest) = ([], false)
  /\ (forall b, ~ In 10 b -> 65536 <= Z.of_nat (length b) -> pretty_logs order heap base tty (b ++ 10 :: rest) = ([], false)).
Proof. exact logs_ended. Qed.

(** * Concrete cases *)

(** close(3) by sh, as the agent on host "node" sends it: the client's line and what is
    printed for it. *)
Definition node : endpoint := Endpoint "node" 9095 false.
Definition logged (bs : list Z) : option (list Z) :=
  match sent bs with
  | Some msg => match holds (fun l => l) msg with Some h => Some (log_line (fun l => l) [] node h) | None => None end
  | None => None
  end.
Example C112_close_line :
  logged close_event
  = Some (js "{'endpoint':{'hostname':'node','port':9095,'UseTLS':false},'payload':{'syscall':{'nr':3,'name':'sys_close','class':'FileSystem','group':'Files'},'pid':0,'tid':0,'container_pid':0,'uid':0,'gid':0,'comm':'sh','session':0,'container':null,'error':'OK','return':0,'pid_ns':0,'uts_ns':0,'mount_ns':0,'start':0,'finish':0,'args':{'FD':3}}}"
          ++ [10]).
Proof. vm_compute. reflexivity. Qed.
Example C113_close_printed :
  match logged close_event, logged openat_event with
  | Some a, Some b =>
      let '(out, ok) := pretty_logs (fun l => l) [] 0 false (a ++ txt "level=info" ++ [10] ++ b) in Some (string_of_bytes out, ok)
  | _, _ => None
  end
  = Some ("                              -.-.-: [      sh] (         OK) close((int)fd=3)" +:+ String "010" ""
          +:+ "                              -.-.-: [      sh] (         OK) openat((int)dirfd=AT_FDCWD, (const char *)pathname=/tmp/<x>, (int)flags=O_WRONLY|O_CREAT)" +:+ String "010" "", true).
Proof. vm_compute. reflexivity. Qed.
(** The hypotheses of the theorems on surviving events: C63_example. *)

Print Assumptions C112_line_holds_the_message.
Print Assumptions C112_same_order_same_text.
Print Assumptions C112_one_line.
Print Assumptions C112_log_tells_addresses_apart_refuted.
Print Assumptions C113_prints_the_trace_line.
Print Assumptions C113_whole_log_is_printed.
Print Assumptions C113_other_lines_are_passed_over.
Print Assumptions C113_every_log_is_printed_refuted.
