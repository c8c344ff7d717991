(** C109: what the client prints for an event. *)
From Coq Require Import ZArith String Ascii Lia.
From stdpp Require Import base list numbers strings pretty.
From Verif Require Import RawModel RawSpec DecodeModel CodecTables CodecModel JsonModel JsonSpec JsonProps LineModel TextModel PrintModel PrintSpec PrintProofs PrintTop.

Local Open Scope string_scope.
Local Open Scope list_scope.
Local Open Scope Z_scope.

(** "swoll client create --oneshot" prints the line swoll trace would have printed on
    the server's machine, without the latency and with two more columns for the command,
    if the event is one that survives JSON (C63). *)
Theorem C109_create_prints_the_trace_line :
  forall order heap order' base name c bs r t fs ms line,
    bytes bs -> ingest_bytes bs = Some r -> ingest (InBytes bs) = Ingested t -> decoder (t_syscall t) = Some fs ->
    server_members (r_args r) (t_syscall t) fs (t_argv t) = Some ms ->
    well_formed (t_comm t) -> In (t_error t) (map fst errno_names) ->
    Forall2 (survives (r_args r) (t_syscall t)) fs (t_argv t) ->
    container_utf8 c -> (forall l, order l ≡ₚ l) -> bytes heap ->
    line_of order' base false false c t (r_args r) = Some line ->
    exists e a b, received order heap name c t (r_args r) = Some e
      /\ line = txt "(" ++ ms_text (latency (t_start t) (t_finish t)) ++ txt "ms) " ++ a ++ right_align 9 (t_comm t) ++ b
      /\ create_line order' base false e = Some (a ++ right_align 11 (t_comm t) ++ b).
Proof. exact create_prints. Qed.

(** Both commands have a line for every event the client has. *)
Theorem C109_every_event_is_printed :
  forall order heap order' base name c bs r t e,
    ingest_bytes bs = Some r -> ingest (InBytes bs) = Ingested t ->
    received order heap name c t (r_args r) = Some e ->
    (forall tty, create_line order' base tty e <> None) /\ watch_line order' base e <> None.
Proof.
  intros order heap order' base name c bs r t e R I E. destruct (ingest_decodes bs r t R I) as (fs & D & F).
  exact (every_event order heap order' base name c t (r_args r) e fs D F E).
Qed.

(** A line of "swoll client watch" tells who did what with which result: container,
    command, system call, arguments, error and session can be told from it, if the
    container and the command have no escape character in their names. *)
Theorem C109_watch_line_can_be_read :
  forall e e' args args',
    27 ∉ fqdn (ce_container e) -> 27 ∉ fqdn (ce_container e') -> 27 ∉ ce_comm e -> 27 ∉ ce_comm e' ->
    40 ∉ ce_name e -> 40 ∉ ce_name e' ->
    watch_text e args = watch_text e' args' ->
    fqdn (ce_container e) = fqdn (ce_container e') /\ ce_comm e = ce_comm e' /\ ce_name e = ce_name e' /\ args = args'
    /\ errno_to_string (ce_error e) = errno_to_string (ce_error e') /\ ce_sid e = ce_sid e'.
Proof. exact watch_reads. Qed.

(** It shows every argument the other command shows, in the same order (clone has its
    flags first), written as PrintSpec.watched_as says. *)
Theorem C109_watch_shows_every_argument :
  forall order base e name shs args line,
    call (ce_nr e) = Some (name, shs) -> client_arguments (client_printer order base e) e = Some args ->
    watch_line order base e = Some line ->
    exists (embedded : bool) ws ws',
      line = watch_text e (txt (if embedded then "&{{" else "&{") ++ join (txt " ") ws ++ txt (if embedded then "}}" else "}"))
      /\ ws' ⊆+ ws /\ (name <> "clone" -> sublist ws' ws)
      /\ Forall2 (fun a w => watched_as (a_src (fst a)) (snd a) w) (zip shs (map snd args)) ws'.
Proof. exact watch_shows. Qed.

(** The connect of C63, as both commands show it. *)
Definition of_bytes (bs : list Z) : option client_event :=
  match ingest_bytes bs, ingest (InBytes bs) with
  | Some r, Ingested t => received (fun l => l) [] (txt "sys_x") (Some (txt "c", txt "p", txt "n")) t (r_args r)
  | _, _ => None
  end.
Definition shown_text (o : option (list Z)) : string :=
  match o with Some bs => string_of_list_ascii (map (fun b => ascii_of_N (Z.to_N b)) bs) | None => "" end.
Definition nl : string := String (ascii_of_nat 10) "".
Definition esc : string := String (ascii_of_nat 27) "".

Example C109_connect_created :
  shown_text (match of_bytes connect_event with Some e => create_line (fun l => l) 0 false e | None => None end)
  = "                              c.p.n: [         sh] (         OK) connect((int)sockfd=0, (struct sockaddr *)addr=ipv4:127.0.0.1:80)" +:+ nl.
Proof. vm_compute. reflexivity. Qed.
Example C109_connect_watched :
  shown_text (match of_bytes connect_event with Some e => watch_line (fun l => l) 0 e | None => None end)
  = esc +:+ "[1mc.p.n:" +:+ esc +:+ "[0m [" +:+ esc +:+ "[4msh" +:+ esc +:+ "[0m] sys_x(&{%!s(types.InputFD=0) ipv4:127.0.0.1:80}) err="
    +:+ esc +:+ "[1;32mOK" +:+ esc +:+ "[0m ses=0" +:+ nl.
Proof. vm_compute. reflexivity. Qed.

(** False of the code: the watch command shows numbers as they are.  A close of file
    descriptor 3 is shown with fmt's complaint about the verb. *)
Definition close_event : list Z :=
  repeat 0 16 ++ [3; 0; 0; 0] ++ repeat 0 60 ++ [115; 104] ++ repeat 0 14 ++ [3] ++ repeat 0 639.
Theorem C109_watch_shows_numbers_refuted :
  shown_text (match of_bytes close_event with
              | Some e => watch_args (client_printer (fun l => l) 0 e) 0 e
              | None => None
              end) = "&{%!s(types.InputFD=3)}".
Proof. vm_compute. reflexivity. Qed.

(** False of the code: the watch command prints one line for an event.  A name in a
    traced program, here of a directory it removes, can contain a line end and what looks
    like the line of another event: the output is that of two events. *)
Definition rmdir_event (path : list Z) : list Z :=
  repeat 0 16 ++ [84; 0; 0; 0] ++ repeat 0 60 ++ [115; 104] ++ repeat 0 14 ++ path ++ repeat 0 (640 - length path).
Definition watched (bs : list Z) : list Z :=
  match of_bytes bs with
  | Some e => match watch_line (fun l => l) 0 e with Some l => l | None => [] end
  | None => []
  end.
(** The path is what follows "&{" in the line of a removal of "a" and what precedes "})"
    in that of "b". *)
Theorem C109_one_line_for_an_event_refuted :
  exists a b path : list Z,
    a <> [] /\ b <> [] /\ (length path <= 127)%nat
    /\ watched (rmdir_event path) = watched (rmdir_event a) ++ watched (rmdir_event b)
    /\ watched (rmdir_event a) <> [] /\ watched (rmdir_event b) <> [].
Proof.
  exists (txt "a"), (txt "b"), (drop 36 (watched (rmdir_event (txt "a"))) ++ take 37 (watched (rmdir_event (txt "b")))).
  split; [discriminate|]. split; [discriminate|]. split; [apply Nat.leb_le; vm_compute; reflexivity|].
  split; [vm_compute; reflexivity|]. split; vm_compute; discriminate.
Qed.

(** The hypotheses of the theorem on reading hold of the connect. *)
Example C109_readable :
  match of_bytes connect_event with
  | Some e => 27 ∉ fqdn (ce_container e) /\ 27 ∉ ce_comm e /\ 40 ∉ ce_name e
  | None => False
  end.
Proof. vm_compute. repeat split; intros H; repeat (apply elem_of_cons in H as [H|H]; [discriminate H|]); exact (not_elem_of_nil _ H). Qed.
(** Those of the first theorem: C63_example and *)
Example C109_trace_line :
  match ingest_bytes connect_event, ingest (InBytes connect_event) with
  | Some r, Ingested t =>
      shown_text (line_of (fun l => l) 0 false false (Some (txt "c", txt "p", txt "n")) t (r_args r))
      = "( 0.000ms)                               c.p.n: [       sh] (         OK) connect((int)sockfd=0, (struct sockaddr *)addr=ipv4:127.0.0.1:80)" +:+ nl
  | _, _ => False
  end.
Proof. vm_compute. reflexivity. Qed.

Print Assumptions C109_create_prints_the_trace_line.
Print Assumptions C109_every_event_is_printed.
Print Assumptions C109_watch_line_can_be_read.
Print Assumptions C109_watch_shows_every_argument.
Print Assumptions C109_watch_shows_numbers_refuted.
Print Assumptions C109_one_line_for_an_event_refuted.
