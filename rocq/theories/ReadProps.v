(** C96: what a reader of a message gets. *)
From Coq Require Import ZArith String Ascii Lia.
From stdpp Require Import base list numbers strings pretty gmap.
From Verif Require Import SyscallTable SyscallModel SyscallSpec SyscallProofs TopoModel RawModel RawSpec CodecTables CodecModel JsonModel JsonSpec LineModel
  DecodeModel MsgModel MsgSpec ReadSpec ReadTop MsgProps.

Local Open Scope string_scope.
Local Open Scope list_scope.
Local Open Scope Z_scope.

(** The message of an event is a JSON text of the event: its numbers, its names, its
    container and its arguments, each under its own key and nothing besides. *)
Theorem C96_message_is_the_event : forall p sc c bs t r fs msg,
  reasonable p -> bytes bs -> ingest (InBytes bs) = Ingested t -> ingest_bytes bs = Some r ->
  decoder (t_syscall t) = Some fs -> message p sc c (r_args r) t = Some msg ->
  exists a, read_json msg = Some (event_json sc c t a) /\ shows_args p (r_args r) (t_syscall t) fs (t_argv t) a.
Proof. exact message_reads. Qed.

(** So events with the same message agree in all of it. *)
Theorem C96_same_message_same_event : forall p p' sc sc' c c' bs bs' t t' r r' msg,
  reasonable p -> reasonable p' ->
  bytes bs -> ingest (InBytes bs) = Ingested t -> ingest_bytes bs = Some r ->
  bytes bs' -> ingest (InBytes bs') = Ingested t' -> ingest_bytes bs' = Some r' ->
  message p sc c (r_args r) t = Some msg -> message p' sc' c' (r_args r') t' = Some msg ->
  t_pid t = t_pid t' /\ t_tid t = t_tid t' /\ t_cpid t = t_cpid t' /\ t_uid t = t_uid t' /\ t_gid t = t_gid t'
  /\ t_sid t = t_sid t' /\ t_return t = t_return t' /\ t_pid_ns t = t_pid_ns t' /\ t_uts_ns t = t_uts_ns t'
  /\ t_mnt_ns t = t_mnt_ns t' /\ t_start t = t_start t' /\ t_finish t = t_finish t'
  /\ json_text (t_comm t) = json_text (t_comm t').
Proof. exact same_event. Qed.

(** * Concrete cases *)

(** openat(AT_FDCWD, "/tmp/<x>", O_WRONLY|O_CREAT) by sh, read. *)
Definition openat_event : list Z :=
  event_bytes 257 (txt "sh") (to_le 4 (-100) ++ replicate 124 0 ++ txt "/tmp/<x>" ++ replicate 120 0 ++ to_le 4 65).

Example C96_openat_read :
  match ingest (InBytes openat_event), ingest_bytes openat_event with
  | Ingested t, Some r =>
      match message (plain_params []) (lookup_sc table (ByInt (t_syscall t))) None (r_args r) t with
      | Some msg => read_json msg
      | None => None
      end
  | _, _ => None
  end
  = Some (js_obj
      [("syscall", js_obj [("nr", JsNum 257); ("name", js_text "sys_openat"); ("class", js_text "FileSystem"); ("group", js_text "Files")]);
       ("pid", JsNum 0); ("tid", JsNum 0); ("container_pid", JsNum 0); ("uid", JsNum 0); ("gid", JsNum 0);
       ("comm", js_text "sh"); ("session", JsNum 0); ("container", JsNull); ("error", js_text "OK"); ("return", JsNum 0);
       ("pid_ns", JsNum 0); ("uts_ns", JsNum 0); ("mount_ns", JsNum 0); ("start", JsNum 0); ("finish", JsNum 0);
       ("args", js_obj [("dir_fd", JsNum (-100)); ("pathname", js_text "/tmp/<x>");
                        ("flags", JsArr [js_text "O_WRONLY"; js_text "O_CREAT"])])]).
Proof. vm_compute. reflexivity. Qed.

(** The reader refuses what is no JSON. *)
Example C96_reader_refuses :
  read_json (txt "{") = None /\ read_json (txt "[1,]") = None /\ read_json (txt "01") = None /\ read_json (txt "1 2") = None
  /\ read_json (js "{'a':}") = None /\ read_json (js "{'a' 1}") = None /\ read_json (js "'a") = None /\ read_json [34; 10; 34] = None.
Proof. vm_compute. repeat split. Qed.

Print Assumptions C96_message_is_the_event.
Print Assumptions C96_same_message_same_event.
