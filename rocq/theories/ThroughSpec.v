(** From the system call to the user's terminal: `swoll server`, the websocket, and
    `swoll client` together.

    ServeModel.v has the texts the server writes to each client, UnmarshalModel.v what the
    client makes of a text, StreamModel.v how the client reads from the websocket and
    PrintModel.v the lines; here they are put together. *)
From Coq Require Import ZArith String Lia.
From stdpp Require Import base list numbers strings pretty gmap.
From Verif Require Import RawModel DecodeModel CodecTables CodecModel JsonModel JsonSpec KernelModel CaptureModel LiveModel ServeModel PrintModel UnmarshalModel StreamModel.

Local Open Scope string_scope.
Local Open Scope list_scope.
Local Open Scope Z_scope.

(** The texts written to client [w], in their order, each with the step that sent the
    event. *)
Definition inbox (w : nat) (rs : list sout) : list (nat * list Z) :=
  omap (fun r => match r with VWrote v k text => if decide (v = w) then Some (k, text) else None | _ => None end) rs.

(** pkg/client/endpoint.go 218-231: the event the client makes of a text, if it does. *)
Definition read_as (order : list (Z * string) -> list (Z * string)) (heap : list Z) (base : Z) (text : list Z) : option client_event :=
  match unmarshal order heap base text with UnmarshalModel.Read e => Some e | _ => None end.
(** What arrives of a text: one data message. *)
Definition message_frame (order : list (Z * string) -> list (Z * string)) (heap : list Z) (base : Z) (text : list Z) : frame client_event :=
  Data (length text) (read_as order heap base text).
Definition data {A} (fs : list (frame A)) : list (frame A) :=
  List.filter (fun f => match f with Data _ _ => true | _ => false end) fs.

(** The events among the texts written to [w]. *)
Definition delivered (order : list (Z * string) -> list (Z * string)) (heap : list Z) (base : Z) (w : nat) (rs : list sout) : list (nat * client_event) :=
  omap (fun x => match read_as order heap base (snd x) with Some e => Some (fst x, e) | None => None end) (inbox w rs).
Definition copies (k : nat) (l : list (nat * client_event)) : nat := length (List.filter (fun x => fst x =? k)%nat l).

(** The bytes sent to the ring buffer at step [k]. *)
Definition record_at (l : list sop) (rs : list sout) (k : nat) (bs : list Z) : Prop :=
  exists o su scratch trailing r e, l !! k = Some (STask o su scratch trailing false) /\ rs !! k = Some (VTask r) /\ o_event r = Some e
    /\ bs = emit e su scratch ++ trailing.

(** The event survives JSON (C63): [t] with its argument buffer [args] and members [srv]. *)
Definition comes_whole (bs : list Z) (t : trace_event) (args : list Z) (fs : list field) (srv : list JsonModel.member) : Prop :=
  (exists r, ingest_bytes bs = Some r /\ r_args r = args) /\ ingest (InBytes bs) = Ingested t /\ decoder (t_syscall t) = Some fs
  /\ server_members args (t_syscall t) fs (t_argv t) = Some srv
  /\ well_formed (t_comm t) /\ In (t_error t) (map fst errno_names) /\ Forall2 (survives args (t_syscall t)) fs (t_argv t).
