(** The alert queue (internal/pkg/alert/queue.go) and the parser that feeds it
    (internal/pkg/alert/prometheus.go). *)
From stdpp Require Import base list strings gmap.
From Coq Require Import ZArith.

Local Open Scope string_scope.

(** Status (alert.go 3-10, 21): an int; these are the values the code gives it. *)
Definition StatusUnknown : Z := 0.
Definition StatusFiring : Z := 1.
Definition StatusResolved : Z := 2.

(** alert.go 14-18, 24-30, 34-37. *)
Record source := Source { src_namespace : string; src_pod : string; src_container : string }.
Record info := Info {
  i_status : Z; i_name : string; i_hash : string; i_syscall : string; i_url : string
}.
Record alert := Alert { a_info : info; a_source : source }.

Global Instance source_eq_dec : EqDecision source.
Proof. solve_decision. Defined.
Global Instance source_countable : Countable source.
Proof.
  refine (inj_countable' (fun s => (src_namespace s, src_pod s, src_container s))
            (fun '(n, p, c) => Source n p c) _).
  by intros [].
Defined.

(** QueueType and the arguments of QueueCallback (queue.go 8-17, 29). *)
Inductive callback :=
| QueueNew (src : source)
| QueueUpdateAdd (src : source) (i : info)
| QueueUpdateDelete (src : source) (i : info)
| QueueDelete (src : source).

(** The queue (queue.go 22-34).  A call table holds pointers to the Info inside
    the Alert that was pushed (92-93), so the alerts live in a heap that the caller
    can still write; a pointer is the address of the Alert. *)
Notation heap := (gmap nat alert).
Notation call_table := (gmap string nat).
Notation table := (gmap source call_table).

(** Push (queue.go 59-140) with a callback.  The lock is held from the first read
    of the queue to the end, callbacks included, so a Push is one step.  The
    receiver is not nil; the alert at [p] exists. *)
Definition push (h : heap) (q : table) (p : nat) (a : alert) : table * list callback :=
  let src := a_source a in
  let sc := i_syscall (a_info a) in
  if Z.eqb (i_status (a_info a)) StatusFiring then                       (* 65-101 *)
    let '(tbl, q, out) :=
      match q !! src with
      | Some tbl => (tbl, q, [])
      | None => (∅, <[src := ∅]> q, [QueueNew src])
      end in
    match tbl !! sc with
    | Some _ => (q, out)
    | None => (<[src := <[sc := p]> tbl]> q, (out ++ [QueueUpdateAdd src (a_info a)])%list)
    end
  else if Z.eqb (i_status (a_info a)) StatusResolved then                (* 102-136 *)
    match q !! src with
    | None => (q, [])
    | Some tbl =>
        match tbl !! sc with
        | None => (q, [])
        | Some i =>
            match h !! i with
            | None => (q, [])            (* does not happen: the table keeps the alert alive *)
            | Some stored =>
                let out :=
                  if Z.eqb (i_status (a_info stored)) StatusResolved then []
                  else [QueueUpdateDelete src (a_info a)] in
                let tbl := delete (i_syscall (a_info stored)) tbl in
                if decide (tbl = ∅)
                then (delete src q, (out ++ [QueueDelete src])%list)
                else (<[src := tbl]> q, out)
            end
        end
    end
  else (q, []).

(** What a caller does: store an alert at an address (a new Alert, or an
    assignment to one it already has), and push the alert at an address. *)
Inductive op :=
| Assign (p : nat) (a : alert)
| Push (p : nat).

Record state := State { st_heap : heap; st_queue : table }.

(** NewAlertQueue (queue.go 53-55). *)
Definition init : state := State ∅ ∅.

Definition step (s : state) (o : op) : state * list callback :=
  match o with
  | Assign p a => (State (<[p := a]> (st_heap s)) (st_queue s), [])
  | Push p =>
      match st_heap s !! p with
      | None => (s, [])
      | Some a => let '(q, out) := push (st_heap s) (st_queue s) p a in (State (st_heap s) q, out)
      end
  end.

(** A history, with the callbacks made by each operation. *)
Fixpoint run (s : state) (ops : list op) : state * list (list callback) :=
  match ops with
  | [] => (s, [])
  | o :: ops =>
      let '(s, out) := step s o in
      let '(s, outs) := run s ops in
      (s, out :: outs)
  end.

(** * The parser *)

(** An alert of an Alertmanager message (template.Alert), the members used. *)
Record raw_alert := RawAlert {
  ra_status : string; ra_labels : gmap string string; ra_fingerprint : string;
  ra_generator_url : string
}.

(** Reading a Go map: "" when absent. *)
Definition label (l : gmap string string) (k : string) : string := default "" (l !! k).

(** parseStatus (prometheus.go 20-29); model.AlertFiring is "firing",
    model.AlertResolved "resolved". *)
Definition parse_status (s : string) : Z :=
  if String.eqb s "firing" then StatusFiring
  else if String.eqb s "resolved" then StatusResolved
  else StatusUnknown.

(** parseSingleAlert (prometheus.go 33-48). *)
Definition parse_single_alert (r : raw_alert) : alert :=
  Alert (Info (parse_status (ra_status r)) (label (ra_labels r) "alertname")
           (ra_fingerprint r) (label (ra_labels r) "syscall") (ra_generator_url r))
        (Source (label (ra_labels r) "namespace") (label (ra_labels r) "pod")
           (label (ra_labels r) "container")).

(** ParseAlerts (prometheus.go 51-70) on a decoded message: a new Alert for each
    entry, in order. *)
Definition parse_alerts (rs : list raw_alert) : list alert := map parse_single_alert rs.

(** A receiver of messages: parse each, push its alerts in order.  The addresses
    are those of the new alerts: all different. *)
Fixpoint push_new (p : nat) (al : list alert) : list op :=
  match al with
  | [] => []
  | a :: al => Assign p a :: Push p :: push_new (S p) al
  end.

Definition receive (messages : list (list raw_alert)) : list op :=
  push_new 0 (concat (map parse_alerts messages)).
