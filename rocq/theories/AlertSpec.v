(** What the alert queue is for, said without the queue: which syscalls of a
    source are firing after a history of alerts, and which notices a listener
    gets. *)
From stdpp Require Import base list strings gmap.
From Coq Require Import ZArith.
From Verif Require Import AlertModel.

(** Alerts that say something about a syscall of a source: it fires, or it is
    resolved. *)
Definition about (src : source) (sc : string) (a : alert) : Prop :=
  a_source a = src /\ i_syscall (a_info a) = sc /\
  (i_status (a_info a) = StatusFiring \/ i_status (a_info a) = StatusResolved).

Global Instance about_dec src sc a : Decision (about src sc a).
Proof. unfold about. apply _. Defined.

(** The last alert about it says that it fires. *)
Definition firing (h : list alert) (src : source) (sc : string) : Prop :=
  exists before a after, h = (before ++ a :: after)%list /\
    about src sc a /\ i_status (a_info a) = StatusFiring /\
    Forall (fun b => ~ about src sc b) after.

(** The source has a firing syscall. *)
Definition active (h : list alert) (src : source) : Prop := exists sc, firing h src sc.

(** The notices due when [a] arrives after [h]. *)
Inductive due (h : list alert) (a : alert) : list callback -> Prop :=
| DueFirst : i_status (a_info a) = StatusFiring -> ~ active h (a_source a) ->
    due h a [QueueNew (a_source a); QueueUpdateAdd (a_source a) (a_info a)]
| DueAnother : i_status (a_info a) = StatusFiring -> active h (a_source a) ->
    ~ firing h (a_source a) (i_syscall (a_info a)) ->
    due h a [QueueUpdateAdd (a_source a) (a_info a)]
| DueRepeated : i_status (a_info a) = StatusFiring ->
    firing h (a_source a) (i_syscall (a_info a)) -> due h a []
| DueResolved : i_status (a_info a) = StatusResolved ->
    firing h (a_source a) (i_syscall (a_info a)) ->
    (exists sc, sc <> i_syscall (a_info a) /\ firing h (a_source a) sc) ->
    due h a [QueueUpdateDelete (a_source a) (a_info a)]
| DueLast : i_status (a_info a) = StatusResolved ->
    firing h (a_source a) (i_syscall (a_info a)) ->
    (forall sc, firing h (a_source a) sc -> sc = i_syscall (a_info a)) ->
    due h a [QueueUpdateDelete (a_source a) (a_info a); QueueDelete (a_source a)]
| DueNotFiring : i_status (a_info a) = StatusResolved ->
    ~ firing h (a_source a) (i_syscall (a_info a)) -> due h a []
| DueOther : i_status (a_info a) <> StatusFiring -> i_status (a_info a) <> StatusResolved ->
    due h a [].

(** The alerts a history pushes, in order, with the value each had when it was
    pushed. *)
Fixpoint pushed (h : gmap nat alert) (ops : list op) : list alert :=
  match ops with
  | [] => []
  | Assign p a :: ops => pushed (<[p := a]> h) ops
  | Push p :: ops => match h !! p with Some a => a :: pushed h ops | None => pushed h ops end
  end.

(** An alert is not written again once it was pushed. *)
Definition untouched (ops : list op) : Prop :=
  forall before p a after, ops = (before ++ Assign p a :: after)%list -> Push p ∉ before.

(** The notices about one source, and the shape they have: episodes that start
    with New and Add, go on with adds and deletes of syscalls, and end with a
    Delete; [running] is the list of syscalls announced and not yet withdrawn. *)
Definition concerns (src : source) (c : callback) : Prop :=
  match c with
  | QueueNew s | QueueUpdateAdd s _ | QueueUpdateDelete s _ | QueueDelete s => s = src
  end.

Global Instance concerns_dec src c : Decision (concerns src c).
Proof. destruct c; simpl; apply _. Defined.

Inductive episodes : list callback -> list string -> Prop :=
| NoEpisode : episodes [] []
| EpBegin l src i : episodes l [] ->
    episodes (l ++ [QueueNew src; QueueUpdateAdd src i]) [i_syscall i]
| EpAdd l src i running : episodes l running -> running <> [] -> i_syscall i ∉ running ->
    episodes (l ++ [QueueUpdateAdd src i]) (i_syscall i :: running)
| EpRemove l src i r1 r2 : episodes l (r1 ++ i_syscall i :: r2) -> r1 ++ r2 <> [] ->
    episodes (l ++ [QueueUpdateDelete src i]) (r1 ++ r2)
| EpEnd l src i : episodes l [i_syscall i] ->
    episodes (l ++ [QueueUpdateDelete src i; QueueDelete src]) [].

(** What an alert of an Alertmanager message says: its status by name, and the labels
    that name its syscall, its source and its rule; an absent label is "". *)
Definition says (l : gmap string string) (k v : string) : Prop :=
  l !! k = Some v \/ l !! k = None /\ v = ""%string.
Definition means (r : raw_alert) (a : alert) : Prop :=
  (i_status (a_info a) = StatusFiring <-> ra_status r = "firing"%string) /\
  (i_status (a_info a) = StatusResolved <-> ra_status r = "resolved"%string) /\
  says (ra_labels r) "syscall" (i_syscall (a_info a)) /\
  says (ra_labels r) "alertname" (i_name (a_info a)) /\
  says (ra_labels r) "namespace" (src_namespace (a_source a)) /\
  says (ra_labels r) "pod" (src_pod (a_source a)) /\
  says (ra_labels r) "container" (src_container (a_source a)) /\
  i_hash (a_info a) = ra_fingerprint r /\ i_url (a_info a) = ra_generator_url r.
