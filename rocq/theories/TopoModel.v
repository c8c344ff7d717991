(** The container cache of pkg/topology/topology.go.

    Containers are Go pointers, handed to callbacks and copied by lookups, so the
    model has a heap.  Run's goroutine is the only writer of the cache; it holds the
    lock except while it runs the callback, so an event is one step, with the
    callback at its end, and lookups and writes of other goroutines happen between
    steps. *)
From stdpp Require Import base list strings gmap.
From Coq Require Import ZArith.

Local Open Scope Z_scope.

(** types.Container (pkg/types/container.go 5-15).  [L] is how the labels are
    given: a pointer to a map in the heap, the map itself in a value. *)
Record container (L : Type) := Ctr {
  c_id : string; c_pod : string; c_sandbox : string; c_name : string;
  c_image : string; c_namespace : string; c_labels : L; c_pid : Z; c_pidns : Z
}.
Arguments Ctr {L}. Arguments c_id {L}. Arguments c_pod {L}. Arguments c_sandbox {L}.
Arguments c_name {L}. Arguments c_image {L}. Arguments c_namespace {L}.
Arguments c_labels {L}. Arguments c_pid {L}. Arguments c_pidns {L}.

Definition with_labels {L M} (c : container L) (m : M) : container M :=
  Ctr (c_id c) (c_pod c) (c_sandbox c) (c_name c) (c_image c) (c_namespace c) m
    (c_pid c) (c_pidns c).

Notation labels := (gmap string string).

(** A container as a value, and as an object whose labels are nil or a map's
    address. *)
Notation cval := (container labels).
Notation cobj := (container (option nat)).

(** EventType is an int (topology.go 15-20): 0 starts, 1 stops. *)
Definition EventTypeStart : Z := 0.
Definition EventTypeStop : Z := 1.

(** What the observer sends (topology.go 41-44): a nil event, or a type and a
    container that may be nil. *)
Inductive observation :=
| ONil
| OEvent (type : Z) (c : option cval).

(** The heap, the cache (topology.go 54-58) and, for the harness, the pointers that
    LookupContainer has returned and those that callbacks were given. *)
Record topo := Topo {
  heap : gmap nat cobj;
  maps : gmap nat labels;
  next : nat;
  cache : gmap Z nat;
  held : list nat;
  given : list nat
}.

Definition init : topo := Topo ∅ ∅ 0 ∅ [] [].

(** Reading through a pointer. *)
Definition deref (s : topo) (p : nat) : option cval :=
  match heap s !! p with
  | None => None
  | Some o =>
      match c_labels o with
      | None => Some (with_labels o ∅)
      | Some m => match maps s !! m with Some l => Some (with_labels o l) | None => None end
      end
  end.

(** The observer's new container: an object and a labels map. *)
Definition alloc (s : topo) (c : cval) : topo * nat :=
  (Topo (<[next s := with_labels c (Some (S (next s)))]> (heap s))
        (<[S (next s) := c_labels c]> (maps s)) (S (S (next s))) (cache s) (held s) (given s),
   next s).

(** Copy (container.go 25-43): a new object with a new map, filled entry by entry.
    Reading a freed or foreign address does not happen in Go; it is [None]. *)
Definition copy (s : topo) (p : nat) : option (topo * nat) :=
  match deref s p with
  | None => None
  | Some c => Some (alloc s (with_labels c (map_fold (fun k v m => <[k := v]> m) ∅ (c_labels c))))
  end.

(** What is observable: a callback with the container it is given, as its first
    statement would read it; the result of a lookup, read as it is returned. *)
Inductive output :=
| Report (type : Z) (c : option cval)
| Found (c : option cval)
| NotFound.                                    (* ErrContainerNotFound *)

(** processEvent (topology.go 114-148).  Errors are only logged. *)
Definition process_event (s : topo) (ev : observation) : topo * list output :=
  match ev with
  | ONil => (s, [])                                                 (* 115-117 *)
  | OEvent _ None => (s, [])                                        (* 119-122 *)
  | OEvent ty (Some c) =>
      let '(s, p) := alloc s c in
      if c_pidns c <=? 0 then (s, [])                               (* 124-126 *)
      else if ty =? EventTypeStart then                             (* 129-135 *)
        let s := Topo (heap s) (maps s) (next s) (<[c_pidns c := p]> (cache s)) (held s) (given s ++ [p]) in
        (s, [Report EventTypeStart (deref s p)])
      else if ty =? EventTypeStop then                              (* 136-142 *)
        let s := Topo (heap s) (maps s) (next s) (delete (c_pidns c) (cache s)) (held s) (given s ++ [p]) in
        (s, [Report EventTypeStop (deref s p)])
      else (s, [])                                                  (* 143-145 *)
  end.

(** LookupContainer (topology.go 102-112). *)
Definition lookup_container (s : topo) (ns : Z) : topo * output :=
  match cache s !! ns with
  | None => (s, NotFound)
  | Some p =>
      match copy s p with
      | None => (s, Found None)
      | Some (s, q) =>
          let s := Topo (heap s) (maps s) (next s) (cache s) (held s ++ [q]) (given s) in
          (s, Found (deref s q))
      end
  end.

(** What the holder of a pointer can do with the container: assign its fields,
    assign a label, delete a label, drop the labels. *)
Inductive write :=
| WFields (c : container unit)
| WLabel (k v : string)
| WUnlabel (k : string)
| WNoLabels.

Definition put (s : topo) (p : nat) (w : write) : topo :=
  match heap s !! p with
  | None => s
  | Some o =>
      let set_obj o' := Topo (<[p := o']> (heap s)) (maps s) (next s) (cache s) (held s) (given s) in
      let set_map f :=
        match c_labels o with
        | None => s
        | Some m => Topo (heap s) (alter f m (maps s)) (next s) (cache s) (held s) (given s)
        end in
      match w with
      | WFields c => set_obj (with_labels c (c_labels o))
      | WLabel k v => set_map <[k := v]>
      | WUnlabel k => set_map (delete k)
      | WNoLabels => set_obj (with_labels o None)
      end
  end.

(** A history: observer events, lookups, and writes through the [i]-th pointer a
    lookup returned or a callback was given. *)
Inductive op :=
| Observe (ev : observation)
| Lookup (ns : Z)
| WriteFound (i : nat) (w : write)
| WriteGiven (i : nat) (w : write).

Definition step (s : topo) (o : op) : topo * list output :=
  match o with
  | Observe ev => process_event s ev
  | Lookup ns => let '(s, out) := lookup_container s ns in (s, [out])
  | WriteFound i w => (match held s !! i with Some p => put s p w | None => s end, [])
  | WriteGiven i w => (match given s !! i with Some p => put s p w | None => s end, [])
  end.

Fixpoint run (s : topo) (ops : list op) : topo * list output :=
  match ops with
  | [] => (s, [])
  | o :: ops =>
      let '(s, out) := step s o in
      let '(s, outs) := run s ops in
      (s, (out ++ outs)%list)
  end.
