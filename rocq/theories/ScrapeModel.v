(** GET /metrics of `swoll server` (cmd/server.go 824-831, cmd/prometheus.go 51-94): the
    counters of the kernel, the containers of the hub's topology and what a scraper gets.

    The machine and the server are those of ServeModel.v, the walk over the counters is
    that of WalkModel.v, what becomes of its result is in ChartModel.v. Everything goes on
    while a scrape runs. *)
From Coq Require Import ZArith String Lia.
From stdpp Require Import base list numbers strings gmap.
From Verif Require Import SyscallModel FilterModel KernelModel HubModel LiveModel ServeModel WalkModel ChartModel.

Local Open Scope string_scope.
Local Open Scope list_scope.
Local Open Scope Z_scope.

(** topology.go 102-112 on the hub's topology (server.go 830): the answer of
    LookupContainer, as far as a scrape uses it (prometheus.go 59-62, 74). The copy it
    returns is in TopoModel.v. *)
Definition lookup_container (w : world) (ns : Z) : option owner :=
  match w_cache w !! ns with Some c => Some (Owner (ct_namespace c) (ct_pod c) (ct_name c)) | None => None end.

(** The kernel's hash map of counters in some bucket order. *)
Definition listing (w : world) (m : hmap mkey mval) : Prop := NoDup (map fst m) /\ list_to_map m = w_metrics w.

(** prometheus.go 58-62: the [i]th entry with the answer of the [i]th lookup. The
    namespace is a uint32 made an int (metrics/metrics.go 127-129). *)
Definition answers (lookups : nat -> world) (r : list (mkey * mval)) : list ((mkey * mval) * option owner) :=
  imap (fun i e => (e, lookup_container (lookups i) (mk_ns e.1))) r.

(** prometheus.go 51-94: [snap i] is the map when it is asked for the [i]th time,
    [lookups i] the state of the server at the [i]th lookup. *)
Inductive scraped (tbl : syscalls) (snap : nat -> hmap mkey mval) (lookups : nat -> world) : scrape -> Prop :=
  | scraped_intro fuel r : query_all snap fuel = Some r -> scraped tbl snap lookups (gather tbl true (answers lookups r)).
