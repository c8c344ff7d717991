(** `swoll top` (cmd/top.go 375-527): the hub of ServeModel.v, which has neither jobs nor
    clients here, and the ticks of TopModel.v. Everything goes on while a tick runs. *)
From Coq Require Import ZArith String Lia.
From stdpp Require Import base list numbers strings gmap.
From Verif Require Import SyscallModel FilterModel KernelModel HubModel LiveModel ServeModel WalkModel ChartModel ScrapeModel.

Local Open Scope string_scope.
Local Open Scope list_scope.
Local Open Scope Z_scope.

(** What happens while it runs: hub.MustRun (443) with its observer and its reader; no job
    is ever started, and nobody listens. *)
Definition of_top (o : sop) : Prop :=
  match o with STask _ _ _ _ _ | SPod _ _ | SMeter _ _ | SRead _ => True | _ => False end.
(** 434-443. NewHub is that of the server, which does no more before it serves. *)
Definition start_top (tbl : syscalls) : option server := start_server tbl.

(** 486-490: what the loop of a tick goes over. [snap i] is the kernel's map when QueryAll
    asks for the [i]th time, [lookups i] the state of the hub at the [i]th lookup. The
    lookups come after all of QueryAll. *)
Inductive ticked (snap : nat -> hmap mkey mval) (lookups : nat -> world) : list ((mkey * mval) * option owner) -> Prop :=
  | ticked_intro fuel r : query_all snap fuel = Some r -> ticked snap lookups (answers lookups r).
