(** C43, C44: the container cache. *)
From stdpp Require Import base list strings gmap.
From Coq Require Import ZArith String.
From Verif Require Import TopoModel TopoSpec TopoProofs.

Local Open Scope string_scope.
Local Open Scope Z_scope.

(** * C43: the cache

    [past] is any history of observer events, lookups, and writes by whoever holds
    a container that a lookup returned. *)

(** A lookup finds the container of the last valid start... *)
Theorem C43_lookup_finds_the_last_start :
  forall past ns c,
    Forall read_only past ->
    (lookup_container (run init past).1 ns).2 = Found (Some c) <-> last_in ns past c.
Proof. exact lookup_last. Qed.

(** ... and nothing exactly when there is none. *)
Theorem C43_lookup_fails_otherwise :
  forall past ns,
    Forall read_only past ->
    (lookup_container (run init past).1 ns).2 = NotFound <-> forall c, ~ last_in ns past c.
Proof. exact lookup_none. Qed.

(** The same for the lookups inside a history: the outputs of a history are those
    of its beginning, what the lookup finds then, and the rest. *)
Theorem C43_lookups_inside_a_history :
  forall past ns rest,
    Forall read_only (past ++ Lookup ns :: rest)%list ->
    (run init (past ++ Lookup ns :: rest)).2
    = ((run init past).2 ++ [(lookup_container (run init past).1 ns).2]
       ++ (run (lookup_container (run init past).1 ns).1 rest).2)%list.
Proof. exact lookup_inside. Qed.

(** The callback is told every valid event once, in order, and no other. *)
Theorem C43_callbacks_are_the_valid_events :
  forall ops,
    Forall read_only ops ->
    List.filter is_report (run init ops).2 = List.concat (List.map told ops).
Proof. exact reports_told. Qed.

Definition web : cval := Ctr "1" "web-0" "" "nginx" "img" "prod" {["app" := "web"]} 100 7.
Definition db : cval := Ctr "2" "web-0" "" "redis" "img" "prod" ∅ 101 7.

(** Writing to a returned container does not reach the cache... *)
Example C43_example :
  last_in 7 [Observe (OEvent 0 (Some web)); Lookup 7; WriteFound 0 (WLabel "app" "x")] web
  /\ Forall read_only [Observe (OEvent 0 (Some web)); Lookup 7; WriteFound 0 (WLabel "app" "x")].
Proof.
  split; [|repeat constructor].
  exists [], (Observe (OEvent 0 (Some web))), [Lookup 7; WriteFound 0 (WLabel "app" "x")].
  split; [done|]. split; [done|]. split; [done|]. repeat constructor; intros a H; discriminate H.
Qed.

(** ... but the callback's container is the cached one, so [read_only] is needed. *)
Theorem C43_callbacks_may_write_refuted :
  exists past c, last_in 7 past c
    /\ (lookup_container (run init past).1 7).2 <> Found (Some c).
Proof.
  exists [Observe (OEvent 0 (Some web)); WriteGiven 0 (WFields (with_labels db tt))], web. split.
  - exists [], (Observe (OEvent 0 (Some web))), [WriteGiven 0 (WFields (with_labels db tt))].
    split; [done|]. split; [done|]. split; [done|]. repeat constructor; intros a H; discriminate H.
  - intros H. vm_compute in H. discriminate H.
Qed.

(** * C44: containers that share a pid namespace *)

(** When any container of the namespace stops, none is found there, whichever was
    started last. *)
Theorem C44_one_stop_hides_all :
  forall past a,
    Forall read_only past -> 0 < c_pidns a ->
    (lookup_container (run init (past ++ [Observe (OEvent 1 (Some a))])).1 (c_pidns a)).2 = NotFound.
Proof.
  intros past a R Hpos. apply lookup_none.
  - apply Forall_app. split; [exact R|]. constructor; [exact I|constructor].
  - intros c Hc. apply known_last in Hc. rewrite known_snoc in Hc. unfold known1, announce in Hc.
    apply Z.ltb_lt in Hpos. rewrite Hpos, lookup_delete in Hc. discriminate.
Qed.

(** So a container that was started and not stopped may be unknown. *)
Theorem C44_running_containers_are_found_refuted :
  exists past (a b : cval),
    Forall read_only past /\ c_pidns a = c_pidns b
    /\ In (Observe (OEvent 0 (Some b))) past /\ ~ In (Observe (OEvent 1 (Some b))) past
    /\ (lookup_container (run init past).1 (c_pidns b)).2 = NotFound.
Proof.
  exists [Observe (OEvent 0 (Some web)); Observe (OEvent 0 (Some db)); Observe (OEvent 1 (Some web))], web, db.
  split; [repeat constructor|]. split; [done|]. split; [right; left; reflexivity|].
  split; [|vm_compute; reflexivity].
  intros [H|[H|[H|[]]]]; discriminate H.
Qed.

(** Namespaces that are not shared are unaffected by other containers' events. *)
Theorem C44_other_namespaces_are_untouched :
  forall past ev ns,
    Forall read_only past ->
    (forall ty c, ev = OEvent ty (Some c) -> c_pidns c <> ns) ->
    (lookup_container (run init (past ++ [Observe ev])).1 ns).2
    = (lookup_container (run init past).1 ns).2.
Proof. exact other_namespace. Qed.

Print Assumptions C43_lookup_finds_the_last_start.
Print Assumptions C43_lookup_fails_otherwise.
Print Assumptions C43_lookups_inside_a_history.
Print Assumptions C43_callbacks_are_the_valid_events.
Print Assumptions C43_callbacks_may_write_refuted.
Print Assumptions C44_one_stop_hides_all.
Print Assumptions C44_running_containers_are_found_refuted.
Print Assumptions C44_other_namespaces_are_untouched.
