(** Property C30: walks over the kernel's maps. *)
From stdpp Require Import gmap strings list.
From Coq Require Import ZArith Lia.
From Verif Require Import SyscallTable SyscallModel FilterModel FilterSpec KernelModel HubProps WalkModel WalkProofs.
Open Scope Z_scope.

(** On a map nobody else touches, without an entry under the zero key, QueryAll ends
    and returns the entries, each once. *)
Theorem C30_query_all_returns_every_entry_once : forall m fuel, NoDup (map fst m) -> MKey 0 0 0 ∉ map fst m ->
  (length m < fuel)%nat -> query_all (fun _ => m) fuel = Some m.
Proof. exact query_all_exact. Qed.
Print Assumptions C30_query_all_returns_every_entry_once.
(** ... and PruneNamespace deletes the entries of the namespace and no others, and
    returns their number. *)
Theorem C30_prune_deletes_the_namespace : forall m fuel ns, NoDup (map fst m) -> MKey 0 0 0 ∉ map fst m -> (length m < fuel)%nat ->
  prune_namespace m fuel ns = Some (List.filter (fun e => negb (mk_ns e.1 =? u32 ns)) m, Z.of_nat (length (List.filter (fun e => mk_ns e.1 =? u32 ns) m))).
Proof. exact prune_exact. Qed.
Print Assumptions C30_prune_deletes_the_namespace.
(** It is the prune of the kernel model. *)
Theorem C30_prune_is_the_models_prune : forall m fuel ns m' n, NoDup (map fst m) -> MKey 0 0 0 ∉ map fst m -> (length m < fuel)%nat ->
  prune_namespace m fuel ns = Some (m', n) -> (list_to_map m' : gmap mkey mval) = prune ns (list_to_map m).
Proof. exact prune_walk_refines. Qed.
Print Assumptions C30_prune_is_the_models_prune.
(** With an entry under the zero key (namespace 0, read, no error) the walk starts
    after it: everything up to and including it is missed. *)
Theorem C30_zero_key_hides_what_precedes_it : forall m1 v m2 fuel, NoDup (map fst (m1 ++ (MKey 0 0 0, v) :: m2)) -> (length m2 < fuel)%nat ->
  query_all (fun _ => m1 ++ (MKey 0 0 0, v) :: m2)%list fuel = Some m2.
Proof. exact query_all_zero. Qed.
Print Assumptions C30_zero_key_hides_what_precedes_it.
Theorem C30_zero_key_keeps_what_precedes_it : forall m1 v m2 fuel ns, NoDup (map fst (m1 ++ (MKey 0 0 0, v) :: m2)) -> (length m2 < fuel)%nat ->
  prune_namespace (m1 ++ (MKey 0 0 0, v) :: m2)%list fuel ns =
  Some ((m1 ++ (MKey 0 0 0, v) :: List.filter (fun e => negb (mk_ns e.1 =? u32 ns)) m2)%list, Z.of_nat (length (List.filter (fun e => mk_ns e.1 =? u32 ns) m2))).
Proof. exact prune_zero. Qed.
Print Assumptions C30_zero_key_keeps_what_precedes_it.
(** Whatever happens to the map during the walk: an entry that is reported was in
    the map when it was read, and only entries of the namespace are deleted. *)
Theorem C30_reported_entries_were_present : forall snap fuel r j e, query_all snap fuel = Some r -> r !! j = Some e -> e ∈ snap j.
Proof. intros snap fuel r j e Hq Hj. exact (walk_present snap fuel 0 zero_mkey r Hq j e Hj). Qed.
Print Assumptions C30_reported_entries_were_present.
Theorem C30_prune_deletes_only_its_own : forall snap fuel ns ks k, to_delete snap fuel ns = Some ks -> k ∈ ks -> mk_ns k = u32 ns.
Proof. exact deletes_only_its_own. Qed.
Print Assumptions C30_prune_deletes_only_its_own.
(** But an entry may be reported twice: updating an entry moves it to the head of
    its bucket. *)
Theorem C30_once_under_updates_refuted : exists snap fuel (a b : mkey * mval), a.1 <> b.1 /\ (forall i, snap i ≡ₚ [a; b]) /\
  query_all snap fuel = Some [a; b; a].
Proof.
  set (a := (MKey 5 1 0, MVal 1 0 0 0 0)). set (b := (MKey 5 2 0, MVal 1 0 0 0 0)).
  exists (fun i => if decide (i < 2)%nat then [a; b] else [b; a]), 4%nat, a, b. split; [discriminate|]. split.
  - intros i. destruct (decide _); [done|]. apply Permutation_swap.
  - vm_compute. reflexivity.
Qed.
Print Assumptions C30_once_under_updates_refuted.
(** The filter's own walk is not affected by the zero key: after any history of the
    filter, GetRunning returns its rules, each once. *)
Theorem C30_get_running_returns_every_rule_once : forall tbl os m fuel, NoDup (map fst m) ->
  (list_to_map m : gmap fkey fval) = nfilter (fsteps tbl os (KMaps ∅ ∅)) -> (length m < fuel)%nat ->
  get_running (fun _ => m) fuel = Some m.
Proof. exact get_running_exact. Qed.
Print Assumptions C30_get_running_returns_every_rule_once.

Definition ex_metrics : hmap mkey mval :=
  [(MKey 5 1 0, MVal 1 2 3 4 5); (MKey 6 1 0, MVal 2 2 3 4 5); (MKey 5 0 2, MVal 3 2 3 4 5); (MKey 5 1 2, MVal 4 2 3 4 5)].
Example C30_nonvacuous : NoDup (map fst ex_metrics) /\ MKey 0 0 0 ∉ map fst ex_metrics /\
  prune_namespace ex_metrics 5 (2^32 + 5) = Some ([(MKey 6 1 0, MVal 2 2 3 4 5)], 3).
Proof.
  split; [|split; [|vm_compute; reflexivity]].
  - apply (bool_decide_unpack _). vm_compute. exact I.
  - apply (bool_decide_unpack _). vm_compute. exact I.
Qed.
Example C30_filter_nonvacuous : exists m, NoDup (map fst m) /\ length m = 2%nat /\
  (list_to_map m : gmap fkey fval) = nfilter (fsteps ex_table [FAddSyscall (ByInt 1) 5; FAddMetrics 6; FEnable] (KMaps ∅ ∅)).
Proof.
  exists (map_to_list (nfilter (fsteps ex_table [FAddSyscall (ByInt 1) 5; FAddMetrics 6; FEnable] (KMaps ∅ ∅)))).
  split; [apply NoDup_fst_map_to_list|]. split; [vm_compute; reflexivity|]. apply list_to_map_to_list.
Qed.
