(** Properties C01-C07: the pub/sub package. *)
From stdpp Require Import gmap strings list sorting.
From Coq Require Import ZArith Lia.
From Verif Require Import PubSubModel PubSubSpec PubSubProofs PubSubPublish PubSubTop.
Open Scope Z_scope.

(** A history used by the examples: five subscriptions, one of them removed, one
    id collision (draw 5 twice at path [1]), two shard groups. *)
Definition ex_ops : list op :=
  [ Subscribe [] "" "" 5; Subscribe [1; 2] "" "" 6; Subscribe [1] "" "" 5;
    Subscribe [1] "g" "b" 5; Subscribe [1] "g" "a" 7; Unsubscribe 2;
    Subscribe [3] "" "" 1 ].
Definition ex_state : pubsub :=
  match run some_sort new_pubsub ex_ops with Ok s => s | _ => new_pubsub end.
Example ex_hyps :
  sort_contract some_sort /\ unsubscribes_once ex_ops /\ draws_ok ex_ops /\
  run some_sort new_pubsub ex_ops = Ok ex_state /\
  live ex_ops = [Sub 0 [] "" ""; Sub 1 [1; 2] "" ""; Sub 3 [1] "g" "b";
                 Sub 4 [1] "g" "a"; Sub 5 [3] "" ""].
Proof.
  split; [apply some_sort_contract|]. split; [|split; [|split]].
  - unfold unsubscribes_once. simpl. split; [|done]. set_solver.
  - intros p sh dn draw Hin. unfold ex_ops in Hin. set_unfold in Hin.
    repeat destruct Hin as [Hin|Hin]; try (inversion Hin; subst; lia); done.
  - vm_compute. reflexivity.
  - vm_compute. reflexivity.
Qed.

(** C01 *)
Theorem C01_publish_reaches_exactly_the_prefixes : forall srt os s path h r,
  sort_contract srt -> unsubscribes_once os -> run srt new_pubsub os = Ok s ->
  publish s (linear path) h r ->
  exists cs, r = Some cs /\
    (forall x, x ∈ cs -> exists sb, sb ∈ live os /\ s_handle sb = x /\ s_path sb `prefix_of` path) /\
    (forall sb, sb ∈ live os -> s_shard sb = ""%string -> s_path sb `prefix_of` path ->
       times (s_handle sb) cs = 1%nat) /\
    (forall sb, sb ∈ live os -> s_shard sb = ""%string -> ~ s_path sb `prefix_of` path ->
       times (s_handle sb) cs = 0%nat).
Proof. exact prefix_delivery. Qed.
Print Assumptions C01_publish_reaches_exactly_the_prefixes.

Theorem C01_publish_returns : forall srt os s a h,
  sort_contract srt -> unsubscribes_once os -> run srt new_pubsub os = Ok s ->
  exists r, publish s a h r.
Proof. exact publish_returns. Qed.
Print Assumptions C01_publish_returns.
Example C01_nonvacuous : exists r, publish ex_state (linear [1; 2]) 3 r.
Proof.
  destruct ex_hyps as (H1 & H2 & _ & H3 & _). exact (publish_returns _ _ _ _ _ H1 H2 H3).
Qed.

(** C02 *)
Theorem C02_shard_group_called_once : forall srt os s path h r q sh,
  sort_contract srt -> unsubscribes_once os -> run srt new_pubsub os = Ok s ->
  publish s (linear path) h r -> sh <> ""%string ->
  exists cs, r = Some cs /\
    (group os q sh <> [] -> q `prefix_of` path -> calls_to (group os q sh) cs = 1%nat) /\
    (~ (group os q sh <> [] /\ q `prefix_of` path) -> calls_to (group os q sh) cs = 0%nat).
Proof. exact group_calls_once. Qed.
Print Assumptions C02_shard_group_called_once.
Example C02_nonvacuous : group ex_ops [1] "g" = [Sub 3 [1] "g" "b"; Sub 4 [1] "g" "a"].
Proof. vm_compute. reflexivity. Qed.

(** C03 *)
Theorem C03_routing_is_a_function_of_names_and_hash :
  forall srt1 srt2 os1 os2 s1 s2 a1 a2 h cs1 cs2 q1 q2 sh1 sh2 m1 m2,
  sort_contract srt1 -> unsubscribes_once os1 -> run srt1 new_pubsub os1 = Ok s1 ->
  sort_contract srt2 -> unsubscribes_once os2 -> run srt2 new_pubsub os2 = Ok s2 ->
  publish s1 a1 h (Some cs1) -> publish s2 a2 h (Some cs2) ->
  sh1 <> ""%string -> sh2 <> ""%string ->
  map s_dname (group os1 q1 sh1) ≡ₚ map s_dname (group os2 q2 sh2) ->
  (exists m, m ∈ group os1 q1 sh1 /\ s_dname m <> ""%string) ->
  m1 ∈ group os1 q1 sh1 -> s_handle m1 ∈ cs1 ->
  m2 ∈ group os2 q2 sh2 -> s_handle m2 ∈ cs2 ->
  s_dname m1 = s_dname m2.
Proof. exact routing_deterministic. Qed.
Print Assumptions C03_routing_is_a_function_of_names_and_hash.

(** The rule itself: the member whose name is at position hash mod size of the
    sorted names. *)
Theorem C03_routing_rule : forall srt os s a h cs q sh x ns,
  sort_contract srt -> unsubscribes_once os -> run srt new_pubsub os = Ok s ->
  publish s a h (Some cs) -> sh <> ""%string ->
  (exists m, m ∈ group os q sh /\ s_dname m <> ""%string) ->
  Sorted name_le ns -> ns ≡ₚ map s_dname (group os q sh) ->
  x ∈ cs -> x ∈ map s_handle (group os q sh) ->
  exists m, m ∈ group os q sh /\ s_handle m = x /\
    ns !! Z.to_nat (h mod Z.of_nat (length ns)) = Some (s_dname m).
Proof. exact routing_rule. Qed.
Print Assumptions C03_routing_rule.
(** Two histories with the same names in opposite orders, both delivering. *)
Definition ex_ops2 : list op :=
  [Subscribe [1] "g" "a" 1; Subscribe [1] "g" "b" 2; Subscribe [1] "g" "c" 3; Unsubscribe 2].
Example C03_nonvacuous :
  unsubscribes_once ex_ops2 /\
  (exists s, run some_sort new_pubsub ex_ops2 = Ok s) /\
  map s_dname (group ex_ops [1] "g") ≡ₚ map s_dname (group ex_ops2 [1] "g") /\
  (exists m, m ∈ group ex_ops [1] "g" /\ s_dname m <> ""%string).
Proof.
  split; [|split; [|split]].
  - unfold unsubscribes_once. simpl. split; [|done]. set_solver.
  - eexists. vm_compute. reflexivity.
  - vm_compute. constructor.
  - exists (Sub 3 [1] "g" "b"). split; [|done]. vm_compute. constructor.
Qed.

(** C04 *)
Theorem C04_tree_holds_exactly_the_live_subscriptions : forall srt os s,
  sort_contract srt -> unsubscribes_once os -> run srt new_pubsub os = Ok s ->
  holds s (live os).
Proof. exact tree_exact. Qed.
Print Assumptions C04_tree_holds_exactly_the_live_subscriptions.

Theorem C04_no_leak : forall srt os s,
  sort_contract srt -> unsubscribes_once os -> run srt new_pubsub os = Ok s ->
  live os = [] -> root s = new_node.
Proof. exact tree_empty. Qed.
Print Assumptions C04_no_leak.

Theorem C04_no_panic_no_hang : forall srt os,
  sort_contract srt -> unsubscribes_once os -> draws_ok os -> Z.of_nat (length os) < 2^64 ->
  exists s, run srt new_pubsub os = Ok s.
Proof. exact histories_run. Qed.
Print Assumptions C04_no_panic_no_hang.
Example C04_nonvacuous : exists os s,
  unsubscribes_once os /\ draws_ok os /\ live os = [] /\ run some_sort new_pubsub os = Ok s /\
  length (closures s) = 2%nat.
Proof.
  exists [Subscribe [1; 2] "" "" 5; Subscribe [1] "x" "n" 5; Unsubscribe 0; Unsubscribe 1].
  eexists. split; [|split; [|split; [|split]]].
  - unfold unsubscribes_once. simpl. set_solver.
  - intros p sh dn draw Hin. set_unfold in Hin.
    repeat destruct Hin as [Hin|Hin]; try (inversion Hin; subst; lia); done.
  - done.
  - vm_compute. reflexivity.
  - reflexivity.
Qed.

(** C05 *)
Theorem C05_second_unsubscribe : forall srt os s h i p,
  sort_contract srt -> unsubscribes_once os -> run srt new_pubsub os = Ok s ->
  closures s !! h = Some (i, p) -> h ∉ map s_handle (live os) ->
  (step srt s (Unsubscribe h) = Panic <->
     p <> [] /\ forall sb, sb ∈ live os -> ~ p `prefix_of` s_path sb) /\
  (forall s', step srt s (Unsubscribe h) = Ok s' ->
     holds s' (filter (fun sb => closures s !! s_handle sb <> Some (i, p)) (live os))).
Proof. exact second_call. Qed.
Print Assumptions C05_second_unsubscribe.

(** "Unsubscribing twice is harmless" is false: it can panic … *)
Theorem C05_idempotent_unsubscribe_refuted_panic : exists os s,
  unsubscribes_once os /\ run some_sort new_pubsub os = Ok s /\
  step some_sort s (Unsubscribe 0) = Panic.
Proof.
  exists [Subscribe [1; 2] "" "" 5; Unsubscribe 0]. eexists.
  split; [|split; [vm_compute; reflexivity|vm_compute; reflexivity]].
  unfold unsubscribes_once. simpl. set_solver.
Qed.
Print Assumptions C05_idempotent_unsubscribe_refuted_panic.
(** … and it can remove the subscription of somebody else. *)
Theorem C05_idempotent_unsubscribe_refuted_foreign : exists os s s' n,
  unsubscribes_once os /\ run some_sort new_pubsub os = Ok s /\
  map s_handle (live os) = [1; 2]%nat /\
  step some_sort s (Unsubscribe 0) = Ok s' /\
  node_at (root s') [7] = Some n /\ map e_sub (envs_at n "") = [1%nat].
Proof.
  exists [Subscribe [7] "" "" 5; Subscribe [7] "" "" 9; Unsubscribe 0; Subscribe [7] "" "" 5].
  eexists _, _, _. split; [|split; [vm_compute; reflexivity|split; [done|split; [vm_compute; reflexivity|
    split; [vm_compute; reflexivity|vm_compute; reflexivity]]]]].
  unfold unsubscribes_once. simpl. set_solver.
Qed.
Print Assumptions C05_idempotent_unsubscribe_refuted_foreign.

(** C06 *)
Theorem C06_one_call_per_visit : forall srt os s a h r,
  sort_contract srt -> unsubscribes_once os -> run srt new_pubsub os = Ok s ->
  publish s a h r ->
  exists cs, r = Some cs /\
    (forall x, x ∈ cs -> exists sb, sb ∈ live os /\ s_handle sb = x /\ visits a (s_path sb) <> 0%nat) /\
    (forall sb, sb ∈ live os -> s_shard sb = ""%string ->
       times (s_handle sb) cs = visits a (s_path sb)).
Proof. exact traversal_calls. Qed.
Print Assumptions C06_one_call_per_visit.
Theorem C06_group_calls_per_visit : forall srt os s a h r q sh,
  sort_contract srt -> unsubscribes_once os -> run srt new_pubsub os = Ok s ->
  publish s a h r -> sh <> ""%string ->
  exists cs, r = Some cs /\
    calls_to (group os q sh) cs = match group os q sh with [] => 0%nat | _ => visits a q end.
Proof. exact group_calls_visits. Qed.
Print Assumptions C06_group_calls_per_visit.
(** [visits] on a traverser that reuses itself and on one with a repeated branch. *)
Example C06_visits_examples :
  visits (flat_paths [1; 2]) [1; 2; 2; 1] = 1%nat /\
  visits (paths_with_traverser [1; 1; 2] (linear [5])) [1; 5] = 2%nat /\
  visits (linear [1; 2]) [1; 3] = 0%nat.
Proof. vm_compute. done. Qed.

(** C07 *)
Theorem C07_combine_paths_concatenates_once : forall ls,
  exists fuel st, drive fuel (combine_paths (map paths_of ls)) 0 = Some (concat ls, st) /\
    forall idx, combine_call st idx = (None, st).
Proof. exact combine_ok. Qed.
Print Assumptions C07_combine_paths_concatenates_once.
Example C07_nonvacuous :
  exists st, drive 10 (combine_paths (map paths_of [[(1, None)]; []; [(2, None); (3, None)]])) 0 =
    Some ([(1, None); (2, None); (3, None)], st).
Proof. eexists. reflexivity. Qed.
