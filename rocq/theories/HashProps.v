(** Properties C08-C10: stream paths. *)
From stdpp Require Import gmap strings list sorting.
From Coq Require Import NArith ZArith Lia.
From Verif Require Import PubSubModel PubSubSpec PubSubProofs PubSubPublish PubSubTop.
From Verif Require Import HashModel HashProofs HashTop.
Open Scope Z_scope.

(** C08: a selector with no empty component receives every event that starts with
    it, once, and no event whose component hashes differ. *)
Theorem C08_selector_sees_everything_below : forall srt os s sb sel ns pod ctr sc h r,
  sort_contract srt -> unsubscribes_once os -> run srt new_pubsub os = Ok s ->
  sb ∈ live os -> s_shard sb = ""%string -> s_path sb = attach_path sel -> no_empty sel ->
  publish s (linear (event_path ns pod ctr sc)) h r ->
  exists cs, r = Some cs /\
    (sel `prefix_of` [ns; pod; ctr; sc] -> times (s_handle sb) cs = 1%nat) /\
    (map hash sel <> map hash (take (length sel) [ns; pod; ctr; sc]) -> times (s_handle sb) cs = 0%nat).
Proof. exact attach_path_gets. Qed.
Print Assumptions C08_selector_sees_everything_below.

Definition ex_attach : list op :=
  [Subscribe (attach_path ["prod"; "web-1"]) "" "" 10; Subscribe (attach_trace "0a1b2c3d") "" "" 11;
   Subscribe (attach_trace "") "" "" 12].
Example C08_nonvacuous :
  unsubscribes_once ex_attach /\ (exists s, run some_sort new_pubsub ex_attach = Ok s) /\
  Sub 0 (attach_path ["prod"; "web-1"]) "" "" ∈ live ex_attach /\ no_empty ["prod"; "web-1"] /\
  ["prod"; "web-1"] `prefix_of` ["prod"; "web-1"; "nginx"; "sys_open"].
Proof.
  split; [done|]. split; [eexists; vm_compute; reflexivity|]. split; [left|].
  split; [repeat constructor; done|]. by exists ["nginx"; "sys_open"].
Qed.

(** Job streams and namespace streams never mix. *)
Theorem C08_job_and_namespace_streams_are_disjoint : forall srt os s sb sel id h r,
  sort_contract srt -> unsubscribes_once os -> run srt new_pubsub os = Ok s ->
  sb ∈ live os -> s_shard sb = ""%string -> s_path sb = attach_path sel ->
  publish s (linear (job_path id)) h r ->
  exists cs, r = Some cs /\ times (s_handle sb) cs = 0%nat.
Proof. exact streams_disjoint. Qed.
Print Assumptions C08_job_and_namespace_streams_are_disjoint.

(** C09 *)
Theorem C09_hash_is_never_zero : forall s, hash s <> 0.
Proof. exact hash_pos. Qed.
Print Assumptions C09_hash_is_never_zero.

Theorem C09_short_components_do_not_collide : forall s1 s2,
  String.length s1 = String.length s2 -> (String.length s1 <= 8)%nat -> hash s1 = hash s2 ->
  s1 = s2 \/
  (checksum (bytes_of s1) = 0%N /\ checksum (bytes_of s2) = 1%N) \/
  (checksum (bytes_of s1) = 1%N /\ checksum (bytes_of s2) = 0%N).
Proof. exact hash_short_inj. Qed.
Print Assumptions C09_short_components_do_not_collide.
(** The check value of CRC-64/XZ, tying [checksum] to the published algorithm. *)
Example C09_check_value : checksum (bytes_of "123456789") = 0x995dc9bbdf1939fa%N.
Proof. vm_compute. reflexivity. Qed.

Theorem C09_cli_jobs_are_isolated : forall srt os s sb id id' h r,
  sort_contract srt -> unsubscribes_once os -> run srt new_pubsub os = Ok s ->
  sb ∈ live os -> s_shard sb = ""%string -> s_path sb = attach_trace id ->
  cli_job_id id -> cli_job_id id' ->
  publish s (linear (job_path id')) h r ->
  exists cs, r = Some cs /\ times (s_handle sb) cs = if decide (id = id') then 1%nat else 0%nat.
Proof. exact cli_jobs_isolated. Qed.
Print Assumptions C09_cli_jobs_are_isolated.
Example C09_nonvacuous :
  cli_job_id "0a1b2c3d" /\ Sub 1 (attach_trace "0a1b2c3d") "" "" ∈ live ex_attach.
Proof. split; [split; [done|repeat constructor]|]. right. left. Qed.

(** Ids that differ in at most 8 adjacent bytes, anywhere in the id, get different
    checksums; ids that differ in at most the last 7 get different stream paths. *)
Theorem C09_bursts_are_detected : forall p m1 m2 q,
  String.length m1 = String.length m2 -> (String.length m1 <= 8)%nat -> m1 <> m2 ->
  checksum (bytes_of (p ++ m1 ++ q)) <> checksum (bytes_of (p ++ m2 ++ q)).
Proof.
  intros p m1 m2 q Hl H8 Hne H. apply Hne, bytes_inj. rewrite !bytes_app in H.
  apply (checksum_burst (bytes_of p) _ _ (bytes_of q)); try apply bytes_lt; rewrite ?bytes_length; done.
Qed.
Print Assumptions C09_bursts_are_detected.
Theorem C09_controller_jobs_are_isolated : forall srt os s sb name u u' h r,
  sort_contract srt -> unsubscribes_once os -> run srt new_pubsub os = Ok s ->
  sb ∈ live os -> s_shard sb = ""%string -> s_path sb = attach_trace (name ++ "-" ++ u) ->
  String.length u = 4%nat -> String.length u' = 4%nat ->
  publish s (linear (job_path (name ++ "-" ++ u'))) h r ->
  exists cs, r = Some cs /\ times (s_handle sb) cs = if decide (u = u') then 1%nat else 0%nat.
Proof. exact controller_jobs_isolated. Qed.
Print Assumptions C09_controller_jobs_are_isolated.
Example C09_controller_nonvacuous :
  Sub 0 (attach_trace ("nginx-trace" ++ "-" ++ "1f3a")) "" "" ∈
    live [Subscribe (attach_trace "nginx-trace-1f3a") "" "" 10].
Proof. left. Qed.

(** Isolation of arbitrary job ids is false: two well-formed version-4 UUIDs (what
    the server generates) with the same stream path. *)
Theorem C09_uuid_isolation_refuted :
  "15354274-0741-4473-8345-714000000000"%string <> "00000000-0000-4000-8000-000000000000"%string /\
  attach_trace "15354274-0741-4473-8345-714000000000" = attach_trace "00000000-0000-4000-8000-000000000000".
Proof. split; [done|]. vm_compute. reflexivity. Qed.
Print Assumptions C09_uuid_isolation_refuted.

(** C10 *)
Theorem C10_empty_job_id_receives_every_job : forall srt os s sb id h r,
  sort_contract srt -> unsubscribes_once os -> run srt new_pubsub os = Ok s ->
  sb ∈ live os -> s_shard sb = ""%string -> s_path sb = attach_trace "" ->
  publish s (linear (job_path id)) h r ->
  exists cs, r = Some cs /\ times (s_handle sb) cs = 1%nat.
Proof. exact empty_job_gets_all. Qed.
Print Assumptions C10_empty_job_id_receives_every_job.
Theorem C10_empty_component_drops_the_rest : forall sel rest,
  no_empty sel -> attach_path (sel ++ ""%string :: rest) = attach_path sel.
Proof. exact attach_path_truncates'. Qed.
Print Assumptions C10_empty_component_drops_the_rest.
Example C10_nonvacuous :
  Sub 2 (attach_trace "") "" "" ∈ live ex_attach /\
  attach_path [""; "pod"; "ctr"] = attach_path [].
Proof. split; [right; right; left|]. vm_compute. reflexivity. Qed.
