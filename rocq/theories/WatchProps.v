(** C82 - C85: the watchers of the HTTP API. *)
From Coq Require Import ZArith String Lia.
From stdpp Require Import gmap strings list.
From Verif Require Import PubSubModel PubSubSpec PubSubTop HashModel WatchModel WatchSpec WatchProofs WatchTop.
Open Scope Z_scope.

(** ** C82: what a watcher gets *)

(** whatever happens, a client gets the beginning of its stream: the events published
    below what it asked for while it is subscribed, in order, each once *)
Theorem C82_a_prefix_of_the_stream : forall srt acts s w x,
  sort_contract srt -> wrun srt start acts s -> ws s !! w = Some x ->
  gots w (log s) `prefix_of` stream w (log s).
Proof. intros. by apply (watcher_stream srt acts s w x). Qed.

(** and all of it, as long as the connection is open and no write has failed *)
Theorem C82_the_whole_stream : forall srt acts s w x,
  sort_contract srt -> wrun srt start acts s -> ws s !! w = Some x ->
  w_open x = true -> w_broken x = false -> idle s = true ->
  gots w (log s) = stream w (log s).
Proof. intros. by apply (watcher_stream srt acts s w x). Qed.

(** a container's events are in the stream of who asked for its namespace, its pod or
    itself, and an event in the stream has names whose hashes are those of the names asked
    for (C09) *)
Theorem C82_the_stream_asked_for : forall ns pod ctr ns' pod' ctr' sc e,
  (agree eq ns pod ctr ns' pod' ctr' ->
     in_topic (Some (asked (AskTrace ns pod ctr))) (Published e (event_path ns' pod' ctr' sc)) = [e]) /\
  (in_topic (Some (asked (AskTrace ns pod ctr))) (Published e (event_path ns' pod' ctr' sc)) <> [] ->
     agree (fun a b => hash a = hash b) ns pod ctr ns' pod' ctr').
Proof. exact asked_for. Qed.

(** after Close it gets nothing *)
Theorem C82_nothing_after_close : forall srt acts0 s acts s' w x,
  sort_contract srt -> wrun srt start acts0 s -> wrun srt s acts s' ->
  ws s !! w = Some x -> w_open x = false ->
  gots w (log s') = gots w (log s).
Proof. exact closed_gets_nothing. Qed.

Example C82_nonvacuous : exists s1 s2,
  sort_contract some_sort /\ wrun some_sort start visit_acts s1 /\ ws s1 !! 0%nat = Some j0 /\ idle s1 = true /\
  stream 0 (log s1) = [0%nat] /\ gots 0 (log s1) = [0%nat] /\
  wstep some_sort s1 (Leave 0) s2 /\ exists x, ws s2 !! 0%nat = Some x /\ w_open x = false.
Proof.
  destruct visit as (p & s1 & s2 & s3 & R & -> & R2 & _). eexists _, _.
  split; [apply some_sort_contract|]. split; [exact R|]. do 4 (split; [reflexivity|]).
  split; [by apply ws_do|]. eexists. split; reflexivity.
Qed.

Example C82_asked_nonvacuous : agree eq "prod" "web-1" "" "prod" "web-1" "nginx" /\
  ~ agree (fun a b => hash a = hash b) "prod" "web-1" "" "prod" "web-2" "nginx".
Proof.
  split; [right; split; [done|]; right; split; [done|by left]|].
  intros [H|[_ [H|[H _]]]]; [done..|]. vm_compute in H. discriminate.
Qed.

(** ** C83: the timers *)

(** a client that sends no pong is closed within 57 seconds, and its writer has left its loop *)
Theorem C83_silent_clients_are_dropped : forall srt acts0 s acts s' w x,
  sort_contract srt -> wrun srt start acts0 s -> wrun srt s acts s' -> crashed s' = false ->
  ws s !! w = Some x -> ~ In (Pong w) acts -> clock s + 57000 <= clock s' ->
  exists x', ws s' !! w = Some x' /\ w_open x' = false /\ w_writer x' <> Pinging.
Proof.
  intros srt acts0 s acts s' w x H1 H2 H3 H4 H5 H6 H7. apply (silent_client srt acts0 s acts s' w x); try done.
  unfold pong_wait, ping_period. lia.
Qed.

(** once the connection is closed the writer leaves within 27 seconds *)
Theorem C83_departed_clients_are_noticed : forall srt acts0 s acts s' w x,
  sort_contract srt -> wrun srt start acts0 s -> wrun srt s acts s' -> crashed s' = false ->
  ws s !! w = Some x -> w_open x = false -> clock s + 27000 <= clock s' ->
  exists x', ws s' !! w = Some x' /\ w_open x' = false /\ w_writer x' <> Pinging.
Proof. exact departed_client. Qed.

(** and the writer of a job is then unsubscribed as soon as the hub is not publishing,
    without fail *)
Theorem C83_job_watchers_are_unsubscribed : forall srt acts s w x s',
  sort_contract srt -> wrun srt start acts s -> crashed s = false -> idle s = true ->
  ws s !! w = Some x -> w_writer x = Leaving -> wstep srt s (Unsub w) s' ->
  crashed s' = false /\ (clock s, Unsubscribed w) ∈ log s' /\ idle s' = true.
Proof. exact unsub_works. Qed.

(** a client that answers each ping in less than three seconds, whose pings and writes do
    not fail and who does not leave stays connected *)
Theorem C83_prompt_clients_stay : forall srt acts s w x,
  sort_contract srt -> wrun srt start acts s -> crashed s = false ->
  ws s !! w = Some x -> w_broken x = false -> ~ In (Leave w) acts ->
  (forall refused, In (Millisecond refused) acts -> w ∉ refused) -> prompt w s ->
  w_open x = true /\ w_writer x = Pinging.
Proof.
  intros srt acts s w x H1 H2 H3 H4 H5 H6 H7 H8.
  destruct (prompt_client srt acts s w x H1 H2 H3 H4 H5 H6 H7 H8) as (Ho & Hw & _). done.
Qed.

(** the visit: an event at 0 s, then silence; at 27 s the watcher is unsubscribed *)
Example C83_nonvacuous : exists s1 s2 s3,
  wrun some_sort start visit_acts s1 /\
  wrun some_sort s1 (Leave 0 :: repeat (Millisecond []) (Z.to_nat 27000)) s2 /\
  crashed s2 = false /\ idle s2 = true /\ clock s1 + 27000 <= clock s2 /\
  (exists x, ws s2 !! 0%nat = Some x /\ w_open x = false /\ w_writer x = Leaving) /\
  wstep some_sort s2 (Unsub 0) s3 /\ (27000, Unsubscribed 0) ∈ log s3.
Proof.
  destruct visit as (p & s1 & s2 & s3 & R & -> & R2 & H1 & H2 & H3 & H4 & R3 & H5). eexists _, s2, s3.
  split; [exact R|]. split; [exact R2|]. split; [done|]. split; [done|]. split; [by rewrite H2|].
  split; [by eexists|]. split; [done|]. rewrite H5. apply elem_of_app. right. by left.
Qed.
Example C83_prompt_nonvacuous : exists s x,
  wrun some_sort start stay_acts s /\ crashed s = false /\ ws s !! 0%nat = Some x /\ w_broken x = false /\
  ~ In (Leave 0) stay_acts /\ (forall refused, In (Millisecond refused) stay_acts -> 0%nat ∉ refused) /\ prompt 0 s /\
  (27000, Pinged 0) ∈ log s.
Proof.
  destruct stay as (p & R). eexists _, _. split; [exact R|]. do 3 (split; [reflexivity|]). split; [|split; [|split]].
  - intros [H|H]; [done|]. apply in_app_or in H as [H|[H|[]]]; [|done]. by apply repeat_spec in H.
  - intros refused [H|H]; [done|]. apply in_app_or in H as [H|[H|[]]]; [|done]. apply repeat_spec in H. injection H as ->. by apply not_elem_of_nil.
  - intros t Ht Hc. exists 27000. split; [right; right; by left|].
    cbn [log st] in Ht. apply elem_of_cons in Ht as [Ht|Ht]; [done|]. apply elem_of_cons in Ht as [Ht|Ht]; [injection Ht as ->; lia|].
    apply elem_of_cons in Ht as [Ht|Ht]; [done|]. by apply elem_of_nil in Ht.
  - right. by left.
Qed.

(** ** C84: callbacks of those who left *)

(** when the hub is idle the callback of a watcher has run once for each event of its
    stream, connected or not *)
Theorem C84_callbacks_run_for_the_stream : forall srt acts s w,
  sort_contract srt -> wrun srt start acts s -> idle s = true ->
  calls w (log s) = stream w (log s).
Proof. exact watcher_calls. Qed.

(** refuted: a watcher of containers is never unsubscribed, so the hub runs its callback for
    ever *)
Theorem C84_leaving_ends_trace_watchers_refuted : forall srt acts s w x ns pod container t,
  sort_contract srt -> wrun srt start acts s -> ws s !! w = Some x ->
  w_ask x = AskTrace ns pod container -> (t, Unsubscribed w) ∉ log s.
Proof. exact trace_never_unsubscribed. Qed.

(** as here: the client left at once, the writer at 27 s, and then the event's callback runs *)
Theorem C84_callbacks_end_with_the_watcher_refuted : forall ns pod container, exists s x l,
  wrun some_sort start (ghost_acts ns pod container) s /\
  crashed s = false /\ ws s !! 0%nat = Some x /\ w_open x = false /\ w_writer x = Left /\
  log s = (l ++ [(27000%Z, Called 0 0)])%list.
Proof. exact ghost. Qed.

(** ** C85: can a client bring the server down? *)

(** not as long as no write blocks *)
Theorem C85_no_crash_without_blocked_writes : forall srt acts s,
  sort_contract srt -> wrun srt start acts s -> no_stall acts -> crashed s = false.
Proof. exact no_stall_no_crash. Qed.

(** a write blocks the hub for ten seconds at most *)
Theorem C85_writes_block_ten_seconds : forall srt acts s t,
  sort_contract srt -> wrun srt start acts s -> crashed s = false -> stall s = Some t ->
  clock s < t <= clock s + 10000.
Proof. exact stall_bound. Qed.

(** refuted: a client cannot crash the server. Whenever a write to it still blocks at its
    ping, the ping goroutine panics *)
Theorem C85_blocked_write_at_ping_crashes : forall srt n s t w r x s',
  stall s = Some t -> todo s = w :: r -> ws s !! w = Some x ->
  w_open x = true -> w_writer x = Pinging -> crashed s = false ->
  clock s < w_due x -> w_due x < t -> w_due x < w_deadline x -> w_due x <= clock s + Z.of_nat n ->
  wrun srt s (repeat (Millisecond []) n) s' -> crashed s' = true.
Proof. intros. by apply (stalled_crash srt n s t w r x s'). Qed.
Theorem C85_a_client_cannot_crash_the_server_refuted :
  exists acts s, wrun some_sort start acts s /\ crashed s = true.
Proof. destruct crash_reachable as (s & H). by eexists _, s. Qed.

Example C85_nonvacuous : exists s,
  wrun some_sort start jam_acts s /\ stall s = Some 30000 /\ todo s = [0%nat] /\ ws s !! 0%nat = Some j0 /\
  crashed s = false /\ clock s < w_due j0 < 30000 /\ w_due j0 < w_deadline j0.
Proof. destruct jam as (p & l & R). eexists. split; [exact R|]. do 4 (split; [done|]). done. Qed.
Example C85_quiet_nonvacuous : no_stall visit_acts.
Proof. unfold no_stall, visit_acts. cbn. intros [H|[H|[H|[]]]]; discriminate. Qed.

Print Assumptions C82_a_prefix_of_the_stream.
Print Assumptions C82_the_whole_stream.
Print Assumptions C82_the_stream_asked_for.
Print Assumptions C82_nothing_after_close.
Print Assumptions C83_silent_clients_are_dropped.
Print Assumptions C83_departed_clients_are_noticed.
Print Assumptions C83_job_watchers_are_unsubscribed.
Print Assumptions C83_prompt_clients_stay.
Print Assumptions C84_callbacks_run_for_the_stream.
Print Assumptions C84_leaving_ends_trace_watchers_refuted.
Print Assumptions C84_callbacks_end_with_the_watcher_refuted.
Print Assumptions C85_no_crash_without_blocked_writes.
Print Assumptions C85_writes_block_ten_seconds.
Print Assumptions C85_blocked_write_at_ping_crashes.
Print Assumptions C85_a_client_cannot_crash_the_server_refuted.
