(** Property C46, about AlertModel.v. *)
From stdpp Require Import base list strings gmap.
From Coq Require Import ZArith.
From Verif Require Import AlertModel AlertSpec AlertProofs.

Local Open Scope string_scope.

(** Every push gives the listener exactly the notices that are due, whatever was
    pushed before. *)
Theorem C46_notices_are_the_ones_due :
  forall ops before p after a,
  untouched ops -> ops = (before ++ Push p :: after)%list ->
  pushed ∅ (before ++ [Push p]) = (pushed ∅ before ++ [a])%list ->
  exists out, (run init ops).2 !! length before = Some out /\ due (pushed ∅ before) a out.
Proof. exact push_due. Qed.

(** Nothing is said at any other time. *)
Theorem C46_other_operations_are_silent :
  forall ops before p a after,
  ops = (before ++ Assign p a :: after)%list -> (run init ops).2 !! length before = Some [].
Proof. exact assign_silent. Qed.

(** The notices about a source are episodes, and what is announced and not yet
    withdrawn is what is firing. *)
Theorem C46_notices_form_episodes :
  forall ops src, untouched ops ->
  exists running, episodes (filter (concerns src) (concat (run init ops).2)) running /\ NoDup running /\
    forall sc, sc ∈ running <-> firing (pushed ∅ ops) src sc.
Proof. exact episodes_run. Qed.

(** The queue holds the sources with a firing syscall, each with its firing
    syscalls, and nothing else: it does not grow with the history. *)
Theorem C46_queue_holds_what_fires :
  forall ops src, untouched ops ->
  match st_queue (run init ops).1 !! src with
  | None => ~ active (pushed ∅ ops) src
  | Some tbl => active (pushed ∅ ops) src /\ forall sc, is_Some (tbl !! sc) <-> firing (pushed ∅ ops) src sc
  end.
Proof. exact queue_holds. Qed.

(** For a receiver of Alertmanager messages nothing has to be assumed: the k-th
    alert of all messages is pushed by operation 2k+1, as what it says. *)
Theorem C46_messages_give_the_notices_due :
  forall messages before r after,
  concat messages = (before ++ r :: after)%list ->
  exists out bs a, Forall2 means before bs /\ means r a /\
    (run init (receive messages)).2 !! S (2 * length before) = Some out /\ due bs a out.
Proof. exact raw_messages_due. Qed.

(** Without the assumption it is false: the queue keeps the pushed alert itself.
    Marking that alert resolved and pushing it again withdraws the source without
    withdrawing its syscall. *)
Definition ex_source := Source "default" "nginx" "web".
Definition ex_alert (status : Z) (sc : string) := Alert (Info status "HighRate" "f5dd" sc "http://p") ex_source.

Theorem C46_reused_alerts_refuted :
  exists ops before p a out,
  ops = (before ++ [Push p])%list /\ pushed ∅ ops = (pushed ∅ before ++ [a])%list /\
  (run init ops).2 !! length before = Some out /\
  firing (pushed ∅ before) ex_source (i_syscall (a_info a)) /\
  i_status (a_info a) = StatusResolved /\ out = [QueueDelete ex_source] /\
  ~ due (pushed ∅ before) a out.
Proof.
  exists [Assign 0 (ex_alert 1 "sys_execve"); Push 0; Assign 0 (ex_alert 2 "sys_execve"); Push 0],
    [Assign 0 (ex_alert 1 "sys_execve"); Push 0; Assign 0 (ex_alert 2 "sys_execve")], 0,
    (ex_alert 2 "sys_execve"), [QueueDelete ex_source].
  split_and!; try reflexivity.
  - exists [], (ex_alert 1 "sys_execve"), []. split_and!; [reflexivity| |reflexivity|constructor].
    split_and!; [reflexivity..|by left].
  - intros H. inversion H.
Qed.

(** Changing the syscall of a pushed alert leaves an entry behind that no alert
    can remove. *)
Theorem C46_renamed_alerts_refuted :
  exists ops, (forall sc, ~ firing (pushed ∅ ops) ex_source sc) /\
  st_queue (run init ops).1 !! ex_source <> None.
Proof.
  exists [Assign 0 (ex_alert 1 "sys_execve"); Push 0; Assign 0 (ex_alert 1 "sys_connect");
          Assign 1 (ex_alert 2 "sys_execve"); Push 1].
  split; [|vm_compute; discriminate].
  intros sc. change (pushed ∅ _) with ([ex_alert 1 "sys_execve"] ++ [ex_alert 2 "sys_execve"])%list.
  rewrite firing_snoc. intros [[_ H]|[Hna H]]; [discriminate|].
  apply (firing_snoc []) in H as [[(_ & <- & _) _]|[_ H]]; [|by apply firing_nil in H].
  apply Hna. split_and!; [reflexivity..|by right].
Qed.

Print Assumptions C46_notices_are_the_ones_due.
Print Assumptions C46_other_operations_are_silent.
Print Assumptions C46_notices_form_episodes.
Print Assumptions C46_queue_holds_what_fires.
Print Assumptions C46_messages_give_the_notices_due.
Print Assumptions C46_reused_alerts_refuted.
Print Assumptions C46_renamed_alerts_refuted.

(** The hypotheses can be met: two syscalls of one source, in two messages. *)
Definition ex_raw (status sc : string) : raw_alert :=
  RawAlert status (<["namespace" := "default"]> (<["pod" := "nginx"]> (<["container" := "web"]>
    (<["syscall" := sc]> (<["alertname" := "HighRate"]> ∅))))) "f5dd" "http://p".

Definition ex_messages : list (list raw_alert) :=
  [[ex_raw "firing" "sys_execve"; ex_raw "firing" "sys_connect"; ex_raw "firing" "sys_execve"];
   [ex_raw "resolved" "sys_execve"; ex_raw "silenced" "sys_connect"; ex_raw "resolved" "sys_connect"]].

Example ex_notices :
  concat (run init (receive ex_messages)).2 =
  [QueueNew ex_source; QueueUpdateAdd ex_source (a_info (ex_alert 1 "sys_execve"));
   QueueUpdateAdd ex_source (a_info (ex_alert 1 "sys_connect"));
   QueueUpdateDelete ex_source (a_info (ex_alert 2 "sys_execve"));
   QueueUpdateDelete ex_source (a_info (ex_alert 2 "sys_connect")); QueueDelete ex_source].
Proof. reflexivity. Qed.

Example ex_untouched : untouched (receive ex_messages).
Proof. apply push_new_untouched. Qed.

Example ex_split : exists before after,
  concat ex_messages = (before ++ ex_raw "resolved" "sys_connect" :: after)%list /\
  length before = 5 /\ parse_single_alert (ex_raw "resolved" "sys_connect") = ex_alert 2 "sys_connect".
Proof. by eexists [_; _; _; _; _], []. Qed.
