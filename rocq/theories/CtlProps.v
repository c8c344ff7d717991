(** Properties C47, C48 and C66, about CtlModel.v. *)
From stdpp Require Import base list numbers gmap.
From Coq Require Import ZArith Sorted.
From Verif Require Import CtlModel CtlSpec CtlProofs CtlTop.

Local Open Scope Z_scope.

(** * C47 *)

(** No history makes the controller panic. *)
Theorem C47_no_panic : forall l, exists s, run init l = Some s.
Proof. intros l. destruct (run_inv l) as (s & Hr & _). eauto. Qed.

(** Whatever happens, the state of the stored trace stays or takes one step
    forward, ... *)
Theorem C47_state_moves_forward : forall l o s s' t t',
  run init l = Some s -> step s o = Some s' -> s_trace s = Some t -> s_trace s' = Some t' ->
  t_state t' = t_state t \/ forward (t_state t) (t_state t').
Proof. exact state_moves. Qed.

(** ... the rest of the status is what the state says, ... *)
Theorem C47_status_is_consistent : forall l s t,
  run init l = Some s -> s_trace s = Some t -> status_ok t.
Proof. exact stored_ok_. Qed.

(** ... and edits of the spec or deletions do not touch it. *)
Theorem C47_users_do_not_change_the_status : forall l u s s' t t',
  run init l = Some s -> step s (User u) = Some s' -> s_trace s = Some t -> s_trace s' = Some t' ->
  t_state t' = t_state t /\ t_job t' = t_job t /\ t_start t' = t_start t /\ t_end t' = t_end t.
Proof. exact users_do_not. Qed.

(** A trace that is not being deleted completes only if it has a duration, and not
    before its stored start time plus that duration. *)
Theorem C47_completion_waits_for_the_duration : forall l o s s' t t',
  run init l = Some s -> step s o = Some s' -> s_trace s = Some t -> s_trace s' = Some t' ->
  t_deleting t = false -> t_state t = Running -> t_state t' = Complete ->
  0 < t_duration t /\ s_jobs s' = s_jobs s /\
  exists st now, t_start t = Some st /\ now ∈ clocks l /\ t_end t' = Some (in_seconds now) /\ st + t_duration t <= now.
Proof. exact completion_waits. Qed.

(** Start times are stored in seconds, so between the two clock readings the
    duration less one second passes. *)
Theorem C47_almost_the_duration_elapses : forall l o s s' t t',
  run init l = Some s -> step s o = Some s' -> s_trace s = Some t -> s_trace s' = Some t' ->
  t_deleting t = false -> t_state t = Running -> t_state t' = Complete ->
  exists began ended, began ∈ clocks l /\ ended ∈ clocks l /\
    t_start t' = Some (in_seconds began) /\ t_end t' = Some (in_seconds ended) /\
    0 < t_duration t /\ t_duration t - second < ended - began.
Proof. exact completion_elapsed. Qed.

(** Exactly the duration would be wrong: with a clock that never goes back, a trace
    of one second is set running at 1.9 s and complete at 2.0 s. *)
Definition ex_started : list op :=
  [User (UCreate 1000000000 [] false);
   Get 0 (Some 0%nat) 1000000000; Call 0 Done 1000000000;
   Get 0 (Some 1%nat) 1900000000; Call 0 Done 1900000000].
Definition ex_run : op := Call 0 Done 1900000000.
Definition ex_later : list op := [Get 0 (Some 2%nat) 2000000000].
Definition ex_complete : op := Call 0 Done 2000000000.

Theorem C47_the_duration_elapses_refuted :
  exists l1 o1 l2 o2 began ended s0 s1 s2 s3 t0 t1 t2 t3,
  Sorted Z.le (clocks (l1 ++ [o1] ++ l2 ++ [o2])) /\
  run init l1 = Some s0 /\ step s0 o1 = Some s1 /\ run s1 l2 = Some s2 /\ step s2 o2 = Some s3 /\
  s_trace s0 = Some t0 /\ s_trace s1 = Some t1 /\ s_trace s2 = Some t2 /\ s_trace s3 = Some t3 /\
  t_state t0 = Pending /\ t_state t1 = Running /\ t_state t2 = Running /\ t_state t3 = Complete /\
  clock o1 = [began] /\ clock o2 = [ended] /\ t_deleting t2 = false /\
  ended - began < t_duration t2.
Proof.
  exists ex_started, ex_run, ex_later, ex_complete, 1900000000, 2000000000.
  eexists _, _, _, _, _, _, _, _.
  split. { vm_compute. repeat constructor; discriminate. }
  split; [vm_compute; reflexivity|]. split; [vm_compute; reflexivity|].
  split; [vm_compute; reflexivity|]. split; [vm_compute; reflexivity|].
  split; [vm_compute; reflexivity|]. split; [vm_compute; reflexivity|].
  split; [vm_compute; reflexivity|]. split; [vm_compute; reflexivity|].
  split_and!; done.
Qed.

(** A reconcile that nothing disturbs takes the trace one step further: first to
    Pending, then to Running with a new job, recorded, and the start time, ... *)
Theorem C47_reconcile_sets_pending : forall l s t c now,
  run init l = Some s -> s_trace s = Some t -> s_calls s !! c = None -> t_deleting t = false -> t_state t = Unknown ->
  exists s' t', run s (undisturbed c s now 1) = Some s' /\ s_trace s' = Some t' /\ t_state t' = Pending /\
    t_job t' = None /\ s_jobs s' = s_jobs s /\ t_duration t' = t_duration t /\ t_syscalls t' = t_syscalls t /\
    s_calls s' = s_calls s /\ t_deleting t' = false /\ s_njobs s' = s_njobs s.
Proof. exact undisturbed_unknown. Qed.

Theorem C47_reconcile_starts_the_job : forall l s t c now,
  run init l = Some s -> s_trace s = Some t -> s_calls s !! c = None -> t_deleting t = false -> t_state t = Pending ->
  exists s' t' j, run s (undisturbed c s now 2) = Some s' /\ s_trace s' = Some t' /\ t_state t' = Running /\
    t_job t' = Some j /\ j ∉ s_jobs s /\ s_jobs s' = {[j]} ∪ s_jobs s /\ t_start t' = Some (in_seconds now) /\
    t_duration t' = t_duration t /\ t_syscalls t' = (match t_syscalls t with [] => [sys_execve] | sc => sc end) /\
    s_calls s' = s_calls s /\ t_deleting t' = false /\ s_njobs s' = S (s_njobs s).
Proof. exact undisturbed_pending. Qed.

(** ... then to Complete, from the moment the duration is over. *)
Theorem C47_reconcile_completes : forall l s t c now st,
  run init l = Some s -> s_trace s = Some t -> s_calls s !! c = None -> t_deleting t = false -> t_state t = Running ->
  0 < t_duration t -> t_start t = Some st ->
  exists s' t', run s (undisturbed c s now 1) = Some s' /\ s_trace s' = Some t' /\ s_jobs s' = s_jobs s /\
    (t_state t' = if decide (st + t_duration t <= now) then Complete else Running) /\
    s_calls s' = s_calls s /\ t_deleting t' = false /\ s_njobs s' = s_njobs s.
Proof. exact undisturbed_running. Qed.

(** * C48 *)

(** Without failures, stale reads and overlap a trace causes one job, whatever its
    users edit and however often it is reconciled. *)
Theorem C48_one_job_when_undisturbed : forall d sc o rs, Forall no_deletion rs ->
  exists s t, quiet init (Edit (UCreate d sc o) :: rs) = Some s /\ s_trace s = Some t /\ t_deleting t = false /\
    s_njobs s = jobs_of (t_state t).
Proof. exact one_job_when_quiet. Qed.

(** Each time the update after the creation of the job fails, one more job is left
    that no version of the trace records; the trace stays Pending. *)
Theorem C48_failed_updates_leave_jobs : forall l s t c now n,
  run init l = Some s -> s_trace s = Some t -> s_calls s !! c = None -> t_deleting t = false -> t_state t = Pending ->
  exists s', run s (concat (replicate n (failing_round c (t_version t) now))) = Some s' /\
    s_trace s' = Some t /\ s_seen s' = s_seen s /\ s_calls s' = s_calls s /\
    s_njobs s' = (s_njobs s + n)%nat /\
    forall j, j ∈ s_jobs s' <-> j ∈ s_jobs s \/ (s_njobs s <= j < s_njobs s + n)%nat.
Proof. exact failing_rounds. Qed.

(** A trace being deleted whose job is already gone is never released, whatever
    the controller and the users do from then on. *)
Theorem C48_missing_job_blocks_the_deletion : forall l s t j,
  run init l = Some s -> s_trace s = Some t -> s_calls s = ∅ ->
  t_deleting t = true -> t_ours t = true -> t_job t = Some j -> j ∉ s_jobs s ->
  forall l' s', run s l' = Some s' -> exists t', s_trace s' = Some t' /\ t_deleting t' = true /\ t_ours t' = true.
Proof. exact stuck_forever. Qed.

(** A reconcile of a pending trace that is being deleted releases it and then
    creates a job that nothing records. *)
Theorem C48_deleting_a_pending_trace_creates_a_job : forall l s t c now,
  run init l = Some s -> s_trace s = Some t -> s_calls s !! c = None -> t_deleting t = true -> t_state t = Pending ->
  exists s' j, run s (undisturbed c s now 3) = Some s' /\
    (t_others t = false -> s_trace s' = None) /\
    j ∉ s_jobs s /\ s_jobs s' = {[j]} ∪ s_jobs s /\
    (forall t', t' ∈ s_seen s' -> t_job t' <> Some j) /\ s_calls s' = s_calls s.
Proof. exact delete_pending. Qed.

(** * C66 *)

(** The controller deletes no job but one that a trace being deleted records. *)
Theorem C66_jobs_are_deleted_with_their_trace : forall l o s s' j,
  run init l = Some s -> step s o = Some s' -> j ∈ s_jobs s -> j ∉ s_jobs s' ->
  o = User (UJobGone j) \/ exists t, t ∈ s_seen s /\ t_deleting t = true /\ t_job t = Some j.
Proof. exact job_deletion. Qed.

(** So a trace that completes because its duration is over leaves its job running. *)
Theorem C66_completion_stops_the_job_refuted : exists l s t j,
  run init l = Some s /\ s_trace s = Some t /\ t_state t = Complete /\ s_calls s = ∅ /\
  t_job t = Some j /\ j ∈ s_jobs s /\
  forall c now, run s (undisturbed c s now 3) = Some s.
Proof.
  set (s := default init (run init (ex_started ++ [ex_run] ++ ex_later ++ [ex_complete]))).
  exists (ex_started ++ [ex_run] ++ ex_later ++ [ex_complete])%list, s. eexists _, 0%nat.
  split; [unfold s; vm_compute; reflexivity|]. split; [unfold s; vm_compute; reflexivity|].
  split; [reflexivity|].
  assert (Hc : s_calls s = ∅) by (eapply bool_decide_eq_true_1; vm_compute; reflexivity).
  split; [exact Hc|]. split; [reflexivity|]. split; [vm_compute; reflexivity|].
  intros c now. unfold undisturbed.
  assert (Ht : exists t, s_trace s = Some t /\ s_seen s !! t_version t = Some t /\ t_deleting t = false /\ t_state t = Complete).
  { eexists. split; [unfold s; vm_compute; reflexivity|]. split_and!; reflexivity. }
  clearbody s. destruct Ht as (t & -> & Hv & Hd & E). simpl. rewrite Hc, lookup_empty, Hv. unfold begin, main. rewrite Hd. simpl. rewrite E. simpl.
  rewrite !lookup_delete. rewrite Hc, delete_empty. clear -Hc. destruct s. simpl in *. by subst.
Qed.

Print Assumptions C47_no_panic.
Print Assumptions C47_state_moves_forward.
Print Assumptions C47_status_is_consistent.
Print Assumptions C47_users_do_not_change_the_status.
Print Assumptions C47_completion_waits_for_the_duration.
Print Assumptions C47_almost_the_duration_elapses.
Print Assumptions C47_the_duration_elapses_refuted.
Print Assumptions C47_reconcile_sets_pending.
Print Assumptions C47_reconcile_starts_the_job.
Print Assumptions C47_reconcile_completes.
Print Assumptions C48_one_job_when_undisturbed.
Print Assumptions C48_failed_updates_leave_jobs.
Print Assumptions C48_missing_job_blocks_the_deletion.
Print Assumptions C48_deleting_a_pending_trace_creates_a_job.
Print Assumptions C66_jobs_are_deleted_with_their_trace.
Print Assumptions C66_completion_stops_the_job_refuted.

(** * The hypotheses can be met *)

(** Two jobs left behind by two failed updates. *)
Example ex_orphans : exists s t, run init (take 3 ex_started) = Some s /\ s_trace s = Some t /\
  s_calls s !! 5%nat = None /\ t_deleting t = false /\ t_state t = Pending /\
  match run s (concat (replicate 2 (failing_round 5 (t_version t) 1900000000))) with
  | Some s' => s_trace s' = Some t /\ elements (s_jobs s') = [0; 1]%nat
  | None => False
  end.
Proof. eexists _, _. split; [vm_compute; reflexivity|]. split; [vm_compute; reflexivity|]. vm_compute. done. Qed.

(** A trace being deleted after its job went away. *)
Example ex_stuck : exists s t, run init (ex_started ++ [ex_run; User (UJobGone 0); User UDelete]) = Some s /\
  s_trace s = Some t /\ s_calls s = ∅ /\ t_deleting t = true /\ t_ours t = true /\ t_job t = Some 0%nat /\ (0%nat ∉ s_jobs s).
Proof.
  eexists _, _. split; [vm_compute; reflexivity|]. split; [vm_compute; reflexivity|].
  split. { eapply bool_decide_eq_true_1. vm_compute. reflexivity. }
  split_and!; [done..|]. intros H. vm_compute in H. done.
Qed.

(** A pending trace being deleted. *)
Example ex_delete_pending : exists s t, run init (take 3 ex_started ++ [User UDelete]) = Some s /\
  s_trace s = Some t /\ s_calls s !! 0%nat = None /\ t_deleting t = true /\ t_state t = Pending /\ t_others t = false.
Proof. eexists _, _. split; [vm_compute; reflexivity|]. split; [vm_compute; reflexivity|]. split_and!; done. Qed.

(** A user may edit during an undisturbed history. *)
Example ex_quiet : Forall no_deletion [Reconcile 1; Edit (UEdit 5 []); Reconcile 2; Reconcile 3; Edit (UJobGone 0); Reconcile 9000000000].
Proof. repeat constructor. Qed.
