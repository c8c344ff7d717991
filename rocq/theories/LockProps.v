(** C80, C81: the locks of the hub. *)

From Coq Require Import ZArith Lia List Bool Arith.
From stdpp Require Import base list.
From Verif Require Import LockModel LockSpec LockProofs.
Import ListNotations.

(** ** C80 *)

(** whatever the goroutines and the callbacks do: one goroutine at a time handles a message
    or starts or stops a job, and the tree of subscriptions changes only while nobody
    publishes *)
Theorem C80_sections_never_overlap ts sched :
  hub_serial None (m_log (turns (begin ts) sched)) = true ∧
  tree_safe [] None (m_log (turns (begin ts) sched)) = true.
Proof. split; [exact (hub_serial_always ts sched)|exact (tree_safe_always ts sched)]. Qed.

(** if callbacks ask the hub for nothing, and events come from the probe only, then the
    publishes and the subscription changes happen one at a time, each with its own work *)
Theorem C80_deliveries_one_at_a_time ts sched :
  Forall (λ os, forallb quiet os = true) ts → Forall (λ os, forallb inside os = true) ts →
  one_section None (m_log (turns (begin ts) sched)) = true.
Proof. exact (one_at_a_time ts sched). Qed.

(** each goroutine does what its calls say, in order and once *)
Theorem C80_program_order ts sched u :
  mine u (m_log (turns (begin ts) sched)) ++ notes u (m_rest (turns (begin ts) sched) u) =
  notes u (program (default [] (ts !! u))).
Proof. exact (program_order ts sched u). Qed.

(** no schedule ends in a deadlock *)
Theorem C80_no_deadlock ts sched :
  Forall (λ os, forallb quiet os = true) ts →
  all_done (length ts) (turns (begin ts) sched) ∨
  ∃ u, u < length ts ∧ is_Some (next (turns (begin ts) sched) u).
Proof. exact (no_deadlock ts sched). Qed.

(** and every schedule that lets each goroutine have a turn in each round gets everything done *)
Theorem C80_fair_schedules_finish ts rounds :
  Forall (λ os, forallb quiet os = true) ts →
  Forall (λ r, ∀ t, t < length ts → t ∈ r) rounds →
  left_over (length ts) (begin ts) ≤ length rounds →
  all_done (length ts) (turns (begin ts) (concat rounds)).
Proof. exact (fair_finish ts rounds). Qed.

(** a hub with a message for two jobs, a watcher that comes and goes, and a job that is
    started and stopped *)
Definition ex_ts : list (list op) :=
  [ [OEvent [[OWork 1; OWork 2]; [OWork 3]]; OEvent []]; [OSub; OUnsub]; [OPush; ODel] ].
Example C80_ex_quiet :
  Forall (λ os, forallb quiet os = true) ex_ts ∧ Forall (λ os, forallb inside os = true) ex_ts.
Proof. split; repeat constructor. Qed.
Example C80_ex_rounds :
  let rounds := repeat [0; 1; 2] 30 in
  Forall (λ r, ∀ t, t < length ex_ts → t ∈ r) rounds ∧ left_over (length ex_ts) (begin ex_ts) ≤ length rounds.
Proof.
  split.
  - apply Forall_forall. intros r Hr. apply elem_of_list_In, repeat_spec in Hr as ->.
    intros t Ht. apply elem_of_list_In. cbn in Ht. destruct t as [|[|[|t]]]; cbn; auto. lia.
  - vm_compute. lia.
Qed.
(** the subscription is asked for while the message is delivered; it is made in between two publishes *)
Example C80_ex_log :
  m_log (turns (begin ex_ts) [0; 0; 1; 1; 2; 0; 0; 0; 0; 1; 1; 0; 0; 0; 0; 2]) =
  [NLockH 0; NRead 0; NWork 0 1; NWork 0 2; NUnread 0; NWrite 1; NUnwrite 1; NRead 0; NWork 0 3; NUnread 0; NUnlockH 0; NLockH 2].
Proof. vm_compute. reflexivity. Qed.

(** ** C81 *)

(** a callback that subscribes, unsubscribes, starts or stops a job, or handles a message
    never returns, whatever the schedule and whatever else runs ... *)
Theorem C81_callback_into_the_hub_never_returns_refuted ts t before pubs1 cbs1 o cbs2 pubs2 after :
  ts !! t = Some (before ++ OEvent (pubs1 ++ (cbs1 ++ o :: cbs2) :: pubs2) :: after) →
  forallb quiet before = true → forallb (forallb is_work) pubs1 = true → forallb is_work cbs1 = true →
  needs_hub o || changes_tree o = true →
  ∀ sched, m_rest (turns (begin ts) sched) t ≠ [].
Proof. exact (never_finishes ts t before pubs1 cbs1 o cbs2 pubs2 after). Qed.

(** ... and from the moment it makes the call no message is handled any more, no job is
    started or stopped, and no subscription is made or removed *)
Theorem C81_callback_into_the_hub_stops_everyone_refuted ts t before pubs1 cbs1 o cbs2 pubs2 after :
  ts !! t = Some (before ++ OEvent (pubs1 ++ (cbs1 ++ o :: cbs2) :: pubs2) :: after) →
  forallb quiet before = true → forallb (forallb is_work) pubs1 = true → forallb is_work cbs1 = true →
  needs_hub o || changes_tree o = true →
  ∀ sched sched',
  m_rest (turns (begin ts) sched) t =
    code o ++ (flat_map code cbs2 ++ RUnlockP ::
               flat_map (λ cbs, RLockP :: flat_map code cbs ++ [RUnlockP]) pubs2 ++ UnlockH :: program after) →
  ∃ l, m_log (turns (begin ts) (sched ++ sched')) = m_log (turns (begin ts) sched) ++ l ∧
       Forall (λ n, match n with NLockH _ | NWrite _ => False | _ => True end) l.
Proof. exact (wedges ts t before pubs1 cbs1 o cbs2 pubs2 after). Qed.

(** a callback that publishes meets the same end if somebody subscribes at the wrong moment *)
Theorem C81_callback_that_publishes_can_jam_refuted ts t u cbs c2 pubs after o after' :
  t ≠ u → ts !! t = Some (OEvent ((OPub cbs :: c2) :: pubs) :: after) → ts !! u = Some (o :: after') →
  changes_tree o = true →
  ∃ sched, ∀ sched',
    let s := turns (begin ts) (sched ++ sched') in
    m_rest s t ≠ [] ∧ m_rest s u ≠ [] ∧
    ∃ l, m_log s = m_log (turns (begin ts) sched) ++ l ∧
         Forall (λ n, match n with NLockH _ | NRead _ | NWrite _ => False | _ => True end) l.
Proof. exact (nested_publish_jams ts t u cbs c2 pubs after o after'). Qed.

(** and only then: without subscriptions, publishing from callbacks to any depth is fine *)
Theorem C81_callbacks_may_publish_if_nobody_subscribes ts rounds :
  Forall (λ os, forallb no_writer os = true) ts →
  Forall (λ r, ∀ t, t < length ts → t ∈ r) rounds →
  left_over (length ts) (begin ts) ≤ length rounds →
  all_done (length ts) (turns (begin ts) (concat rounds)).
Proof. exact (fair_finish2 ts rounds). Qed.

(** while a callback of a message has not returned, no call that handles a message, starts or
    stops a job, subscribes or unsubscribes returns *)
Theorem C81_slow_callback_holds_everyone_up s t u o q sched :
  delivering s t → t ∉ sched → u ≠ t → needs_hub o || changes_tree o = true → m_rest s u = code o ++ q →
  length q < length (m_rest (turns s sched) u).
Proof. exact (delivering_others s t u o q sched). Qed.

(** a watcher that unsubscribes itself from its own callback after the first event *)
Example C81_ex_hypotheses :
  let ts := [[OEvent [[]; [OWork 1; OUnsub; OWork 2]]]; [OEvent []]] in
  ts !! 0 = Some ([] ++ OEvent ([[]] ++ ([OWork 1] ++ OUnsub :: [OWork 2]) :: []) :: []) ∧
  m_rest (turns (begin ts) [0; 0; 0; 0; 0]) 0 =
    code OUnsub ++ (flat_map code [OWork 2] ++ RUnlockP ::
               flat_map (λ cbs, RLockP :: flat_map code cbs ++ [RUnlockP]) [] ++ UnlockH :: program []).
Proof. split; vm_compute; reflexivity. Qed.
Example C81_ex_nested :
  let ts := [[OEvent [[OPub [OWork 1]]]]; [OSub]] in
  ts !! 0 = Some (OEvent ((OPub [OWork 1] :: []) :: []) :: []) ∧ ts !! 1 = Some (OSub :: []).
Proof. split; reflexivity. Qed.
Example C81_ex_no_writer : forallb no_writer [OEvent [[OPub [OPub [OWork 1]]]]; OPush] = true.
Proof. reflexivity. Qed.
Example C81_ex_delivering :
  let s := turns (begin ex_ts) [0; 0] in delivering s 0 ∧ m_rest s 2 = code OPush ++ program [ODel].
Proof. split; [split; [reflexivity|apply elem_of_list_here]|reflexivity]. Qed.

Print Assumptions C80_sections_never_overlap.
Print Assumptions C80_deliveries_one_at_a_time.
Print Assumptions C80_program_order.
Print Assumptions C80_no_deadlock.
Print Assumptions C80_fair_schedules_finish.
Print Assumptions C81_callback_into_the_hub_never_returns_refuted.
Print Assumptions C81_callback_into_the_hub_stops_everyone_refuted.
Print Assumptions C81_callback_that_publishes_can_jam_refuted.
Print Assumptions C81_callbacks_may_publish_if_nobody_subscribes.
Print Assumptions C81_slow_callback_holds_everyone_up.
