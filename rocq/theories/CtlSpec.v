(** What the trace controller is meant to do, in terms of the stored trace, the
    jobs that exist, and the clock readings of a history. *)
From stdpp Require Import base list numbers gmap.
From Coq Require Import ZArith.
From Verif Require Import CtlModel.

Local Open Scope Z_scope.

(** One step forward. *)
Inductive forward : tstate -> tstate -> Prop :=
| UnknownPending : forward Unknown Pending
| PendingRunning : forward Pending Running
| RunningComplete : forward Running Complete.

(** The clock readings of a history. *)
Definition clock (o : op) : list Z :=
  match o with User _ => [] | Get _ _ now | Call _ _ now => [now] end.
Definition clocks (l : list op) : list Z := concat (map clock l).

(** What a status says about the rest of it. *)
Definition status_ok (t : trace) : Prop :=
  match t_state t with
  | Unknown | Pending => t_job t = None /\ t_start t = None /\ t_end t = None
  | Running => is_Some (t_job t) /\ is_Some (t_start t) /\ t_end t = None
  | Complete => is_Some (t_job t) /\ is_Some (t_start t) /\ is_Some (t_end t)
  end.

(** A reconcile [c] that reads the stored trace and whose calls all succeed, with
    nothing in between; [n] API calls. *)
Definition undisturbed (c : nat) (s : state) (now : Z) (n : nat) : list op :=
  match s_trace s with
  | None => []
  | Some t => Get c (Some (t_version t)) now :: replicate n (Call c Done now)
  end.

(** A history without failures, stale reads or overlap: users act between whole
    reconciles (of at most three API calls).  The trace is neither deleted nor
    created again. *)
Inductive round := Edit (u : user) | Reconcile (now : Z).

Definition no_deletion (r : round) : Prop :=
  match r with Edit UDelete | Edit (UCreate _ _ _) => False | _ => True end.

Fixpoint quiet (s : state) (rs : list round) : option state :=
  match rs with
  | [] => Some s
  | Edit u :: rs => quiet (user_step s u) rs
  | Reconcile now :: rs =>
      match run s (undisturbed 0 s now 3) with None => None | Some s => quiet s rs end
  end.

(** How many jobs a trace in a given state should have caused. *)
Definition jobs_of (t : tstate) : nat := match t with Unknown | Pending => 0 | Running | Complete => 1 end.

(** A reconcile that creates the job and fails to record it. *)
Definition failing_round (c : nat) (v : nat) (now : Z) : list op :=
  [Get c (Some v) now; Call c Done now; Call c Failed now].
