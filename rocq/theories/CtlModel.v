(** The trace controller, internal/pkg/controller/trace.go, next to the API server
    it talks to.

    A reconcile is a small program whose API calls are single steps, so users and
    other reconciles act between them.  Any number of reconciles may be in flight,
    which is more than controller-runtime allows.  One trace name is modelled; a
    trace that is deleted can be created again under it. *)
From stdpp Require Import base list numbers gmap.
From Coq Require Import ZArith.

Local Open Scope Z_scope.

(** TraceState (api/v1alpha1/trace_types.go 26-34); TraceFailed is never set. *)
Inductive tstate := Unknown | Pending | Running | Complete.

(** A Trace (trace_types.go 37-68), as far as the controller looks at it: status,
    Spec.Duration, Spec.Syscalls, deletion timestamp, finalizers (ours, and
    whether there are others), resource version.  Times are in nanoseconds.
    Job ids are names the API server makes up, so they are numbers; [None] is "". *)
Record trace := Trace {
  t_state : tstate; t_start : option Z; t_end : option Z; t_job : option nat;
  t_duration : Z; t_syscalls : list nat;
  t_deleting : bool; t_ours : bool; t_others : bool;
  t_version : nat
}.

(** The API server: the stored trace, every version it ever had (the controller
    reads from a cache, which may be behind), the jobs that exist, how many jobs
    and versions there were.  [s_calls]: reconciles in flight. *)
Inductive pc :=
| DeleteJob (t : trace) (j : nat)     (* before r.Delete, line 134 *)
| Release (t : trace)                 (* before r.Update, line 152 *)
| Create (t : trace) (st : Z)         (* before r.Create, line 184 *)
| Save (t : trace).                   (* before r.Update, lines 166, 195, 216 *)

Record state := State {
  s_trace : option trace;
  s_seen : list trace;
  s_jobs : gset nat;
  s_njobs : nat;
  s_versions : nat;
  s_calls : gmap nat pc
}.

Definition init : state := State None [] ∅ 0 0 ∅.

Definition set_calls (s : state) (c : gmap nat pc) : state :=
  State (s_trace s) (s_seen s) (s_jobs s) (s_njobs s) (s_versions s) c.
Definition set_jobs (s : state) (j : gset nat) (n : nat) : state :=
  State (s_trace s) (s_seen s) j n (s_versions s) (s_calls s).

(** metav1.Time is stored with a precision of one second. *)
Definition second : Z := 1000000000.
Definition in_seconds (z : Z) : Z := z / second * second.
Definition stored_times (t : trace) (v : nat) : trace :=
  Trace (t_state t) (in_seconds <$> t_start t) (in_seconds <$> t_end t) (t_job t)
    (t_duration t) (t_syscalls t) (t_deleting t) (t_ours t) (t_others t) v.

(** The server stores a new version; an object being deleted goes away with its
    last finalizer.  The caller gets the version back either way. *)
Definition store (s : state) (t : trace) : state * trace :=
  let t := stored_times t (s_versions s) in
  let now_stored := if t_deleting t && negb (t_ours t) && negb (t_others t) then None else Some t in
  (State now_stored (s_seen s ++ [t])%list (s_jobs s) (s_njobs s) (S (s_versions s)) (s_calls s), t).

(** An Update: not found; conflict unless the version is the stored one; no new
    finalizer on an object being deleted.  [None] is an error. *)
Definition update (s : state) (t : trace) : option (state * trace) :=
  match s_trace s with
  | None => None
  | Some cur =>
      if negb (Nat.eqb (t_version t) (t_version cur)) then None
      else if t_deleting cur && t_ours t && negb (t_ours cur) then None
      else Some (store s t)
  end.

(** What a user does: create a trace (no status, with or without finalizers of
    others), edit the spec, delete, remove the other finalizers, remove a job. *)
Inductive user :=
| UCreate (duration : Z) (syscalls : list nat) (others : bool)
| UEdit (duration : Z) (syscalls : list nat)
| UDelete
| UDropOthers
| UJobGone (j : nat).

Definition user_step (s : state) (u : user) : state :=
  match u, s_trace s with
  | UCreate d sc o, None => (store s (Trace Unknown None None None d sc false false o 0)).1
  | UEdit d sc, Some t =>
      (store s (Trace (t_state t) (t_start t) (t_end t) (t_job t) d sc (t_deleting t) (t_ours t) (t_others t) 0)).1
  | UDelete, Some t =>
      (store s (Trace (t_state t) (t_start t) (t_end t) (t_job t) (t_duration t) (t_syscalls t) true (t_ours t) (t_others t) 0)).1
  | UDropOthers, Some t =>
      (store s (Trace (t_state t) (t_start t) (t_end t) (t_job t) (t_duration t) (t_syscalls t) (t_deleting t) (t_ours t) false 0)).1
  | UJobGone j, _ => set_jobs s (s_jobs s ∖ {[j]}) (s_njobs s)
  | _, _ => s
  end.

(** How a call goes, apart from what the server itself refuses: done; failed
    without effect; done, but the answer is lost.  A crash of the controller
    between two calls is the failure of the next one. *)
Inductive reply := Done | Failed | Lost.

(** Where a reconcile goes on. *)
Inductive outcome := Goes (p : pc) | Returns | Panics.

Definition with_status (t : trace) (st : tstate) (start fin : option Z) (j : option nat) (sc : list nat) : trace :=
  Trace st start fin j (t_duration t) sc (t_deleting t) (t_ours t) (t_others t) (t_version t).
Definition with_ours (t : trace) (b : bool) : trace :=
  Trace (t_state t) (t_start t) (t_end t) (t_job t) (t_duration t) (t_syscalls t) (t_deleting t) b (t_others t) (t_version t).

(** sys_execve, the default of createJobResource (40). *)
Definition sys_execve : nat := 59.

(** trace.go 159-221: from AddFinalizer to the next API call. *)
Definition main (t : trace) (now : Z) : outcome :=
  let t := with_ours t true in
  match t_state t with
  | Unknown => Goes (Save (with_status t Pending (t_start t) (t_end t) (t_job t) (t_syscalls t)))
  | Pending =>
      (* createJobResource, 38-41, changes the spec *)
      let sc := match t_syscalls t with [] => [sys_execve] | sc => sc end in
      Goes (Create (with_status t Pending (t_start t) (t_end t) (t_job t) sc) now)
  | Running =>
      if 0 <? t_duration t then
        match t_start t with
        | None => Panics                                   (* t.Status.StartTime is nil, 205 *)
        | Some st =>
            if now <? st + t_duration t then Returns
            else Goes (Save (with_status t Complete (t_start t) (Some now) (t_job t) (t_syscalls t)))
        end
      else Returns
  | Complete => Returns
  end.

(** trace.go 113-157: from Get to the next API call. *)
Definition begin (t : trace) (now : Z) : outcome :=
  if t_deleting t then
    match t_job t with
    | Some j => Goes (DeleteJob t j)
    | None => Goes (Release (with_ours t false))
    end
  else main t now.

(** One API call of a reconcile and the code up to the next one. *)
Definition call (s : state) (p : pc) (r : reply) (now : Z) : state * outcome :=
  match p with
  | DeleteJob t j =>                                          (* 134-148 *)
      match r with
      | Failed => (s, Returns)
      | _ =>
          if decide (j ∈ s_jobs s) then
            (set_jobs s (s_jobs s ∖ {[j]}) (s_njobs s),
             match r with
             | Done => Goes (Release (with_ours (with_status t Complete (t_start t) (Some now) (t_job t) (t_syscalls t)) false))
             | _ => Returns
             end)
          else (s, Returns)
      end
  | Release t =>                                              (* 152-155 *)
      match r with
      | Failed => (s, Returns)
      | _ =>
          match update s t with
          | None => (s, Returns)
          | Some (s, t) => (s, match r with Done => main t now | _ => Returns end)
          end
      end
  | Create t st =>                                            (* 184-193 *)
      match r with
      | Failed => (s, Returns)
      | _ =>
          let j := s_njobs s in
          (set_jobs s ({[j]} ∪ s_jobs s) (S j),
           match r with
           | Done => Goes (Save (with_status t Running (Some st) (t_end t) (Some j) (t_syscalls t)))
           | _ => Returns
           end)
      end
  | Save t =>                                                 (* 166, 195, 216 *)
      match r with
      | Failed => (s, Returns)
      | _ => match update s t with None => (s, Returns) | Some (s, _) => (s, Returns) end
      end
  end.

(** What happens: a user acts; reconcile [c] starts and its Get finds version
    number [v] (or nothing, or an error); the API call that [c] is at is made. *)
Inductive op :=
| User (u : user)
| Get (c : nat) (v : option nat) (now : Z)
| Call (c : nat) (r : reply) (now : Z).

Definition goes_on (s : state) (c : nat) (o : outcome) : option state :=
  match o with
  | Goes p => Some (set_calls s (<[c := p]> (s_calls s)))
  | Returns => Some (set_calls s (delete c (s_calls s)))
  | Panics => None
  end.

(** [None] is a panic of the controller. *)
Definition step (s : state) (o : op) : option state :=
  match o with
  | User u => Some (user_step s u)
  | Get c v now =>
      match s_calls s !! c, v with
      | None, Some v =>
          match s_seen s !! v with
          | Some t => goes_on s c (begin t now)
          | None => Some s
          end
      | _, _ => Some s
      end
  | Call c r now =>
      match s_calls s !! c with
      | None => Some s
      | Some p => let '(s, o) := call s p r now in goes_on s c o
      end
  end.

Fixpoint run (s : state) (l : list op) : option state :=
  match l with
  | [] => Some s
  | o :: l => match step s o with None => None | Some s => run s l end
  end.
