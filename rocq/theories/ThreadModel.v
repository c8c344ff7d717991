(** Model of the job callbacks running concurrently with each other and with the
    hub's own operations: pkg/topology/job.go 107-192 next to pkg/topology/hub.go.

    Every job's observer runs its callback on its own goroutine (job.go 107). The
    callback takes the hub's lock only inside PushJob, so between any two of its
    actions other goroutines may act. HubModel.v runs a callback in one step; here
    a start is a program whose instructions are single steps, and a schedule picks
    who moves next. Simplifications: a map access of findLowestSampleJob (which
    takes no lock) and an AddSyscall (two BPF map updates) are one step each; a
    stop is one step; the data race on h.nsmap itself is not modelled. One job may
    have several starts in flight, which is more than Go allows. *)
From stdpp Require Import gmap strings list.
From Coq Require Import ZArith.
From Verif Require Import SyscallModel FilterModel HashModel HubModel.
Open Scope Z_scope.

(** job.go 157-191, line by line, for one syscall. *)
Inductive tinstr :=
  | TNil                (* 158: sc.Name of a nil sc *)
  | TPush (nr : Z)      (* 162: h.PushJob *)
  | TLow (nr : Z)       (* 171: findLowestSampleJob and the comparison *)
  | TDrop (nr : Z)      (* 173: RemoveSyscall; its error is only logged *)
  | TSample (nr : Z)    (* 178: AddSampledSyscall *)
  | TAdd (nr : Z).      (* 187: AddSyscall *)
(** A callback in flight: its job, the container's pid namespace, what is left. *)
Record thread := Thread { t_job : nat; t_ns : Z; t_prog : list tinstr }.
Record tstate := TState { t_hub : hub; t_threads : list thread }.

(** job.go 157-191: the loop over the syscalls, unrolled. *)
Definition call_prog (rate : Z) (sc : option Z) : list tinstr :=
  match sc with
  | None => [TNil]
  | Some nr => if 0 <? rate then [TPush nr; TLow nr; TSample nr; TAdd nr] else [TPush nr; TAdd nr]
  end.
Definition start_prog (rate : Z) (cs : list (option Z)) : list tinstr := flat_map (call_prog rate) cs.

(** Who moves: a new start callback, the i-th callback, or a whole operation of
    the hub (HubModel.v). *)
Inductive top := TStart (j : nat) (c : container) | TStep (i : nat) | TOther (o : hop).
Inductive tout :=
  | TONone                          (* nothing to report *)
  | TOPushed (j : nat) (ns nr : Z)  (* a PushJob *)
  | TOUpdate (ok : bool)            (* a kernel map update *)
  | TOHub (r : hout).               (* a hub operation *)

(** job.go 178-181, 187-190: a failed update ends the callback. *)
Definition after_update (h : hub) (t : thread) (p : list tinstr) (r : kmaps * bool) : hub * thread * tout :=
  (set_maps h r.1, Thread (t_job t) (t_ns t) (if r.2 then p else []), TOUpdate r.2).

(** One instruction of one callback. *)
Definition exec (J : nat -> job) (tbl : syscalls) (h : hub) (t : thread) : res (hub * thread * tout) :=
  let rate := j_rate (J (t_job t)) in
  let next p := Thread (t_job t) (t_ns t) p in
  match t_prog t with
  | [] => Ok (h, t, TONone)
  | TNil :: _ => Panic
  | TPush nr :: p => Ok (push_job J h (t_job t) (t_ns t) nr, next p, TOPushed (t_job t) (t_ns t) nr)
  | TLow nr :: p =>
      match lowest J h nr (t_ns t) with
      | Ok (Some l) => Ok (h, next (if j_rate (J (c_job l)) <? rate then TDrop nr :: p else p), TONone)
      | Ok None => Ok (h, next p, TONone)
      | Panic => Panic
      | Fatal => Fatal
      end
  | TDrop nr :: p => Ok (set_maps h (remove_syscall tbl (ByInt nr) (t_ns t) (maps h)).1, next p, TONone)
  | TSample nr :: p => Ok (after_update h t p (add_sampled_syscall tbl (ByInt nr) (t_ns t) rate (maps h)))
  | TAdd nr :: p => Ok (after_update h t p (add_syscall tbl (ByInt nr) (t_ns t) (maps h)))
  end.

Definition tstep (J : nat -> job) (tbl : syscalls) (s : tstate) (o : top) : res (tstate * tout) :=
  let h := t_hub s in
  match o with
  | TStart j c =>
      (* job.go 132-156 *)
      if host_selected (J j) (ct_name c) then
        let h1 := set_hosts h (<[j := add_container (default ∅ (hosts h !! j)) (ct_pod c) (ct_name c)]> (hosts h)) in
        Ok (TState h1 (t_threads s ++ [Thread j (ct_ns c) (start_prog (j_rate (J j)) (calls_of tbl (J j)))]), TONone)
      else Ok (s, TONone)
  | TStep i =>
      match t_threads s !! i with
      | None => Ok (s, TONone)
      | Some t =>
          match exec J tbl h t with
          | Ok (h', t', r) => Ok (TState h' (<[i := t']> (t_threads s)), r)
          | Panic => Panic
          | Fatal => Fatal
          end
      end
  | TOther o =>
      match hstep J tbl h o with
      | Ok (h', r) => Ok (TState h' (t_threads s), TOHub r)
      | Panic => Panic
      | Fatal => Fatal
      end
  end.
Fixpoint trun (J : nat -> job) (tbl : syscalls) (s : tstate) (l : list top) : res (tstate * list tout) :=
  match l with
  | [] => Ok (s, [])
  | o :: l =>
      match tstep J tbl s o with
      | Ok (s1, r) => match trun J tbl s1 l with Ok (s2, rs) => Ok (s2, r :: rs) | Panic => Panic | Fatal => Fatal end
      | Panic => Panic
      | Fatal => Fatal
      end
  end.
