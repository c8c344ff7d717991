(** Specification vocabulary for the kernel filter. *)
From stdpp Require Import gmap strings list.
From Coq Require Import ZArith.
From Verif Require Import SyscallModel FilterModel.
Open Scope Z_scope.

(** The map entry that stands for "report syscall [nr] in pid namespace [ns]": mode
    syscall (2), subject namespace+syscall (2^14 + 2^15). *)
Definition syscall_rule (ns nr : Z) : fkey := FKey (2 + 2^14 + 2^15) ns 0 nr.
(** "Report syscall [nr] everywhere." *)
Definition syscall_rule_any (nr : Z) : fkey := FKey (2 + 2^15) 0 0 nr.
(** "Collect metrics for pid namespace [ns]": mode metrics (4), subject namespace
    (2^14), any syscall (-1). *)
Definition metrics_rule (ns : Z) : fkey := FKey (4 + 2^14) ns 0 (-1).
(** The value of a fresh un-sampled allow rule. *)
Definition fresh : fval := FVal 0 0 0 0.
(** Pid namespace numbers are 32-bit inode numbers. *)
Definition kernel_ns (ns : Z) : Prop := 0 <= ns < 2^32.

(** A filter type is switched on. *)
Definition configured (m : kmaps) (type : Z) : Prop := exists v, config m !! type = Some v /\ v <> 0.

(** The subjects a task's syscall [nr] matches, most specific namespace rule first. *)
Definition subjects (mode : Z) (t : task) (nr : Z) : list fkey :=
  [ FKey (mode + 2^14) (t_pidns t) 0 (-1);
    FKey (mode + 2^13 + 2^14 + 2^15) (t_pidns t) (t_tgid t) nr;
    FKey (mode + 2^14 + 2^15) (t_pidns t) 0 nr;
    FKey (mode + 2^13 + 2^15) 0 (t_tgid t) nr;
    FKey (mode + 2^15) 0 0 nr ].
(** [k] decides: it is the first subject that is configured and has a rule. *)
Definition decides (m : kmaps) (mode : Z) (t : task) (nr : Z) (k : fkey) (v : fval) : Prop :=
  exists i, subjects mode t nr !! i = Some k /\ configured m (k_flags k) /\ nfilter m !! k = Some v /\
    forall j k', (j < i)%nat -> subjects mode t nr !! j = Some k' ->
      ~ (configured m (k_flags k') /\ is_Some (nfilter m !! k')).

(** The filter API as one operation type, to speak of histories. *)
Inductive fop :=
  | FAddSyscall (nr : lookup_arg) (ns : Z)
  | FAddSampled (nr : lookup_arg) (ns rate : Z)
  | FRemoveSyscall (nr : lookup_arg) (ns : Z)
  | FAddMetrics (ns : Z)
  | FRemoveMetrics (ns : Z)
  | FEnable
  | FKernel (mode : Z) (t : task).
Definition fstep (tbl : syscalls) (o : fop) (m : kmaps) : kmaps :=
  match o with
  | FAddSyscall nr ns => (add_syscall tbl nr ns m).1
  | FAddSampled nr ns rate => (add_sampled_syscall tbl nr ns rate m).1
  | FRemoveSyscall nr ns => (remove_syscall tbl nr ns m).1
  | FAddMetrics ns => (add_metrics tbl ns m).1
  | FRemoveMetrics ns => (remove_metrics tbl ns m).1
  | FEnable => (enable m).1
  | FKernel mode t => (run_nfilter mode t m).1
  end.
Definition fsteps (tbl : syscalls) (os : list fop) (m : kmaps) : kmaps := fold_left (fun m o => fstep tbl o m) os m.

(** A sequence of filter runs, with for each the rule that decided it (if any) and
    the verdict. *)
Fixpoint runs (l : list (Z * task)) (m : kmaps) : list (option fkey * Z) :=
  match l with
  | [] => []
  | (mode, t) :: l =>
      let r := run_nfilter mode t m in
      (find (fun k => filter_enabled m (k_flags k) && bool_decide (is_Some (nfilter m !! k))) (eval_keys mode t), snd r)
      :: runs l (fst r)
  end.

(** Effects on the rule map, for any result of the map updates. *)
Definition puts_rule (m : kmaps) (r : kmaps * bool) (k : fkey) (v : fval) : Prop :=
  (r.2 = true -> nfilter r.1 = <[k := v]> (nfilter m) /\ config r.1 = <[k_flags k := 1]> (config m)) /\
  (r.2 = false -> nfilter r.1 = nfilter m /\ (config r.1 = config m \/ config r.1 = <[k_flags k := 1]> (config m))).
(** The two modes the BPF programs use: syscall (2) and metrics (4). *)
Definition kernel_mode (mode : Z) : Prop := mode = 2 \/ mode = 4.
(** Sampling lets the hit through. *)
Definition lets_through (v : fval) : Prop :=
  v_rate v <= 0 \/ u32 (v_count v + 1) <= 1 \/ u32 (v_count v + 1) mod v_rate v = 0.
(** The run was decided by rule [k]; the run was let through; the i-th hit (from 1) of
    a rule with rate [r] is due: the first one and every r-th. *)
Definition decided (k : fkey) (r : option fkey * Z) : bool := bool_decide (r.1 = Some k).
Definition passed (r : option fkey * Z) : bool := negb (r.2 =? 1).
Definition sample_ok (r i : Z) : bool := (i =? 1) || (i mod r =? 0).

