(** Model of the BPF programs in internal/bpf/probe.c: sys_enter, sys_exit, the
    execve tracepoint, and the metrics they keep. The byte-level capture of the
    arguments is in CaptureModel.v. *)
From stdpp Require Import gmap strings list.
From Coq Require Import ZArith.
From Verif Require Import SyscallModel FilterModel FilterSpec.
Open Scope Z_scope.

Definition u16 (x : Z) : Z := x mod 2^16.

(** probe.c 72-77; pad is always 0. pkg/kernel/metrics/metrics.go 10-15. *)
Record mkey := MKey { mk_ns : Z; mk_nr : Z; mk_err : Z }.
Global Instance mkey_eq_dec : EqDecision mkey.
Proof. solve_decision. Defined.
Global Instance mkey_countable : Countable mkey.
Proof. refine (inj_countable' (λ k, (mk_ns k, mk_nr k, mk_err k)) (λ p, MKey p.1.1 p.1.2 p.2) _). by intros []. Defined.
(** probe.c 79-85. *)
Record mval := MVal { mv_count : Z; mv_time : Z; mv_first : Z; mv_last : Z; mv_enter : Z }.
(** probe.c 215-222, 242-249. *)
Definition metrics_max : nat := N.to_nat 65535.
Definition state_max : nat := N.to_nat 65535.

(** The end of lines 1504 and 1529: BPF_ANY, the error is ignored. The boolean says
    whether the update took place. *)
Definition store {K A} `{Countable K} (cap : nat) (m : gmap K A) (k : K) (v : A) : gmap K A * bool :=
  match map_update cap m k v with Some m' => (m', true) | None => (m, false) end.

(** probe.c 1460-1507: the key that is updated and its new value. *)
Definition exit_metric (ns nr err ktime : Z) (m : gmap mkey mval) : mkey * mval :=
  let k0 := MKey ns nr 0 in
  let is_errno := negb (err =? 0) && (err <? 255) in
  let enter := if is_errno then match m !! k0 with Some v => mv_enter v | None => ktime end else 0 in
  let k := if is_errno then MKey ns nr (u16 err) else k0 in
  (k, match m !! k with
      | Some v =>
          let enter' := if err =? 0 then mv_enter v else enter in
          MVal (u64 (mv_count v + 1)) (u64 (mv_time v + (ktime - enter'))) (mv_first v) ktime (mv_enter v)
      | None => MVal 1 0 ktime ktime 0
      end).
Definition update_metrics (ns nr err ktime : Z) (m : gmap mkey mval) : gmap mkey mval * bool :=
  let (k, v) := exit_metric ns nr err ktime m in store metrics_max m k v.
(** probe.c 1509-1530. *)
Definition update_metrics_ktime (ns nr ktime : Z) (m : gmap mkey mval) : gmap mkey mval * bool :=
  let k := MKey ns nr 0 in
  store metrics_max m k
    match m !! k with
    | Some v => MVal (mv_count v) (mv_time v) (mv_first v) (mv_last v) ktime
    | None => MVal 0 0 ktime 0 ktime
    end.
(** probe.c 1570: the errno of a return value, by its low 32 bits. -(int)INT_MIN
    wraps. *)
Definition ret_err (ret : Z) : Z := if s32 ret <? 0 then s32 (- s32 ret) else 0.

(** probe.c 64-68: what sys_enter leaves for sys_exit: the syscall id and the six
    argument registers, the ids and the time. *)
Record entry := Entry { en_id : Z; en_args : list Z; en_ugid : Z; en_time : Z }.
(** probe.c 118-147, the fields that identify an event; namespaces other than the
    pid namespace, the session and the switch counts are left out. [ev_enter] is
    what the argument fillers are given. *)
Record kevent := KEvent { ev_tid : Z; ev_ugid : Z; ev_nr : Z; ev_entr : Z; ev_exit : Z; ev_pidns : Z; ev_enter : list Z; ev_ret : Z }.

(** The maps: filter, metrics (215-222), entries by pid_tid (242-249). *)
Record kstate := KState { ks_filter : kmaps; ks_metrics : gmap mkey mval; ks_calls : gmap Z entry }.

(** What happens on a machine. Every BPF program run is one step with one clock
    reading; updates of one map entry by two CPUs at once are not modelled here
    (see [C28_racing_exits_lose_a_count]). [tid] is bpf_get_current_pid_tgid. *)
Inductive kop :=
  | KEnter (tid : Z) (t : task) (args : list Z) (ugid now : Z)   (* raw_syscalls/sys_enter *)
  | KExit (tid : Z) (t : task) (ret now cpu : Z)                 (* raw_syscalls/sys_exit *)
  | KExecve (tid : Z) (t : task) (args : list Z) (ugid now cpu : Z)  (* syscalls/sys_enter_execve *)
  | KUser (o : fop)                                               (* user space edits the filter *)
  | KPrune (ns : Z).                                              (* metrics.Handler.PruneNamespace *)
(** What a step shows: [o_metric]: the metrics filter let the task through, and
    whether the entry could be stored; [o_saved]: the same for sys_enter's entry;
    [o_event]: the event sent to user space. *)
Record kout := KOut { o_metric : option bool; o_saved : option bool; o_event : option kevent }.

(** probe.c 1532-1577. *)
Definition fill_metrics (upd : Z -> Z -> gmap mkey mval -> gmap mkey mval * bool) (t : task) (s : kstate) : kstate * option bool :=
  let (f, v) := run_nfilter mode_metrics t (ks_filter s) in
  let s1 := KState f (ks_metrics s) (ks_calls s) in
  if v =? action_drop then (s1, None)
  else if u32 (t_id t) =? 0xFFFFFFFF then (s1, None)
  else let (m, ok) := upd (t_pidns t) (u32 (t_id t)) (ks_metrics s) in
       (KState f m (ks_calls s), Some ok).

(** arch/x86 syscall number of execve. *)
Definition nr_execve : Z := 59.
(** probe.c 259-265: swoll_event_scratch has 1024 slots. *)
Definition has_scratch (cpu : Z) : bool := cpu <? 1024.

(** probe.c 2542-2578. *)
Definition sys_enter (tid : Z) (t : task) (args : list Z) (ugid now : Z) (s : kstate) : kstate * kout :=
  let (s1, mo) := fill_metrics (fun ns nr => update_metrics_ktime ns nr now) t s in
  if u32 (t_id t) =? nr_execve then (s1, KOut mo None None)
  else
    let (f, v) := run_nfilter mode_syscall t (ks_filter s1) in
    if v =? action_drop then (KState f (ks_metrics s1) (ks_calls s1), KOut mo None None)
    else
      let (c, ok) := store state_max (ks_calls s1) tid (Entry (t_id t) args ugid now) in
      (KState f (ks_metrics s1) c, KOut mo (Some ok) None).

(** probe.c 2580-2732. *)
Definition sys_exit (tid : Z) (t : task) (ret now cpu : Z) (s : kstate) : kstate * kout :=
  let (s1, mo) := fill_metrics (fun ns nr => update_metrics ns nr (ret_err ret) now) t s in
  match ks_calls s1 !! tid with
  | None => (s1, KOut mo None None)
  | Some e =>
      let s2 := KState (ks_filter s1) (ks_metrics s1) (delete tid (ks_calls s1)) in
      if negb (has_scratch cpu) then (s2, KOut mo None None)
      else if negb (t_id t =? en_id e) then (s2, KOut mo None None)
      else (s2, KOut mo None (Some (KEvent tid (en_ugid e) (u32 (en_id e)) (en_time e) now (t_pidns t) (en_args e) ret)))
  end.

(** probe.c 2734-2769. The event is sent before the call runs: its result is not
    known. *)
Definition sys_execve (tid : Z) (t : task) (args : list Z) (ugid now cpu : Z) (s : kstate) : kstate * kout :=
  let (f, v) := run_nfilter mode_syscall t (ks_filter s) in
  let s1 := KState f (ks_metrics s) (ks_calls s) in
  if v =? action_drop then (s1, KOut None None None)
  else if negb (has_scratch cpu) then (s1, KOut None None None)
  else (s1, KOut None None (Some (KEvent tid ugid nr_execve now now (t_pidns t) args 0))).

(** handler.go 23-54 for a map nobody else walks (WalkModel.v has the walk itself). *)
Definition prune (ns : Z) (m : gmap mkey mval) : gmap mkey mval := filter (fun kv => mk_ns kv.1 <> u32 ns) m.

Definition kstep (tbl : syscalls) (s : kstate) (o : kop) : kstate * kout :=
  match o with
  | KEnter tid t args ugid now => sys_enter tid t args ugid now s
  | KExit tid t ret now cpu => sys_exit tid t ret now cpu s
  | KExecve tid t args ugid now cpu => sys_execve tid t args ugid now cpu s
  | KUser o => (KState (fstep tbl o (ks_filter s)) (ks_metrics s) (ks_calls s), KOut None None None)
  | KPrune ns => (KState (ks_filter s) (prune ns (ks_metrics s)) (ks_calls s), KOut None None None)
  end.
Fixpoint krun (tbl : syscalls) (s : kstate) (l : list kop) : kstate * list kout :=
  match l with
  | [] => (s, [])
  | o :: l => let (s1, r) := kstep tbl s o in let (s2, rs) := krun tbl s1 l in (s2, r :: rs)
  end.
(** The machine when the probe is attached. *)
Definition fresh_kernel (m : kmaps) : kstate := KState m ∅ ∅.
