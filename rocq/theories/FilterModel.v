(** Model of pkg/kernel/filter.go and of the kernel side of the filter,
    internal/bpf/probe.c 168-200 and 1013-1023, 1394-1449. *)
From stdpp Require Import gmap strings list.
From Coq Require Import ZArith.
From Verif Require Import SyscallModel.
Open Scope Z_scope.

(** Go's conversions to uint32 and int32, C's to __u32 and __s32. *)
Definition u32 (x : Z) : Z := x mod 2^32.
Definition u64 (x : Z) : Z := x mod 2^64.
Definition s32 (x : Z) : Z := let y := x mod 2^32 in if Z.ltb y (2^31) then y else y - 2^32.

(** filter.go 16-22, probe.c 186-192. The pad field is 0 on both sides and left out. *)
Record fkey := FKey { k_flags : Z; k_pidns : Z; k_thrid : Z; k_syscall : Z }.
Global Instance fkey_eq_dec : EqDecision fkey.
Proof. solve_decision. Defined.
Global Instance fkey_countable : Countable fkey.
Proof.
  refine (inj_countable' (λ k, (k_flags k, k_pidns k, k_thrid k, k_syscall k))
    (λ p, FKey p.1.1.1 p.1.1.2 p.1.2 p.2) _). by intros [].
Defined.
(** filter.go 24-31, probe.c 194-200. *)
Record fval := FVal { v_rate : Z; v_count : Z; v_hits : Z; v_action : Z }.

(** filter.go 33-45, probe.c 170-184. *)
Definition mode_enabled : Z := 1.
Definition mode_syscall : Z := 2.
Definition mode_metrics : Z := 4.
Definition type_pid : Z := 2^13.
Definition type_pidns : Z := 2^14.
Definition type_syscall : Z := 2^15.
Definition action_allow : Z := 0.
Definition action_drop : Z := 1.

(** The two BPF hash maps. probe.c 202-208 (swoll_nfilter, 65535 entries) and
    266-273 (swoll_filter_config, 1024 entries). *)
Record kmaps := KMaps { config : gmap Z Z; nfilter : gmap fkey fval }.
Definition nfilter_max : nat := N.to_nat 65535.
Definition config_max : nat := N.to_nat 1024.

(** bpf_map_update_elem with BPF_ANY on a hash map: fails (E2BIG) when the key is
    new and the map is full. Other failures of the call (ENOMEM, EPERM) are not
    modelled. *)
Definition map_update {K A} `{Countable K} (cap : nat) (m : gmap K A) (k : K) (v : A) : option (gmap K A) :=
  match m !! k with
  | Some _ => Some (<[k := v]> m)
  | None => if decide (size m < cap)%nat then Some (<[k := v]> m) else None
  end.

(** filter.go 53-56. *)
Record rule := Rule { r_key : fkey; r_val : fval }.
(** new(FilterRule). *)
Definition zero_rule : rule := Rule (FKey 0 0 0 0) (FVal 0 0 0 0).

(** filter.go 171-237: the rule options. *)
Inductive ropt :=
  | SetSyscall (sc : lookup_arg)
  | SetSampleRate (rate : Z)
  | SetPidNamespace (ns : Z)
  | SetPid (pid : Z)
  | SetActionDrop
  | SetActionAllow
  | SetModeSyscall
  | SetModeMetrics.

Definition with_flag (f : Z) (k : fkey) : fkey := FKey (Z.lor (k_flags k) f) (k_pidns k) (k_thrid k) (k_syscall k).

(** filter.go 171-237: what each option does to the rule; [None] is an error. *)
Definition apply_opt (tbl : syscalls) (o : ropt) (r : rule) : option rule :=
  let k := r_key r in let v := r_val r in
  match o with
  | SetSyscall sc =>
      match lookup_sc tbl sc with
      | None => None
      | Some sysc => Some (Rule (with_flag type_syscall (FKey (k_flags k) (k_pidns k) (k_thrid k) (s32 (sc_nr sysc)))) v)
      end
  | SetSampleRate rate => Some (Rule k (FVal (u32 rate) (v_count v) (v_hits v) (v_action v)))
  | SetPidNamespace ns =>
      if Z.eqb ns (-1) then Some r
      else Some (Rule (with_flag type_pidns (FKey (k_flags k) (u32 ns) (k_thrid k) (k_syscall k))) v)
  | SetPid pid => Some (Rule (with_flag type_pid (FKey (k_flags k) (k_pidns k) (u32 pid) (k_syscall k))) v)
  | SetActionDrop => Some (Rule k (FVal (v_rate v) (v_count v) (v_hits v) action_drop))
  | SetActionAllow => Some (Rule k (FVal (v_rate v) (v_count v) (v_hits v) action_allow))
  | SetModeSyscall => Some (Rule (with_flag mode_syscall k) v)
  | SetModeMetrics => Some (Rule (with_flag mode_metrics k) v)
  end.

(** filter.go 150-160: NewFilterRule. *)
Fixpoint apply_opts (tbl : syscalls) (os : list ropt) (r : rule) : option rule :=
  match os with
  | [] => Some r
  | o :: os => match apply_opt tbl o r with None => None | Some r' => apply_opts tbl os r' end
  end.
Definition new_rule (tbl : syscalls) (os : list ropt) : option rule := apply_opts tbl os zero_rule.

(** filter.go 103-105: the key AddRule writes. *)
Definition add_key (k : fkey) : fkey :=
  if negb (Z.land (k_flags k) mode_metrics =? 0) && (k_syscall k =? 0)
  then FKey (k_flags k) (k_pidns k) (k_thrid k) (-1) else k.

(** filter.go 102-137: AddRule. The result is the new maps and whether the call
    succeeded; a failed second update leaves the first one in place. The slice
    f.rules, which nothing reads, is left out. *)
Definition add_rule (r : rule) (m : kmaps) : kmaps * bool :=
  let k := add_key (r_key r) in
  match map_update config_max (config m) (k_flags k) 1 with
  | None => (m, false)
  | Some c =>
      match map_update nfilter_max (nfilter m) k (r_val r) with
      | None => (KMaps c (nfilter m), false)
      | Some f => (KMaps c f, true)
      end
  end.
(** filter.go 139-141: DelRule; deleting a missing key is an error (ENOENT). *)
Definition del_rule (r : rule) (m : kmaps) : kmaps * bool :=
  (KMaps (config m) (delete (r_key r) (nfilter m)),
   bool_decide (is_Some (nfilter m !! r_key r))).
(** filter.go 143-148: Enable. *)
Definition enable (m : kmaps) : kmaps * bool :=
  match map_update config_max (config m) mode_enabled 1 with
  | None => (m, false)
  | Some c => (KMaps c (nfilter m), true)
  end.

Definition with_rule (tbl : syscalls) (os : list ropt) (f : rule -> kmaps -> kmaps * bool) (m : kmaps) : kmaps * bool :=
  match new_rule tbl os with None => (m, false) | Some r => f r m end.

(** filter.go 241-252. *)
Definition add_syscall (tbl : syscalls) (nr : lookup_arg) (ns : Z) : kmaps -> kmaps * bool :=
  with_rule tbl [SetModeSyscall; SetSyscall nr; SetPidNamespace ns; SetActionAllow] add_rule.
(** filter.go 256-268. The uint64 parameter is converted back to int, then to
    uint32; both conversions keep the value modulo 2^32. *)
Definition add_sampled_syscall (tbl : syscalls) (nr : lookup_arg) (ns rate : Z) : kmaps -> kmaps * bool :=
  with_rule tbl [SetModeSyscall; SetSyscall nr; SetPidNamespace ns; SetSampleRate rate; SetActionAllow] add_rule.
(** filter.go 273-284. *)
Definition remove_syscall (tbl : syscalls) (nr : lookup_arg) (ns : Z) : kmaps -> kmaps * bool :=
  with_rule tbl [SetModeSyscall; SetSyscall nr; SetPidNamespace ns; SetActionAllow] del_rule.
(** filter.go 289-299. *)
Definition add_metrics (tbl : syscalls) (ns : Z) : kmaps -> kmaps * bool :=
  with_rule tbl [SetModeMetrics; SetPidNamespace ns; SetActionAllow] add_rule.
(** filter.go 304-314. *)
Definition remove_metrics (tbl : syscalls) (ns : Z) : kmaps -> kmaps * bool :=
  with_rule tbl [SetModeMetrics; SetPidNamespace ns; SetActionAllow] del_rule.
(** filter.go 318-331: FilterSelf does nothing. *)
Definition filter_self (m : kmaps) : kmaps * bool := (m, true).

(** What a BPF program sees of the task that runs it: the pid namespace inode
    number (__u32), the upper half of bpf_get_current_pid_tgid (the thread group
    id, __u32) and the id field of the tracepoint (long). Reading the task struct
    is not modelled. *)
Record task := Task { t_pidns : Z; t_tgid : Z; t_id : Z }.

(** probe.c 1013-1023. *)
Definition filter_enabled (m : kmaps) (type : Z) : bool :=
  match config m !! type with Some v => negb (v =? 0) | None => false end.

(** probe.c 1415-1427: the five keys, in order. syscall_nr is a __u32 stored in
    the __s32 scnr field; mode and the type bits are a __u16. *)
Definition eval_keys (mode : Z) (t : task) : list fkey :=
  [ FKey (Z.lor mode type_pidns) (t_pidns t) 0 (-1);
    FKey (Z.lor (Z.lor (Z.lor mode type_pidns) type_pid) type_syscall) (t_pidns t) (t_tgid t) (s32 (u32 (t_id t)));
    FKey (Z.lor (Z.lor mode type_pidns) type_syscall) (t_pidns t) 0 (s32 (u32 (t_id t)));
    FKey (Z.lor (Z.lor mode type_pid) type_syscall) 0 (t_tgid t) (s32 (u32 (t_id t)));
    FKey (Z.lor mode type_syscall) 0 0 (s32 (u32 (t_id t))) ].

(** probe.c 1435-1443: a rule was found: count the hit, sample. Lines 1435 and 1437
    are read-modify-writes without a lock; the model makes them atomic. *)
Definition hit (v : fval) : fval * Z :=
  let hits := u64 (v_hits v + 1) in
  if 0 <? v_rate v then
    let c := u32 (v_count v + 1) in
    (FVal (v_rate v) c hits (v_action v),
     if (1 <? c) && negb (c mod v_rate v =? 0) then action_drop else v_action v)
  else (FVal (v_rate v) (v_count v) hits (v_action v), v_action v).

(** probe.c 1429-1446: the unrolled loop over the keys. *)
Fixpoint eval_loop (ks : list fkey) (m : kmaps) : kmaps * Z :=
  match ks with
  | [] => (m, action_drop)
  | k :: ks =>
      if filter_enabled m (k_flags k) then
        match nfilter m !! k with
        | Some v => let (v', a) := hit v in (KMaps (config m) (<[k := v']> (nfilter m)), a)
        | None => eval_loop ks m
        end
      else eval_loop ks m
  end.

(** probe.c 1394-1449: swoll__run_nfilter. *)
Definition run_nfilter (mode : Z) (t : task) (m : kmaps) : kmaps * Z :=
  if filter_enabled m mode_enabled then eval_loop (eval_keys mode t) m else (m, action_drop).

(** hub.go 71-90: what NewHub does to the freshly loaded, empty maps. [None] is an
    error return. consts: hub.go 28-29. *)
Definition stub_metrics_ns : Z := 31337.
Definition stub_syscall : string := "sys_set_tid_address".
Definition new_hub_maps (tbl : syscalls) : option kmaps :=
  let m0 := KMaps ∅ ∅ in
  let (m1, ok1) := filter_self m0 in
  if negb ok1 then None else
  let (m2, ok2) := add_syscall tbl (ByString stub_syscall) 0 m1 in
  if negb ok2 then None else
  let (m3, ok3) := add_metrics tbl stub_metrics_ns m2 in
  if negb ok3 then None else
  let (m4, ok4) := enable m3 in
  if negb ok4 then None else Some m4.
