(** Properties C22-C25 and C55: the kernel filter. *)
From stdpp Require Import gmap strings list.
From Coq Require Import ZArith Lia.
From Verif Require Import SyscallTable SyscallModel SyscallSpec SyscallProofs FilterModel FilterSpec FilterProofs.
Open Scope Z_scope.

(** C22: every add or remove touches exactly the entry of its own subject. *)
Theorem C22_adds_touch_their_own_rule : forall tbl nr ns rate m,
  go_table tbl -> known tbl nr -> kernel_ns ns ->
  puts_rule m (add_syscall tbl (ByInt nr) ns m) (syscall_rule ns nr) fresh /\
  puts_rule m (add_sampled_syscall tbl (ByInt nr) ns rate m) (syscall_rule ns nr) (FVal (rate mod 2^32) 0 0 0) /\
  puts_rule m (add_metrics tbl ns m) (metrics_rule ns) fresh /\
  nfilter (remove_syscall tbl (ByInt nr) ns m).1 = delete (syscall_rule ns nr) (nfilter m).
Proof.
  intros tbl nr ns rate m Ht Hk Hns. split; [by apply add_syscall_puts|]. split; [by apply add_sampled_puts|].
  split; [by apply add_metrics_puts|]. by rewrite remove_syscall_eq.
Qed.
Print Assumptions C22_adds_touch_their_own_rule.
Theorem C22_subjects_have_different_keys : forall ns nr ns' nr',
  (syscall_rule ns nr = syscall_rule ns' nr' <-> ns = ns' /\ nr = nr') /\
  (metrics_rule ns = metrics_rule ns' <-> ns = ns') /\
  syscall_rule ns nr <> metrics_rule ns'.
Proof.
  intros. split; [apply syscall_rule_inj|]. split; [apply metrics_rule_inj|apply syscall_not_metrics].
Qed.
Print Assumptions C22_subjects_have_different_keys.
(** Outside the 32-bit range namespaces alias, and -1 means every namespace. *)
Theorem C22_namespaces_alias_outside_32_bits : forall tbl nr ns ns' m,
  ns mod 2^32 = ns' mod 2^32 -> ns <> -1 -> ns' <> -1 ->
  add_syscall tbl nr ns m = add_syscall tbl nr ns' m /\
  remove_syscall tbl nr ns m = remove_syscall tbl nr ns' m /\
  add_metrics tbl ns m = add_metrics tbl ns' m.
Proof. exact ns_alias. Qed.
Print Assumptions C22_namespaces_alias_outside_32_bits.
Theorem C22_minus_one_means_every_namespace : forall tbl nr m, go_table tbl -> known tbl nr ->
  puts_rule m (add_syscall tbl (ByInt nr) (-1) m) (syscall_rule_any nr) fresh.
Proof. exact ns_any. Qed.
Print Assumptions C22_minus_one_means_every_namespace.
Example C22_nonvacuous : go_table table /\ known table 2 /\ kernel_ns 4026531836 /\
  (add_syscall table (ByInt 2) 4026531836 (KMaps ∅ ∅)).2 = true.
Proof.
  split; [exact go_table_intro|]. split; [eexists; vm_compute; reflexivity|]. split; [unfold kernel_ns; lia|].
  vm_compute. reflexivity.
Qed.

(** C23 *)
Theorem C23_remove_undoes_add : forall tbl nr ns m m', go_table tbl -> known tbl nr -> kernel_ns ns ->
  add_syscall tbl (ByInt nr) ns m = (m', true) ->
  (remove_syscall tbl (ByInt nr) ns m').2 = true /\
  nfilter (remove_syscall tbl (ByInt nr) ns m').1 = delete (syscall_rule ns nr) (nfilter m).
Proof.
  intros tbl nr ns m m' Ht Hk Hns Ha. destruct (add_syscall_puts tbl nr ns m Ht Hk Hns) as [H _].
  rewrite Ha in H. destruct (H eq_refl) as [Hf _]. cbn [fst] in Hf. rewrite remove_syscall_eq by done. cbn [fst snd nfilter].
  rewrite Hf, lookup_insert. split; [by apply bool_decide_eq_true_2; eauto|]. apply delete_insert_delete.
Qed.
Print Assumptions C23_remove_undoes_add.
(** Once AddMetrics has succeeded, nothing in the filter API switches collection
    off again: whatever calls follow, with whatever arguments, every later syscall
    of a task in that namespace still passes the metrics filter. *)
Theorem C23_metrics_are_never_removed : forall tbl ns m m' os t, go_table tbl -> kernel_ns ns ->
  configured m 1 -> add_metrics tbl ns m = (m', true) -> t_pidns t = ns ->
  (run_nfilter 4 t (fsteps tbl os m')).2 <> 1.
Proof. exact metrics_forever. Qed.
Print Assumptions C23_metrics_are_never_removed.
Theorem C23_remove_metrics_refuted : exists tbl m m' m'' ns t, go_table tbl /\
  new_hub_maps tbl = Some m /\ add_metrics tbl ns m = (m', true) /\ (remove_metrics tbl ns m').1 = m'' /\
  (run_nfilter 4 t m).2 = 1 /\ t_pidns t = ns /\ (run_nfilter 4 t m'').2 = 0.
Proof.
  exists table. eexists. eexists. eexists. exists 4026532000, (Task 4026532000 77 2).
  split; [exact go_table_intro|].
  split; [vm_compute; reflexivity|]. split; [vm_compute; reflexivity|]. split; [reflexivity|].
  vm_compute. repeat split; reflexivity.
Qed.
Print Assumptions C23_remove_metrics_refuted.

(** C24: exactly which syscalls pass, and that a run changes nothing but the counters
    of a rule. *)
Theorem C24_filter_decision : forall m mode t nr, kernel_mode mode -> s32 (u32 (t_id t)) = nr ->
  ((run_nfilter mode t m).2 <> 1 <->
   configured m 1 /\ exists k v, decides m mode t nr k v /\ v_action v <> 1 /\ lets_through v).
Proof. exact verdict_exact. Qed.
Print Assumptions C24_filter_decision.
Theorem C24_filter_run_only_counts : forall mode t m,
  config (run_nfilter mode t m).1 = config m /\
  forall k, nfilter (run_nfilter mode t m).1 !! k = nfilter m !! k \/
    exists v v', nfilter m !! k = Some v /\ nfilter (run_nfilter mode t m).1 !! k = Some v' /\
      v_rate v' = v_rate v /\ v_action v' = v_action v.
Proof.
  intros mode t m. destruct (run_nfilter_frame mode t m) as [H1 H2]. split; [done|]. intros k.
  destruct (H2 k) as [H|(v & Hv & H)]; [by left|]. right. exists v, (hit v).1. split; [done|]. split; [done|]. apply hit_same.
Qed.
Print Assumptions C24_filter_run_only_counts.
(** A drop rule for the namespace wins over an allow rule for the syscall. *)
Example C24_nonvacuous :
  let m := KMaps {[1 := 1; 2 + 2^14 := 1; 2 + 2^15 := 1]}
             {[FKey (2 + 2^14) 5 0 (-1) := FVal 0 0 0 1; FKey (2 + 2^15) 0 0 9 := FVal 0 0 0 0]} in
  (run_nfilter 2 (Task 5 1 9) m).2 = 1 /\ (run_nfilter 2 (Task 6 1 9) m).2 = 0 /\
  decides m 2 (Task 5 1 9) 9 (FKey (2 + 2^14) 5 0 (-1)) (FVal 0 0 0 1).
Proof.
  cbv zeta. split; [vm_compute; reflexivity|]. split; [vm_compute; reflexivity|].
  exists 0%nat. split; [reflexivity|]. split; [eexists; split; [vm_compute; reflexivity|done]|].
  split; [vm_compute; reflexivity|]. intros; lia.
Qed.

(** C25: over any sequence of syscalls of any tasks, of those decided by one rule with
    rate r (fewer than 2^32), exactly the first and every r-th pass. *)
Theorem C25_sampling_counts : forall k l m r,
  nfilter m !! k = Some (FVal r 0 0 0) -> 0 < r -> configured m 1 ->
  let ds := List.filter (decided k) (runs l m) in
  Z.of_nat (length ds) < 2^32 ->
  map passed ds = map (fun i => sample_ok r (1 + Z.of_nat i)) (seq 0 (length ds)) /\
  Z.of_nat (length (List.filter passed ds)) =
    if decide (r = 1) then Z.of_nat (length ds)
    else if decide (length ds = 0%nat) then 0 else 1 + Z.of_nat (length ds) / r.
Proof. exact sampled_runs. Qed.
Print Assumptions C25_sampling_counts.
Theorem C25_unsampled_passes_all : forall k l m c h,
  configured m 1 -> nfilter m !! k = Some (FVal 0 c h 0) ->
  Forall (fun r => passed r = true) (List.filter (decided k) (runs l m)).
Proof. exact unsampled_runs. Qed.
Print Assumptions C25_unsampled_passes_all.
Example C25_nonvacuous :
  let m := KMaps {[1 := 1; 2 + 2^14 + 2^15 := 1]} {[syscall_rule 5 9 := FVal 3 0 0 0]} in
  map passed (List.filter (decided (syscall_rule 5 9))
    (runs [(2, Task 5 1 9); (2, Task 5 1 8); (2, Task 5 2 9); (2, Task 5 1 9); (4, Task 5 1 9); (2, Task 5 1 9);
           (2, Task 6 1 9); (2, Task 5 1 9); (2, Task 5 1 9)] m)) = [true; false; true; false; false; true].
Proof. vm_compute. reflexivity. Qed.

(** C55: a syscall-mode rule built without FilterRuleSetSyscall (for instance "every
    syscall of this namespace", or "this pid") never matches anything. *)
Theorem C55_syscall_rules_need_a_syscall : forall tbl os r m t,
  new_rule tbl os = Some r -> (forall sc, SetSyscall sc ∉ os) ->
  (run_nfilter 2 t (add_rule r m).1).2 <> 1 ->
  exists k v, k <> add_key (r_key r) /\ decides (add_rule r m).1 2 t (s32 (u32 (t_id t))) k v /\ nfilter m !! k = Some v.
Proof. exact dead_rule. Qed.
Print Assumptions C55_syscall_rules_need_a_syscall.
(** A metrics rule for the syscall with number 0 (read) is rewritten into one for
    "syscall -1" and so never matches a read. *)
Theorem C55_metrics_rule_for_read_is_dead : forall tbl ns, go_table tbl -> kernel_ns ns ->
  exists r, new_rule tbl [SetModeMetrics; SetSyscall (ByString "sys_read"); SetPidNamespace ns; SetActionAllow] = Some r /\
  forall t, t_id t = 0 -> add_key (r_key r) ∉ eval_keys 4 t.
Proof. exact dead_read_metrics. Qed.
Print Assumptions C55_metrics_rule_for_read_is_dead.
Example C55_nonvacuous : exists r m,
  new_rule table [SetModeSyscall; SetPidNamespace 5; SetActionAllow] = Some r /\ new_hub_maps table = Some m /\
  (add_rule r m).2 = true /\ (run_nfilter 2 (Task 5 1 9) (add_rule r m).1).2 = 1.
Proof. eexists. eexists. split; [vm_compute; reflexivity|]. split; [vm_compute; reflexivity|]. vm_compute. done. Qed.
