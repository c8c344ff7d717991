(** Property C119: programs that use the library's filter themselves. *)
From Coq Require Import ZArith String Lia.
From stdpp Require Import base list numbers strings gmap.
From Verif Require Import SyscallTable SyscallModel SyscallSpec SyscallProofs FilterModel FilterSpec FilterProofs KernelModel KernelSpec LibModel.
From Verif Require Import PlainModel PlainSpec PlainProofs.

Local Open Scope string_scope.
Local Open Scope list_scope.
Local Open Scope Z_scope.

(** No rule's type is the switch of the filter. *)
Lemma opt_flags tbl o r r' : apply_opt tbl o r = Some r' -> Z.testbit (k_flags (r_key r)) 0 = false -> Z.testbit (k_flags (r_key r')) 0 = false.
Proof.
  intros E H. destruct o as [sc|rate|ns|pid| | | |]; cbn [apply_opt] in E.
  - destruct (lookup_sc tbl sc); [|discriminate]. apply Some_inj in E as <-. cbn [r_key with_flag k_flags]. by rewrite Z.lor_spec, H.
  - apply Some_inj in E as <-. exact H.
  - destruct (ns =? -1); apply Some_inj in E as <-; [exact H|]. cbn [r_key with_flag k_flags]. by rewrite Z.lor_spec, H.
  - apply Some_inj in E as <-. cbn [r_key with_flag k_flags]. by rewrite Z.lor_spec, H.
  - apply Some_inj in E as <-. exact H.
  - apply Some_inj in E as <-. exact H.
  - apply Some_inj in E as <-. cbn [r_key with_flag k_flags]. by rewrite Z.lor_spec, H.
  - apply Some_inj in E as <-. cbn [r_key with_flag k_flags]. by rewrite Z.lor_spec, H.
Qed.
Lemma opts_flags tbl os : forall r r', apply_opts tbl os r = Some r' -> Z.testbit (k_flags (r_key r)) 0 = false -> Z.testbit (k_flags (r_key r')) 0 = false.
Proof.
  induction os as [|o os IH]; intros r r' E H; cbn [apply_opts] in E; [by apply Some_inj in E as <-|].
  destruct (apply_opt tbl o r) as [r1|] eqn:E1; [|discriminate]. apply (IH r1 r' E), (opt_flags tbl o r r1 E1 H).
Qed.
Definition off (m : kmaps) : Prop := config m !! mode_enabled = None.
Lemma off_add tbl os m : off m -> off (with_rule tbl os add_rule m).1.
Proof.
  intros O. unfold with_rule, new_rule. destruct (apply_opts tbl os zero_rule) as [r|] eqn:E; [|exact O].
  pose proof (opts_flags tbl os zero_rule r E eq_refl) as F. unfold add_rule. set (k := add_key (r_key r)).
  assert (Fk : k_flags k <> mode_enabled).
  { unfold k, add_key. intros X. assert (Y : k_flags (r_key r) = mode_enabled) by (destruct (_ && _) in X; exact X). rewrite Y in F. discriminate F. }
  destruct (map_update config_max (config m) (k_flags k) 1) as [c|] eqn:Ec; [|exact O]. apply map_update_some in Ec as ->.
  assert (Oc : <[k_flags k := 1]> (config m) !! mode_enabled = None) by (by rewrite lookup_insert_ne).
  destruct (map_update nfilter_max (nfilter m) k (r_val r)); exact Oc.
Qed.
Lemma off_del tbl os m : off m -> off (with_rule tbl os del_rule m).1.
Proof. intros O. unfold with_rule. destruct (new_rule tbl os); exact O. Qed.
Lemma off_run mode t m : off m -> run_nfilter mode t m = (m, action_drop).
Proof. intros O. unfold run_nfilter, filter_enabled. by rewrite O. Qed.
Lemma off_user tbl o m : o <> FEnable -> off m -> off (fstep tbl o m).
Proof.
  intros N O. destruct o; cbn [fstep]; try (apply off_add; exact O); try (apply off_del; exact O); [by destruct N|]. by rewrite off_run.
Qed.
Lemma off_fill upd t s : off (ks_filter s) -> fill_metrics upd t s = (s, None).
Proof. intros O. unfold fill_metrics. rewrite off_run by exact O. cbn. by destruct s. Qed.
Lemma off_step tbl s a : off (ks_filter s) -> ks_calls s = ∅ -> a <> LMachine (KUser FEnable) ->
  exists s', lib_step tbl s a = (s', KOut None None None) /\ off (ks_filter s') /\ ks_calls s' = ∅.
Proof.
  intros O C N. destruct a as [o|os|os|]; cbn [lib_step].
  - destruct o as [tid t args ugid now|tid t ret now cpu|tid t args ugid now cpu|o|ns]; cbn [kstep].
    + unfold sys_enter. rewrite off_fill by exact O. destruct (u32 (t_id t) =? nr_execve); [by exists s|]. rewrite off_run by exact O. cbn. by eexists.
    + unfold sys_exit. rewrite off_fill by exact O. rewrite C, lookup_empty. by exists s.
    + unfold sys_execve. rewrite off_run by exact O. cbn. by eexists.
    + eexists. split; [reflexivity|]. split; [|exact C]. cbn [ks_filter]. apply off_user; [congruence|exact O].
    + eexists. split; [reflexivity|]. by split.
  - eexists. split; [reflexivity|]. split; [|exact C]. by apply off_add.
  - eexists. split; [reflexivity|]. split; [|exact C]. by apply off_del.
  - eexists. split; [reflexivity|]. by split.
Qed.
Lemma off_steps tbl l : forall s s' rs, off (ks_filter s) -> ks_calls s = ∅ -> LMachine (KUser FEnable) ∉ l -> lib_run tbl s l = (s', rs) ->
  Forall (fun r => r = KOut None None None) rs.
Proof.
  induction l as [|a l IH]; intros s s' rs O C N E; cbn [lib_run] in E.
  - apply pair_equal_spec in E as [_ <-]. constructor.
  - apply not_elem_of_cons in N as [N1 N2]. destruct (off_step tbl s a O C (not_eq_sym N1)) as (s1 & E1 & O1 & C1). rewrite E1 in E.
    destruct (lib_run tbl s1 l) as [s2 rs2] eqn:E2. apply pair_equal_spec in E as [_ <-]. constructor; [reflexivity|]. exact (IH s1 s2 rs2 O1 C1 N2 E2).
Qed.

(** C119: FilterSelf does nothing, wherever the program calls it: what happens before and
    after is what happens without it. *)
Theorem C119_filter_self_does_nothing : forall tbl s l1 l2 s' rs1 rs2, length rs1 = length l1 ->
  lib_run tbl s (l1 ++ l2) = (s', rs1 ++ rs2) -> lib_run tbl s (l1 ++ LFilterSelf :: l2) = (s', rs1 ++ KOut None None None :: rs2).
Proof.
  intros tbl s l1. revert s. induction l1 as [|a l1 IH]; intros s l2 s' rs1 rs2 L E.
  - destruct rs1; [|discriminate L]. cbn [app] in *. cbn [lib_run lib_step]. unfold with_filter, filter_self. cbn [fst].
    replace (KState (ks_filter s) (ks_metrics s) (ks_calls s)) with s by (by destruct s). by rewrite E.
  - destruct rs1 as [|r rs1]; [discriminate L|]. cbn [app lib_run] in *. destruct (lib_step tbl s a) as [s1 r1].
    destruct (lib_run tbl s1 (l1 ++ l2)) as [s2 rs] eqn:E2. apply pair_equal_spec in E as [<- E]. injection E as -> ->.
    injection L as L. by rewrite (IH s1 l2 s2 rs1 rs2 L E2).
Qed.

(** C119: a program that has not called Enable gets nothing: whatever rules it adds and
    removes, and whatever the tasks of the machine do, no event is sent and no call is
    counted. *)
Theorem C119_nothing_before_enable : forall tbl l s rs,
  LMachine (KUser FEnable) ∉ l -> lib_run tbl loaded l = (s, rs) ->
  forall r, r ∈ rs -> o_event r = None /\ o_metric r = None.
Proof.
  intros tbl l s rs N E r Hr. pose proof (off_steps tbl l loaded s rs eq_refl eq_refl N E) as H. rewrite Forall_forall in H. by rewrite (H r Hr).
Qed.
Print Assumptions C119_filter_self_does_nothing.
Print Assumptions C119_nothing_before_enable.

(** So the two example programs never print a system call (and WithDefaultFilter sets up
    no filter): whatever happens on the machine. *)
Theorem C119_examples_trace_refuted : forall tbl program l s rs,
  program = basic_trace \/ program = kubernetes_basic ->
  no_edits l -> lib_run tbl loaded (program ++ map LMachine l) = (s, rs) ->
  forall r, r ∈ rs -> o_event r = None.
Proof.
  intros tbl program l s rs P N E r Hr. refine (proj1 (C119_nothing_before_enable tbl _ s rs _ E r Hr)).
  intros I. apply elem_of_app in I as [I|I].
  - assert (X : forall a, a ∈ program -> a <> LMachine (KUser FEnable)); [|by apply (X _ I)].
    intros a Ha. apply elem_of_list_In in Ha. destruct P as [->| ->]; cbn in Ha; intuition (subst; discriminate).
  - apply elem_of_list_In, in_map_iff in I as (o & [= ->] & Ho). apply elem_of_list_In in Ho. by apply (N FEnable).
Qed.
Print Assumptions C119_examples_trace_refuted.

(** With Enable after its calls of AddSyscall, the program of kubernetes-basic, for any
    names, is sent what `swoll trace --no-containers` is sent (C97): when a task leaves a
    call other than execve, an event exactly if the call is one of those named and the task
    was seen entering it; for execve an event when it starts. *)
Definition enabled (names : list string) : list libop := LFilterSelf :: add_all names ++ [LMachine (KUser FEnable)].
Lemma add_any tbl n m : add_syscall tbl (ByString n) (-1) m = with_rule tbl [SetModeSyscall; SetSyscall (ByString n); SetActionAllow] add_rule m.
Proof. unfold add_syscall, with_rule, new_rule. cbn [apply_opts apply_opt]. destruct (lookup_sc tbl (ByString n)); reflexivity. Qed.
Lemma lib_run_app tbl l1 l2 : forall s, lib_run tbl s (l1 ++ l2) =
  let (s1, rs1) := lib_run tbl s l1 in let (s2, rs2) := lib_run tbl s1 l2 in (s2, rs1 ++ rs2).
Proof.
  induction l1 as [|a l1 IH]; intros s; cbn [app lib_run].
  - by destruct (lib_run tbl s l2).
  - destruct (lib_step tbl s a) as [s1 r]. rewrite IH. destruct (lib_run tbl s1 l1) as [s2 rs2]. by destruct (lib_run tbl s2 l2).
Qed.
Lemma lib_machine tbl l : forall s, lib_run tbl s (map LMachine l) = krun tbl s l.
Proof. induction l as [|o l IH]; intros s; [reflexivity|]. cbn [map lib_run krun lib_step]. destruct (kstep tbl s o) as [s1 r]. by rewrite IH. Qed.
Lemma add_all_runs tbl names : forall m m', install_calls tbl names m = Some m' ->
  lib_run tbl (fresh_kernel m) (add_all names) = (fresh_kernel m', repeat (KOut None None None) (length names)).
Proof.
  induction names as [|n names IH]; intros m m' E; cbn [install_calls] in E; [by apply Some_inj in E as <-|].
  cbn [add_all map lib_run lib_step kstep fstep]. rewrite add_any. change (ks_filter (fresh_kernel m)) with m. destruct (with_rule tbl _ add_rule m) as [m1 ok]. destruct ok; [|discriminate].
  cbn [fst]. change (KState m1 (ks_metrics (fresh_kernel m)) (ks_calls (fresh_kernel m))) with (fresh_kernel m1). fold (add_all names). rewrite (IH m1 m' E). reflexivity.
Qed.
Lemma enabled_runs tbl names m : names <> [] -> install tbl names = Some m ->
  lib_run tbl loaded (enabled names) = (fresh_kernel m, repeat (KOut None None None) (length (enabled names))).
Proof.
  intros N E. unfold install in E. replace (flag_calls names) with names in E by (by destruct names). destruct (install_calls tbl names (KMaps ∅ ∅)) as [m1|] eqn:E1; [|discriminate].
  unfold enabled. set (X := add_all names ++ _). change (lib_run tbl loaded (LFilterSelf :: X)) with (let (s2, rs) := lib_run tbl loaded X in (s2, KOut None None None :: rs)). unfold X. rewrite lib_run_app.
  unfold loaded. rewrite (add_all_runs tbl names (KMaps ∅ ∅) m1 E1). cbn [lib_run lib_step kstep fstep]. change (ks_filter (fresh_kernel m1)) with m1.
  destruct (enable m1) as [m2 ok]. destruct ok; [|discriminate]. apply Some_inj in E as ->. cbn [fst].
  change (KState m (ks_metrics (fresh_kernel m1)) (ks_calls (fresh_kernel m1))) with (fresh_kernel m). f_equal.
  cbn [length]. rewrite app_length. unfold add_all. rewrite map_length. cbn [length repeat]. f_equal. by rewrite repeat_app.
Qed.
Theorem C119_enabled_programs_are_sent_what_they_named : forall tbl names l s rs k tid t ret now cpu r ev,
  go_table tbl -> names <> [] -> (forall name, name ∈ names -> exists nr, names_call name nr) ->
  no_edits l -> few_threads l -> takes_turns l tid ->
  lib_run tbl loaded (enabled names ++ map LMachine l) = (s, rs) ->
  l !! k = Some (KExit tid t ret now cpu) -> rs !! (length (enabled names) + k)%nat = Some r ->
  (o_event r = Some ev <->
   cpu < 1024 /\ (exists name, name ∈ names /\ names_call name (t_id t mod 2 ^ 32)) /\ t_id t mod 2 ^ 32 <> 59
   /\ exists i t' args ugid now', just_before l i k tid /\ l !! i = Some (KEnter tid t' args ugid now')
        /\ t_id t' = t_id t /\ ev = KEvent tid ugid (t_id t mod 2 ^ 32) now' now (t_pidns t) args ret).
Proof.
  intros tbl names l s rs k tid t ret now cpu r ev G N K NE F TT E Hk Hr.
  assert (W : forall name, wanted names name <-> name ∈ names) by (intros name; unfold wanted; intuition congruence).
  assert (I : is_Some (install tbl names)) by (apply (starts_iff tbl names G); intros name Hn; apply K, W, Hn). destruct I as [m I].
  rewrite lib_run_app, (enabled_runs tbl names m N I), lib_machine in E. destruct (krun tbl (fresh_kernel m) l) as [s2 rs2] eqn:E2. apply pair_equal_spec in E as [_ <-].
  rewrite lookup_app_r in Hr by (rewrite repeat_length; lia). rewrite repeat_length in Hr. replace (length (enabled names) + k - length (enabled names))%nat with k in Hr by lia.
  rewrite (sent_at_exit tbl names m l s2 rs2 k tid t ret now cpu r ev G I NE F TT E2 Hk Hr). unfold asked.
  assert (A : (exists name, wanted names name /\ names_call name (t_id t mod 2 ^ 32)) <-> (exists name, name ∈ names /\ names_call name (t_id t mod 2 ^ 32))).
  { split; intros (name & H1 & H2); exists name; (split; [by apply W|exact H2]). }
  by rewrite A.
Qed.
Print Assumptions C119_enabled_programs_are_sent_what_they_named.

(** FilterSelf does not keep the program's own calls away: with it, a program of any number
    (thread group id [self]) that traces openat is sent its own. *)
Lemma openat_call : names_call "openat" 257.
Proof.
  assert (C : match lookup_sc table (ByString "openat") with Some sc => sc_nr sc =? 257 | None => false end = true) by (vm_compute; reflexivity).
  destruct (lookup_sc table (ByString "openat")) as [sc|] eqn:L; [|discriminate]. apply Z.eqb_eq in C. rewrite <- C. exact (lookup_names _ _ L).
Qed.
Lemma lib_length tbl l : forall s s' rs, lib_run tbl s l = (s', rs) -> length rs = length l.
Proof.
  induction l as [|a l IH]; intros s s' rs E; cbn [lib_run] in E; [by apply pair_equal_spec in E as [_ <-]|].
  destruct (lib_step tbl s a) as [s1 r]. destruct (lib_run tbl s1 l) as [s2 rs2] eqn:E2. apply pair_equal_spec in E as [_ <-]. cbn [length]. by rewrite (IH _ _ _ E2).
Qed.
Definition own_open (self ns : Z) : list kop := [KEnter self (Task ns self 257) [] 0 1; KExit self (Task ns self 257) 3 2 0].
Lemma own_turns self ns : no_edits (own_open self ns) /\ few_threads (own_open self ns) /\ takes_turns (own_open self ns) self.
Proof.
  split; [|split].
  - intros o H. apply elem_of_list_In in H. cbn in H. intuition discriminate.
  - unfold few_threads. cbn [own_open enters omap list_omap]. cbn [list_to_set foldr]. rewrite union_empty_r_L, size_singleton. lia.
  - intros i j Hij Hi (t & a & u & n & Hj). exfalso. destruct j as [|[|j]]; [lia|discriminate Hj|destruct j; discriminate Hj].
Qed.
Theorem C119_own_calls_are_filtered_refuted : forall tbl self ns, go_table tbl ->
  exists s rs r ev, lib_run tbl loaded (enabled ["openat"] ++ map LMachine (own_open self ns)) = (s, rs) /\
    last rs = Some r /\ o_event r = Some ev /\ ev_nr ev = 257 /\ ev_tid ev = self.
Proof.
  intros tbl self ns G. destruct (own_turns self ns) as (NE & F & TT).
  assert (K : forall name, name ∈ ["openat"] -> exists nr, names_call name nr).
  { intros name H. apply elem_of_list_singleton in H as ->. exists 257. exact openat_call. }
  destruct (lib_run tbl loaded (enabled ["openat"] ++ map LMachine (own_open self ns))) as [s rs] eqn:E. exists s, rs.
  pose proof (lib_length _ _ _ _ _ E) as Ln. change (length rs = 5%nat) in Ln.
  destruct (rs !! 4%nat) as [r|] eqn:Hr; [|apply lookup_ge_None in Hr; lia]. exists r, (KEvent self 0 257 1 2 ns [] 3).
  split; [reflexivity|]. split; [rewrite last_lookup, Ln; exact Hr|]. split; [|split; reflexivity].
  apply (C119_enabled_programs_are_sent_what_they_named tbl ["openat"] (own_open self ns) s rs 1 self (Task ns self 257) 3 2 0 r _ G ltac:(discriminate) K NE F TT E eq_refl Hr).
  split; [lia|]. split; [exists "openat"; split; [by left|exact openat_call]|]. split; [cbn; lia|].
  exists 0%nat, (Task ns self 257), [], 0, 1. split; [split; [lia|intros j Hj; lia]|]. by split.
Qed.
Print Assumptions C119_own_calls_are_filtered_refuted.

(** The hypotheses: the program of kubernetes-basic and a machine on which openat is called. *)
Example C119_nonvacuous : (exists s rs, lib_run table loaded (kubernetes_basic ++ map LMachine (own_open 7 9)) = (s, rs) /\ length rs = 7%nat)
  /\ LMachine (KUser FEnable) ∉ kubernetes_basic ++ map LMachine (own_open 7 9)
  /\ no_edits (own_open 7 9) /\ few_threads (own_open 7 9) /\ takes_turns (own_open 7 9) 7.
Proof.
  split; [|split; [|apply own_turns]].
  - destruct (lib_run table loaded _) as [s rs] eqn:E. exists s, rs. split; [reflexivity|]. exact (lib_length _ _ _ _ _ E).
  - intros H. apply elem_of_list_In in H. cbn in H. intuition discriminate.
Qed.
