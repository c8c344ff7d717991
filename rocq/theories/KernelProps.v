(** Properties C27, C28, C29: events and metrics of the BPF programs. *)
From stdpp Require Import gmap strings list.
From Coq Require Import ZArith Lia.
From Verif Require Import SyscallTable SyscallModel SyscallSpec SyscallProofs FilterModel FilterSpec FilterProofs HubProps KernelModel KernelSpec KernelProofs.
Open Scope Z_scope.

(** ** C27 *)
(** An event sent at an exit carries what the same thread's previous step, its
    entry into the same syscall, recorded, and that entry passed the filter. *)
Theorem C27_event_pairs_exit_with_its_entry : forall tbl m l s rs k tid t ret now cpu r ev,
  krun tbl (fresh_kernel m) l = (s, rs) -> takes_turns l tid ->
  l !! k = Some (KExit tid t ret now cpu) -> rs !! k = Some r -> o_event r = Some ev ->
  exists i t' args ugid now', just_before l i k tid /\ l !! i = Some (KEnter tid t' args ugid now') /\ saved rs i /\
    t_id t' = t_id t /\ ev = KEvent tid ugid (u32 (t_id t)) now' now (t_pidns t) args ret.
Proof. intros tbl m l s rs k tid t ret now cpu r ev. by apply event_pairs. Qed.
Print Assumptions C27_event_pairs_exit_with_its_entry.
(** At most one event per entry. *)
Theorem C27_one_event_per_entry : forall tbl m l s rs k k' tid t ret now cpu t' ret' now' cpu' r r' ev ev' i,
  krun tbl (fresh_kernel m) l = (s, rs) ->
  l !! k = Some (KExit tid t ret now cpu) -> rs !! k = Some r -> o_event r = Some ev ->
  l !! k' = Some (KExit tid t' ret' now' cpu') -> rs !! k' = Some r' -> o_event r' = Some ev' ->
  just_before l i k tid -> just_before l i k' tid -> k = k'.
Proof. intros tbl m l s rs k k' tid t ret now cpu t' ret' now' cpu' r r' ev ev' i. by apply event_once. Qed.
Print Assumptions C27_one_event_per_entry.
(** An entry that passed the filter and was stored gets its event at the next exit
    on a CPU that has a scratch slot. *)
Theorem C27_passed_entry_is_reported : forall tbl m l s rs k tid t ret now cpu i t' args ugid now',
  krun tbl (fresh_kernel m) l = (s, rs) -> l !! k = Some (KExit tid t ret now cpu) -> cpu < 1024 -> just_before l i k tid ->
  l !! i = Some (KEnter tid t' args ugid now') -> saved rs i -> t_id t' = t_id t ->
  exists r, rs !! k = Some r /\ o_event r = Some (KEvent tid ugid (u32 (t_id t)) now' now (t_pidns t) args ret).
Proof. intros tbl m l s rs k tid t ret now cpu i t' args ugid now'. by apply event_sent. Qed.
Print Assumptions C27_passed_entry_is_reported.
(** An entry that was dropped, or not stored, emits nothing. *)
Theorem C27_dropped_entry_is_silent : forall tbl m l s rs k tid t ret now cpu i r,
  krun tbl (fresh_kernel m) l = (s, rs) -> takes_turns l tid -> l !! k = Some (KExit tid t ret now cpu) ->
  just_before l i k tid -> enter_at l i tid -> ~ saved rs i -> rs !! k = Some r -> o_event r = None.
Proof. intros tbl m l s rs k tid t ret now cpu i r. by apply dropped_silent. Qed.
Print Assumptions C27_dropped_entry_is_silent.
(** An entry is taken up exactly when the filter, as the history before it left it,
    does not drop it; execve is left to its own tracepoint. *)
Theorem C27_entry_is_taken_iff_it_passes : forall tbl m l s rs i tid t args ugid now sk rk r,
  krun tbl (fresh_kernel m) l = (s, rs) -> krun tbl (fresh_kernel m) (take i l) = (sk, rk) ->
  l !! i = Some (KEnter tid t args ugid now) -> rs !! i = Some r ->
  o_saved r <> None <-> u32 (t_id t) <> 59 /\ (run_nfilter 2 t (run_nfilter 4 t (ks_filter sk)).1).2 <> 1.
Proof. intros tbl m l s rs i tid t args ugid now sk rk r. apply saved_at. Qed.
Print Assumptions C27_entry_is_taken_iff_it_passes.
(** Every event comes from an exit or from the execve tracepoint, and the latter's
    passed the filter and carries its own data. *)
Theorem C27_where_events_come_from : forall tbl m l s rs k r ev,
  krun tbl (fresh_kernel m) l = (s, rs) -> rs !! k = Some r -> o_event r = Some ev ->
  (exists tid t ret now cpu, l !! k = Some (KExit tid t ret now cpu)) \/
  (exists tid t args ugid now cpu sk rk, l !! k = Some (KExecve tid t args ugid now cpu) /\
    krun tbl (fresh_kernel m) (take k l) = (sk, rk) /\ (run_nfilter 2 t (ks_filter sk)).2 <> 1 /\
    ev = KEvent tid ugid 59 now now (t_pidns t) args 0).
Proof. intros tbl m l s rs k r ev. apply events_from. Qed.
Print Assumptions C27_where_events_come_from.

(** Without the alternation an event may pair an exit with an older entry: when
    the sys_exit of a call was missed and the next entry of the same syscall is
    dropped, its exit reports the arguments of the first. *)
Definition ex_maps : kmaps := KMaps {[1 := 1; 2 + 2^14 + 2^15 := 1; 4 + 2^14 := 1]}
  {[syscall_rule 5 9 := FVal 0 0 0 0; FKey (4 + 2^14) 5 0 (-1) := FVal 0 0 0 0]}.
Definition ex_ops : list kop :=
  [ KEnter 1 (Task 5 1 9) [10; 11] 100 1000; KEnter 2 (Task 5 2 9) [20; 21] 200 1010; KExit 2 (Task 5 2 9) 7 1030 3;
    KExecve 3 (Task 5 3 59) [30] 300 1040 0; KEnter 4 (Task 5 4 8) [40] 400 1050; KExit 1 (Task 5 1 9) (-2) 1060 0; KExit 4 (Task 5 4 8) 0 1070 0 ].
Definition ex_run (l : list kop) : kstate * list kout := krun ex_table (fresh_kernel ex_maps) l.
Example C27_nonvacuous : map o_event (ex_run ex_ops).2 =
    [None; None; Some (KEvent 2 200 9 1010 1030 5 [20; 21] 7); None; None; Some (KEvent 1 100 9 1000 1060 5 [10; 11] (-2)); None] /\
  map o_saved (ex_run ex_ops).2 = [Some true; Some true; None; None; None; None; None].
Proof. vm_compute. done. Qed.
Example C27_turns : takes_turns ex_ops 1 /\ just_before ex_ops 0 5 1.
Proof.
  split.
  - intros i j Hij (t & a & u & n & Hi) (t' & a' & u' & n' & Hj).
    assert (forall k, enter_at ex_ops k 1 -> k = 0%nat) as H.
    { intros k (t1 & a1 & u1 & n1 & Hk). do 7 (destruct k as [|k]; [first [reflexivity|discriminate Hk]|]). by destruct k. }
    rewrite (H i), (H j) in Hij by (by repeat eexists). lia.
  - split; [lia|]. intros j Hj. assert (j = 1 \/ j = 2 \/ j = 3 \/ j = 4)%nat as [->|[->|[->| ->]]] by lia;
      (split; [intros (t & r & n & c & H); discriminate H|intros (t & a & u & n & H); discriminate H]).
Qed.
Definition ex_maps1 : kmaps := KMaps {[1 := 1; 2 + 2^14 + 2^15 := 1]} {[syscall_rule 5 1 := FVal 0 0 0 0]}.
Definition ex_missed_exit : list kop :=
  [ KEnter 1 (Task 5 1 1) [10] 100 1000; KUser (FRemoveSyscall (ByInt 1) 5); KEnter 1 (Task 5 1 1) [11] 100 2000; KExit 1 (Task 5 1 1) 0 2010 0 ].
Theorem C27_without_turns_refuted : exists l s rs r, krun ex_table (fresh_kernel ex_maps1) l = (s, rs) /\
  l !! 2%nat = Some (KEnter 1 (Task 5 1 1) [11] 100 2000) /\ l !! 3%nat = Some (KExit 1 (Task 5 1 1) 0 2010 0) /\
  rs !! 3%nat = Some r /\ o_event r = Some (KEvent 1 100 1 1000 2010 5 [10] 0).
Proof.
  exists ex_missed_exit, (krun ex_table (fresh_kernel ex_maps1) ex_missed_exit).1, (krun ex_table (fresh_kernel ex_maps1) ex_missed_exit).2.
  exists (KOut None None (Some (KEvent 1 100 1 1000 2010 5 [10] 0))). split; [apply surjective_pairing|].
  split; [reflexivity|]. split; [reflexivity|]. split; vm_compute; reflexivity.
Qed.
Print Assumptions C27_without_turns_refuted.

(** ** C28 *)
(** The count of every entry is, as a 64-bit number, the number of monitored exits
    with that errno since the namespace was last pruned. *)
Theorem C28_counts_are_exact : forall tbl m l s rs ns nr e, krun tbl (fresh_kernel m) l = (s, rs) -> never_full rs ->
  shown_count s ns nr e = u64 (exits_count ns nr e (zip l rs)).
Proof. intros tbl m l s rs ns nr e Hr Hf. by apply (counts_exact tbl m l s rs Hr Hf). Qed.
Print Assumptions C28_counts_are_exact.
(** They add up to all monitored exits of the syscall. *)
Theorem C28_counts_add_up : forall tbl m l s rs ns nr, krun tbl (fresh_kernel m) l = (s, rs) -> never_full rs -> Z.of_nat (length l) < 2^64 ->
  fold_right Z.add 0 (map (fun i => shown_count s ns nr (Z.of_nat i)) (seq 0 255)) =
  Z.of_nat (length (filter (exits_all ns nr) (since_prune ns (zip l rs)))).
Proof. exact counts_sum. Qed.
Print Assumptions C28_counts_add_up.
(** Once a metrics rule for the namespace has been added, every exit of it is
    monitored, whatever happens to the filter afterwards. *)
Theorem C28_every_exit_is_monitored : forall tbl ns m m' l s rs k tid t ret now cpu r,
  go_table tbl -> kernel_ns ns -> configured m 1 -> add_metrics tbl ns m = (m', true) -> krun tbl (fresh_kernel m') l = (s, rs) ->
  l !! k = Some (KExit tid t ret now cpu) -> t_pidns t = ns -> u32 (t_id t) <> 2^32 - 1 -> rs !! k = Some r -> o_metric r <> None.
Proof. exact monitored_forever. Qed.
Print Assumptions C28_every_exit_is_monitored.
(** Two exits on two CPUs, both reading before either writes, count once. *)
Theorem C28_racing_exits_lose_a_count : forall ns nr ret now ret' now' (mm : gmap mkey mval), errno_of ret = errno_of ret' ->
  let count m := match m !! MKey ns nr (errno_of ret) with Some v => mv_count v | None => 0 end in
  let w1 := exit_metric ns nr (ret_err ret) now mm in
  let w2 := exit_metric ns nr (ret_err ret') now' mm in
  count (<[w2.1 := w2.2]> (<[w1.1 := w1.2]> mm)) = u64 (count mm + 1).
Proof. exact racing. Qed.
Print Assumptions C28_racing_exits_lose_a_count.
(** A successful call whose result has low 32 bits between -254 and -1, like an
    lseek to 4294967280, is counted as failed. *)
Theorem C28_success_counted_as_errno_refuted : exists l s rs,
  krun ex_table (fresh_kernel ex_maps) l = (s, rs) /\ never_full rs /\
  l = [KEnter 1 (Task 5 1 8) [] 0 1; KExit 1 (Task 5 1 8) 4294967280 2 0] /\ shown_count s 5 8 16 = 1 /\ shown_count s 5 8 0 = 0.
Proof.
  set (l := [KEnter 1 (Task 5 1 8) [] 0 1; KExit 1 (Task 5 1 8) 4294967280 2 0]).
  exists l, (ex_run l).1, (ex_run l).2. split; [apply surjective_pairing|]. split.
  - intros r Hr. assert ((ex_run l).2 = [KOut (Some true) None None; KOut (Some true) None None]) as E by (vm_compute; reflexivity).
    rewrite E in Hr. apply elem_of_cons in Hr as [->|Hr]; [discriminate|]. apply elem_of_cons in Hr as [->|Hr]; [discriminate|]. by apply elem_of_nil in Hr.
  - split; [reflexivity|]. split; vm_compute; reflexivity.
Qed.
Print Assumptions C28_success_counted_as_errno_refuted.
Definition ex_metric_ops : list kop :=
  [ KEnter 1 (Task 5 1 9) [] 0 100; KExit 1 (Task 5 1 9) (-2) 110 0;
    KEnter 2 (Task 5 2 9) [] 0 120; KExit 2 (Task 5 2 9) 3 150 0;
    KEnter 1 (Task 5 1 9) [] 0 200; KExit 1 (Task 5 1 9) (-2) 207 0;
    KEnter 1 (Task 6 1 9) [] 0 300; KExit 1 (Task 6 1 9) (-2) 307 0;
    KEnter 1 (Task 5 1 8) [] 0 400; KExit 1 (Task 5 1 8) (-11) 450 0;
    KEnter 1 (Task 5 1 9) [] 0 500 ].
Example C28_nonvacuous :
  let h := zip ex_metric_ops (ex_run ex_metric_ops).2 in
  exits_count 5 9 2 h = 2 /\ exits_count 5 9 0 h = 1 /\ exits_count 6 9 2 h = 0 /\ exits_count 5 8 11 h = 1 /\
  shown_count (ex_run ex_metric_ops).1 5 9 2 = 2 /\ shown_count (ex_run ex_metric_ops).1 5 9 0 = 1 /\
  shown_count (ex_run (ex_metric_ops ++ [KPrune 5])).1 5 9 2 = 0 /\
  Forall (fun r => match o_metric r with Some false => False | _ => True end) (ex_run ex_metric_ops).2.
Proof. vm_compute. repeat split; repeat constructor. Qed.

(** ** C29 *)
(** With one call in flight per (namespace, syscall), the time of an entry is the
    total duration of the calls with its errno, less the first one when the errno
    is not 0. *)
Theorem C29_time_is_the_sum_of_durations : forall tbl m l s rs ns nr cs fl e, krun tbl (fresh_kernel m) l = (s, rs) -> never_full rs ->
  calls ns nr (zip l rs) = Some (cs, fl) ->
  (forall tid t ret now cpu, KExit tid t ret now cpu ∈ l -> t_pidns t = ns -> u32 (t_id t) = nr -> -255 < s32 ret) -> 0 <= e < 255 ->
  shown_time s ns nr e = u64 (total (if decide (e = 0) then with_errno e cs else drop 1 (with_errno e cs))).
Proof. exact times_exact. Qed.
Print Assumptions C29_time_is_the_sum_of_durations.
(** A result that is negative as an int but no errno adds the clock reading, that
    is the time since boot. *)
Theorem C29_other_negative_results_add_the_uptime : forall tbl s tid t ret now cpu v,
  o_metric (kstep tbl s (KExit tid t ret now cpu)).2 = Some true ->
  -2^31 < s32 ret <= -255 -> ks_metrics s !! MKey (t_pidns t) (u32 (t_id t)) 0 = Some v ->
  shown_time (kstep tbl s (KExit tid t ret now cpu)).1 (t_pidns t) (u32 (t_id t)) 0 = u64 (mv_time v + now).
Proof. exact uptime_added. Qed.
Print Assumptions C29_other_negative_results_add_the_uptime.
(** With several calls in flight: the time of the last entry of the call that was counted
    for the namespace, whichever task made it, unless the metrics of the namespace were
    pruned since. *)
Definition last_entry (ns nr : Z) (h : list (kop * kout)) : option Z :=
  fold_left (fun last e =>
    match e.1, o_metric e.2 with
    | KEnter _ t _ _ now, Some true => if decide (t_pidns t = ns /\ u32 (t_id t) = nr) then Some now else last
    | KPrune p, _ => if decide (u32 p = ns) then None else last
    | _, _ => last
    end) h None.
Lemma last_entry_kept tbl m l s rs ns nr te : krun tbl (fresh_kernel m) l = (s, rs) ->
  last_entry ns nr (zip l rs) = Some te -> exists v, ks_metrics s !! MKey ns nr 0 = Some v /\ mv_enter v = te.
Proof.
  revert s rs te. induction l as [|o l IH] using rev_ind; intros s rs te Hr Hl.
  { cbn in Hr. injection Hr as <- <-. discriminate Hl. }
  destruct (krun tbl (fresh_kernel m) l) as [s1 rs1] eqn:E. rewrite (krun_snoc _ _ _ o _ _ E) in Hr. injection Hr as <- <-.
  rewrite zip_with_app in Hl by (symmetry; exact (krun_length _ _ _ _ _ E)).
  unfold last_entry in Hl. rewrite fold_left_app in Hl. fold (last_entry ns nr (zip l rs1)) in Hl. cbn [zip zip_with fold_left fst snd] in Hl.
  destruct (kstep_metrics tbl s1 o) as [K Up]. rewrite K. clear K.
  destruct (kstep tbl s1 o) as [s2 r]. cbn [fst snd] in *. specialize (IH s1 rs1).
  destruct o as [tid t args ugid now|tid t ret now cpu|tid t args ugid now cpu|o|ns']; cbn [metrics_after] in *.
  - destruct (o_metric r) as [ok|] eqn:M; [|exact (IH te eq_refl Hl)]. specialize (Up ok eq_refl).
    unfold update_metrics_ktime in *. match type of Up with (store ?c ?mm ?k ?x).2 = _ => set (x0 := x) in *; pose proof (store_spec c mm k x0) as St; rewrite Up in St; rewrite St end. cbn [fst].
    destruct ok; [|exact (IH te eq_refl Hl)].
    destruct (decide (t_pidns t = ns /\ u32 (t_id t) = nr)) as [[Hn Hi]|N].
    + injection Hl as <-. rewrite <- Hn, <- Hi, lookup_insert. exists x0. split; [reflexivity|]. subst x0. clear. match goal with |- mv_enter (match ?z with _ => _ end) = _ => destruct z end; reflexivity.
    + rewrite lookup_insert_ne by (intros [= X Y]; tauto). exact (IH te eq_refl Hl).
  - destruct (o_metric r) as [ok|] eqn:M; [|exact (IH te eq_refl Hl)]. specialize (Up ok eq_refl). destruct (IH te eq_refl Hl) as (v & Hv & <-).
    unfold update_metrics in *. destruct (exit_metric _ _ _ _ _) as [k x] eqn:Em. pose proof (store_spec metrics_max (ks_metrics s1) k x) as St. rewrite Up in St. rewrite St. cbn [fst].
    destruct ok; [|exists v; split; [exact Hv|reflexivity]].
    destruct (decide (k = MKey ns nr 0)) as [->|N]; [|rewrite lookup_insert_ne by exact N; exists v; split; [exact Hv|reflexivity]].
    rewrite lookup_insert. exists x. split; [reflexivity|]. unfold exit_metric in Em. injection Em as Ek Ex. rewrite Ek, Hv in Ex. rewrite <- Ex. reflexivity.
  - try rewrite Up in Hl. exact (IH te eq_refl Hl).
  - try rewrite Up in Hl. exact (IH te eq_refl Hl).
  - try rewrite Up in Hl. destruct (decide (u32 ns' = ns)) as [D|N]; [discriminate Hl|]. destruct (IH te eq_refl Hl) as (v & Hv & T). exists v. split; [|exact T].
    unfold prune. apply map_filter_lookup_Some. split; [exact Hv|]. cbn. congruence.
Qed.
(** So a call that goes well adds the time since the last entry of any task of the namespace,
    however many are in flight and whichever of them it is... *)
Theorem C29_timed_from_the_last_entry : forall tbl m l s rs tid t ret now cpu te, krun tbl (fresh_kernel m) l = (s, rs) ->
  last_entry (t_pidns t) (u32 (t_id t)) (zip l rs) = Some te -> 0 <= s32 ret ->
  o_metric (kstep tbl s (KExit tid t ret now cpu)).2 = Some true ->
  shown_time (kstep tbl s (KExit tid t ret now cpu)).1 (t_pidns t) (u32 (t_id t)) 0 = u64 (shown_time s (t_pidns t) (u32 (t_id t)) 0 + (now - te)).
Proof.
  intros tbl m l s rs tid t ret now cpu te Hr Hl Hp Ho. destruct (last_entry_kept _ _ _ _ _ _ _ _ Hr Hl) as (v & Hv & <-).
  destruct (kstep_metrics tbl s (KExit tid t ret now cpu)) as [E Hup]. unfold shown_time. rewrite E. cbn [metrics_after]. rewrite Ho.
  specialize (Hup true Ho). unfold update_metrics in *. assert (ret_err ret = 0) as R by (unfold ret_err; destruct (Z.ltb_spec (s32 ret) 0); [lia|reflexivity]).
  rewrite R in *. destruct (exit_metric _ _ _ _ _) as [k x] eqn:Em. pose proof (store_spec metrics_max (ks_metrics s) k x) as St. rewrite Hup in St. rewrite St. cbn [fst].
  unfold exit_metric in Em. cbn in Em. injection Em as <- <-. rewrite lookup_insert, Hv. reflexivity.
Qed.
Print Assumptions C29_timed_from_the_last_entry.
(** ...and the time shown is not the total of the durations: of two calls that overlap the
    first loses what it ran before the second entered. *)
Theorem C29_overlapping_calls_add_up_refuted :
  exists l, let s := (ex_run l).1 in
    never_full (ex_run l).2
    /\ l = [KEnter 1 (Task 5 1 9) [] 0 100; KEnter 2 (Task 5 2 9) [] 0 150; KExit 1 (Task 5 1 9) 0 200 0; KExit 2 (Task 5 2 9) 0 260 0]
    /\ (200 - 100) + (260 - 150) = 210 /\ shown_time s 5 9 0 = 160.
Proof.
  eexists. cbn zeta. split; [|split; [reflexivity|split; [reflexivity|vm_compute; reflexivity]]].
  intros r Hr. assert (map o_metric (ex_run [KEnter 1 (Task 5 1 9) [] 0 100; KEnter 2 (Task 5 2 9) [] 0 150; KExit 1 (Task 5 1 9) 0 200 0; KExit 2 (Task 5 2 9) 0 260 0]).2 = [Some true; Some true; Some true; Some true]) as E by (vm_compute; reflexivity).
  apply (elem_of_list_fmap_1 o_metric) in Hr. change (o_metric <$> ?x) with (map o_metric x) in Hr. rewrite E in Hr. intros X. rewrite X in Hr. clear -Hr. do 4 (apply elem_of_cons in Hr as [Hr|Hr]; [discriminate Hr|]). exact (not_elem_of_nil _ Hr).
Qed.
Example C29_nonvacuous :
  let h := zip ex_metric_ops (ex_run ex_metric_ops).2 in
  calls 5 9 h = Some ([Called 100 110 (-2); Called 120 150 3; Called 200 207 (-2)], Some 500) /\
  shown_time (ex_run ex_metric_ops).1 5 9 2 = 7 /\ shown_time (ex_run ex_metric_ops).1 5 9 0 = 30.
Proof. vm_compute. done. Qed.
Example C29_uptime :
  shown_time (ex_run [KEnter 1 (Task 5 1 9) [] 0 1000000; KExit 1 (Task 5 1 9) (-512) 1000007 0]).1 5 9 0 = 1000007.
Proof. vm_compute. reflexivity. Qed.
