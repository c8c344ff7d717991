(** C77 (what top shows) and C78 (its lock). *)
From Coq Require Import ZArith String Ascii Bool Lia.
From stdpp Require Import base list numbers strings pretty gmap.
From Verif Require Import SyscallModel SyscallSpec SyscallProofs CodecModel KernelModel ChartModel ChartSpec TopModel TopSpec TopProofs.

Local Open Scope string_scope.
Local Open Scope Z_scope.
Local Open Scope list_scope.

Definition ex_count (ns nr err count : Z) : mkey * mval := (MKey ns nr err, MVal count 10 0 0 0).
Definition ex_ctr : owner := Owner "web" "front" "nginx".
Definition ex_k (sc err : string) : tkey := ("front", "web", "nginx", sc, err).

(** * C77 *)

(** After any ticks, the count shown under some names is the one read last under them, and
    names are shown exactly if a metric was read under them. *)
Theorem C77_shows_the_last_count tbl h k :
  exact_counts (concat h) -> (top_run tbl ∅ h).1 !! k = last (counts_of tbl k (concat h)).
Proof. exact (shown_last tbl h k). Qed.
Print Assumptions C77_shows_the_last_count.
(** So all the metrics of the last tick are shown with their counts, if their syscalls and
    errors have names and no two pid namespaces belong to containers of the same names. *)
Theorem C77_shows_every_metric tbl h es :
  go_table tbl -> exact_counts (concat h) -> exact_counts es -> List.NoDup (map (fun en : entry => en.1.1) es) ->
  (forall a b : entry, In a es -> In b es -> is_Some a.2 -> a.2 = b.2 -> mk_ns a.1.1 = mk_ns b.1.1) ->
  (forall a : entry, In a es -> is_Some a.2 -> known tbl (mk_nr a.1.1) /\ named (mk_err a.1.1) /\ 0 <= mk_err a.1.1) ->
  forall en k c, In en es -> seen tbl en = Some (k, c) -> (top_run tbl ∅ (h ++ [es])).1 !! k = Some c.
Proof. exact (known_exact tbl h es). Qed.
Print Assumptions C77_shows_every_metric.
Example C77_shows_every_metric_met :
  let es := [(ex_count 10 0 0 5, Some ex_ctr); (ex_count 10 1 2 7, Some ex_ctr); (ex_count 30 0 0 8, None)] in
  go_table table /\ exact_counts es /\ List.NoDup (map (fun en : entry => en.1.1) es)
  /\ (forall a b : entry, In a es -> In b es -> is_Some a.2 -> a.2 = b.2 -> mk_ns a.1.1 = mk_ns b.1.1)
  /\ (forall a : entry, In a es -> is_Some a.2 -> known table (mk_nr a.1.1) /\ named (mk_err a.1.1) /\ 0 <= mk_err a.1.1).
Proof.
  cbv zeta. split; [exact go_table_intro|]. split; [repeat (apply Forall_cons; split; [cbn; lia|]); apply Forall_nil; exact I|].
  split; [apply NoDup_ListNoDup; apply (bool_decide_eq_true_1 _); vm_compute; reflexivity|]. split.
  - intros a b [<-|[<-|[<-|[]]]] [<-|[<-|[<-|[]]]] [x Hx] E; try reflexivity; try discriminate.
  - intros a [<-|[<-|[<-|[]]]] [x Hx]; try discriminate; cbn [fst snd ex_count mk_nr mk_err];
      (split; [eexists; vm_compute; reflexivity|split; [vm_compute; tauto|lia]]).
Qed.
(** It is false without that: of two metrics in a tick with the same names, as of a container
    that was restarted, only the one that comes last is shown, not the sum. *)
Theorem C77_counts_are_summed_refuted tbl h pre a mid b post k ca cb :
  exact_counts (concat h) -> exact_counts (pre ++ a :: mid ++ b :: post) ->
  seen tbl a = Some (k, ca) -> seen tbl b = Some (k, cb) -> (forall en c, In en post -> seen tbl en <> Some (k, c)) ->
  (top_run tbl ∅ (h ++ [pre ++ a :: mid ++ b :: post])).1 !! k = Some cb /\ (0 < ca -> cb <> ca + cb).
Proof.
  intros F G A B N. split; [|lia]. rewrite app_comm_cons, app_assoc in G |- *. exact (last_shown tbl h (pre ++ a :: mid) b post k cb F G B N).
Qed.
Print Assumptions C77_counts_are_summed_refuted.
Example C77_counts_are_summed_refuted_met :
  let es := [(ex_count 10 0 0 5, Some ex_ctr); (ex_count 11 0 0 2, Some ex_ctr)] in
  (top_run table ∅ [es]).1 !! ex_k "sys_read" "OK" = Some 2.
Proof. vm_compute. reflexivity. Qed.
(** The graphs: what the ticks added up so far is what the table shows, for calls that
    failed and for the others. *)
Theorem C77_graphs_add_up tbl n b h :
  0 <= b -> n * b <= 2 ^ 53 -> Forall (exact_sums n b) h ->
  sum (map fst (top_run tbl ∅ h).2) = sum_shown false (top_run tbl ∅ h).1
  /\ sum (map snd (top_run tbl ∅ h).2) = sum_shown true (top_run tbl ∅ h).1.
Proof. exact (graph_sums tbl n b h). Qed.
Print Assumptions C77_graphs_add_up.
Example C77_graphs_add_up_met :
  let h := [[(ex_count 10 0 0 5, Some ex_ctr); (ex_count 10 1 2 7, Some ex_ctr)]; [(ex_count 10 0 0 9, Some ex_ctr)]] in
  Forall (exact_sums 2 10) h /\ (top_run table ∅ h).2 = [(5, 7); (4, 0)] /\ sum_shown false (top_run table ∅ h).1 = 9 /\ sum_shown true (top_run table ∅ h).1 = 7.
Proof.
  cbv zeta. split; [|split; [vm_compute; reflexivity|split; vm_compute; reflexivity]].
  repeat (apply Forall_cons; split; [split; [cbn; lia|repeat (apply Forall_cons; split; [cbn; lia|]); apply Forall_nil; exact I]|]). apply Forall_nil; exact I.
Qed.
(** It is false that a tick's number of calls is never below zero: when the kernel's count
    starts again the graph gets the difference. *)
Theorem C77_never_negative_refuted tbl h en k c c' :
  exact_counts (concat h) -> (top_run tbl ∅ h).1 !! k = Some c -> seen tbl en = Some (k, c') -> 0 <= c' < c -> c <= 2 ^ 53 -> mk_err en.1.1 = 0 ->
  last (top_run tbl ∅ (h ++ [[en]])).2 = Some (c' - c, 0) /\ c' - c < 0.
Proof. exact (negative_tick tbl h en k c c'). Qed.
Print Assumptions C77_never_negative_refuted.
Example C77_never_negative_refuted_met :
  (top_run table ∅ [[(ex_count 10 0 0 5, Some ex_ctr)]; [(ex_count 12 0 0 1, Some ex_ctr)]]).2 = [(5, 0); (-4, 0)].
Proof. vm_compute. reflexivity. Qed.
(** It is false that containers that are gone leave the table: names under which nothing is
    read any more are shown with their last count for good. *)
Theorem C77_gone_containers_leave_refuted tbl h g k c :
  exact_counts (concat h) -> exact_counts (concat g) -> (top_run tbl ∅ h).1 !! k = Some c ->
  (forall en c', In en (concat g) -> seen tbl en <> Some (k, c')) -> (top_run tbl ∅ (h ++ g)).1 !! k = Some c.
Proof. exact (stays tbl h g k c). Qed.
Print Assumptions C77_gone_containers_leave_refuted.
Example C77_gone_containers_leave_refuted_met :
  (top_run table ∅ ([[(ex_count 10 0 0 5, Some ex_ctr)]] ++ [[(ex_count 10 0 0 5, None)]; []])).1 !! ex_k "sys_read" "OK" = Some 5.
Proof. vm_compute. reflexivity. Qed.
(** The rows below the header are those of the counters, whatever the order they are sorted
    in: each once, with its names and its count. *)
Theorem C77_rows_are_the_counters m sorted rate :
  sorted ≡ₚ map_to_list m ->
  (forall row, In row (tail (top_rows false rate sorted)) <->
     exists pod ns ctr sc err c, m !! (pod, ns, ctr, sc, err) = Some c /\ row = [sc; err; ns; pod; ctr; pretty c; rate (pod, ns, ctr, sc, err)])
  /\ NoDup (map (take 5) (tail (top_rows false rate sorted))) /\ length (top_rows false rate sorted) = S (size m).
Proof. intros P. exact (conj (fun row => rows_of m sorted rate row P) (rows_distinct m sorted rate P)). Qed.
Print Assumptions C77_rows_are_the_counters.
(** With --aggregate-hosts, too, rows differ in syscall, error or host, if namespaces and
    containers have no dot in their names. *)
Theorem C77_host_rows_differ m sorted rate :
  sorted ≡ₚ map_to_list m -> (forall pod ns ctr sc err c, m !! (pod, ns, ctr, sc, err) = Some c -> no_dot ns /\ no_dot ctr) ->
  NoDup (map (take 3) (tail (top_rows true rate sorted))).
Proof. exact (host_rows_distinct m sorted rate). Qed.
Print Assumptions C77_host_rows_differ.
Example C77_rows_met :
  let m := (top_run table ∅ [[(ex_count 10 0 0 5, Some ex_ctr); (ex_count 10 1 2 7, Some ex_ctr)]]).1 in
  exists sorted, sorted ≡ₚ map_to_list m /\ length sorted = 2%nat
  /\ In ["sys_read"; "OK"; "nginx.front.web"; "5"; "r"] (top_rows true (fun _ => "r") sorted).
Proof. cbv zeta. eexists. split; [reflexivity|]. split; [vm_compute; reflexivity|]. vm_compute. tauto. Qed.

(** * C78 *)

(** Under every schedule, the main loop changes the counters only while neither the table
    nor the graph reads. *)
Theorem C78_no_read_during_a_change sched :
  l_main (lock_run locks_start sched) = MHolds ->
  w_reads (l_widget (lock_run locks_start sched)) = false /\ g_reads (l_graph (lock_run locks_start sched)) = false.
Proof. exact (exclusive sched). Qed.
Print Assumptions C78_no_read_during_a_change.
(** After a schedule, the main loop can never get the lock again, under any continuation,
    exactly if it asked for it while the table held its first read lock and had not yet got
    its second. *)
Theorem C78_frozen_iff sched :
  (forall more, l_main (lock_run (lock_run locks_start sched) more) <> MHolds)
  <-> l_main (lock_run locks_start sched) = MWaits /\ (l_widget (lock_run locks_start sched) = W1 \/ l_widget (lock_run locks_start sched) = WWait2).
Proof. exact (frozen_iff sched). Qed.
Print Assumptions C78_frozen_iff.
(** It is false that top keeps running: that happens, at any time the lock is free. *)
Theorem C78_keeps_running_refuted sched :
  lock_run locks_start sched = locks_start ->
  let s := lock_run locks_start (sched ++ [Widget; Main]) in
  forall more, l_main (lock_run s more) <> MHolds /\ l_widget (lock_run s more) <> WOut.
Proof.
  intros E s. assert (C : caught s) by (unfold s; rewrite run_app_lock, E; unfold caught; cbn; auto).
  intros more. destruct (stuck_forever more s C) as [A [B|B]]; rewrite A, B; split; discriminate.
Qed.
Print Assumptions C78_keeps_running_refuted.
Example C78_met :
  lock_run locks_start [Widget; Graph; Widget; Main; Widget; Graph; Widget; Main; Main] = locks_start
  /\ l_main (lock_run locks_start [Widget; Graph; Widget; Main; Widget; Graph; Widget; Main]) = MHolds
  /\ lock_run locks_start [Widget; Main; Widget; Graph] = Locks MWaits WWait2 GWait.
Proof. split; [reflexivity|split; reflexivity]. Qed.
