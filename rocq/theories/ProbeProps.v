(** C74 (the object that is loaded), C75 (the probe's life) and C76 (what its reader passes on). *)
From Coq Require Import ZArith String Bool Lia.
From stdpp Require Import base list strings.
From Verif Require Import ProbeModel ProbeSpec ProbeProofs.

Local Open Scope string_scope.
Local Open Scope Z_scope.
Local Open Scope list_scope.

(** ** C74 *)

(** The program goes on with an object exactly if it is the one in the file named by the
    flag, or else by the environment, or else the one that is built in; a file that is empty
    stands for the one that is built in. *)
Theorem C74_loaded_object flag env read builtin o :
  started_with flag env read builtin = Some o <-> exists n, names flag env n /\ object_for read builtin n o.
Proof. exact (started_iff flag env read builtin o). Qed.
(** A file that does not exist: the one that is built in is loaded in its place, as the code's
    comment says, but the error is returned all the same and ends the program. *)
Theorem C74_missing_file_falls_back_refuted flag env read builtin n :
  names flag env (Some n) -> read n = Missing ->
  (load_bpf flag env read builtin).1 = builtin /\ started_with flag env read builtin = None.
Proof. intros N R. destruct (missing_file flag env read builtin n N R) as [-> E]. exact (conj eq_refl E). Qed.
Example C74_satisfiable :
  started_with "" "/tmp/o" (fun n => if String.eqb n "/tmp/o" then Contents [127; 69] else Missing) [1] = Some [127; 69]
  /\ started_with "/x" "/tmp/o" (fun n => if String.eqb n "/tmp/o" then Contents [127; 69] else Missing) [1] = None
  /\ names "/x" "/tmp/o" (Some "/x").
Proof. split; [reflexivity|split; [reflexivity|apply named_by_flag; discriminate]]. Qed.
Print Assumptions C74_loaded_object.
Print Assumptions C74_missing_file_falls_back_refuted.

(** ** C75 *)

(** Run fails without doing anything unless InitProbe succeeded before, with no Close since. *)
Theorem C75_run_needs_init h oks perf :
  ~ ready h -> pcall_do (after h) (CRun oks perf) = (after h, false).
Proof. exact (run_unready h oks perf). Qed.
Theorem C75_run_succeeds_ready h oks perf :
  (pcall_do (after h) (CRun oks perf)).2 = true -> ready h /\ perf = true.
Proof. intros R. destruct (run_needs_init h oks perf R) as (A & B & _). exact (conj A B). Qed.
(** InitProbe on a probe that is not ready succeeds exactly if the object loads and every
    option succeeds; the options are called in order, each once, up to the first that fails. *)
Theorem C75_init_all_options h load opts :
  ~ ready h ->
  ((pcall_do (after h) (CInit load opts)).2 = true <-> load = true /\ Forall (eq true) opts)
  /\ ((pcall_do (after h) (CInit load opts)).2 = true ->
       p_called (after (h ++ [CInit load opts])) = p_called (after h) ++ seq 0 (length opts))
  /\ (forall k, load = true -> fails_at opts k ->
       p_called (after (h ++ [CInit load opts])) = p_called (after h) ++ seq 0 (S k)).
Proof. exact (init_exact h load opts). Qed.
(** It is false that the options given are applied when InitProbe succeeds: on a probe that
    is ready it reports success and calls none. *)
Theorem C75_success_applies_options_refuted h load opts :
  ready h -> pcall_do (after h) (CInit load opts) = (after h, true).
Proof. exact (init_ignored h load opts). Qed.
(** It is false that an option is applied once: after a failure the next InitProbe loads the
    object again and calls the earlier options again. *)
Theorem C75_options_once_refuted opts k opts' :
  fails_at opts k -> Forall (eq true) opts' ->
  let p := after [CInit true opts; CInit true opts'] in
  p_init p = true /\ p_loads p = 2%nat /\ p_called p = seq 0 (S k) ++ seq 0 (length opts').
Proof. exact (retry_repeats opts k opts'). Qed.
(** If no attempt to attach tracepoints failed, then after any history of calls a Run that
    gets to its loop has each tracepoint of the configuration attached exactly once. *)
Theorem C75_attached_once n h perf :
  Forall (attaches_cleanly n) h -> (pcall_do (after h) (CRun (repeat true n) perf)).2 = true ->
  p_attached (after (h ++ [CRun (repeat true n) perf])) = seq 0 n.
Proof. intros F. exact (attached_once n h (repeat true n) perf F eq_refl). Qed.
(** Without that it is false: if tracepoint [k] failed, the next Run attaches those before it
    a second time. *)
Theorem C75_attached_once_refuted k r perf :
  let h := [CInit true []; CRun (repeat true k ++ false :: r) perf; CRun (repeat true (k + S (length r))) true] in
  p_attached (after h) = seq 0 k ++ seq 0 (k + S (length r)).
Proof. exact (attached_twice k r perf). Qed.
(** Close leaves nothing attached if no attempt to attach failed, and the probe is not
    ready. *)
Theorem C75_close_detaches n h :
  Forall (attaches_cleanly n) h -> p_attached (after (h ++ [CClose])) = [] /\ ~ ready (h ++ [CClose]).
Proof. intros _. exact (close_all h). Qed.
(** Only InitProbe loads the object and calls options. *)
Theorem C75_only_init_loads h c : (forall load opts, c <> CInit load opts) ->
  p_loads (after (h ++ [c])) = p_loads (after h) /\ p_called (after (h ++ [c])) = p_called (after h).
Proof.
  intros N. rewrite after_app. destruct c as [load opts|oks| |oks perf]; [destruct (N load opts eq_refl)| | |]; cbn [pcall_do].
  - unfold init_tracepoints. destruct (p_tp (after h)); [split; reflexivity|]. destruct (attempts oks) as [n ok]. split; reflexivity.
  - split; reflexivity.
  - unfold run_starts. destruct (negb (p_init (after h))); [split; reflexivity|]. unfold init_tracepoints. destruct (p_tp (after h)); [split; reflexivity|].
    destruct (attempts oks) as [n ok]. split; reflexivity.
Qed.
Example C75_satisfiable :
  let h := [CInit true [true; true]; CRun [true; true] true; CClose; CInit true [true]] in
  ready h /\ Forall (attaches_cleanly 2) h /\ (pcall_do (after h) (CRun [true; true] true)).2 = true
  /\ p_attached (after (h ++ [CRun [true; true] true])) = [0; 1]%nat
  /\ ~ ready [CInit true [true; false]] /\ fails_at [true; false] 1
  /\ p_attached (after [CInit true []; CRun [true; false] true; CRun [true; true] true]) = [0; 0; 1]%nat.
Proof.
  split; [apply ready_iff; reflexivity|]. split; [repeat constructor|]. split; [reflexivity|]. split; [reflexivity|].
  split; [rewrite <- ready_iff; discriminate|]. split; [exists []; reflexivity|reflexivity].
Qed.
Print Assumptions C75_run_needs_init.
Print Assumptions C75_run_succeeds_ready.
Print Assumptions C75_init_all_options.
Print Assumptions C75_success_applies_options_refuted.
Print Assumptions C75_options_once_refuted.
Print Assumptions C75_attached_once.
Print Assumptions C75_attached_once_refuted.
Print Assumptions C75_close_detaches.
Print Assumptions C75_only_init_loads.

(** ** C76 *)

(** While the callback succeeds it is called for everything the kernel sends, in that order,
    until the context ends; then polling is stopped. *)
Theorem C76_callback_sees_all {M} cb (pre : list (linput M)) :
  (forall j, cb j = true) -> ~ In LDone pre ->
  loop cb 0 pre = (omap deliver pre, Waiting, false)
  /\ forall post, loop cb 0 (pre ++ LDone :: post) = (omap deliver pre, Cancelled, true).
Proof. intros C N. exact (conj (loop_waiting cb 0 pre C N) (fun post => loop_done cb 0 pre post C N)). Qed.
(** It is false that polling is stopped when Run returns: not if the callback failed. What
    comes after the call that failed is not delivered. *)
Theorem C76_polling_stops_refuted {M} cb (pre post : list (linput M)) i :
  ~ In LDone pre -> i <> LDone -> (forall j, (j < length pre)%nat -> cb j = true) -> cb (length pre) = false ->
  loop cb 0 (pre ++ i :: post) = (omap deliver (pre ++ [i]), CallbackFailed, false).
Proof. exact (loop_failed cb 0 pre post i). Qed.
(** Under every schedule, what a consumer of the reader has received is what was taken from
    the kernel, in order, without gaps or repeats, but for at most one message on its way. *)
Theorem C76_reader_in_order {M} ok (acts : list (pstep M)) :
  let s := pipe_run ok acts in
  k_polled s = k_got s \/ exists m, k_polled s = k_got s ++ [m].
Proof. exact (reader_order ok acts). Qed.
(** Only a cancellation ends it: until then Run does not return and polling is not stopped. *)
Theorem C76_ends_only_when_cancelled {M} ok (acts : list (pstep M)) :
  let s := pipe_run ok acts in
  (k_cancelled s = true <-> In SCancel acts) /\ (k_run s = true \/ k_stopped s = true -> In SCancel acts).
Proof.
  unfold pipe_run. induction acts as [|a acts IH] using rev_ind; [cbn; intuition discriminate|]. rewrite fold_left_app. cbn [fold_left]. destruct (fold_left pstep_do acts (pipe_start ok)) as [pc ca ru co po go st].
  assert (In SCancel (acts ++ [a]) <-> In SCancel acts \/ a = SCancel) as A by (rewrite in_app_iff; cbn; intuition).
  cbn zeta in *. rewrite A. clear A. cbn [k_cancelled k_run k_stopped] in IH. destruct IH as [C R].
  destruct a, pc; cbn; try destruct ca; try destruct co; cbn; intuition (try discriminate).
Qed.
(** As long as it receives, polling can be stopped after a cancellation. *)
Theorem C76_can_stop {M} (acts : list (pstep M)) :
  k_consumer (pipe_run true acts) = true -> k_cancelled (pipe_run true acts) = true ->
  exists more, k_stopped (pipe_run true (acts ++ more)) = true.
Proof. exact (can_stop acts). Qed.
(** It is false that a cancellation stops polling: if the consumer stopped receiving while a
    message was on its way, the reader's Run has returned, and the goroutine that polls stays
    in its send under every continuation. *)
Theorem C76_cancel_stops_polling_refuted {M} (m : M) (more : list (pstep M)) :
  let s := pipe_run true ([SPoll m; SQuit; SCancel; SReturn] ++ more) in
  k_cancelled s = true /\ k_run s = true /\ k_stopped s = false /\ k_pc s = RSending m.
Proof. exact (quit_blocks m more). Qed.
(** It is false that the reader's Run tells when the probe could not be started: it then
    delivers nothing, and returns, without an error, only once it is cancelled. *)
Theorem C76_failure_reported_refuted {M} (acts : list (pstep M)) :
  let s := pipe_run false acts in
  k_got s = [] /\ (k_run s = true -> k_cancelled s = true).
Proof. exact (silent_failure acts). Qed.
Example C76_satisfiable :
  let s := pipe_run true [SPoll 1; STake; SLost 9; SPoll 2; STake; SPoll 3; SCancel] in
  k_got s = [1; 2] /\ k_polled s = [1; 2; 3] /\ k_consumer s = true /\ k_cancelled s = true
  /\ loop (fun j => Nat.ltb j 1) 0 [LMsg 5; LLost 7; LMsg 6] = ([(Some 5, 0); (None, 7)], CallbackFailed, false).
Proof. split; [reflexivity|split; [reflexivity|split; [reflexivity|split; reflexivity]]]. Qed.
Print Assumptions C76_callback_sees_all.
Print Assumptions C76_polling_stops_refuted.
Print Assumptions C76_reader_in_order.
Print Assumptions C76_ends_only_when_cancelled.
Print Assumptions C76_can_stop.
Print Assumptions C76_cancel_stops_polling_refuted.
Print Assumptions C76_failure_reported_refuted.
