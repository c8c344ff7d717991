(** `swoll trace` (cmd/trace.go 160-205): the machine, the hub and the output together. *)
From Coq Require Import ZArith String Lia.
From stdpp Require Import base list numbers strings gmap.
From Verif Require Import SyscallModel FilterModel HubModel KernelModel RawModel CaptureModel LineModel DecodeModel PlainModel.

Local Open Scope string_scope.
Local Open Scope list_scope.
Local Open Scope Z_scope.

(** trace.go 81-99: no SampleRate and no HostSelector. The hub's job 0. *)
Definition the_trace (id : string) (flag : list string) : nat -> job := fun _ => Job id 0 (flag_calls flag) [].

(** The hub, whose [maps] are the kernel's filter; the kernel's metrics and calls in
    progress; the cache of the hub's topology, pid namespace to container (its heap is
    in TopoModel.v); the records on their way, with the number of the step that sent
    them; the number of steps made. The numbers are only there to speak of the
    records. *)
Record world := World {
  w_hub : hub;
  w_metrics : gmap mkey mval;
  w_calls : gmap Z entry;
  w_cache : gmap Z container;
  w_ring : list (nat * list Z);
  w_now : nat
}.

(** What happens. Everything concurrent is interleaved. *)
Inductive wop :=
  | WTask (o : kop) (su : surroundings) (scratch trailing : list Z) (lost : bool)
      (* a kernel program runs, or metrics are pruned; the ring buffer may be full *)
  | WPod (start : bool) (c : container)      (* the hub's own observer reports a container *)
  | WMeter (start : bool) (ns : Z)           (* and its metrics are turned on or off *)
  | WMatch (start : bool) (c : container)    (* the trace's observer reports a container *)
  | WRead (i : nat).                         (* the hub takes a record off a ring *)
Inductive wout :=
  | UNone
  | UTask (r : kout)
  | UMatched (pushed : nat) (ok : bool)
  | URead (k : nat) (ps : list (option nat * list Z)) (line : option (list Z)).

(** probe.c 2542-2769 with bpf_perf_event_output. *)
Definition task_step (tbl : syscalls) (w : world) (o : kop) (su : surroundings) (scratch trailing : list Z) (lost : bool) : world * wout :=
  let (s, r) := kstep tbl (KState (maps (w_hub w)) (w_metrics w) (w_calls w)) o in
  let ring := match o_event r with
              | Some e => if lost then w_ring w else w_ring w ++ [(w_now w, emit e su scratch ++ trailing)]
              | None => w_ring w
              end in
  (World (set_maps (w_hub w) (ks_filter s)) (ks_metrics s) (ks_calls s) (w_cache w) ring (S (w_now w)), UTask r).

Definition with_hub (w : world) (h : hub) : world := World h (w_metrics w) (w_calls w) (w_cache w) (w_ring w) (S (w_now w)).

(** topology.go 114-148: events with a namespace that is not positive are dropped. *)
Definition pod_step (w : world) (start : bool) (c : container) : world :=
  let cache := if 0 <? ct_ns c
               then if start then <[ct_ns c := c]> (w_cache w) else delete (ct_ns c) (w_cache w)
               else w_cache w in
  World (w_hub w) (w_metrics w) (w_calls w) cache (w_ring w) (S (w_now w)).

(** topology.go 114-148, then job.go 108-193. [None]: the program has ended. *)
Definition match_step (tbl : syscalls) (J : nat -> job) (w : world) (start : bool) (c : container) : option (world * wout) :=
  if 0 <? ct_ns c then
    match hstep J tbl (w_hub w) (if start then OStart 0 c else OStop 0 c) with
    | Ok (h, RStarted n ok) => Some (with_hub w h, UMatched n ok)
    | Ok (h, _) => Some (with_hub w h, UNone)
    | Panic | Fatal => None
    end
  else Some (with_hub w (w_hub w), UNone).

Definition meter_step (tbl : syscalls) (J : nat -> job) (w : world) (start : bool) (ns : Z) : option (world * wout) :=
  match hstep J tbl (w_hub w) (if start then OMetricsAdd ns else OMetricsRemove ns) with
  | Ok (h, _) => Some (with_hub w h, UNone)
  | Panic | Fatal => None
  end.

(** The container's name as showMsg prints it: Name, Pod, Namespace (container.go 17-23). *)
Definition shown_container (c : option container) : option (list Z * list Z * list Z) :=
  match c with Some c => Some (txt (ct_name c), txt (ct_pod c), txt (ct_namespace c)) | None => None end.

(** event/trace.go 246-260: what Ingest makes of the record and the topology. *)
Definition event_of (tbl : syscalls) (w : world) (t : trace_event) : event :=
  Event (t_pid_ns t) (t_syscall t)
    (match lookup_sc tbl (ByInt (t_syscall t)) with Some sc => sc_name sc | None => "" end) (w_cache w !! t_pid_ns t).
(** hub.go 230-238: an event without container is dropped before its syscall is looked
    at; otherwise a syscall that is not in the table is a nil dereference. *)
Definition nil_syscall (tbl : syscalls) (w : world) (t : trace_event) : bool :=
  match w_cache w !! t_pid_ns t, lookup_sc tbl (ByInt (t_syscall t)) with Some _, None => true | _, _ => false end.

(** hub.go 217-252 for one record: Ingest, whose errors are only logged, then the
    publications; and the line each call of showMsg prints. The printer may differ from
    line to line (TextModel.v). *)
Definition read_step (tbl : syscalls) (J : nat -> job) (p : nat -> trace_event -> printer) (tty : bool) (w : world) (i : nat) : option (world * wout) :=
  match w_ring w !! i with
  | None => Some (with_hub w (w_hub w), UNone)
  | Some (k, bs) =>
      let took h := World h (w_metrics w) (w_calls w) (w_cache w) (delete i (w_ring w)) (S (w_now w)) in
      match ingest (InBytes bs), ingest_bytes bs with
      | Ingested t, Some r =>
          if nil_syscall tbl w t then None
          else match on_event J (w_hub w) (event_of tbl w t) with
               | Ok (h, ps) => Some (took h, URead k ps (cli_output (p (w_now w) t) tty false (shown_container (w_cache w !! t_pid_ns t)) t (r_args r)))
               | Panic | Fatal => None
               end
      | IngestError, _ => Some (took (w_hub w), URead k [] None)
      | _, _ => None
      end
  end.

Definition wstep (tbl : syscalls) (J : nat -> job) (p : nat -> trace_event -> printer) (tty : bool) (w : world) (o : wop) : option (world * wout) :=
  match o with
  | WTask o su scratch trailing lost => Some (task_step tbl w o su scratch trailing lost)
  | WPod start c => Some (pod_step w start c, UNone)
  | WMeter start ns => meter_step tbl J w start ns
  | WMatch start c => match_step tbl J w start c
  | WRead i => read_step tbl J p tty w i
  end.
Fixpoint wrun (tbl : syscalls) (J : nat -> job) (p : nat -> trace_event -> printer) (tty : bool) (w : world) (l : list wop) : option (world * list wout) :=
  match l with
  | [] => Some (w, [])
  | o :: l =>
      match wstep tbl J p tty w o with
      | Some (w1, r) => match wrun tbl J p tty w1 l with Some (w2, rs) => Some (w2, r :: rs) | None => None end
      | None => None
      end
  end.

(** trace.go 163-198. *)
Definition start_world (tbl : syscalls) : option world :=
  match new_hub tbl with Some h => Some (World h ∅ ∅ ∅ [] 0) | None => None end.
