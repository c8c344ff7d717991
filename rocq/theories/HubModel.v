(** Model of pkg/topology/hub.go and pkg/topology/job.go. *)
From stdpp Require Import gmap strings list.
From Coq Require Import ZArith.
From Verif Require Import SyscallModel FilterModel HashModel.
Open Scope Z_scope.

(** job.go 20-25 with the fields of v1alpha1.Trace the hub reads: Status.JobID,
    Spec.SampleRate, Spec.Syscalls, Spec.HostSelector. They are set before the job
    runs and not changed afterwards (the completion time, hub.go 173-174, is not
    modelled). A *Job is a number; [J] gives the job it points to. *)
Record job := Job { j_id : string; j_rate : Z; j_calls : list string; j_hosts : list string }.

(** job.go 42-50. [c_uid] identifies the object: container/list removes an element
    by identity, and nselem and idelem are created for this context only. *)
Record ctx := Ctx { c_uid : nat; c_job : nat; c_ns : Z; c_nr : Z }.

(** types.Container, the fields used here. *)
Record container := Container { ct_namespace : string; ct_pod : string; ct_name : string; ct_ns : Z }.

(** hub.go 35-51: the two indexes, the BPF maps behind h.filter; and, per job
    pointer, the Job fields sampled and monitoredHosts (job.go 23-24). The pubsub
    tree is modelled in PubSubModel.v; here a publication is an output. *)
Record hub := Hub {
  nsmap : gmap Z (gmap Z (list ctx));
  idmap : gmap string (list ctx);
  maps : kmaps;
  next_uid : nat;
  sampled : gmap nat Z;
  hosts : gmap nat (gmap string bool) }.

Definition set_nsmap (h : hub) x := Hub x (idmap h) (maps h) (next_uid h) (sampled h) (hosts h).
Definition set_idmap (h : hub) x := Hub (nsmap h) x (maps h) (next_uid h) (sampled h) (hosts h).
Definition set_maps (h : hub) x := Hub (nsmap h) (idmap h) x (next_uid h) (sampled h) (hosts h).
Definition set_sampled (h : hub) x := Hub (nsmap h) (idmap h) (maps h) (next_uid h) x (hosts h).
Definition set_hosts (h : hub) x := Hub (nsmap h) (idmap h) (maps h) (next_uid h) (sampled h) x.

(** hub.go 56-100. *)
Definition new_hub (tbl : syscalls) : option hub :=
  match new_hub_maps tbl with None => None | Some m => Some (Hub ∅ ∅ m 0 ∅ ∅) end.

(** Panic: a Go run-time panic (nil dereference, division by zero). Fatal:
    log.Fatalf, which exits the process. *)
Inductive res (A : Type) := Ok (a : A) | Panic | Fatal.
Arguments Ok {_} _. Arguments Panic {_}. Arguments Fatal {_}.

(** hub.go 332-338. [None] is a nil list. *)
Definition find_list (h : hub) (ns nr : Z) : option (list ctx) :=
  match nsmap h !! ns with Some t => t !! nr | None => None end.
(** Writing back through the *JobList in a bucket. *)
Definition set_list (h : hub) (ns nr : Z) (l : list ctx) : hub :=
  set_nsmap h (<[ns := <[nr := l]> (default ∅ (nsmap h !! ns))]> (nsmap h)).
(** hub.go 340-344. *)
Definition clear_list (h : hub) (ns nr : Z) : hub :=
  match nsmap h !! ns with
  | Some t => set_nsmap h (<[ns := delete nr t]> (nsmap h))
  | None => h
  end.

(** hub.go 361-388. *)
Definition push_job (J : nat -> job) (h : hub) (j : nat) (ns nr : Z) : hub :=
  let c := Ctx (next_uid h) j ns nr in
  let id := j_id (J j) in
  let h1 := set_list h ns nr (default [] (find_list h ns nr) ++ [c]) in
  Hub (nsmap h1) (<[id := default [] (idmap h !! id) ++ [c]]> (idmap h)) (maps h)
    (S (next_uid h)) (sampled h) (hosts h).

(** container/list Remove of this context's element. *)
Definition list_remove (c : ctx) (l : list ctx) : list ctx :=
  List.filter (fun x => negb (c_uid x =? c_uid c)%nat) l.

(** hub.go 133-176: the loop over the job's list. [todo] is what is left of the
    list (the next element is read before the current one is removed), [jid] the
    current contents of the list. Errors of RemoveSyscall are only logged. *)
Fixpoint delete_loop (tbl : syscalls) (todo : list ctx) (h : hub) (jid : list ctx) : hub * list ctx :=
  match todo with
  | [] => (h, jid)
  | c :: todo =>
      match find_list h (c_ns c) (c_nr c) with
      | None => delete_loop tbl todo h jid
      | Some l =>
          let l' := list_remove c l in
          let h1 := set_list h (c_ns c) (c_nr c) l' in
          let h2 := match l' with
                    | [] => clear_list (set_maps h1 (remove_syscall tbl (ByInt (c_nr c)) (c_ns c) (maps h1)).1) (c_ns c) (c_nr c)
                    | _ => h1
                    end in
          let jid' := list_remove c jid in
          let h3 := match nsmap h2 !! c_ns c with
                    | Some t => if decide (t = ∅) then set_nsmap h2 (delete (c_ns c) (nsmap h2)) else h2
                    | None => h2
                    end in
          delete_loop tbl todo h3 jid'
      end
  end.
(** hub.go 122-186. The boolean is false for the "job not found" error. *)
Definition delete_trace (tbl : syscalls) (h : hub) (id : string) : res (hub * bool) :=
  match idmap h !! id with
  | None => Ok (h, false)
  | Some jid =>
      match delete_loop tbl jid h jid with
      | (h', []) => Ok (set_idmap h' (delete id (idmap h')), true)
      | (_, _ :: _) => Fatal
      end
  end.

(** hub.go 390-407. Front() of an empty list is nil and its Value a nil
    dereference. *)
Definition lowest (J : nat -> job) (h : hub) (ns nr : Z) : res (option ctx) :=
  match find_list h ns nr with
  | None => Ok None
  | Some [] => Panic
  | Some (c :: l) =>
      Ok (Some (fold_left (fun m x => if j_rate (J (c_job x)) <? j_rate (J (c_job m)) then x else m) (c :: l) c))
  end.

(** job.go 58-60. *)
Definition job_key (pod name : string) : string := name ++ "." ++ pod.
(** job.go 64-72. *)
Definition add_container (m : gmap string bool) (pod name : string) : gmap string bool :=
  match m !! job_key pod name with Some _ => m | None => <[job_key pod name := true]> m end.
(** job.go 75-77. *)
Definition remove_container (m : gmap string bool) (pod name : string) : gmap string bool :=
  <[job_key pod name := false]> m.
(** job.go 289-301; the map is walked in any order. *)
Definition monitored_hosts (m : gmap string bool) (all : bool) (ret : list string) : Prop :=
  exists order, Permutation order (map_to_list m) /\
    ret = map fst (List.filter (fun kv => all || snd kv) order).

(** job.go 100-105: an unknown name is a nil *Syscall. *)
Definition calls_of (tbl : syscalls) (jb : job) : list (option Z) :=
  map (fun s => match lookup_sc tbl (ByString s) with Some sc => Some (sc_nr sc) | None => None end) (j_calls jb).

(** job.go 117-127: the stop branch's loop; sc.Name of a nil sc panics. *)
Fixpoint stop_calls (tbl : syscalls) (cs : list (option Z)) (ns : Z) (h : hub) : res hub :=
  match cs with
  | [] => Ok h
  | None :: _ => Panic
  | Some nr :: cs => stop_calls tbl cs ns (set_maps h (remove_syscall tbl (ByInt nr) ns (maps h)).1)
  end.
(** job.go 110-127. *)
Definition on_stop (J : nat -> job) (tbl : syscalls) (h : hub) (j : nat) (c : container) : res hub :=
  let h1 := set_hosts h (<[j := remove_container (default ∅ (hosts h !! j)) (ct_pod c) (ct_name c)]> (hosts h)) in
  stop_calls tbl (calls_of tbl (J j)) (ct_ns c) h1.

(** job.go 132-150. *)
Definition host_selected (jb : job) (name : string) : bool :=
  match j_hosts jb with [] => true | hs => existsb (String.eqb name) hs end.

(** job.go 166-190: what follows PushJob for one syscall, on the kernel maps. The
    boolean is false when an update failed and the callback returned. Note the
    order of findLowestSampleJob's arguments in line 171. *)
Definition install (J : nat -> job) (tbl : syscalls) (h : hub) (j : nat) (ns nr : Z) : res (kmaps * bool) :=
  let rate := j_rate (J j) in
  if 0 <? rate then
    match lowest J h nr ns with
    | Ok low =>
        let swap := match low with Some l => j_rate (J (c_job l)) <? rate | None => false end in
        let m1 := if swap then (remove_syscall tbl (ByInt nr) ns (maps h)).1 else maps h in
        let (m2, ok) := add_sampled_syscall tbl (ByInt nr) ns rate m1 in
        if ok then Ok (add_syscall tbl (ByInt nr) ns m2) else Ok (m2, false)
    | Panic => Panic
    | Fatal => Fatal
    end
  else Ok (add_syscall tbl (ByInt nr) ns (maps h)).

(** job.go 157-191: the start branch's loop. Besides the hub it returns how many
    contexts were pushed and whether all updates succeeded. *)
Fixpoint start_calls (J : nat -> job) (tbl : syscalls) (cs : list (option Z)) (j : nat) (ns : Z) (h : hub) (n : nat)
  : res (hub * (nat * bool)) :=
  match cs with
  | [] => Ok (h, (n, true))
  | None :: _ => Panic
  | Some nr :: cs =>
      let h1 := push_job J h j ns nr in
      match install J tbl h1 j ns nr with
      | Ok (m, true) => start_calls J tbl cs j ns (set_maps h1 m) (S n)
      | Ok (m, false) => Ok (set_maps h1 m, (S n, false))
      | Panic => Panic
      | Fatal => Fatal
      end
  end.
(** job.go 128-191. *)
Definition on_start (J : nat -> job) (tbl : syscalls) (h : hub) (j : nat) (c : container) : res (hub * (nat * bool)) :=
  if host_selected (J j) (ct_name c) then
    let h1 := set_hosts h (<[j := add_container (default ∅ (hosts h !! j)) (ct_pod c) (ct_name c)]> (hosts h)) in
    start_calls J tbl (calls_of tbl (J j)) j (ct_ns c) h1 0
  else Ok (h, (0%nat, true)).

(** The fields of an ingested event the hub uses: PidNamespace, Syscall.Nr,
    Syscall.Name and Container. *)
Record event := Event { e_ns : Z; e_nr : Z; e_syscall : string; e_container : option container }.

(** job.go 200-247. The result says whether the job published the event. Go's
    integers are unbounded here. The division of an int by 0 panics; % is Z.rem. *)
Definition write_event (J : nat -> job) (h : hub) (j : nat) (ns nr : Z) : res (hub * bool) :=
  let rate := j_rate (J j) in
  if 0 <? rate then
    let s := default 0 (sampled h !! j) + 1 in
    let h1 := set_sampled h (<[j := s]> (sampled h)) in
    match lowest J h1 ns nr with
    | Ok (Some l) =>
        if (c_job l =? j)%nat then Ok (h1, Z.rem s rate =? 0)
        else
          let sub := rate - j_rate (J (c_job l)) in
          if sub =? 0 then Panic else Ok (h1, Z.rem s sub =? 0)
    | Ok None => Panic
    | Panic => Panic
    | Fatal => Fatal
    end
  else Ok (h, true).

(** hub.go 240-243: the loop over the bucket. Returns the jobs that published, in
    order. *)
Fixpoint write_jobs (J : nat -> job) (l : list ctx) (ns nr : Z) (h : hub) : res (hub * list nat) :=
  match l with
  | [] => Ok (h, [])
  | c :: l =>
      match write_event J h (c_job c) ns nr with
      | Ok (h1, b) =>
          match write_jobs J l ns nr h1 with
          | Ok (h2, ps) => Ok (h2, if b then c_job c :: ps else ps)
          | Panic => Panic
          | Fatal => Fatal
          end
      | Panic => Panic
      | Fatal => Fatal
      end
  end.

(** What an event is published on: the paths handed to ps.Publish, in order; with
    for the job streams the job that wrote it. *)
Definition publications (J : nat -> job) (ev : event) (c : container) (ps : list nat) : list (option nat * list Z) :=
  (None, event_path (ct_namespace c) (ct_pod c) (ct_name c) (e_syscall ev)) ::
  map (fun j => (Some j, job_path (j_id (J j)))) ps.

(** hub.go 224-249: the event callback after Ingest. *)
Definition on_event (J : nat -> job) (h : hub) (ev : event) : res (hub * list (option nat * list Z)) :=
  match e_container ev with
  | None => Ok (h, [])
  | Some c =>
      match find_list h (e_ns ev) (e_nr ev) with
      | None => Ok (h, [])
      | Some l =>
          match write_jobs J l (e_ns ev) (e_nr ev) h with
          | Ok (h', ps) => Ok (h', publications J ev c ps)
          | Panic => Panic
          | Fatal => Fatal
          end
      end
  end.

(** One step of a running hub. Every callback is one step: PushJob, DeleteTrace and
    the event callback hold the hub's lock; the start and stop callbacks hold it
    only inside PushJob, so treating them as one step is a simplification, lifted
    in ThreadModel.v. *)
Inductive hop :=
  | OStart (j : nat) (c : container)   (* job j's observer reports a start *)
  | OStop (j : nat) (c : container)    (* ... a stop *)
  | OPush (j : nat) (ns nr : Z)        (* Hub.PushJob *)
  | ODelete (id : string)              (* Hub.DeleteTrace *)
  | OEvent (ev : event)                (* an event from the kernel *)
  | OMetricsAdd (ns : Z)               (* hub.go 264-271 *)
  | OMetricsRemove (ns : Z)            (* hub.go 272-279; pruning is in KernelModel.v *)
  | OKernel (mode : Z) (t : task).     (* the kernel consults its filter *)
Inductive hout :=
  | RNone
  | RStarted (pushed : nat) (ok : bool)
  | RDeleted (found : bool)
  | RPublished (ps : list (option nat * list Z))
  | RVerdict (v : Z).

Definition hstep (J : nat -> job) (tbl : syscalls) (h : hub) (o : hop) : res (hub * hout) :=
  match o with
  | OStart j c => match on_start J tbl h j c with Ok (h', (n, ok)) => Ok (h', RStarted n ok) | Panic => Panic | Fatal => Fatal end
  | OStop j c => match on_stop J tbl h j c with Ok h' => Ok (h', RNone) | Panic => Panic | Fatal => Fatal end
  | OPush j ns nr => Ok (push_job J h j ns nr, RNone)
  | ODelete id => match delete_trace tbl h id with Ok (h', b) => Ok (h', RDeleted b) | Panic => Panic | Fatal => Fatal end
  | OEvent ev => match on_event J h ev with Ok (h', ps) => Ok (h', RPublished ps) | Panic => Panic | Fatal => Fatal end
  | OMetricsAdd ns => Ok (set_maps h (add_metrics tbl ns (maps h)).1, RNone)
  | OMetricsRemove ns => Ok (set_maps h (remove_metrics tbl ns (maps h)).1, RNone)
  | OKernel mode t => let (m, v) := run_nfilter mode t (maps h) in Ok (set_maps h m, RVerdict v)
  end.
Fixpoint hrun (J : nat -> job) (tbl : syscalls) (h : hub) (os : list hop) : res (hub * list hout) :=
  match os with
  | [] => Ok (h, [])
  | o :: os =>
      match hstep J tbl h o with
      | Ok (h1, r) => match hrun J tbl h1 os with Ok (h2, rs) => Ok (h2, r :: rs) | Panic => Panic | Fatal => Fatal end
      | Panic => Panic
      | Fatal => Fatal
      end
  end.
