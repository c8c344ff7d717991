(** Properties C11-C21, C26 and C42: the hub and its jobs. *)
From stdpp Require Import gmap strings list.
From Coq Require Import ZArith Lia Ascii.
From Verif Require Import PubSubModel PubSubSpec PubSubProofs PubSubPublish PubSubTop.
From Verif Require Import SyscallTable SyscallModel SyscallSpec SyscallProofs FilterModel FilterSpec FilterProofs.
From Verif Require Import HashModel HashProofs HashTop HubModel HubSpec HubProofs HubKernel HubEvents HubHosts HubDeliver HubTop.
Open Scope Z_scope.

(** A small cluster for the examples: three jobs and two containers. Jobs 0 and 1
    want openat (257), job 1 also read (0) for containers called "web" only; job 3
    is sampled 1:4, job 4 1:2, job 5 1:1, all for openat. *)
Definition ex_jobs (j : nat) : job :=
  match j with
  | 0%nat => Job "aaaaaaaa" 0 ["openat"] []
  | 1%nat => Job "bbbbbbbb" 0 ["openat"; "read"] ["web"]
  | 2%nat => Job "cccccccc" 0 ["openat"; "no_such_call"] []
  | 3%nat => Job "dddddddd" 4 ["openat"] []
  | 4%nat => Job "eeeeeeee" 2 ["openat"] []
  | 5%nat => Job "ffffffff" 1 ["openat"] []
  | _ => Job "gggggggg" 1 ["openat"] []
  end.
Definition ex_web : container := Container "prod" "web-1" "web" 4026531900.
Definition ex_db : container := Container "prod" "db-1" "db" 4026531901.
Definition ex_open (c : container) : event := Event (ct_ns c) 257 "sys_openat" (Some c).
(** The outcome of a history on a new hub. *)
Definition outcome_of (tbl : syscalls) (J : nat -> job) (os : list hop) : option (hub * list hout) :=
  match new_hub tbl with Some h0 => match hrun J tbl h0 os with Ok r => Some r | _ => None end | None => None end.
(** Most examples use a table of four syscalls, to keep them cheap to check; those
    for theorems about the real table use the real one. *)
Definition ex_table : syscalls :=
  let l := [Syscall 257 "sys_openat" "C" "G"; Syscall 0 "sys_read" "C" "G"; Syscall 1 "sys_write" "C" "G";
            Syscall 218 "sys_set_tid_address" "C" "G"] in
  Syscalls (list_to_map (map (fun sc => (sc_nr sc, sc)) l)) (list_to_map (map (fun sc => (sc_name sc, sc)) l)).
Definition outcome : (nat -> job) -> list hop -> option (hub * list hout) := outcome_of ex_table.
Definition real_outcome : (nat -> job) -> list hop -> option (hub * list hout) := outcome_of table.
(** Some observation of the outcome, computed. *)
Definition observe {A} (f : hub -> list hout -> A) (r : option (hub * list hout)) : option A :=
  match r with Some (h, rs) => Some (f h rs) | None => None end.
Definition observed {A} (f : hub -> list hout -> A) (J : nat -> job) (os : list hop) : option A := observe f (outcome J os).
Definition real_observed {A} (f : hub -> list hout -> A) (J : nat -> job) (os : list hop) : option A := observe f (real_outcome J os).
Lemma observe_exists {A} (f : hub -> list hout -> A) r a : observe f r = Some a -> exists h rs, r = Some (h, rs) /\ f h rs = a.
Proof. unfold observe. destruct r as [[h rs]|]; [|discriminate]. intros [= <-]. eauto. Qed.
Lemma observed_exists {A} (f : hub -> list hout -> A) J os a : observed f J os = Some a ->
  exists h rs, outcome J os = Some (h, rs) /\ f h rs = a.
Proof. apply observe_exists. Qed.
Lemma real_observed_exists {A} (f : hub -> list hout -> A) J os a : real_observed f J os = Some a ->
  exists h rs, real_outcome J os = Some (h, rs) /\ f h rs = a.
Proof. apply observe_exists. Qed.
Definition rule_on (ns nr : Z) (h : hub) : bool := bool_decide (is_Some (nfilter (maps h) !! syscall_rule ns nr)).
Lemma no_failure rs : Forall (fun b => b = true) (map (fun r => match r with RStarted _ ok => ok | _ => true end) rs) -> updates_ok rs.
Proof. intros H n Hin. rewrite Forall_forall in H. apply elem_of_list_In, (in_map (fun r => match r with RStarted _ ok => ok | _ => true end)), elem_of_list_In, H in Hin. done. Qed.
Definition ex_history : list hop :=
  [OStart 0 ex_web; OStart 1 ex_web; OStart 0 ex_db; OStart 1 ex_db; OEvent (ex_open ex_web); ODelete "aaaaaaaa"; OEvent (ex_open ex_web)].

(** C11: at every point of every history the bucket for (ns,nr) and the list of a
    job id are both exactly the registrations made and not deleted, in order; no
    bucket is empty; log.Fatal is not reached. *)
Theorem C11_indexes_agree : forall J tbl h0 os, new_hub tbl = Some h0 ->
  hrun J tbl h0 os <> Fatal /\
  forall h rs, hrun J tbl h0 os = Ok (h, rs) ->
    (forall ns nr, bucket h ns nr = regs_at ns nr (registrations J tbl os rs)) /\
    (forall id, job_list h id = regs_of J id (registrations J tbl os rs)) /\
    (forall ns nr, find_list h ns nr <> Some []).
Proof. exact indexes_agree. Qed.
Print Assumptions C11_indexes_agree.
Example C11_nonvacuous : exists h rs, outcome ex_jobs (take 4 ex_history) = Some (h, rs) /\
  bucket h 4026531900 257 = [Reg 0 4026531900 257; Reg 1 4026531900 257] /\
  job_list h "bbbbbbbb" = [Reg 1 4026531900 257; Reg 1 4026531900 0].
Proof.
  assert (observed (fun h rs => (bucket h 4026531900 257, job_list h "bbbbbbbb")) ex_jobs (take 4 ex_history) = Some ([Reg 0 4026531900 257; Reg 1 4026531900 257], [Reg 1 4026531900 257; Reg 1 4026531900 0])) as E by (vm_compute; reflexivity).
  apply observed_exists in E as (h & rs & E & Ef). injection Ef as E1 E2. exists h, rs. exact (conj E (conj E1 E2)).
Qed.

(** C12 *)
Theorem C12_delete_removes_the_job_and_nothing_else : forall J tbl h0 os h rs id,
  new_hub tbl = Some h0 -> hrun J tbl h0 os = Ok (h, rs) ->
  exists h' b, hstep J tbl h (ODelete id) = Ok (h', RDeleted b) /\
    (b = false <-> regs_of J id (registrations J tbl os rs) = []) /\
    (b = false -> h' = h) /\
    (forall ns nr, bucket h' ns nr = filter (fun g => j_id (J (g_job g)) <> id) (bucket h ns nr)) /\
    (forall id', job_list h' id' = if decide (id' = id) then [] else job_list h id').
Proof. exact delete_exact. Qed.
Print Assumptions C12_delete_removes_the_job_and_nothing_else.
Example C12_nonvacuous : exists h rs, outcome ex_jobs (take 6 ex_history) = Some (h, rs) /\ last rs = Some (RDeleted true) /\
  bucket h 4026531900 257 = [Reg 1 4026531900 257] /\ bucket h 4026531901 257 = [].
Proof.
  assert (observed (fun h rs => (last rs, bucket h 4026531900 257, bucket h 4026531901 257)) ex_jobs (take 6 ex_history) = Some (Some (RDeleted true), [Reg 1 4026531900 257], [])) as E by (vm_compute; reflexivity).
  apply observed_exists in E as (h & rs & E & Ef). injection Ef as E1 E2 E3. exists h, rs. exact (conj E (conj E1 (conj E2 E3))).
Qed.

(** C13 *)
Theorem C13_rule_exists_iff_registered : forall J tbl h0 os h rs ns nr,
  go_table tbl -> new_hub tbl = Some h0 -> Forall kernel_op os -> hrun J tbl h0 os = Ok (h, rs) ->
  no_stops os -> no_pushes os -> updates_ok rs -> ~ (ns = 0 /\ nr = 218) ->
  (has_rule h ns nr <-> regs_at ns nr (registrations J tbl os rs) <> []).
Proof. exact rule_iff_registered. Qed.
Print Assumptions C13_rule_exists_iff_registered.
(** One direction survives everything: stops, bare PushJobs, full kernel maps. *)
Theorem C13_no_rule_without_registration : forall J tbl h0 os h rs ns nr,
  go_table tbl -> new_hub tbl = Some h0 -> Forall kernel_op os -> hrun J tbl h0 os = Ok (h, rs) ->
  has_rule h ns nr -> ~ (ns = 0 /\ nr = 218) -> regs_at ns nr (registrations J tbl os rs) <> [].
Proof. exact rules_backed. Qed.
Print Assumptions C13_no_rule_without_registration.
Lemma ex_history_fact : real_observed (fun h rs =>
    (map (fun r => match r with RStarted _ ok => ok | _ => true end) rs, rule_on 4026531900 257 h, rule_on 4026531901 257 h,
     (run_nfilter 2 (Task 4026531900 77 257) (maps h)).2, (run_nfilter 2 (Task 4026531901 77 257) (maps h)).2))
  ex_jobs ex_history = Some ([true; true; true; true; true; true; true], true, false, 0, 1).
Proof. vm_compute. reflexivity. Qed.
Example C13_nonvacuous :
  Forall kernel_op ex_history /\ no_stops ex_history /\ no_pushes ex_history /\
  exists h rs, real_outcome ex_jobs ex_history = Some (h, rs) /\ updates_ok rs /\
    rule_on 4026531900 257 h = true /\ rule_on 4026531901 257 h = false.
Proof.
  assert (forall o, o ∈ ex_history -> match o with OStop _ _ | OPush _ _ _ => False | _ => True end) as H.
  { apply Forall_forall. repeat constructor. }
  split; [repeat constructor; unfold kernel_ns; cbn; lia|]. split; [intros j c Hin; exact (H _ Hin)|].
  split; [intros j ns nr Hin; exact (H _ Hin)|].
  destruct (real_observed_exists _ _ _ _ ex_history_fact) as (h & rs & E & Ef). injection Ef as E1 E2 E3 _ _.
  exists h, rs. split; [exact E|]. split; [|exact (conj E2 E3)].
  apply no_failure. rewrite E1. repeat constructor.
Qed.

(** C14: a stop leaves every registration and drops every rule of the job in that
    pid namespace; it touches no other rule. *)
Theorem C14_stop_drops_rules_and_keeps_registrations : forall J tbl h0 os h rs j c h' r,
  go_table tbl -> new_hub tbl = Some h0 -> hrun J tbl h0 os = Ok (h, rs) ->
  kernel_ns (ct_ns c) -> hstep J tbl h (OStop j c) = Ok (h', r) ->
  (forall ns nr, bucket h' ns nr = bucket h ns nr) /\
  (forall nr, nr ∈ job_nrs tbl (J j) -> ~ has_rule h' (ct_ns c) nr) /\
  (forall ns nr, ~ (ns = ct_ns c /\ nr ∈ job_nrs tbl (J j)) -> has_rule h' ns nr <-> has_rule h ns nr).
Proof. exact stop_exact. Qed.
Print Assumptions C14_stop_drops_rules_and_keeps_registrations.
(** The reference count is broken by one stop: job 1 is registered, its container
    runs, and the kernel has no rule for it. *)
Theorem C14_reference_count_refuted : exists h rs,
  real_outcome ex_jobs [OStart 0 ex_web; OStart 1 ex_web; OStop 0 ex_web] = Some (h, rs) /\ updates_ok rs /\
  Reg 1 4026531900 257 ∈ bucket h 4026531900 257 /\ ~ has_rule h 4026531900 257.
Proof.
  assert (real_observed (fun h rs => (map (fun r => match r with RStarted _ ok => ok | _ => true end) rs, bucket h 4026531900 257, rule_on 4026531900 257 h)) ex_jobs [OStart 0 ex_web; OStart 1 ex_web; OStop 0 ex_web] = Some ([true; true; true], [Reg 0 4026531900 257; Reg 1 4026531900 257], false)) as E by (vm_compute; reflexivity).
  apply real_observed_exists in E as (h & rs & E & Ef). injection Ef as E1 E2 E3. exists h, rs. split; [exact E|].
  split; [apply no_failure; rewrite E1; repeat constructor|]. split; [rewrite E2; right; left|].
  unfold rule_on in E3. exact (bool_decide_eq_false_1 _ E3).
Qed.
Print Assumptions C14_reference_count_refuted.

(** C15: what one event is published on, as a function of the registrations alone.
    Jobs with a sample rate may skip it (C17); all others get it. *)
Theorem C15_event_goes_to_registered_jobs : forall J tbl h0 os h rs ev h' ps,
  new_hub tbl = Some h0 -> hrun J tbl h0 os = Ok (h, rs) -> hstep J tbl h (OEvent ev) = Ok (h', RPublished ps) ->
  match e_container ev, regs_at (e_ns ev) (e_nr ev) (registrations J tbl os rs) with
  | Some c, (_ :: _) as L =>
      exists qs, ps = (None, event_path (ct_namespace c) (ct_pod c) (ct_name c) (e_syscall ev)) ::
                      map (fun j => (Some j, job_path (j_id (J j)))) qs /\
        qs `sublist_of` map g_job L /\
        filter (fun j => j_rate (J j) <= 0) qs = filter (fun j => j_rate (J j) <= 0) (map g_job L)
  | _, _ => ps = []
  end.
Proof. exact event_exact. Qed.
Print Assumptions C15_event_goes_to_registered_jobs.
(** Down to the callbacks: an AttachTrace subscriber is called once per
    registration of its job for the event, and never otherwise ... *)
Theorem C15_job_subscriber_receives : forall J tbl h0 os h rs ev c h' ps srt sb id cs,
  new_hub tbl = Some h0 -> hrun J tbl h0 os = Ok (h, rs) -> hstep J tbl h (OEvent ev) = Ok (h', RPublished ps) ->
  e_container ev = Some c ->
  (forall g, g ∈ regs_at (e_ns ev) (e_nr ev) (registrations J tbl os rs) -> cli_job_id (j_id (J (g_job g))) /\ j_rate (J (g_job g)) <= 0) ->
  sort_contract srt -> s_shard sb = ""%string -> s_path sb = attach_trace id -> cli_job_id id ->
  deliver (subscribed srt sb) ps cs ->
  times (s_handle sb) cs = length (regs_of J id (regs_at (e_ns ev) (e_nr ev) (registrations J tbl os rs))).
Proof. exact job_subscriber_gets. Qed.
Print Assumptions C15_job_subscriber_receives.
(** ... and an AttachPath subscriber exactly once for an event under its path as
    soon as one job is registered for it. *)
Theorem C15_path_subscriber_receives : forall J tbl h0 os h rs ev h' ps srt sb sel cs,
  new_hub tbl = Some h0 -> hrun J tbl h0 os = Ok (h, rs) -> hstep J tbl h (OEvent ev) = Ok (h', RPublished ps) ->
  sort_contract srt -> s_shard sb = ""%string -> s_path sb = attach_path sel -> no_empty sel ->
  deliver (subscribed srt sb) ps cs ->
  match e_container ev with
  | None => cs = []
  | Some c =>
      let L := regs_at (e_ns ev) (e_nr ev) (registrations J tbl os rs) in
      let where_ := [ct_namespace c; ct_pod c; ct_name c; e_syscall ev] in
      (L = [] -> cs = []) /\
      (L <> [] -> sel `prefix_of` where_ -> times (s_handle sb) cs = 1%nat) /\
      (map hash sel <> map hash (take (length sel) where_) -> times (s_handle sb) cs = 0%nat)
  end.
Proof. exact path_subscriber_gets. Qed.
Print Assumptions C15_path_subscriber_receives.
Definition ex_ns_path : list Z := event_path "prod" "web-1" "web" "sys_openat".
Example C15_nonvacuous : exists h rs, outcome ex_jobs ex_history = Some (h, rs) /\
  rs !! 4%nat = Some (RPublished [(None, ex_ns_path); (Some 0%nat, job_path "aaaaaaaa"); (Some 1%nat, job_path "bbbbbbbb")]) /\
  rs !! 6%nat = Some (RPublished [(None, ex_ns_path); (Some 1%nat, job_path "bbbbbbbb")]) /\
  cli_job_id "aaaaaaaa" /\ cli_job_id "bbbbbbbb".
Proof.
  assert (observed (fun h rs => rs) ex_jobs ex_history = Some [RStarted 1 true; RStarted 2 true; RStarted 1 true; RStarted 0 true;
    RPublished [(None, ex_ns_path); (Some 0%nat, job_path "aaaaaaaa"); (Some 1%nat, job_path "bbbbbbbb")]; RDeleted true;
    RPublished [(None, ex_ns_path); (Some 1%nat, job_path "bbbbbbbb")]]) as E by (vm_compute; reflexivity).
  apply observed_exists in E as (h & rs & E & Ef). subst rs. exists h. eexists. split; [exact E|].
  split; [reflexivity|]. split; [reflexivity|]. split; (split; [reflexivity|repeat constructor]).
Qed.

(** C16: every start adds one registration per mention of the syscall in the job,
    whether or not the job was registered before, and an un-sampled job publishes
    exactly once per registration and event. *)
Theorem C16_starts_accumulate : forall J tbl os rs j c n ns nr, length rs = length os -> selects (J j) (ct_name c) ->
  count_job j (regs_at ns nr (registrations J tbl (os ++ [OStart j c]) (rs ++ [RStarted n true]))) =
  count_job j (regs_at ns nr (registrations J tbl os rs)) +
    (if decide (ns = ct_ns c) then Z.of_nat (length (filter (fun m => m = nr) (job_nrs tbl (J j)))) else 0).
Proof. exact start_counts. Qed.
Print Assumptions C16_starts_accumulate.
Theorem C16_publications_count_registrations : forall J tbl h0 os h rs j,
  new_hub tbl = Some h0 -> hrun J tbl h0 os = Ok (h, rs) -> j_rate (J j) <= 0 ->
  published_total j rs = offered_total J tbl j os rs.
Proof. exact unsampled_total. Qed.
Print Assumptions C16_publications_count_registrations.
(** Exactly once is false: the container is reported twice, and the one event is
    published twice on the job's stream. *)
Theorem C16_exactly_once_refuted : exists h rs,
  outcome ex_jobs [OStart 0 ex_web; OStart 0 ex_web; OEvent (ex_open ex_web)] = Some (h, rs) /\
  published_total 0 rs = 2 /\ last rs = Some (RPublished [(None, ex_ns_path); (Some 0%nat, job_path "aaaaaaaa"); (Some 0%nat, job_path "aaaaaaaa")]).
Proof.
  assert (observed (fun h rs => (published_total 0 rs, last rs)) ex_jobs [OStart 0 ex_web; OStart 0 ex_web; OEvent (ex_open ex_web)] = Some (2, Some (RPublished [(None, ex_ns_path); (Some 0%nat, job_path "aaaaaaaa"); (Some 0%nat, job_path "aaaaaaaa")]))) as E by (vm_compute; reflexivity).
  apply observed_exists in E as (h & rs & E & Ef). injection Ef as E1 E2. exists h, rs. exact (conj E (conj E1 E2)).
Qed.
Print Assumptions C16_exactly_once_refuted.

(** C17: a job that is alone on its events, or shares them with an un-sampled job,
    publishes every r-th event it is offered. *)
Theorem C17_sampling_alone_or_with_unsampled : forall J tbl h0 os h rs j,
  new_hub tbl = Some h0 -> hrun J tbl h0 os = Ok (h, rs) -> 0 < j_rate (J j) ->
  at_every_offer J tbl h0 os j (fun L =>
    (forall g, g ∈ L -> g_job g = j) \/
    ((exists g, g ∈ L /\ j_rate (J (g_job g)) = 0) /\ (forall g, g ∈ L -> 0 <= j_rate (J (g_job g))))) ->
  published_total j rs = offered_total J tbl j os rs / j_rate (J j).
Proof.
  intros J tbl h0 os h rs j H0 Hr Hj Hat. apply (sampled_total J tbl h0 os h rs j _ H0 Hr Hj Hj).
  revert Hat. apply at_every_offer_impl. intros L Hin [Hall|[Hz Hall]]; [by apply stride_alone|by apply stride_unsampled].
Qed.
Print Assumptions C17_sampling_alone_or_with_unsampled.
(** A job sharing all its events with a job of lower rate l publishes every
    (r-l)-th. *)
Theorem C17_sampling_next_to_a_lower_rate : forall J tbl h0 os h rs j l,
  new_hub tbl = Some h0 -> hrun J tbl h0 os = Ok (h, rs) -> 0 < j_rate (J j) -> l < j_rate (J j) ->
  at_every_offer J tbl h0 os j (fun L =>
    (exists g, g ∈ L /\ j_rate (J (g_job g)) = l) /\ (forall g, g ∈ L -> l <= j_rate (J (g_job g)))) ->
  published_total j rs = offered_total J tbl j os rs / (j_rate (J j) - l).
Proof.
  intros J tbl h0 os h rs j l H0 Hr Hj Hl Hat. apply (sampled_total J tbl h0 os h rs j _ H0 Hr Hj); [lia|].
  revert Hat. apply at_every_offer_impl. intros L Hin [Hz Hall]. by apply stride_lowest.
Qed.
Print Assumptions C17_sampling_next_to_a_lower_rate.
(** Two different jobs holding the same lowest positive rate: the second divides
    by zero. This is the only way an event makes the hub panic. *)
Theorem C17_equal_rates_panic : forall J tbl h0 os h rs ev, new_hub tbl = Some h0 -> hrun J tbl h0 os = Ok (h, rs) ->
  let L := regs_at (e_ns ev) (e_nr ev) (registrations J tbl os rs) in
  let clash := e_container ev <> None /\ exists g g0, g ∈ L /\ lowest_reg J L g0 /\ 0 < j_rate (J (g_job g)) /\
                 g_job g <> g_job g0 /\ j_rate (J (g_job g)) = j_rate (J (g_job g0)) in
  (hstep J tbl h (OEvent ev) = Panic <-> clash) /\
  (~ clash -> exists h' ps, hstep J tbl h (OEvent ev) = Ok (h', RPublished ps)).
Proof. exact event_outcome. Qed.
Print Assumptions C17_equal_rates_panic.
Definition panics_of (tbl : syscalls) (J : nat -> job) (os : list hop) : bool :=
  match new_hub tbl with Some h0 => match hrun J tbl h0 os with Panic => true | _ => false end | None => false end.
Definition panics : (nat -> job) -> list hop -> bool := panics_of ex_table.
Example C17_panic_happens : panics ex_jobs [OStart 5 ex_web; OStart 6 ex_web; OEvent (ex_open ex_web)] = true.
Proof. vm_compute. reflexivity. Qed.
(** The example in the comment of Job.WriteEvent: rates 1, 2 and 4 and eight
    events. It promises 8, 4 and 2 events; the code publishes 8, 8 and 2 (the
    third and sixth). *)
Theorem C17_documented_example_refuted : exists h rs,
  outcome ex_jobs ([OStart 5 ex_web; OStart 4 ex_web; OStart 3 ex_web] ++ repeat (OEvent (ex_open ex_web)) 8) = Some (h, rs) /\
  published_total 5 rs = 8 /\ published_total 4 rs = 8 /\ published_total 3 rs = 2 /\
  map (fun r => published_total 3 [r]) (drop 3 rs) = [0; 0; 1; 0; 0; 1; 0; 0].
Proof.
  assert (observed (fun h rs => (published_total 5 rs, published_total 4 rs, published_total 3 rs, map (fun r => published_total 3 [r]) (drop 3 rs))) ex_jobs ([OStart 5 ex_web; OStart 4 ex_web; OStart 3 ex_web] ++ repeat (OEvent (ex_open ex_web)) 8) = Some (8, 8, 2, [0; 0; 1; 0; 0; 1; 0; 0])) as E by (vm_compute; reflexivity).
  apply observed_exists in E as (h & rs & E & Ef). injection Ef as E1 E2 E3 E4. exists h, rs. exact (conj E (conj E1 (conj E2 (conj E3 E4)))).
Qed.
Print Assumptions C17_documented_example_refuted.
Example C17_nonvacuous : exists h rs,
  outcome ex_jobs ([OStart 0 ex_web; OStart 3 ex_web] ++ repeat (OEvent (ex_open ex_web)) 8) = Some (h, rs) /\
  offered_total ex_jobs ex_table 3 ([OStart 0 ex_web; OStart 3 ex_web] ++ repeat (OEvent (ex_open ex_web)) 8) rs = 8 /\
  published_total 3 rs = 2 /\ published_total 0 rs = 8.
Proof.
  assert (observed (fun h rs => (offered_total ex_jobs ex_table 3 ([OStart 0 ex_web; OStart 3 ex_web] ++ repeat (OEvent (ex_open ex_web)) 8) rs, published_total 3 rs, published_total 0 rs)) ex_jobs ([OStart 0 ex_web; OStart 3 ex_web] ++ repeat (OEvent (ex_open ex_web)) 8) = Some (8, 2, 8)) as E by (vm_compute; reflexivity).
  apply observed_exists in E as (h & rs & E & Ef). injection Ef as E1 E2 E3. exists h, rs. exact (conj E (conj E1 (conj E2 E3))).
Qed.

(** C18 *)
Theorem C18_lowest_is_first_minimum : forall J tbl h0 os h rs ns nr,
  new_hub tbl = Some h0 -> hrun J tbl h0 os = Ok (h, rs) ->
  let L := regs_at ns nr (registrations J tbl os rs) in
  (L = [] /\ lowest J h ns nr = Ok None) \/
  (exists c, lowest J h ns nr = Ok (Some c) /\ lowest_reg J L (reg_of c)).
Proof. exact lowest_exact. Qed.
Print Assumptions C18_lowest_is_first_minimum.
Example C18_nonvacuous : exists h rs, outcome ex_jobs [OStart 3 ex_web; OStart 5 ex_web; OStart 4 ex_web; OStart 6 ex_web] = Some (h, rs) /\
  exists c, lowest ex_jobs h 4026531900 257 = Ok (Some c) /\ c_job c = 5%nat.
Proof.
  assert (observed (fun h rs => match lowest ex_jobs h 4026531900 257 with Ok (Some c) => Some (c_job c) | _ => None end) ex_jobs [OStart 3 ex_web; OStart 5 ex_web; OStart 4 ex_web; OStart 6 ex_web] = Some (Some 5%nat)) as E by (vm_compute; reflexivity).
  apply observed_exists in E as (h & rs & E & Ef). exists h, rs. split; [exact E|].
  destruct (lowest ex_jobs h 4026531900 257) as [[c|]| |]; [|discriminate Ef..]. exists c. split; [reflexivity|]. by injection Ef.
Qed.

(** C19: after a start the kernel rule of every syscall of the job is the rule of
    an un-sampled one, whatever the job's rate. *)
Theorem C19_sampled_job_gets_unsampled_rule : forall J tbl h0 os h rs j c h' n,
  go_table tbl -> new_hub tbl = Some h0 -> Forall kernel_op os -> hrun J tbl h0 os = Ok (h, rs) ->
  kernel_ns (ct_ns c) -> selects (J j) (ct_name c) -> on_start J tbl h j c = Ok (h', (n, true)) ->
  forall nr, nr ∈ job_nrs tbl (J j) -> nfilter (maps h') !! syscall_rule (ct_ns c) nr = Some fresh.
Proof. exact start_unsampled. Qed.
Print Assumptions C19_sampled_job_gets_unsampled_rule.
Example C19_nonvacuous : go_table table /\ 0 < j_rate (ex_jobs 3) /\ selects (ex_jobs 3) (ct_name ex_web) /\
  job_nrs table (ex_jobs 3) = [257] /\
  exists h rs, real_outcome ex_jobs [OStart 3 ex_web] = Some (h, rs) /\ rs = [RStarted 1 true].
Proof.
  split; [exact go_table_intro|]. split; [cbn; lia|]. split; [by left|]. split; [vm_compute; reflexivity|].
  assert (real_observed (fun h rs => rs) ex_jobs [OStart 3 ex_web] = Some [RStarted 1 true]) as E by (vm_compute; reflexivity).
  apply real_observed_exists in E as (h & rs & E & Ef). exists h, rs. exact (conj E Ef).
Qed.

(** C20 *)
Theorem C20_deleted_job_comes_back : forall J tbl h0 os h rs id j c h1 r1 h2 n,
  go_table tbl -> new_hub tbl = Some h0 -> Forall kernel_op os -> hrun J tbl h0 os = Ok (h, rs) ->
  j_id (J j) = id -> kernel_ns (ct_ns c) -> selects (J j) (ct_name c) ->
  hstep J tbl h (ODelete id) = Ok (h1, r1) -> hstep J tbl h1 (OStart j c) = Ok (h2, RStarted n true) ->
  job_list h1 id = [] /\
  forall nr, nr ∈ job_nrs tbl (J j) ->
    Reg j (ct_ns c) nr ∈ bucket h2 (ct_ns c) nr /\ Reg j (ct_ns c) nr ∈ job_list h2 id /\ has_rule h2 (ct_ns c) nr.
Proof. exact deleted_job_returns. Qed.
Print Assumptions C20_deleted_job_comes_back.
(** Until its first selected start a job cannot be deleted. *)
Theorem C20_idle_job_cannot_be_deleted : forall J tbl h0 os h rs id,
  new_hub tbl = Some h0 -> hrun J tbl h0 os = Ok (h, rs) ->
  regs_of J id (registrations J tbl os rs) = [] -> hstep J tbl h (ODelete id) = Ok (h, RDeleted false).
Proof.
  intros J tbl h0 os h rs id H0 Hr He. destruct (delete_exact J tbl h0 os h rs id H0 Hr) as (h' & b & E & Hb & Hh & _).
  rewrite E. apply Hb in He. subst b. by rewrite Hh.
Qed.
Print Assumptions C20_idle_job_cannot_be_deleted.
Example C20_nonvacuous : exists h rs,
  outcome ex_jobs [ODelete "aaaaaaaa"; OStart 0 ex_web; ODelete "aaaaaaaa"; OStart 0 ex_web; OEvent (ex_open ex_web)] = Some (h, rs) /\
  rs = [RDeleted false; RStarted 1 true; RDeleted true; RStarted 1 true;
        RPublished [(None, ex_ns_path); (Some 0%nat, job_path "aaaaaaaa")]].
Proof.
  assert (observed (fun h rs => rs) ex_jobs [ODelete "aaaaaaaa"; OStart 0 ex_web; ODelete "aaaaaaaa"; OStart 0 ex_web; OEvent (ex_open ex_web)] = Some [RDeleted false; RStarted 1 true; RDeleted true; RStarted 1 true;
        RPublished [(None, ex_ns_path); (Some 0%nat, job_path "aaaaaaaa")]]) as E by (vm_compute; reflexivity).
  apply observed_exists in E as (h & rs & E & Ef). exists h, rs. exact (conj E Ef).
Qed.

(** C21: hosts ever started or stopped; and those started and never stopped, at any
    time: a restarted host does not come back. *)
Theorem C21_monitored_hosts_exact : forall J tbl h0 os h rs j all ret,
  new_hub tbl = Some h0 -> hrun J tbl h0 os = Ok (h, rs) -> hosts_listed h j all ret ->
  NoDup ret /\ forall k, k ∈ ret <->
    if all then host_started J os j k \/ host_stopped os j k else host_started J os j k /\ ~ host_stopped os j k.
Proof. exact hosts_exact. Qed.
Print Assumptions C21_monitored_hosts_exact.
(** The names shown are unambiguous for container names without a dot (which
    Kubernetes guarantees), and ambiguous otherwise. *)
Theorem C21_host_names_unambiguous : forall c c', no_dot (ct_name c) -> no_dot (ct_name c') ->
  host_name c = host_name c' -> ct_name c = ct_name c' /\ ct_pod c = ct_pod c'.
Proof. exact host_name_inj. Qed.
Print Assumptions C21_host_names_unambiguous.
Theorem C21_dotted_names_refuted : exists c c', ct_name c <> ct_name c' /\ host_name c = host_name c'.
Proof. exists (Container "n" "c" "a.b" 1), (Container "n" "b.c" "a" 1). split; [done|reflexivity]. Qed.
Print Assumptions C21_dotted_names_refuted.
Example C21_nonvacuous : exists h rs,
  outcome ex_jobs [OStart 0 ex_web; OStart 0 ex_db; OStop 0 ex_web; OStart 0 ex_web] = Some (h, rs) /\
  hosts_listed h 0 false ["db.db-1"]%string /\ hosts_listed h 0 true ["web.web-1"; "db.db-1"]%string.
Proof.
  assert (observed (fun h rs => map_to_list (default ∅ (hosts h !! 0%nat))) ex_jobs [OStart 0 ex_web; OStart 0 ex_db; OStop 0 ex_web; OStart 0 ex_web] = Some [("db.db-1"%string, true); ("web.web-1"%string, false)]) as E by (vm_compute; reflexivity).
  apply observed_exists in E as (h & rs & E & Ef). exists h, rs. split; [exact E|].
  unfold hosts_listed, monitored_hosts. rewrite Ef. split.
  - eexists. split; [reflexivity|]. reflexivity.
  - exists [("web.web-1"%string, false); ("db.db-1"%string, true)]. split; [|reflexivity]. first [reflexivity|apply perm_swap].
Qed.

(** C26 *)
Theorem C26_kernel_emits_what_jobs_asked_for : forall J tbl h0 os h rs t nr,
  go_table tbl -> new_hub tbl = Some h0 -> Forall kernel_op os -> hrun J tbl h0 os = Ok (h, rs) ->
  no_stops os -> no_pushes os -> updates_ok rs -> 0 < t_pidns t < 2^32 -> s32 (u32 (t_id t)) = nr ->
  ((run_nfilter 2 t (maps h)).2 <> 1 <-> regs_at (t_pidns t) nr (registrations J tbl os rs) <> []).
Proof. exact emitted_exact. Qed.
Print Assumptions C26_kernel_emits_what_jobs_asked_for.
(** With stops and full maps as well, nothing is emitted that nobody asked for. *)
Theorem C26_nothing_unwanted_is_emitted : forall J tbl h0 os h rs t nr,
  go_table tbl -> new_hub tbl = Some h0 -> Forall kernel_op os -> hrun J tbl h0 os = Ok (h, rs) ->
  0 < t_pidns t < 2^32 -> s32 (u32 (t_id t)) = nr ->
  (run_nfilter 2 t (maps h)).2 <> 1 -> regs_at (t_pidns t) nr (registrations J tbl os rs) <> [].
Proof. exact emitted_wanted. Qed.
Print Assumptions C26_nothing_unwanted_is_emitted.
Example C26_nonvacuous : exists h rs, real_outcome ex_jobs ex_history = Some (h, rs) /\
  (run_nfilter 2 (Task 4026531900 77 257) (maps h)).2 <> 1 /\ (run_nfilter 2 (Task 4026531901 77 257) (maps h)).2 = 1.
Proof.
  destruct (real_observed_exists _ _ _ _ ex_history_fact) as (h & rs & E & Ef). injection Ef as _ _ _ E1 E2.
  exists h, rs. split; [exact E|]. split; [rewrite E1; lia|exact E2].
Qed.

(** C42: a job naming an unknown syscall. At the first selected start it panics
    (unless a kernel update fails earlier in the same loop); at any stop it panics. *)
Theorem C42_unknown_name_panics : forall J tbl h0 os h rs j c, new_hub tbl = Some h0 -> hrun J tbl h0 os = Ok (h, rs) ->
  selects (J j) (ct_name c) -> unknown_name tbl (J j) ->
  hstep J tbl h (OStart j c) = Panic \/ exists h' n, hstep J tbl h (OStart j c) = Ok (h', RStarted n false).
Proof. exact unknown_start. Qed.
Print Assumptions C42_unknown_name_panics.
Theorem C42_known_names_never_panic : forall J tbl h0 os h rs j c, new_hub tbl = Some h0 -> hrun J tbl h0 os = Ok (h, rs) ->
  ~ (selects (J j) (ct_name c) /\ unknown_name tbl (J j)) ->
  exists h' n ok, hstep J tbl h (OStart j c) = Ok (h', RStarted n ok).
Proof. exact known_start. Qed.
Print Assumptions C42_known_names_never_panic.
Theorem C42_stop_panics_iff_unknown : forall J tbl h0 os h rs j c, new_hub tbl = Some h0 -> hrun J tbl h0 os = Ok (h, rs) ->
  (hstep J tbl h (OStop j c) = Panic <-> unknown_name tbl (J j)).
Proof. exact stop_outcome. Qed.
Print Assumptions C42_stop_panics_iff_unknown.
Example C42_panic_happens : panics ex_jobs [OStart 2 ex_web] = true /\ unknown_name ex_table (ex_jobs 2).
Proof. split; [vm_compute; reflexivity|]. exists "no_such_call"%string. split; [right; left|vm_compute; reflexivity].
Qed.
