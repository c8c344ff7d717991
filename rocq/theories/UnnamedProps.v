(** Property C118: programs that run several traces on one hub, as in
    examples/kubernetes-hub/main.go, and traces without a name. Nothing new is modelled:
    RunTrace, RunJob, NewJob (hub.go 103-110, job.go 304-309) pass the trace's Status.JobID
    on as it is (JobID, job.go 268-274), so an unnamed trace is a job of [HubModel.v] with
    the id "", and AttachTrace (hub.go 447-452) of it is [attach_trace ""]. *)
From stdpp Require Import gmap strings list.
From Coq Require Import ZArith Lia Ascii.
From Verif Require Import PubSubModel PubSubSpec PubSubProofs PubSubPublish PubSubTop.
From Verif Require Import SyscallModel FilterModel FilterSpec.
From Verif Require Import HashModel HashProofs HashTop HubModel HubSpec HubProofs HubEvents HubDeliver HubTop HubProps.
Open Scope Z_scope.

(** The name of a trace as the command line makes it, or none. *)
Definition named_or_not (id : string) : Prop := cli_job_id id \/ id = ""%string.

(** A named subscriber is not called for what an unnamed trace publishes. *)
Lemma named_not_unnamed srt sb id s h cs : sort_contract srt -> subscribed srt sb s ->
  s_shard sb = ""%string -> s_path sb = attach_trace id -> id <> ""%string -> publish s (linear (job_path "")) h (Some cs) ->
  times (s_handle sb) cs = 0%nat.
Proof.
  intros Hs (os & Ho & Hr & Hsb) Hsh Hp Hne Hpub.
  destruct (prefix_delivery _ _ _ _ _ _ Hs Ho Hr Hpub) as (cs' & [= <-] & _ & _ & H0).
  apply H0; [done|done|]. rewrite Hp. intros Hpre. apply prefix_length in Hpre. unfold attach_trace, job_path, hash_path in Hpre. cbn [hash_components] in Hpre.
  change (String.eqb job_stream "") with false in Hpre. cbn iota in Hpre. apply String.eqb_neq in Hne. rewrite Hne in Hpre. change (String.eqb "" "") with true in Hpre. cbn [length] in Hpre. lia.
Qed.
Lemma named_delivered J srt sb id : sort_contract srt -> s_shard sb = ""%string -> s_path sb = attach_trace id -> cli_job_id id ->
  forall qs cs, Forall (fun j => named_or_not (j_id (J j))) qs ->
  deliver (subscribed srt sb) (map (fun j => (Some j, job_path (j_id (J j)))) qs) cs ->
  times (s_handle sb) cs = length (filter (fun j => j_id (J j) = id) qs).
Proof.
  intros Hs Hsh Hp Hid. assert (Ne : id <> ""%string) by (intros ->; destruct Hid as [H _]; discriminate H).
  induction qs as [|j qs IH]; intros cs HF Hd; cbn [map] in Hd.
  - inversion Hd; subst. done.
  - inversion Hd as [|w path ps s h cs1 cs2 Hok Hpub Hd2]; subst. inversion HF as [|? ? Hj HF']; subst.
    rewrite times_app, (IH _ HF' Hd2), filter_cons. destruct Hj as [Hj|Hj].
    + destruct Hok as (os & Ho & Hr & Hsb).
      destruct (cli_jobs_isolated _ _ _ _ _ _ _ _ Hs Ho Hr Hsb Hsh Hp Hid Hj Hpub) as (cs' & [= <-] & ->).
      destruct (decide (id = j_id (J j))) as [->|Hne]; [by rewrite decide_True by done|by rewrite decide_False by done].
    + rewrite Hj in Hpub. rewrite (named_not_unnamed _ _ _ _ _ _ Hs Hok Hsh Hp Ne Hpub). rewrite decide_False; [done|]. rewrite Hj. congruence.
Qed.
Lemma unnamed_delivered J srt sb : sort_contract srt -> s_shard sb = ""%string -> s_path sb = attach_trace "" ->
  forall qs cs, deliver (subscribed srt sb) (map (fun j => (Some j, job_path (j_id (J j)))) qs) cs -> times (s_handle sb) cs = length qs.
Proof.
  intros Hs Hsh Hp. induction qs as [|j qs IH]; intros cs Hd; cbn [map] in Hd.
  - inversion Hd; subst. done.
  - inversion Hd as [|w path ps s h cs1 cs2 Hok Hpub Hd2]; subst. rewrite times_app, (IH _ Hd2). destruct Hok as (os & Ho & Hr & Hsb).
    destruct (empty_job_gets_all _ _ _ _ _ _ _ Hs Ho Hr Hsb Hsh Hp Hpub) as (cs' & [= <-] & ->). done.
Qed.

(** What an event publishes when no job asks for samples. *)
Lemma unsampled_event J tbl h0 os h rs ev c h' ps : new_hub tbl = Some h0 -> hrun J tbl h0 os = Ok (h, rs) ->
  hstep J tbl h (OEvent ev) = Ok (h', RPublished ps) -> e_container ev = Some c ->
  let L := regs_at (e_ns ev) (e_nr ev) (registrations J tbl os rs) in
  (forall g, g ∈ L -> j_rate (J (g_job g)) <= 0) ->
  ps = [] /\ L = [] \/ ps = (None, event_path (ct_namespace c) (ct_pod c) (ct_name c) (e_syscall ev)) :: map (fun j => (Some j, job_path (j_id (J j)))) (map g_job L).
Proof.
  intros H0 Hr He Hc L HL. pose proof (event_exact J tbl h0 os h rs ev h' ps H0 Hr He) as X. rewrite Hc in X. fold L in X.
  destruct L as [|g L'] eqn:EL; [left; by split|right]. destruct X as (qs & -> & Hsub & Hflt). f_equal. f_equal. rewrite <- EL in *.
  assert (HF : Forall (fun j => j_rate (J j) <= 0) (map g_job L)).
  { apply Forall_forall. intros j Hj. apply elem_of_list_In, in_map_iff in Hj as (g1 & <- & Hg). by apply HL, elem_of_list_In. }
  rewrite (filter_all _ _ HF) in Hflt. rewrite <- Hflt. symmetry. apply filter_all. apply Forall_forall. intros j Hj. rewrite Forall_forall in HF. apply HF.
  eapply elem_of_submseteq; [exact Hj|by apply sublist_submseteq].
Qed.

(** C118: whatever unnamed traces run next to it, the callback of a named trace is called
    once for each registration of its own trace for the event, and never otherwise. *)
Theorem C118_named_traces_get_their_own : forall J tbl h0 os h rs ev c h' ps srt sb id cs,
  new_hub tbl = Some h0 -> hrun J tbl h0 os = Ok (h, rs) -> hstep J tbl h (OEvent ev) = Ok (h', RPublished ps) ->
  e_container ev = Some c ->
  (forall g, g ∈ regs_at (e_ns ev) (e_nr ev) (registrations J tbl os rs) -> named_or_not (j_id (J (g_job g))) /\ j_rate (J (g_job g)) <= 0) ->
  sort_contract srt -> s_shard sb = ""%string -> s_path sb = attach_trace id -> cli_job_id id ->
  deliver (subscribed srt sb) ps cs ->
  times (s_handle sb) cs = length (regs_of J id (regs_at (e_ns ev) (e_nr ev) (registrations J tbl os rs))).
Proof.
  intros J tbl h0 os h rs ev c h' ps srt sb id cs H0 Hr He Hc HL Hs Hsh Hp Hid Hd.
  destruct (unsampled_event J tbl h0 os h rs ev c h' ps H0 Hr He Hc (fun g Hg => proj2 (HL g Hg))) as [[-> E]| ->].
  - rewrite E. inversion Hd; subst. done.
  - inversion Hd as [|w path ps1 s hh cs1 cs2 Hok Hpub Hd2]; subst.
    rewrite times_app, (trace_not_ns _ _ _ _ _ _ _ _ _ _ Hs Hok Hsh Hp Hpub), <- filter_map_id. cbn [Nat.add].
    apply (named_delivered J srt sb id Hs Hsh Hp Hid _ _); [|exact Hd2].
    apply Forall_forall. intros j Hj. apply elem_of_list_In, in_map_iff in Hj as (g & <- & Hg). by apply HL, elem_of_list_In.
Qed.
Print Assumptions C118_named_traces_get_their_own.

(** The example says that a name is generated for a trace without one. It is not, and the
    callback of such a trace is called for every event of every trace, once for each trace
    that is registered for it ... *)
Theorem C118_unnamed_traces_get_their_own_refuted : forall J tbl h0 os h rs ev c h' ps srt sb cs,
  new_hub tbl = Some h0 -> hrun J tbl h0 os = Ok (h, rs) -> hstep J tbl h (OEvent ev) = Ok (h', RPublished ps) ->
  e_container ev = Some c ->
  (forall g, g ∈ regs_at (e_ns ev) (e_nr ev) (registrations J tbl os rs) -> j_rate (J (g_job g)) <= 0) ->
  sort_contract srt -> s_shard sb = ""%string -> s_path sb = attach_trace "" ->
  deliver (subscribed srt sb) ps cs ->
  times (s_handle sb) cs = length (regs_at (e_ns ev) (e_nr ev) (registrations J tbl os rs)).
Proof.
  intros J tbl h0 os h rs ev c h' ps srt sb cs H0 Hr He Hc HL Hs Hsh Hp Hd.
  destruct (unsampled_event J tbl h0 os h rs ev c h' ps H0 Hr He Hc HL) as [[-> E]| ->].
  - rewrite E. inversion Hd; subst. done.
  - inversion Hd as [|w path ps1 s hh cs1 cs2 Hok Hpub Hd2]; subst.
    rewrite times_app, (trace_not_ns _ _ _ _ _ _ _ _ _ _ Hs Hok Hsh Hp Hpub). cbn [Nat.add].
    rewrite (unnamed_delivered J srt sb Hs Hsh Hp _ _ Hd2). by rewrite map_length.
Qed.
Print Assumptions C118_unnamed_traces_get_their_own_refuted.

(** ... and deleting one unnamed trace ends all of them: until a container starts again, no
    event is published for any unnamed trace. Named traces stay registered as they were. *)
Theorem C118_deleting_one_unnamed_trace_refuted : forall J tbl h0 os h rs,
  new_hub tbl = Some h0 -> hrun J tbl h0 os = Ok (h, rs) ->
  exists h1 b, hstep J tbl h (ODelete "") = Ok (h1, RDeleted b) /\
    (forall id, id <> ""%string -> job_list h1 id = job_list h id) /\
    forall ev h2 ps, hstep J tbl h1 (OEvent ev) = Ok (h2, RPublished ps) ->
      forall j path, (Some j, path) ∈ ps -> j_id (J j) <> ""%string.
Proof.
  intros J tbl h0 os h rs H0 Hr. destruct (delete_exact J tbl h0 os h rs "" H0 Hr) as (h1 & b & E & _ & _ & B & Lj). exists h1, b.
  split; [exact E|]. split; [intros id Ne; rewrite Lj; by rewrite decide_False by done|].
  intros ev h2 ps He j path Hin. pose proof (hrun_snoc J tbl os h0 h rs (ODelete "") h1 (RDeleted b) Hr E) as Hr1.
  pose proof (event_exact J tbl h0 _ h1 _ ev h2 ps H0 Hr1 He) as X.
  destruct (indexes_agree J tbl h0 (os ++ [ODelete ""]) H0) as [_ I]. destruct (I h1 _ Hr1) as (Ib & _). rewrite <- Ib, B in X.
  destruct (e_container ev) as [c|]; [|subst ps; by apply not_elem_of_nil in Hin].
  destruct (filter _ (bucket h (e_ns ev) (e_nr ev))) as [|g L] eqn:EL; [subst ps; by apply not_elem_of_nil in Hin|].
  destruct X as (qs & -> & Hsub & _). apply elem_of_cons in Hin as [Hin|Hin]; [discriminate Hin|].
  apply elem_of_list_In, in_map_iff in Hin as (j' & [= -> _] & Hj). apply elem_of_list_In in Hj.
  assert (Hq : j ∈ map g_job (g :: L)) by (eapply elem_of_submseteq; [exact Hj|by apply sublist_submseteq]).
  apply elem_of_list_In, in_map_iff in Hq as (g1 & <- & Hg). apply elem_of_list_In in Hg. rewrite <- EL in Hg. by apply elem_of_list_filter in Hg as [Hg _].
Qed.
Print Assumptions C118_deleting_one_unnamed_trace_refuted.

(** Two unnamed traces, of openat and of read, and a named one: the open of the web
    container is published for the first and the named one, after the deletion of the second
    unnamed one only for the named one. *)
Definition ex_unnamed (j : nat) : job :=
  match j with
  | 0%nat => Job "" 0 ["openat"] []
  | 1%nat => Job "" 0 ["read"] []
  | _ => Job "bbbbbbbb" 0 ["openat"] []
  end.
Example C118_nonvacuous : exists h rs, outcome ex_unnamed [OStart 0 ex_web; OStart 1 ex_web; OStart 2 ex_web; OEvent (ex_open ex_web); ODelete ""; OEvent (ex_open ex_web)] = Some (h, rs) /\
  rs !! 3%nat = Some (RPublished [(None, ex_ns_path); (Some 0%nat, job_path ""); (Some 2%nat, job_path "bbbbbbbb")]) /\
  rs !! 5%nat = Some (RPublished [(None, ex_ns_path); (Some 2%nat, job_path "bbbbbbbb")]).
Proof.
  assert (observed (fun h rs => rs) ex_unnamed [OStart 0 ex_web; OStart 1 ex_web; OStart 2 ex_web; OEvent (ex_open ex_web); ODelete ""; OEvent (ex_open ex_web)] = Some [RStarted 1 true; RStarted 1 true; RStarted 1 true;
    RPublished [(None, ex_ns_path); (Some 0%nat, job_path ""); (Some 2%nat, job_path "bbbbbbbb")]; RDeleted true;
    RPublished [(None, ex_ns_path); (Some 2%nat, job_path "bbbbbbbb")]]) as E by (vm_compute; reflexivity).
  apply observed_exists in E as (h & rs & E & Ef). subst rs. exists h. eexists. split; [exact E|]. by split.
Qed.
