(** The hub on top of the pub/sub tree: which subscriber callbacks an event
    reaches. *)
From stdpp Require Import gmap strings list.
From Coq Require Import ZArith Lia.
From Verif Require Import PubSubModel PubSubSpec PubSubProofs PubSubPublish PubSubTop.
From Verif Require Import SyscallModel FilterModel FilterSpec HashModel HashProofs HashTop HubModel HubSpec HubProofs HubEvents.
Open Scope Z_scope.

(** The publications of one event (hub.go 190-194, job.go 232-245), in order, on
    the tree; [sub_ok] says what is known of the tree at each of them (others may
    subscribe and unsubscribe in between). The result is the sequence of
    callbacks called. *)
Inductive deliver (sub_ok : pubsub -> Prop) : list (option nat * list Z) -> list nat -> Prop :=
  | deliver_nil : deliver sub_ok [] []
  | deliver_cons w path ps s h cs cs' :
      sub_ok s -> publish s (linear path) h (Some cs) -> deliver sub_ok ps cs' ->
      deliver sub_ok ((w, path) :: ps) (cs ++ cs').
(** [sb] is a subscription in a tree the package reached. *)
Definition subscribed (srt : list env -> list env) (sb : sub) (s : pubsub) : Prop :=
  exists os, unsubscribes_once os /\ run srt new_pubsub os = PubSubModel.Ok s /\ sb ∈ live os.

Lemma times_app n l k : times n (l ++ k) = (times n l + times n k)%nat.
Proof. unfold times. by rewrite filter_app, app_length. Qed.

Lemma trace_not_ns srt sb id s ns pod ctr sc h cs : sort_contract srt -> subscribed srt sb s ->
  s_shard sb = ""%string -> s_path sb = attach_trace id -> publish s (linear (event_path ns pod ctr sc)) h (Some cs) ->
  times (s_handle sb) cs = 0%nat.
Proof.
  intros Hs (os & Ho & Hr & Hsb) Hsh Hp Hpub.
  destruct (prefix_delivery _ _ _ _ _ _ Hs Ho Hr Hpub) as (cs' & [= <-] & _ & H1 & H0).
  apply H0; [done|done|]. rewrite Hp. unfold attach_trace, event_path, hash_path.
  intros Hpre. apply prefix_cons_inv_2 in Hpre. cbn [hash_components] in Hpre.
  change (String.eqb job_stream "") with false in Hpre. change (String.eqb ns_stream "") with false in Hpre. cbn iota in Hpre.
  apply prefix_cons_inv_1 in Hpre. vm_compute in Hpre. discriminate Hpre.
Qed.

(** A job subscriber is called once per publication on its own job's stream. *)
Lemma jobs_delivered J srt sb id : sort_contract srt -> s_shard sb = ""%string -> s_path sb = attach_trace id -> cli_job_id id ->
  forall qs cs, Forall (fun j => cli_job_id (j_id (J j))) qs ->
  deliver (subscribed srt sb) (map (fun j => (Some j, job_path (j_id (J j)))) qs) cs ->
  times (s_handle sb) cs = length (filter (fun j => j_id (J j) = id) qs).
Proof.
  intros Hs Hsh Hp Hid. induction qs as [|j qs IH]; intros cs HF Hd; cbn [map] in Hd.
  - inversion Hd; subst. done.
  - inversion Hd as [|w path ps s h cs1 cs2 Hok Hpub Hd2]; subst. inversion HF as [|? ? Hj HF']; subst.
    rewrite times_app, (IH _ HF' Hd2). destruct Hok as (os & Ho & Hr & Hsb).
    destruct (cli_jobs_isolated _ _ _ _ _ _ _ _ Hs Ho Hr Hsb Hsh Hp Hid Hj Hpub) as (cs' & [= <-] & ->).
    rewrite filter_cons. destruct (decide (id = j_id (J j))) as [->|Hne].
    + rewrite decide_True by done. done.
    + rewrite decide_False by done. done.
Qed.
Lemma path_jobs_delivered J srt sb sel : sort_contract srt -> s_shard sb = ""%string -> s_path sb = attach_path sel ->
  forall qs cs, deliver (subscribed srt sb) (map (fun j => (Some j, job_path (j_id (J j)))) qs) cs ->
  times (s_handle sb) cs = 0%nat.
Proof.
  intros Hs Hsh Hp. induction qs as [|j qs IH]; intros cs Hd; cbn [map] in Hd.
  - inversion Hd; subst. done.
  - inversion Hd as [|w path ps s h cs1 cs2 Hok Hpub Hd2]; subst.
    rewrite times_app, (IH _ Hd2). destruct Hok as (os & Ho & Hr & Hsb).
    by destruct (streams_disjoint _ _ _ _ _ _ _ _ Hs Ho Hr Hsb Hsh Hp Hpub) as (cs' & [= <-] & ->).
Qed.

Lemma filter_all {A} (P : A -> Prop) `{forall x, Decision (P x)} l : Forall P l -> filter P l = l.
Proof. induction 1 as [|x l Hx Hl IH]; [done|]. rewrite filter_cons, decide_True by done. by rewrite IH. Qed.
Lemma filter_map_id J id (L : list reg) : length (filter (fun j => j_id (J j) = id) (map g_job L)) = length (regs_of J id L).
Proof.
  unfold regs_of. induction L as [|g L IH]; [done|]. cbn [map]. rewrite !filter_cons.
  destruct (decide (j_id (J (g_job g)) = id)); cbn [length]; by rewrite IH.
Qed.

(** C15/C16 end to end: job subscribers. *)
Lemma job_subscriber_gets J tbl h0 os h rs ev c h' ps srt sb id cs :
  new_hub tbl = Some h0 -> hrun J tbl h0 os = Ok (h, rs) -> hstep J tbl h (OEvent ev) = Ok (h', RPublished ps) ->
  e_container ev = Some c ->
  (forall g, g ∈ regs_at (e_ns ev) (e_nr ev) (registrations J tbl os rs) -> cli_job_id (j_id (J (g_job g))) /\ j_rate (J (g_job g)) <= 0) ->
  sort_contract srt -> s_shard sb = ""%string -> s_path sb = attach_trace id -> cli_job_id id ->
  deliver (subscribed srt sb) ps cs ->
  times (s_handle sb) cs = length (regs_of J id (regs_at (e_ns ev) (e_nr ev) (registrations J tbl os rs))).
Proof.
  intros H0 Hr He Hc HL Hs Hsh Hp Hid Hd. destruct (reachable _ _ _ _ _ _ H0 Hr) as (C & HC & EC).
  assert (ctrs_ok h0) as Hc0 by (intros j; rewrite (new_hub_ctrs _ _ j H0); lia).
  pose proof (ctrs_preserved _ _ _ _ _ _ _ (new_hub_repr J _ _ H0) Hc0 Hr) as Hck.
  cbn [hstep] in He. destruct (on_event J h ev) as [[h1 ps1]| |] eqn:E; [|done|done]. injection He as <- <-.
  destruct (on_event_ok _ _ _ _ _ _ HC Hck E) as (Hps & _). rewrite Hc, EC in Hps. clear E.
  set (L := regs_at (e_ns ev) (e_nr ev) (registrations J tbl os rs)) in *.
  destruct L as [|g L'] eqn:EL.
  { subst ps1. inversion Hd; subst. done. }
  destruct Hps as (qs & -> & Hsub & Hflt). rewrite <- EL in *. clear EL g L'.
  assert (Forall (fun j => j_rate (J j) <= 0) (map g_job L)) as HF.
  { apply Forall_forall. intros j Hj. apply elem_of_list_In, in_map_iff in Hj as (g & <- & Hg). by apply HL, elem_of_list_In. }
  assert (qs = map g_job L) as ->.
  { rewrite (filter_all _ _ HF) in Hflt. rewrite <- Hflt. symmetry. apply filter_all.
    apply Forall_forall. intros j Hj. rewrite Forall_forall in HF. apply HF.
    eapply elem_of_submseteq; [exact Hj|by apply sublist_submseteq]. }
  rewrite <- filter_map_id. unfold publications in Hd. inversion Hd as [|w path ps s hh cs1 cs2 Hok Hpub Hd2]; subst.
  rewrite times_app, (trace_not_ns _ _ _ _ _ _ _ _ _ _ Hs Hok Hsh Hp Hpub). cbn [Nat.add].
  eapply jobs_delivered; try done. apply Forall_forall. intros j Hj. apply elem_of_list_In, in_map_iff in Hj as (g & <- & Hg).
  by apply HL, elem_of_list_In.
Qed.

(** ... and namespace-path subscribers: at most once, whatever the job rates. *)
Lemma path_subscriber_gets J tbl h0 os h rs ev h' ps srt sb sel cs :
  new_hub tbl = Some h0 -> hrun J tbl h0 os = Ok (h, rs) -> hstep J tbl h (OEvent ev) = Ok (h', RPublished ps) ->
  sort_contract srt -> s_shard sb = ""%string -> s_path sb = attach_path sel -> no_empty sel ->
  deliver (subscribed srt sb) ps cs ->
  match e_container ev with
  | None => cs = []
  | Some c =>
      let L := regs_at (e_ns ev) (e_nr ev) (registrations J tbl os rs) in
      let where_ := [ct_namespace c; ct_pod c; ct_name c; e_syscall ev] in
      (L = [] -> cs = []) /\
      (L <> [] -> sel `prefix_of` where_ -> times (s_handle sb) cs = 1%nat) /\
      (map hash sel <> map hash (take (length sel) where_) -> times (s_handle sb) cs = 0%nat)
  end.
Proof.
  intros H0 Hr He Hs Hsh Hp Hne Hd. destruct (reachable _ _ _ _ _ _ H0 Hr) as (C & HC & EC).
  assert (ctrs_ok h0) as Hc0 by (intros j; rewrite (new_hub_ctrs _ _ j H0); lia).
  pose proof (ctrs_preserved _ _ _ _ _ _ _ (new_hub_repr J _ _ H0) Hc0 Hr) as Hck.
  cbn [hstep] in He. destruct (on_event J h ev) as [[h1 ps1]| |] eqn:E; [|done|done]. injection He as <- <-.
  destruct (on_event_ok _ _ _ _ _ _ HC Hck E) as (Hps & _). rewrite EC in Hps. clear E.
  destruct (e_container ev) as [c|].
  2: { subst ps1. inversion Hd; subst. done. }
  intros L where_. fold L in Hps. clearbody L.
  destruct L as [|g L'].
  { subst ps1. inversion Hd; subst. done. }
  destruct Hps as (qs & -> & _). split; [done|]. unfold publications in Hd.
  inversion Hd as [|w path ps s hh cs1 cs2 Hok Hpub Hd2]; subst. rewrite times_app.
  rewrite (path_jobs_delivered J srt sb sel Hs Hsh Hp _ _ Hd2). destruct Hok as (os' & Ho & Hr' & Hsb).
  destruct (attach_path_gets _ _ _ _ _ _ _ _ _ _ _ Hs Ho Hr' Hsb Hsh Hp Hne Hpub) as (cs' & [= <-] & H1 & H2).
  split.
  - intros _ Hpre. rewrite H1 by done. done.
  - intros Hneq. rewrite H2 by done. done.
Qed.
