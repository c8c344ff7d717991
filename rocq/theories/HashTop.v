(** Stream paths: lemmas behind C08-C10. *)
From stdpp Require Import gmap strings list sorting.
From Coq Require Import NArith ZArith Lia.
From Verif Require Import PubSubModel PubSubSpec PubSubProofs PubSubPublish PubSubTop.
From Verif Require Import HashModel HashProofs.
Open Scope Z_scope.

Definition no_empty (sel : list string) : Prop := Forall (fun c => c <> ""%string) sel.

Lemma components_full sel : no_empty sel -> hash_components sel = map hash sel.
Proof.
  induction 1 as [|c sel Hc Hs IH]; simpl; [done|].
  destruct (String.eqb_spec c ""); [done|]. by rewrite IH.
Qed.
Lemma components_app sel rest : no_empty sel ->
  hash_components (sel ++ rest) = map hash sel ++ hash_components rest.
Proof.
  induction 1 as [|c sel Hc Hs IH]; simpl; [done|].
  destruct (String.eqb_spec c ""); [done|]. by rewrite IH.
Qed.
Lemma hash_path_prefix sel comps : no_empty sel -> sel `prefix_of` comps ->
  hash_path sel `prefix_of` hash_path comps.
Proof.
  intros Hs [rest ->]. unfold hash_path. rewrite components_full, components_app by done.
  apply prefix_cons. by apply prefix_app_r.
Qed.
Lemma hash_path_prefix_inv sel comps : no_empty sel ->
  hash_path sel `prefix_of` hash_path comps -> map hash sel = map hash (take (length sel) comps).
Proof.
  intros Hs Hp. apply prefix_cons_inv_2 in Hp. rewrite components_full in Hp by done.
  clear Hs. revert comps Hp. induction sel as [|c sel IH]; intros comps Hp; simpl; [done|].
  destruct comps as [|d comps]; simpl in *; [by apply prefix_nil_not in Hp|].
  destruct (String.eqb_spec d ""); [by apply prefix_nil_not in Hp|].
  pose proof (prefix_cons_inv_1 _ _ _ _ Hp) as ->. apply prefix_cons_inv_2 in Hp.
  f_equal. by apply IH.
Qed.

(** The events a path subscriber gets. *)
Lemma attach_path_gets srt os s sb sel ns pod ctr sc h r :
  sort_contract srt -> unsubscribes_once os -> run srt new_pubsub os = Ok s ->
  sb ∈ live os -> s_shard sb = ""%string -> s_path sb = attach_path sel -> no_empty sel ->
  publish s (linear (event_path ns pod ctr sc)) h r ->
  exists cs, r = Some cs /\
    (sel `prefix_of` [ns; pod; ctr; sc] -> times (s_handle sb) cs = 1%nat) /\
    (map hash sel <> map hash (take (length sel) [ns; pod; ctr; sc]) -> times (s_handle sb) cs = 0%nat).
Proof.
  intros Hs Ho Hr Hsb Hsh Hp Hne Hpub.
  destruct (prefix_delivery _ _ _ _ _ _ Hs Ho Hr Hpub) as (cs & -> & _ & H1 & H0).
  assert (no_empty (ns_stream :: sel)) as Hne' by (constructor; done).
  exists cs. split; [done|]. split.
  - intros Hpre. apply H1; [done|done|]. rewrite Hp. apply hash_path_prefix; [done|].
    by apply prefix_cons.
  - intros Hneq. apply H0; [done|done|]. rewrite Hp. intros Hpre.
    apply (hash_path_prefix_inv _ _ Hne') in Hpre. simpl in Hpre. apply Hneq. by inversion Hpre.
Qed.

(** The events a job subscriber gets. *)
Lemma attach_trace_gets srt os s sb id id' h r :
  sort_contract srt -> unsubscribes_once os -> run srt new_pubsub os = Ok s ->
  sb ∈ live os -> s_shard sb = ""%string -> s_path sb = attach_trace id -> id <> ""%string ->
  publish s (linear (job_path id')) h r ->
  exists cs, r = Some cs /\
    (id = id' -> times (s_handle sb) cs = 1%nat) /\
    (hash id <> hash id' -> times (s_handle sb) cs = 0%nat).
Proof.
  intros Hs Ho Hr Hsb Hsh Hp Hne Hpub.
  destruct (prefix_delivery _ _ _ _ _ _ Hs Ho Hr Hpub) as (cs & -> & _ & H1 & H0).
  assert (no_empty [job_stream; id]) as Hne' by (repeat constructor; done).
  exists cs. split; [done|]. split.
  - intros <-. apply H1; [done|done|]. by rewrite Hp.
  - intros Hneq. apply H0; [done|done|]. rewrite Hp. intros Hpre.
    apply (hash_path_prefix_inv _ _ Hne') in Hpre. simpl in Hpre. apply Hneq. by inversion Hpre.
Qed.

(** What `swoll trace` uses as job id: 8 ASCII characters (cmd/trace.go 96). *)
Definition cli_job_id (id : string) : Prop :=
  String.length id = 8%nat /\ Forall (fun b => (b < 128)%N) (bytes_of id).

Lemma cli_jobs_isolated srt os s sb id id' h r :
  sort_contract srt -> unsubscribes_once os -> run srt new_pubsub os = Ok s ->
  sb ∈ live os -> s_shard sb = ""%string -> s_path sb = attach_trace id ->
  cli_job_id id -> cli_job_id id' ->
  publish s (linear (job_path id')) h r ->
  exists cs, r = Some cs /\ times (s_handle sb) cs = if decide (id = id') then 1%nat else 0%nat.
Proof.
  intros Hs Ho Hr Hsb Hsh Hp [Hl Ha] [Hl' Ha'] Hpub.
  assert (id <> ""%string) as Hne by (intros ->; done).
  destruct (attach_trace_gets _ _ _ _ _ _ _ _ Hs Ho Hr Hsb Hsh Hp Hne Hpub) as (cs & -> & H1 & H0).
  exists cs. split; [done|]. destruct (decide (id = id')) as [Heq|Hneq]; [by apply H1|].
  apply H0. intros Hh. apply Hneq. by apply hash_ascii8_inj.
Qed.

(** Job ids of the controller (controller/trace.go 43): trace name, dash, and
    four characters of a UUID. *)
Lemma controller_jobs_isolated srt os s sb name u u' h r :
  sort_contract srt -> unsubscribes_once os -> run srt new_pubsub os = Ok s ->
  sb ∈ live os -> s_shard sb = ""%string -> s_path sb = attach_trace (name ++ "-" ++ u) ->
  String.length u = 4%nat -> String.length u' = 4%nat ->
  publish s (linear (job_path (name ++ "-" ++ u'))) h r ->
  exists cs, r = Some cs /\ times (s_handle sb) cs = if decide (u = u') then 1%nat else 0%nat.
Proof.
  intros Hs Ho Hr Hsb Hsh Hp Hl Hl' Hpub.
  assert ((name ++ "-" ++ u)%string <> ""%string) as Hne by (destruct name; done).
  destruct (attach_trace_gets _ _ _ _ _ _ _ _ Hs Ho Hr Hsb Hsh Hp Hne Hpub) as (cs & -> & H1 & H0).
  exists cs. split; [done|]. destruct (decide (u = u')) as [->|Hneq]; [by apply H1|].
  apply H0. intros Hh. apply Hneq.
  assert (forall v, (name ++ "-" ++ v = (name ++ "-") ++ v)%string) as Hass.
  { clear. intros v. induction name as [|a name IH]; [done|].
    change (String a (name ++ "-" ++ v) = String a ((name ++ "-") ++ v))%string. by rewrite IH. }
  rewrite !Hass in Hh. apply hash_suffix_inj in Hh; [done|lia|lia].
Qed.

(** Job streams and namespace streams never meet. *)
Lemma streams_disjoint srt os s sb sel id h r :
  sort_contract srt -> unsubscribes_once os -> run srt new_pubsub os = Ok s ->
  sb ∈ live os -> s_shard sb = ""%string -> s_path sb = attach_path sel ->
  publish s (linear (job_path id)) h r ->
  exists cs, r = Some cs /\ times (s_handle sb) cs = 0%nat.
Proof.
  intros Hs Ho Hr Hsb Hsh Hp Hpub.
  destruct (prefix_delivery _ _ _ _ _ _ Hs Ho Hr Hpub) as (cs & -> & _ & H1 & H0).
  exists cs. split; [done|]. apply H0; [done|done|]. rewrite Hp. unfold attach_path, job_path, hash_path.
  intros Hpre. apply prefix_cons_inv_2 in Hpre. simpl in Hpre. apply prefix_cons_inv_1 in Hpre.
  vm_compute in Hpre. done.
Qed.

(** An empty component. *)
Lemma empty_job_gets_all srt os s sb id h r :
  sort_contract srt -> unsubscribes_once os -> run srt new_pubsub os = Ok s ->
  sb ∈ live os -> s_shard sb = ""%string -> s_path sb = attach_trace "" ->
  publish s (linear (job_path id)) h r ->
  exists cs, r = Some cs /\ times (s_handle sb) cs = 1%nat.
Proof.
  intros Hs Ho Hr Hsb Hsh Hp Hpub.
  destruct (prefix_delivery _ _ _ _ _ _ Hs Ho Hr Hpub) as (cs & -> & _ & H1 & H0).
  exists cs. split; [done|]. apply H1; [done|done|]. rewrite Hp.
  change (attach_trace "") with (hash_path [job_stream]).
  apply hash_path_prefix; [repeat constructor; done|]. apply prefix_cons, prefix_nil.
Qed.
Lemma attach_path_truncates' sel rest : no_empty sel ->
  attach_path (sel ++ ""%string :: rest) = attach_path sel.
Proof.
  intros Hne. unfold attach_path, hash_path. f_equal.
  assert (no_empty (ns_stream :: sel)) as Hne' by (constructor; done).
  pose proof (components_app (ns_stream :: sel) (""%string :: rest) Hne') as H.
  rewrite (components_full _ Hne'). etrans; [exact H|]. cbn [hash_components String.eqb].
  by rewrite app_nil_r.
Qed.
