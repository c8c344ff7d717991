From stdpp Require Import base list numbers gmap.
From Coq Require Import ZArith Lia.
From Verif Require Import CtlModel CtlSpec CtlProofs.

Local Open Scope Z_scope.

(** * One step *)

Lemma goes_on_same s c o s' : goes_on s c o = Some s' ->
  s_trace s' = s_trace s /\ s_seen s' = s_seen s /\ s_jobs s' = s_jobs s /\ s_njobs s' = s_njobs s /\
  s_versions s' = s_versions s.
Proof. destruct o; simpl; intros H; [injection H as <-; done..|done]. Qed.

Definition same_status (t t' : trace) : Prop :=
  t_state t' = t_state t /\ t_job t' = t_job t /\
  t_start t' = (in_seconds <$> t_start t) /\ t_end t' = (in_seconds <$> t_end t).

(** How the stored trace changes. *)
Lemma step_trace K s o s' t :
  inv K s -> step s o = Some s' -> s_trace s = Some t ->
  s_trace s' = Some t \/
  (exists u, o = User u /\ (s_trace s' = None \/ exists t', s_trace s' = Some t' /\ same_status t t')) \/
  (exists c r now x, o = Call c r now /\ (save_ok K (s_njobs s) t x /\ s_calls s !! c = Some (Save x) \/ release_ok K t x /\ s_calls s !! c = Some (Release x)) /\
     s_trace s' = s_trace (store s x).1).
Proof.
  intros Hi Hs Ht. destruct o as [u|c v now|c r now]; simpl in Hs.
  - right. left. exists u. split; [done|]. injection Hs as <-. unfold user_step. rewrite Ht.
    destruct u; simpl; try rewrite Ht.
    + right. exists t. split; [done|]. destruct (seen_ok _ _ _ Hi (in_seen _ _ _ Hi Ht)) as (_ & P1 & P2 & _).
      unfold same_status. split_and!; [done..| |].
      * destruct (t_start t) as [x|]; [|done]. destruct (P1 x eq_refl) as (k & _ & ->). simpl. by rewrite in_seconds_idem.
      * destruct (t_end t) as [x|]; [|done]. destruct (P2 x eq_refl) as (k & _ & ->). simpl. by rewrite in_seconds_idem.
    + destruct (_ && _); [by left|right; eexists; split; [reflexivity|done]].
    + destruct (_ && _); [by left|right; eexists; split; [reflexivity|done]].
    + destruct (_ && _); [by left|right; eexists; split; [reflexivity|done]].
    + right. exists t. split; [done|]. destruct (seen_ok _ _ _ Hi (in_seen _ _ _ Hi Ht)) as (_ & P1 & P2 & _).
      unfold same_status. split_and!; [done..| |].
      * destruct (t_start t) as [x|]; [|done]. destruct (P1 x eq_refl) as (k & _ & ->). simpl. by rewrite in_seconds_idem.
      * destruct (t_end t) as [x|]; [|done]. destruct (P2 x eq_refl) as (k & _ & ->). simpl. by rewrite in_seconds_idem.
  - left. destruct (s_calls s !! c); [congruence|]. destruct v as [v|]; [|congruence].
    destruct (s_seen s !! v) as [t0|]; [|congruence]. apply goes_on_same in Hs as (-> & _). done.
  - destruct (s_calls s !! c) as [p|] eqn:Hp; [|left; congruence].
    destruct (call s p r now) as [s1 o1] eqn:Hc. apply goes_on_same in Hs as (E & _). rewrite E. clear E.
    pose proof (inv_calls _ _ Hi _ _ Hp) as Hpc. destruct p as [x j|x|x st|x]; simpl in *.
    + left. destruct r; [|injection Hc as <- <-; done|]; (case_decide; injection Hc as <- <-; done).
    + destruct Hpc as (t0 & H0 & Hr). assert (Hspec : same_spec t0 x) by apply Hr.
      destruct r; [|injection Hc as <- <-; by left|];
        (destruct (update s x) as [[s2 t2]|] eqn:Hu; [|injection Hc as <- <-; by left]);
        destruct (update_some _ _ _ _ _ _ Hi H0 Hspec Hu) as (E & -> & -> & _); injection Hc as <- <-;
        (right; right; exists c, r || exists c; eexists _, now, x; split; [reflexivity|]; split; [right; split; [congruence|done]|done]).
    + left. destruct r; injection Hc as <- <-; done.
    + destruct Hpc as (t0 & H0 & Hr). assert (Hspec : same_spec t0 x) by apply Hr.
      destruct r; [|injection Hc as <- <-; by left|];
        (destruct (update s x) as [[s2 t2]|] eqn:Hu; [|injection Hc as <- <-; by left]);
        destruct (update_some _ _ _ _ _ _ Hi H0 Hspec Hu) as (E & -> & -> & _); injection Hc as <- <-;
        (right; right; exists c; eexists _, now, x; split; [reflexivity|]; split; [left; split; [congruence|done]|done]).
Qed.

Lemma store_trace s x t' : s_trace (store s x).1 = Some t' -> t' = stored_times x (s_versions s).
Proof. unfold store. simpl. destruct (_ && _); [done|]. congruence. Qed.

Lemma state_moves l o s s' t t' :
  run init l = Some s -> step s o = Some s' -> s_trace s = Some t -> s_trace s' = Some t' ->
  t_state t' = t_state t \/ forward (t_state t) (t_state t').
Proof.
  intros Hl Hs Ht Ht'. pose proof (reach _ _ Hl) as Hi.
  destruct (step_trace _ _ _ _ _ Hi Hs Ht) as [E|[(u & -> & [E|(x & E & Hx)])|(c & r & now & x & -> & [[H _]|[H _]] & E)]].
  - left. congruence.
  - congruence.
  - left. assert (t' = x) as -> by congruence. apply Hx.
  - rewrite E in Ht'. apply store_trace in Ht' as ->. simpl. destruct H as (_ & _ & H).
    destruct (t_state t), (t_state x); try done; right; constructor.
  - rewrite E in Ht'. apply store_trace in Ht' as ->. simpl.
    destruct (seen_ok _ _ _ Hi (in_seen _ _ _ Hi Ht)) as (S1 & _).
    destruct H as (_ & _ & _ & _ & H). unfold status_ok in S1. destruct (t_job t) as [j|] eqn:J.
    + destruct H as (-> & _). destruct (t_state t); destruct S1 as (? & _); try done; [|by left]. right. constructor.
    + subst x. by left.
Qed.

(** Only the controller changes the status. *)
Lemma users_do_not l u s s' t t' :
  run init l = Some s -> step s (User u) = Some s' -> s_trace s = Some t -> s_trace s' = Some t' ->
  t_state t' = t_state t /\ t_job t' = t_job t /\ t_start t' = t_start t /\ t_end t' = t_end t.
Proof.
  intros Hl Hs Ht Ht'. pose proof (reach _ _ Hl) as Hi. destruct (seen_ok _ _ _ Hi (in_seen _ _ _ Hi Ht)) as (_ & P1 & P2 & _).
  destruct (step_trace _ _ _ _ _ Hi Hs Ht) as [E|[(u' & E0 & [E|(x & E & Hx)])|(c & r & now & x & E0 & _)]].
  - assert (t' = t) as -> by congruence. done.
  - congruence.
  - assert (t' = x) as -> by congruence. destruct Hx as (A & B & C & D). split_and!; [done..| |].
    + rewrite C. destruct (t_start t) as [y|]; [|done]. destruct (P1 y eq_refl) as (k & _ & ->). simpl. by rewrite in_seconds_idem.
    + rewrite D. destruct (t_end t) as [y|]; [|done]. destruct (P2 y eq_refl) as (k & _ & ->). simpl. by rewrite in_seconds_idem.
  - done.
Qed.

Lemma stored_ok_ l s t : run init l = Some s -> s_trace s = Some t -> status_ok t.
Proof. intros Hl Ht. pose proof (reach _ _ Hl) as Hi. apply (seen_ok _ _ _ Hi (in_seen _ _ _ Hi Ht)). Qed.

Lemma start_is_a_reading l s t x : run init l = Some s -> s_trace s = Some t -> t_start t = Some x ->
  exists k, k ∈ clocks l /\ x = in_seconds k.
Proof.
  intros Hl Ht Hx. pose proof (reach _ _ Hl) as Hi.
  destruct (seen_ok _ _ _ Hi (in_seen _ _ _ Hi Ht)) as (_ & P1 & _). by apply P1.
Qed.

Lemma completion_waits l o s s' t t' :
  run init l = Some s -> step s o = Some s' -> s_trace s = Some t -> s_trace s' = Some t' ->
  t_deleting t = false -> t_state t = Running -> t_state t' = Complete ->
  0 < t_duration t /\ s_jobs s' = s_jobs s /\
  exists st now, t_start t = Some st /\ now ∈ clocks l /\ t_end t' = Some (in_seconds now) /\ st + t_duration t <= now.
Proof.
  intros Hl Hs Ht Ht' Hd E1 E2. pose proof (reach _ _ Hl) as Hi.
  destruct (step_trace _ _ _ _ _ Hi Hs Ht) as [E|[(u & -> & [E|(x & E & Hx)])|(c & r & now & x & -> & [[H Hp]|[H Hp]] & E)]].
  - assert (t' = t) as -> by congruence. congruence.
  - congruence.
  - assert (t' = x) as -> by congruence. destruct Hx as (A & _). congruence.
  - rewrite E in Ht'. apply store_trace in Ht' as ->. simpl in *. destruct H as (_ & _ & H). rewrite E1, E2 in H.
    destruct H as (J & B & st & now' & Hst & Hnow & Hin & Hle & Hpos). split; [done|]. split.
    { rewrite Hp in Hs. simpl in Hs. destruct r; simpl in Hs;
        [destruct (update s x) as [[s2 t2]|] eqn:Hu| |destruct (update s x) as [[s2 t2]|] eqn:Hu]; injection Hs as <-; simpl; try done;
        unfold update in Hu; rewrite Ht in Hu; destruct (negb _); [done| |done|]; destruct (_ && _ && _); try done; injection Hu as <- <-; done. }
    exists st, now'. split_and!; [done..|by rewrite Hnow|done].
  - destruct H as (_ & Hd' & _). congruence.
Qed.

(** * An undisturbed reconcile *)

Lemma get_cur l s t c now : run init l = Some s -> s_trace s = Some t -> s_calls s !! c = None ->
  step s (Get c (Some (t_version t)) now) = goes_on s c (begin t now).
Proof.
  intros Hl Ht Hc. pose proof (reach _ _ Hl) as Hi. simpl. rewrite Hc. by rewrite (cur_seen _ _ _ Hi Ht).
Qed.

Lemma update_cur s t x : s_trace s = Some t -> t_version x = t_version t ->
  (t_deleting t = true -> t_ours x = true -> t_ours t = true) -> update s x = Some (store s x).
Proof.
  intros Ht Hv Hd. unfold update. rewrite Ht, Hv, Nat.eqb_refl. simpl.
  destruct (t_deleting t); simpl; [|done]. destruct (t_ours x); simpl; [|done]. by rewrite Hd.
Qed.

Lemma undisturbed_unknown l s t c now :
  run init l = Some s -> s_trace s = Some t -> s_calls s !! c = None -> t_deleting t = false -> t_state t = Unknown ->
  exists s' t', run s (undisturbed c s now 1) = Some s' /\ s_trace s' = Some t' /\ t_state t' = Pending /\
    t_job t' = None /\ s_jobs s' = s_jobs s /\ t_duration t' = t_duration t /\ t_syscalls t' = t_syscalls t /\
    s_calls s' = s_calls s /\ t_deleting t' = false /\ s_njobs s' = s_njobs s.
Proof.
  intros Hl Ht Hc Hd E. pose proof (stored_ok_ _ _ _ Hl Ht) as S1. unfold status_ok in S1. rewrite E in S1. destruct S1 as (J & B & F).
  unfold undisturbed. rewrite Ht. change (replicate 1 (Call c Done now)) with [Call c Done now].
  unfold run. rewrite (get_cur _ _ _ _ _ Hl Ht Hc). unfold begin, main. rewrite Hd. simpl t_state. rewrite E. simpl goes_on.
  unfold step at 1. simpl s_calls. rewrite lookup_insert. unfold call.
  rewrite (update_cur _ t); [|done|done|by rewrite Hd]. simpl. rewrite Hd. simpl.
  eexists _, _. split_and!; [reflexivity|reflexivity|done..| |done|done].
  by rewrite delete_insert.
Qed.

Lemma undisturbed_pending l s t c now :
  run init l = Some s -> s_trace s = Some t -> s_calls s !! c = None -> t_deleting t = false -> t_state t = Pending ->
  exists s' t' j, run s (undisturbed c s now 2) = Some s' /\ s_trace s' = Some t' /\ t_state t' = Running /\
    t_job t' = Some j /\ j ∉ s_jobs s /\ s_jobs s' = {[j]} ∪ s_jobs s /\ t_start t' = Some (in_seconds now) /\
    t_duration t' = t_duration t /\ t_syscalls t' = (match t_syscalls t with [] => [sys_execve] | sc => sc end) /\
    s_calls s' = s_calls s /\ t_deleting t' = false /\ s_njobs s' = S (s_njobs s).
Proof.
  intros Hl Ht Hc Hd E. pose proof (stored_ok_ _ _ _ Hl Ht) as S1. unfold status_ok in S1. rewrite E in S1. destruct S1 as (J & B & F).
  pose proof (reach _ _ Hl) as Hi.
  unfold undisturbed. rewrite Ht. change (replicate 2 (Call c Done now)) with [Call c Done now; Call c Done now].
  unfold run. rewrite (get_cur _ _ _ _ _ Hl Ht Hc). unfold begin, main. rewrite Hd. simpl t_state. rewrite E. simpl goes_on.
  unfold step at 1. simpl s_calls. rewrite lookup_insert. unfold call at 1. simpl goes_on.
  unfold step at 1. simpl s_calls. rewrite lookup_insert. unfold call.
  rewrite (update_cur _ t); [|done|done|by rewrite Hd]. simpl. rewrite Hd. simpl.
  eexists _, _, _. split_and!; [reflexivity|reflexivity|done|reflexivity| |done..| |done|done].
  - intros Hx. apply (inv_jobs _ _ Hi) in Hx. lia.
  - rewrite insert_insert, delete_insert; done.
Qed.

Lemma undisturbed_running l s t c now st :
  run init l = Some s -> s_trace s = Some t -> s_calls s !! c = None -> t_deleting t = false -> t_state t = Running ->
  0 < t_duration t -> t_start t = Some st ->
  exists s' t', run s (undisturbed c s now 1) = Some s' /\ s_trace s' = Some t' /\ s_jobs s' = s_jobs s /\
    (t_state t' = if decide (st + t_duration t <= now) then Complete else Running) /\
    s_calls s' = s_calls s /\ t_deleting t' = false /\ s_njobs s' = s_njobs s.
Proof.
  intros Hl Ht Hc Hd E Hdur Hst.
  unfold undisturbed. rewrite Ht. change (replicate 1 (Call c Done now)) with [Call c Done now].
  unfold run. rewrite (get_cur _ _ _ _ _ Hl Ht Hc). unfold begin, main. rewrite Hd. simpl t_state. rewrite E. simpl.
  rewrite (proj2 (Z.ltb_lt _ _) Hdur), Hst. destruct (Z.ltb_spec now (st + t_duration t)).
  - simpl. rewrite lookup_delete. eexists _, t. split_and!; [reflexivity|done|done|by rewrite decide_False by lia| |done|done]. simpl. by rewrite delete_notin.
  - simpl. rewrite lookup_insert. simpl. rewrite (update_cur _ t); [|done|done|by rewrite Hd]. simpl. rewrite Hd. simpl.
    eexists _, _. split_and!; [reflexivity|reflexivity|done|by rewrite decide_True| |done|done]. simpl. by rewrite delete_insert.
Qed.

(** * Jobs *)

Lemma taken (X : gset nat) j k : j ∈ X -> j ∉ X ∖ {[k]} -> k = j.
Proof.
  intros H1 H2. destruct (decide (k = j)) as [|Hne]; [done|]. exfalso. apply H2. apply elem_of_difference.
  split; [done|]. rewrite elem_of_singleton. congruence.
Qed.

(** The controller deletes only a job that a trace being deleted records. *)
Lemma job_deletion l o s s' j :
  run init l = Some s -> step s o = Some s' -> j ∈ s_jobs s -> j ∉ s_jobs s' ->
  o = User (UJobGone j) \/ exists t, t ∈ s_seen s /\ t_deleting t = true /\ t_job t = Some j.
Proof.
  intros Hl Hs Hj Hj'. pose proof (reach _ _ Hl) as Hi. destruct o as [u|c v now|c r now]; simpl in Hs.
  - injection Hs as <-. left. destruct u; simpl in Hj'; try (destruct (s_trace s); done).
    assert (j0 = j) as ->; [|done]. destruct (s_trace s); simpl in Hj'; eauto using taken.
  - destruct (s_calls s !! c); [congruence|]. destruct v as [v|]; [|congruence].
    destruct (s_seen s !! v) as [t0|]; [|congruence]. apply goes_on_same in Hs as (_ & _ & E & _). by rewrite E in Hj'.
  - destruct (s_calls s !! c) as [p|] eqn:Hp; [|congruence].
    destruct (call s p r now) as [s1 o1] eqn:Hc. apply goes_on_same in Hs as (_ & _ & E & _). rewrite E in Hj'. clear E.
    pose proof (inv_calls _ _ Hi _ _ Hp) as Hpc. destruct p as [x k|x|x st|x]; simpl in *.
    + right. destruct Hpc as (H1 & H2 & H3). exists x. split_and!; [done..|].
      assert (s1 = s \/ s1 = set_jobs s (s_jobs s ∖ {[k]}) (s_njobs s)) as [->| ->]; [|done|].
      { destruct r; [|injection Hc as <- <-; by left|]; (case_decide; injection Hc as <- <-; [by right|by left]). }
      simpl in Hj'. rewrite H3. f_equal. eauto using taken.
    + exfalso. destruct r; [|injection Hc as <- <-; done|];
        (destruct (update s x) as [[s2 t2]|] eqn:Hu; [|injection Hc as <- <-; done]); injection Hc as <- <-;
        unfold update in Hu; destruct (s_trace s); [|done| |done]; destruct (negb _); [done| |done|]; destruct (_ && _ && _); try done; injection Hu as <- <-; done.
    + exfalso. destruct r; injection Hc as <- <-; simpl in Hj'; set_solver.
    + exfalso. destruct r; [|injection Hc as <- <-; done|];
        (destruct (update s x) as [[s2 t2]|] eqn:Hu; [|injection Hc as <- <-; done]); injection Hc as <- <-;
        unfold update in Hu; destruct (s_trace s); [|done| |done]; destruct (negb _); [done| |done|]; destruct (_ && _ && _); try done; injection Hu as <- <-; done.
Qed.

(** Failing rounds. *)
Lemma failing_rounds l s t c now n :
  run init l = Some s -> s_trace s = Some t -> s_calls s !! c = None -> t_deleting t = false -> t_state t = Pending ->
  exists s', run s (concat (replicate n (failing_round c (t_version t) now))) = Some s' /\
    s_trace s' = Some t /\ s_seen s' = s_seen s /\ s_calls s' = s_calls s /\
    s_njobs s' = (s_njobs s + n)%nat /\
    forall j, j ∈ s_jobs s' <-> j ∈ s_jobs s \/ (s_njobs s <= j < s_njobs s + n)%nat.
Proof.
  intros Hl Ht Hc Hd E. pose proof (reach _ _ Hl) as Hi. pose proof (cur_seen _ _ _ Hi Ht) as Hv.
  clear Hl Hi. revert s Ht Hc Hv. induction n as [|n IH]; intros s Ht Hc Hv; simpl.
  { exists s. split_and!; [done..|lia|]. intros j. split; [auto|]. intros [?|?]; [done|lia]. }
  rewrite Hc, Hv. unfold begin, main. rewrite Hd. simpl. rewrite E. simpl.
  rewrite lookup_insert. simpl. rewrite lookup_insert. simpl.
  match goal with |- context [run ?s1 _] => destruct (IH s1) as (s' & Hr & Ht' & Hsn & Hcs & Hn & Hj) end; simpl in *.
  - done.
  - by rewrite lookup_delete.
  - done.
  - exists s'. rewrite Hr. split_and!; [done|done|done| |lia|].
    + rewrite Hcs. rewrite insert_insert, delete_insert; done.
    + intros j. rewrite Hj. rewrite elem_of_union, elem_of_singleton. split.
      * intros [[->|?]|?]; [right; lia|auto|right; lia].
      * intros [?|?]; [auto|]. destruct (decide (j = s_njobs s)); [auto|right; lia].
Qed.

(** Deleting a pending trace creates a job. *)
Lemma delete_pending l s t c now :
  run init l = Some s -> s_trace s = Some t -> s_calls s !! c = None -> t_deleting t = true -> t_state t = Pending ->
  exists s' j, run s (undisturbed c s now 3) = Some s' /\
    (t_others t = false -> s_trace s' = None) /\
    j ∉ s_jobs s /\ s_jobs s' = {[j]} ∪ s_jobs s /\
    (forall t', t' ∈ s_seen s' -> t_job t' <> Some j) /\ s_calls s' = s_calls s.
Proof.
  intros Hl Ht Hc Hd E. pose proof (reach _ _ Hl) as Hi.
  pose proof (stored_ok_ _ _ _ Hl Ht) as S1. unfold status_ok in S1. rewrite E in S1. destruct S1 as (J & B & F).
  set (y := with_ours t false). set (x := stored_times y (s_versions s)).
  set (sc := match t_syscalls t with [] => [sys_execve] | sc => sc end).
  set (z := with_status (with_ours x true) Pending (t_start x) (t_end x) (t_job x) sc).
  set (w := with_status z Running (Some now) (t_end z) (Some (s_njobs s)) (t_syscalls z)).
  set (s0 := set_calls s (<[c := Release y]> (s_calls s))).
  set (s1 := set_calls (store s0 y).1 (<[c := Create z now]> (s_calls s0))).
  set (s2 := set_calls (set_jobs s1 ({[s_njobs s]} ∪ s_jobs s) (S (s_njobs s))) (<[c := Save w]> (s_calls s1))).
  assert (A1 : step s (Get c (Some (t_version t)) now) = Some s0).
  { rewrite (get_cur _ _ _ _ _ Hl Ht Hc). unfold begin. by rewrite Hd, J. }
  assert (A2 : step s0 (Call c Done now) = Some s1).
  { unfold step. simpl s_calls. rewrite lookup_insert. unfold call.
    rewrite (update_cur s0 t); [|done..]. unfold store. fold x. change (s_versions s0) with (s_versions s). fold x.
    unfold main. change (t_state (with_ours x true)) with (t_state t). rewrite E. done. }
  assert (A3 : step s1 (Call c Done now) = Some s2).
  { unfold step. simpl s_calls. rewrite lookup_insert. done. }
  assert (A4 : step s2 (Call c Done now) = Some (set_calls s2 (delete c (s_calls s2)))).
  { unfold step. simpl s_calls. rewrite lookup_insert. unfold call.
    assert (update s2 w = None) as ->; [|done].
    unfold update. unfold s2, s1, store. simpl. rewrite Hd. simpl. destruct (t_others t) eqn:Ho; simpl; [|done].
    rewrite Nat.eqb_refl. simpl. by rewrite Hd. }
  unfold undisturbed. rewrite Ht. change (replicate 3 (Call c Done now)) with [Call c Done now; Call c Done now; Call c Done now].
  unfold run. rewrite A1, A2, A3, A4. eexists _, (s_njobs s). split_and!; [reflexivity|..].
  - intros Ho. simpl. by rewrite Hd, Ho.
  - intros Hx. apply (inv_jobs _ _ Hi) in Hx. lia.
  - done.
  - simpl. intros t' [Hx|Hx%elem_of_list_singleton]%elem_of_app.
    + destruct (seen_ok _ _ _ Hi Hx) as (_ & _ & _ & Hlt). intros Hj. specialize (Hlt _ Hj). lia.
    + subst t'. simpl. congruence.
  - simpl. rewrite !insert_insert, delete_insert; done.
Qed.

(** * A trace whose job is gone cannot be deleted *)

Record stuck (j : nat) (s : state) : Prop := Stuck {
  stuck_trace : exists t, s_trace s = Some t /\ t_deleting t = true /\ t_ours t = true /\ t_job t = Some j;
  stuck_job : j ∉ s_jobs s /\ (j < s_njobs s)%nat;
  stuck_calls c p t : s_calls s !! c = Some p -> s_trace s = Some t ->
    match p with Release x | Save x => t_version x <> t_version t | Create x _ => t_version x <> t_version t | DeleteJob x _ => True end
}.

Lemma calls_version K s c p : inv K s -> s_calls s !! c = Some p ->
  match p with Release x | Save x | Create x _ | DeleteJob x _ => (t_version x < s_versions s)%nat end.
Proof.
  intros Hi Hp. pose proof (inv_calls _ _ Hi _ _ Hp) as Hpc.
  assert (Hlt : forall t, t ∈ s_seen s -> (t_version t < s_versions s)%nat).
  { intros t [v Hv]%elem_of_list_lookup. rewrite (inv_versions _ _ Hi). destruct (inv_seen _ _ Hi _ _ Hv) as [-> _]. by eapply lookup_lt_Some. }
  destruct p; simpl in Hpc.
  - apply Hlt. apply Hpc.
  - destruct Hpc as (t0 & H0 & (<- & _) & _). by apply Hlt.
  - destruct Hpc as (t0 & H0 & (<- & _) & _). by apply Hlt.
  - destruct Hpc as (t0 & H0 & (<- & _) & _). by apply Hlt.
Qed.

Lemma update_other s x t : s_trace s = Some t -> t_version x <> t_version t -> update s x = None.
Proof. intros Ht Hv. unfold update. rewrite Ht. destruct (Nat.eqb_spec (t_version x) (t_version t)); done. Qed.

Lemma stuck_step K j s o s' : inv K s -> stuck j s -> step s o = Some s' -> stuck j s'.
Proof.
  intros Hi [(t & Ht & Hd & Ho & J) [Hj1 Hj2] Hc] Hs. destruct o as [u|c v now|c r now]; simpl in Hs.
  - injection Hs as <-.
    assert (Hst : forall x, t_deleting x = true -> t_ours x = true -> t_job x = Some j -> stuck j (store s x).1).
    { intros x Hx1 Hx2 Hx3. split; simpl.
      - rewrite Hx1, Hx2. simpl. eexists. split; [reflexivity|done].
      - done.
      - rewrite Hx1, Hx2. simpl. intros c p t' Hp Ht'. injection Ht' as <-. simpl.
        pose proof (calls_version _ _ _ _ Hi Hp) as Hlt. destruct p; simpl in *; [done|lia..]. }
    unfold user_step. rewrite Ht. destruct u.
    + split; eauto.
    + by apply Hst.
    + by apply Hst.
    + by apply Hst.
    + split; simpl; [eauto| |eauto]. split; [|done]. intros [? _]%elem_of_difference. done.
  - destruct (s_calls s !! c) eqn:Hcc; [injection Hs as <-; split; eauto|]. destruct v as [v|]; [|injection Hs as <-; split; eauto].
    destruct (s_seen s !! v) as [t0|] eqn:Hv; [|injection Hs as <-; split; eauto].
    assert (Hb : forall p, begin t0 now = Goes p -> match p with Release x | Save x => t_version x <> t_version t | Create x _ => t_version x <> t_version t | DeleteJob x _ => True end).
    { intros p Hp. destruct (decide (t_version t0 = t_version t)) as [Ev|Ev].
      - assert (t0 = t) as ->. { eapply seen_eq; [done| |by eapply in_seen|done]. by eapply elem_of_list_lookup_2. }
        unfold begin in Hp. rewrite Hd, J in Hp. by injection Hp as <-.
      - unfold begin, main in Hp. destruct (t_deleting t0).
        + destruct (t_job t0); by injection Hp as <-.
        + simpl in Hp. destruct (t_state t0); [by injection Hp as <-..| |done].
          destruct (0 <? _); [|done]. destruct (t_start t0); [|done]. destruct (_ <? _); [done|]. by injection Hp as <-. }
    destruct (begin t0 now) as [p| |]; simpl in Hs; [| |done]; injection Hs as <-; (split; simpl; [eauto|done|]).
    + intros c' p' t' Hp' Ht'. destruct (decide (c' = c)) as [->|].
      * rewrite lookup_insert in Hp'. apply (inj Some) in Hp' as <-. assert (t' = t) as -> by congruence. by apply Hb.
      * rewrite lookup_insert_ne in Hp' by done. by eapply Hc.
    + intros c' p' t' Hp' Ht'. apply lookup_delete_Some in Hp' as [_ Hp']. by eapply Hc.
  - destruct (s_calls s !! c) as [p|] eqn:Hp; [|injection Hs as <-; split; eauto].
    assert (Hret : stuck j (set_calls s (delete c (s_calls s)))).
    { split; simpl; [eauto|done|]. intros c' p' t' [_ Hp']%lookup_delete_Some Ht'. by eapply Hc. }
    pose proof (Hc _ _ _ Hp Ht) as Hx. pose proof (inv_calls _ _ Hi _ _ Hp) as Hpc.
    destruct p as [x k|x|x st|x]; simpl in Hs, Hx, Hpc.
    + destruct r.
      * case_decide as Hk; simpl in Hs; injection Hs as <-; [|done]. destruct Hpc as (H1 & H2 & H3).
        split; simpl; [eauto|split; [|done]|].
        -- intros [? _]%elem_of_difference. done.
        -- intros c' p' t' Hp' Ht'. destruct (decide (c' = c)) as [->|].
           ++ rewrite lookup_insert in Hp'. apply (inj Some) in Hp' as <-. simpl. intros Ev.
              assert (x = t) as -> by (eapply seen_eq; [done|done|by eapply in_seen|congruence]). congruence.
           ++ rewrite lookup_insert_ne in Hp' by done. by eapply Hc.
      * injection Hs as <-. done.
      * case_decide as Hk; simpl in Hs; injection Hs as <-; [|done]. destruct Hret as [R1 [R2 R3] R4]. split; simpl; [done| |done].
        split; [|done]. intros [? _]%elem_of_difference. done.
    + rewrite (update_other _ _ _ Ht Hx) in Hs. destruct r; injection Hs as <-; done.
    + destruct r; [|injection Hs as <-; done|].
      * injection Hs as <-. split; simpl; [eauto|split; [|lia]|].
        -- intros [->%elem_of_singleton|?]%elem_of_union; [lia|done].
        -- intros c' p' t' Hp' Ht'. destruct (decide (c' = c)) as [->|].
           ++ rewrite lookup_insert in Hp'. apply (inj Some) in Hp' as <-. simpl. congruence.
           ++ rewrite lookup_insert_ne in Hp' by done. by eapply Hc.
      * injection Hs as <-. split; simpl; [eauto|split; [|lia]|].
        -- intros [->%elem_of_singleton|?]%elem_of_union; [lia|done].
        -- intros c' p' t' [_ Hp']%lookup_delete_Some Ht'. by eapply Hc.
    + rewrite (update_other _ _ _ Ht Hx) in Hs. destruct r; injection Hs as <-; done.
Qed.

Lemma run_app s l1 l2 : run s (l1 ++ l2) = match run s l1 with None => None | Some s' => run s' l2 end.
Proof.
  revert s. induction l1 as [|o l1 IH]; intros s; simpl; [done|].
  destruct (step s o) as [s1|]; [apply IH|done].
Qed.

Lemma stuck_forever l s t j :
  run init l = Some s -> s_trace s = Some t -> s_calls s = ∅ ->
  t_deleting t = true -> t_ours t = true -> t_job t = Some j -> j ∉ s_jobs s ->
  forall l' s', run s l' = Some s' -> exists t', s_trace s' = Some t' /\ t_deleting t' = true /\ t_ours t' = true.
Proof.
  intros Hl Ht Hc Hd Ho J Hj l' s' Hr.
  assert (Hst : stuck j s).
  { split; [eauto| |].
    - split; [done|]. destruct (seen_ok _ _ _ (reach _ _ Hl) (in_seen _ _ _ (reach _ _ Hl) Ht)) as (_ & _ & _ & H). by apply H.
    - intros c p t' Hp. rewrite Hc in Hp. by rewrite lookup_empty in Hp. }
  enough (stuck j s') as [(t' & ? & ? & ? & ?) _ _] by eauto.
  clear -Hl Hst Hr. revert l s Hl Hst Hr. induction l' as [|o l' IH]; intros l s Hl Hst Hr; simpl in Hr.
  - by injection Hr as <-.
  - destruct (step s o) as [s1|] eqn:Hs; [|done]. apply (IH (l ++ [o])%list s1).
    + by rewrite run_snoc, Hl.
    + eapply stuck_step; [by eapply reach|done|done].
    + done.
Qed.

(** * Undisturbed histories *)

Lemma idle_calls s c now n : s_calls s !! c = None -> run s (replicate n (Call c Done now)) = Some s.
Proof. intros Hc. induction n as [|n IH]; simpl; [done|]. by rewrite Hc. Qed.

Lemma undisturbed_more s c now n m s' : run s (undisturbed c s now n) = Some s' -> s_calls s' !! c = None ->
  run s (undisturbed c s now (n + m)) = Some s'.
Proof.
  unfold undisturbed. destruct (s_trace s); [|done]. intros Hr Hc.
  rewrite replicate_add. rewrite app_comm_cons, run_app, Hr. by apply idle_calls.
Qed.

Lemma quiet_reconcile l s t now :
  run init l = Some s -> s_trace s = Some t -> s_calls s = ∅ -> t_deleting t = false ->
  s_njobs s = jobs_of (t_state t) ->
  exists s' t', run s (undisturbed 0 s now 3) = Some s' /\ s_trace s' = Some t' /\ s_calls s' = ∅ /\ t_deleting t' = false /\ s_njobs s' = jobs_of (t_state t').
Proof.
  intros Hl Ht Hc Hd Hn. assert (Hc0 : s_calls s !! 0%nat = None) by (rewrite Hc; apply lookup_empty).
  destruct (t_state t) eqn:E; simpl in Hn.
  - destruct (undisturbed_unknown _ _ _ 0 now Hl Ht Hc0 Hd E) as (s' & t' & Hr & Ht' & E' & _ & _ & _ & _ & Hcs & Hd' & Hn').
    exists s', t'. rewrite E'. simpl. split_and!; [|done|congruence|done|congruence].
    apply (undisturbed_more _ _ _ 1 2); [done|congruence].
  - destruct (undisturbed_pending _ _ _ 0 now Hl Ht Hc0 Hd E) as (s' & t' & j & Hr & Ht' & E' & _ & _ & _ & _ & _ & _ & Hcs & Hd' & Hn').
    exists s', t'. rewrite E'. simpl. split_and!; [|done|congruence|done|congruence].
    apply (undisturbed_more _ _ _ 2 1); [done|congruence].
  - pose proof (stored_ok_ _ _ _ Hl Ht) as S1. unfold status_ok in S1. rewrite E in S1. destruct S1 as (_ & [st Hst] & _).
    destruct (decide (0 < t_duration t)) as [Hdur|Hdur].
    + destruct (undisturbed_running _ _ _ 0 now st Hl Ht Hc0 Hd E Hdur Hst) as (s' & t' & Hr & Ht' & _ & E' & Hcs & Hd' & Hn').
      exists s', t'. split_and!; [|done|congruence|done|].
      * apply (undisturbed_more _ _ _ 1 2); [done|congruence].
      * rewrite E', Hn', Hn. by case_decide.
    + exists s, t. rewrite E. split_and!; [|done..]. unfold undisturbed. rewrite Ht. simpl.
      rewrite Hc0, (cur_seen _ _ _ (reach _ _ Hl) Ht). unfold begin, main. rewrite Hd. simpl. rewrite E.
      rewrite (proj2 (Z.ltb_ge _ _)) by lia. simpl. rewrite !lookup_delete.
      rewrite Hc. rewrite delete_empty. clear -Hc. destruct s. simpl in *. by subst.
  - exists s, t. rewrite E. split_and!; [|done..]. unfold undisturbed. rewrite Ht. simpl.
    rewrite Hc0, (cur_seen _ _ _ (reach _ _ Hl) Ht). unfold begin, main. rewrite Hd. simpl. rewrite E. simpl.
    rewrite !lookup_delete.
    rewrite Hc. rewrite delete_empty. clear -Hc. destruct s. simpl in *. by subst.
Qed.

Lemma quiet_run l s t rs :
  run init l = Some s -> s_trace s = Some t -> s_calls s = ∅ -> t_deleting t = false ->
  s_njobs s = jobs_of (t_state t) -> Forall no_deletion rs ->
  exists s' t', quiet s rs = Some s' /\ s_trace s' = Some t' /\ t_deleting t' = false /\
    s_njobs s' = jobs_of (t_state t').
Proof.
  revert l s t. induction rs as [|r rs IH]; intros l s t Hl Ht Hc Hd Hn Hr; simpl; [by exists s, t|].
  apply Forall_cons in Hr as [Hr1 Hr2]. destruct r as [u|now].
  - assert (Hl' : run init (l ++ [User u]) = Some (user_step s u)) by (by rewrite run_snoc, Hl).
    assert (Hu : exists t', s_trace (user_step s u) = Some t' /\ s_calls (user_step s u) = ∅ /\ t_deleting t' = false /\
      s_njobs (user_step s u) = jobs_of (t_state t')).
    { unfold user_step. rewrite Ht. destruct u; try done; simpl; rewrite ?Hd; simpl; eexists; split_and!; done. }
    destruct Hu as (t' & ? & ? & ? & ?). by eapply IH.
  - destruct (quiet_reconcile _ _ _ now Hl Ht Hc Hd Hn) as (s' & t' & Hr' & ? & ? & ? & ?). rewrite Hr'.
    apply (IH (l ++ undisturbed 0 s now 3)%list _ t'); try done. by rewrite run_app, Hl.
Qed.

Lemma one_job_when_quiet d sc o rs : Forall no_deletion rs ->
  exists s t, quiet init (Edit (UCreate d sc o) :: rs) = Some s /\ s_trace s = Some t /\ t_deleting t = false /\
    s_njobs s = jobs_of (t_state t).
Proof.
  intros Hr. assert (Hl : run init [User (UCreate d sc o)] = Some (user_step init (UCreate d sc o))) by done.
  simpl quiet. change (quiet _ rs) with (quiet (user_step init (UCreate d sc o)) rs).
  eapply quiet_run; [exact Hl|reflexivity|reflexivity|reflexivity|reflexivity|done].
Qed.

Lemma in_seconds_bounds k : k - second < in_seconds k <= k.
Proof. unfold in_seconds, second. pose proof (Z.div_mod k 1000000000 ltac:(lia)). pose proof (Z.mod_pos_bound k 1000000000 ltac:(lia)). lia. Qed.

Lemma completion_elapsed l o s s' t t' :
  run init l = Some s -> step s o = Some s' -> s_trace s = Some t -> s_trace s' = Some t' ->
  t_deleting t = false -> t_state t = Running -> t_state t' = Complete ->
  exists began ended, began ∈ clocks l /\ ended ∈ clocks l /\
    t_start t' = Some (in_seconds began) /\ t_end t' = Some (in_seconds ended) /\
    0 < t_duration t /\ t_duration t - second < ended - began.
Proof.
  intros Hl Hs Ht Ht' Hd E1 E2.
  destruct (completion_waits _ _ _ _ _ _ Hl Hs Ht Ht' Hd E1 E2) as (Hpos & _ & st & now & Hst & Hn & He & Hle).
  destruct (start_is_a_reading _ _ _ _ Hl Ht Hst) as (k & Hk & ->).
  exists k, now. split_and!; try done.
  - assert (Hl' : run init (l ++ [o]) = Some s') by (by rewrite run_snoc, Hl).
    pose proof (reach _ _ Hl) as Hi.
    destruct (step_trace _ _ _ _ _ Hi Hs Ht) as [E|[(u & -> & [E|(x & E & Hx)])|(c & r & now' & x & -> & [[H Hp]|[H Hp]] & E)]].
    + congruence.
    + congruence.
    + assert (t' = x) as -> by congruence. destruct Hx as (? & _). congruence.
    + rewrite E in Ht'. apply store_trace in Ht' as ->. simpl in *. destruct H as (_ & _ & H). rewrite E1, E2 in H.
      destruct H as (J & B & _). rewrite B, Hst. simpl. by rewrite in_seconds_idem.
    + destruct H as (_ & Hd' & _). congruence.
  - pose proof (in_seconds_bounds k). lia.
Qed.
