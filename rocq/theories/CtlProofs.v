From stdpp Require Import base list numbers gmap.
From Coq Require Import ZArith Lia.
From Verif Require Import CtlModel CtlSpec.

Local Open Scope Z_scope.

(** A start time is the stored form of a past clock reading. *)
Definition past (K : list Z) (z : option Z) : Prop :=
  forall x, z = Some x -> exists k, k ∈ K /\ x = in_seconds k.

Definition trace_ok (K : list Z) (nj : nat) (t : trace) : Prop :=
  status_ok t /\ past K (t_start t) /\ past K (t_end t) /\
  (forall j, t_job t = Some j -> (j < nj)%nat).

(** [t] is a change of the seen version [t0] that keeps spec and deletion. *)
Definition same_spec (t0 t : trace) : Prop :=
  t_version t0 = t_version t /\ t_duration t0 = t_duration t /\
  t_deleting t0 = t_deleting t /\ t_others t0 = t_others t.

Definition save_ok (K : list Z) (nj : nat) (t0 t : trace) : Prop :=
  same_spec t0 t /\ t_ours t = true /\
  match t_state t0, t_state t with
  | Unknown, Pending => t_job t = None /\ t_start t = None /\ t_end t = None /\ t_syscalls t = t_syscalls t0
  | Pending, Running => (exists j, t_job t = Some j /\ (j < nj)%nat) /\ (exists st, t_start t = Some st /\ st ∈ K) /\ t_end t = None
  | Running, Complete => t_job t = t_job t0 /\ t_start t = t_start t0 /\
      (exists st now, t_start t0 = Some st /\ t_end t = Some now /\ now ∈ K /\ st + t_duration t0 <= now /\ 0 < t_duration t0)
  | _, _ => False
  end.

Definition release_ok (K : list Z) (t0 t : trace) : Prop :=
  same_spec t0 t /\ t_deleting t0 = true /\ t_ours t = false /\ t_syscalls t = t_syscalls t0 /\
  match t_job t0 with
  | None => t = with_ours t0 false
  | Some j => t_state t = Complete /\ t_job t = Some j /\ t_start t = t_start t0 /\ exists now, t_end t = Some now /\ now ∈ K
  end.

Definition pc_ok (K : list Z) (seen : list trace) (nj : nat) (p : pc) : Prop :=
  match p with
  | DeleteJob t j => t ∈ seen /\ t_deleting t = true /\ t_job t = Some j
  | Release t => exists t0, t0 ∈ seen /\ release_ok K t0 t
  | Create t st => exists t0, t0 ∈ seen /\ same_spec t0 t /\ t_state t0 = Pending /\ t_state t = Pending /\
      t_job t = None /\ t_start t = None /\ t_end t = None /\ t_ours t = true /\ st ∈ K
  | Save t => exists t0, t0 ∈ seen /\ save_ok K nj t0 t
  end.

Record inv (K : list Z) (s : state) : Prop := Inv {
  inv_versions : s_versions s = length (s_seen s);
  inv_seen v t : s_seen s !! v = Some t -> t_version t = v /\ trace_ok K (s_njobs s) t;
  inv_cur t : s_trace s = Some t -> last (s_seen s) = Some t;
  inv_jobs j : j ∈ s_jobs s -> (j < s_njobs s)%nat;
  inv_calls c p : s_calls s !! c = Some p -> pc_ok K (s_seen s) (s_njobs s) p
}.

Lemma inv_init K : inv K init.
Proof.
  split; simpl; [done|..].
  - intros v t H. by rewrite lookup_nil in H.
  - done.
  - intros j H. by apply elem_of_empty in H.
  - intros c p H. by rewrite lookup_empty in H.
Qed.

Lemma past_mono K K' z : K ⊆ K' -> past K z -> past K' z.
Proof. intros HK H x Hx. destruct (H x Hx) as (k & ? & ?). exists k. auto. Qed.

Lemma trace_ok_mono K K' nj nj' t : K ⊆ K' -> (nj <= nj')%nat -> trace_ok K nj t -> trace_ok K' nj' t.
Proof.
  intros HK Hn (H1 & H2 & H3 & H4). split_and!; eauto using past_mono.
  intros j Hj. specialize (H4 j Hj). lia.
Qed.

Lemma pc_ok_mono K K' seen seen' nj nj' p : K ⊆ K' -> seen ⊆ seen' -> (nj <= nj')%nat ->
  pc_ok K seen nj p -> pc_ok K' seen' nj' p.
Proof.
  intros HK Hs Hn. destruct p as [t j|t|t st|t]; simpl.
  - intros (? & ? & ?). auto.
  - intros (t0 & ? & H1 & H2 & H3 & H4 & H5). exists t0. split; [auto|]. split_and!; auto.
    destruct (t_job t0); [|done]. destruct H5 as (? & ? & ? & now & ? & ?). split_and!; auto. exists now. auto.
  - intros (t0 & ? & ? & ? & ? & ? & ? & ? & ? & ?). exists t0. split_and!; auto.
  - intros (t0 & ? & H1 & H2 & H3). exists t0. split; [auto|]. split_and!; auto.
    destruct (t_state t0), (t_state t); try done.
    + destruct H3 as ((j & ? & ?) & (st & ? & ?) & ?). split_and!; [exists j; split; [done|lia]|exists st; auto|done].
    + destruct H3 as (? & ? & st & now & ? & ? & ? & ? & ?). split_and!; auto. exists st, now. auto 10.
Qed.

Lemma inv_mono K K' s : K ⊆ K' -> inv K s -> inv K' s.
Proof.
  intros HK [H1 H2 H3 H4 H5]. split; auto.
  - intros v t H. destruct (H2 v t H). split; [done|]. eapply trace_ok_mono; eauto.
  - intros c p H. eapply pc_ok_mono; eauto.
Qed.

(** * Storing *)

Lemma stored_ok K nj t v :
  status_ok t -> (forall x, t_start t = Some x -> past K (Some (in_seconds x))) ->
  (forall x, t_end t = Some x -> past K (Some (in_seconds x))) ->
  (forall j, t_job t = Some j -> (j < nj)%nat) -> trace_ok K nj (stored_times t v).
Proof.
  intros H1 H2 H3 H4. unfold trace_ok, stored_times, status_ok in *. simpl. split_and!.
  - destruct (t_state t); destruct H1 as (? & ? & ?); split_and!; rewrite ?fmap_is_Some; try done; by apply fmap_None.
  - intros x Hx. destruct (t_start t) as [y|]; [|done]. injection Hx as <-. by eapply H2.
  - intros x Hx. destruct (t_end t) as [y|]; [|done]. injection Hx as <-. by eapply H3.
  - done.
Qed.

Lemma in_seconds_idem z : in_seconds (in_seconds z) = in_seconds z.
Proof. unfold in_seconds, second. rewrite Z.div_mul by lia. done. Qed.

Lemma past_stored K z x : past K z -> z = Some x -> past K (Some (in_seconds x)).
Proof.
  intros H -> y Hy. injection Hy as <-. destruct (H x eq_refl) as (k & Hk & ->). exists k. split; [done|].
  by rewrite in_seconds_idem.
Qed.

Lemma inv_store K s t :
  inv K s -> trace_ok K (s_njobs s) (stored_times t (s_versions s)) -> inv K (store s t).1.
Proof.
  intros [H1 H2 H3 H4 H5] Ht. unfold store. simpl. split; simpl.
  - rewrite app_length. simpl. lia.
  - intros v t' H. apply lookup_app_Some in H as [H|[Hl H]]; [by apply H2|].
    apply list_lookup_singleton_Some in H as [Hv <-]. split; [|done]. simpl. lia.
  - intros t' H. rewrite last_snoc. destruct (_ && _); [done|]. congruence.
  - done.
  - intros c p H. eapply pc_ok_mono; [done| |done|by eapply H5]. intros x Hx. apply elem_of_app. by left.
Qed.

Lemma inv_set_calls K s m : inv K s -> (forall c p, m !! c = Some p -> pc_ok K (s_seen s) (s_njobs s) p) -> inv K (set_calls s m).
Proof. intros [H1 H2 H3 H4 H5] Hm. by split. Qed.

Lemma inv_set_jobs K s js n : inv K s -> (s_njobs s <= n)%nat -> (forall j, j ∈ js -> (j < n)%nat) -> inv K (set_jobs s js n).
Proof.
  intros [H1 H2 H3 H4 H5] Hn Hj. split; simpl; auto.
  - intros v t H. destruct (H2 v t H). split; [done|]. eapply trace_ok_mono; eauto.
  - intros c p H. eapply pc_ok_mono; eauto; done.
Qed.

Lemma cur_seen K s t : inv K s -> s_trace s = Some t -> s_seen s !! t_version t = Some t.
Proof.
  intros [H1 H2 H3 H4 H5] Ht. specialize (H3 t Ht). rewrite last_lookup in H3.
  destruct (H2 _ _ H3) as [Hv _]. by rewrite Hv.
Qed.

Lemma seen_eq K s t t' : inv K s -> t ∈ s_seen s -> t' ∈ s_seen s -> t_version t = t_version t' -> t = t'.
Proof.
  intros Hi [v Hv]%elem_of_list_lookup [v' Hv']%elem_of_list_lookup E.
  destruct (inv_seen _ _ Hi _ _ Hv) as [<- _]. destruct (inv_seen _ _ Hi _ _ Hv') as [<- _].
  rewrite E in Hv. congruence.
Qed.

Lemma seen_ok K s t : inv K s -> t ∈ s_seen s -> trace_ok K (s_njobs s) t.
Proof. intros Hi [v Hv]%elem_of_list_lookup. by destruct (inv_seen _ _ Hi _ _ Hv). Qed.

Lemma in_seen K s t : inv K s -> s_trace s = Some t -> t ∈ s_seen s.
Proof. intros Hi Ht. eapply elem_of_list_lookup_2, cur_seen; eauto. Qed.

(** An update that succeeds is one of the version stored. *)
Lemma update_some K s t s' t' t0 :
  inv K s -> t0 ∈ s_seen s -> same_spec t0 t -> update s t = Some (s', t') ->
  s_trace s = Some t0 /\ s' = (store s t).1 /\ t' = stored_times t (s_versions s) /\
  (t_deleting t0 = true -> t_ours t = true -> t_ours t0 = true).
Proof.
  intros Hi H0 (Hv & _ & Hd & _) Hu. unfold update in Hu. destruct (s_trace s) as [cur|] eqn:Hc; [|done].
  destruct (Nat.eqb_spec (t_version t) (t_version cur)) as [E|]; simpl in Hu; [|done].
  assert (t0 = cur) as -> by (eapply seen_eq; [done|done|by eapply in_seen|by rewrite Hv]).
  destruct (t_deleting cur && t_ours t && negb (t_ours cur)) eqn:Hb; [done|].
  unfold store in Hu. injection Hu as <- <-. split_and!; [done..|].
  intros Hd' Ho. rewrite Hd', Ho in Hb. simpl in Hb. by destruct (t_ours cur).
Qed.

Lemma save_stored_ok K s t0 t : inv K s -> t0 ∈ s_seen s -> save_ok K (s_njobs s) t0 t ->
  trace_ok K (s_njobs s) (stored_times t (s_versions s)).
Proof.
  intros Hi H0 (Hs & Ho & Hc). destruct (seen_ok _ _ _ Hi H0) as (S1 & S2 & S3 & S4).
  unfold status_ok in S1. destruct (t_state t0) eqn:E0, (t_state t) eqn:E1; try done.
  - destruct Hc as (J & B & E & _). apply stored_ok; [unfold status_ok; rewrite E1; done|..]; intros x Hx; congruence.
  - destruct Hc as ((j & J & Hj) & (st & B & Hst) & E). apply stored_ok.
    + unfold status_ok. rewrite E1. split_and!; [eauto..|done].
    + intros x Hx y Hy. injection Hy as <-. exists st. split; [done|]. congruence.
    + intros x Hx. congruence.
    + intros j' Hj'. by assert (j' = j) as -> by congruence.
  - destruct Hc as (J & B & st & now & Hst & Hnow & Hin & _ & _). destruct S1 as (J1 & J2 & J3). apply stored_ok.
    + unfold status_ok. rewrite E1, J, B, Hnow. split_and!; [done..|eauto].
    + intros x Hx. rewrite B in Hx. eauto using past_stored.
    + intros x Hx y Hy. injection Hy as <-. exists now. split; [done|]. congruence.
    + intros j' Hj'. rewrite J in Hj'. by apply S4.
Qed.

Lemma release_stored_ok K s t0 t : inv K s -> t0 ∈ s_seen s -> release_ok K t0 t ->
  trace_ok K (s_njobs s) (stored_times t (s_versions s)).
Proof.
  intros Hi H0 (Hs & Hd & Ho & Hsc & Hc). destruct (seen_ok _ _ _ Hi H0) as (S1 & S2 & S3 & S4).
  destruct (t_job t0) as [j|] eqn:J.
  - destruct Hc as (E & J' & B & now & Hn & Hin). apply stored_ok.
    + unfold status_ok. rewrite E, J', B, Hn. split_and!; [eauto| |eauto].
      unfold status_ok in S1. destruct (t_state t0); destruct S1 as (? & ? & ?); congruence || done.
    + intros x Hx. rewrite B in Hx. eauto using past_stored.
    + intros x Hx y Hy. injection Hy as <-. exists now. split; [done|]. congruence.
    + intros j' Hj'. apply S4. congruence.
  - subst t. apply stored_ok; simpl; [done|..].
    + intros x Hx. eauto using past_stored.
    + intros x Hx. eauto using past_stored.
    + intros j Hj. congruence.
Qed.

(** * Where a reconcile goes *)

Definition outcome_ok (K : list Z) (s : state) (o : outcome) : Prop :=
  match o with Goes p => pc_ok K (s_seen s) (s_njobs s) p | Returns => True | Panics => False end.

Lemma main_ok K s t now : inv K s -> t ∈ s_seen s -> now ∈ K -> outcome_ok K s (main t now).
Proof.
  intros Hi Hin HK. destruct (seen_ok _ _ _ Hi Hin) as (S1 & S2 & S3 & S4). unfold status_ok in S1. unfold main. simpl.
  destruct (t_state t) eqn:E.
  - destruct S1 as (J & B & F). simpl. exists t. split; [done|]. unfold save_ok, same_spec. simpl. rewrite E. split_and!; done.
  - destruct S1 as (J & B & F). simpl. exists t. unfold same_spec. simpl. split_and!; done.
  - destruct (Z.ltb_spec 0 (t_duration t)); [|done]. destruct S1 as (J & [st B] & F). rewrite B.
    destruct (Z.ltb_spec now (st + t_duration t)); [done|]. simpl. exists t. split; [done|].
    unfold save_ok, same_spec. simpl. rewrite E, B. split_and!; try done. exists st, now. split_and!; done.
  - done.
Qed.

Lemma begin_ok K s t now : inv K s -> t ∈ s_seen s -> now ∈ K -> outcome_ok K s (begin t now).
Proof.
  intros Hi Hin HK. unfold begin. destruct (t_deleting t) eqn:E; [|by apply main_ok].
  destruct (t_job t) as [j|] eqn:J; simpl; [done|].
  exists t. split; [done|]. unfold release_ok, same_spec. simpl. rewrite J. split_and!; done.
Qed.

Lemma call_ok K s p r now s' o : inv K s -> pc_ok K (s_seen s) (s_njobs s) p -> now ∈ K ->
  call s p r now = (s', o) -> inv K s' /\ outcome_ok K s' o /\ s_calls s' = s_calls s.
Proof.
  intros Hi Hp HK Hc. destruct p as [t j|t|t st|t]; simpl in *.
  - destruct Hp as (H1 & H2 & H3).
    assert (Hd : inv K (set_jobs s (s_jobs s ∖ {[j]}) (s_njobs s))).
    { apply inv_set_jobs; [done|done|]. intros j' [? _]%elem_of_difference. by eapply inv_jobs. }
    destruct (seen_ok _ _ _ Hi H1) as (S1 & S2 & S3 & S4).
    destruct r; [|injection Hc as <- <-; done|]; (case_decide; [|injection Hc as <- <-; done]); injection Hc as <- <-;
      (split_and!; [done| |done]); [|done].
    simpl. exists t. split; [done|]. unfold release_ok, same_spec. simpl. rewrite H3. split_and!; try done. eauto.
  - destruct Hp as (t0 & H0 & Hr). pose proof (release_stored_ok _ _ _ _ Hi H0 Hr) as Hst.
    assert (Hspec : same_spec t0 t) by apply Hr.
    destruct r; [|injection Hc as <- <-; done|]; (destruct (update s t) as [[s1 t1]|] eqn:Hu; [|injection Hc as <- <-; done]);
      destruct (update_some _ _ _ _ _ _ Hi H0 Hspec Hu) as (_ & -> & -> & _); injection Hc as <- <-;
      (split_and!; [by apply inv_store| |done]); [|done].
    apply main_ok; [by apply inv_store| |done]. simpl. apply elem_of_app. right. by apply elem_of_list_singleton.
  - destruct Hp as (t0 & H0 & Hs & E0 & E1 & J & B & F & Ho & Hst).
    assert (Hj : inv K (set_jobs s ({[s_njobs s]} ∪ s_jobs s) (S (s_njobs s)))).
    { apply inv_set_jobs; [done|lia|]. intros j [->%elem_of_singleton|Hx]%elem_of_union; [lia|]. apply (inv_jobs _ _ Hi) in Hx. lia. }
    destruct r; injection Hc as <- <-; (split_and!; [done| |done]); [|done..].
    simpl. exists t0. split; [done|]. unfold save_ok, same_spec. simpl. rewrite E0. split; [apply Hs|]. split; [done|].
    split_and!; [eexists; split; [done|lia]|eauto|done].
  - destruct Hp as (t0 & H0 & Hsv). pose proof (save_stored_ok _ _ _ _ Hi H0 Hsv) as Hst.
    assert (Hspec : same_spec t0 t) by apply Hsv.
    destruct r; [|injection Hc as <- <-; done|]; (destruct (update s t) as [[s1 t1]|] eqn:Hu; [|injection Hc as <- <-; done]);
      destruct (update_some _ _ _ _ _ _ Hi H0 Hspec Hu) as (_ & -> & -> & _); injection Hc as <- <-;
      (split_and!; [by apply inv_store|done|done]).
Qed.

Lemma goes_on_ok K s c o : inv K s -> outcome_ok K s o -> exists s', goes_on s c o = Some s' /\ inv K s' /\
  s_trace s' = s_trace s /\ s_seen s' = s_seen s /\ s_jobs s' = s_jobs s /\ s_njobs s' = s_njobs s.
Proof.
  intros Hi Ho. destruct o as [p| |]; simpl in *; [| |done]; eexists; (split; [reflexivity|]); (split; [|done]);
    apply inv_set_calls; try done; intros c' p' H.
  - destruct (decide (c' = c)) as [->|].
    + rewrite lookup_insert in H. apply (inj Some) in H as <-. done.
    + rewrite lookup_insert_ne in H by done. by eapply inv_calls.
  - destruct (decide (c' = c)) as [->|].
    + by rewrite lookup_delete in H.
    + rewrite lookup_delete_ne in H by done. by eapply inv_calls.
Qed.

Lemma user_ok K s u : inv K s -> inv K (user_step s u).
Proof.
  intros Hi. destruct u; unfold user_step; (destruct (s_trace s) as [t|] eqn:Ht; [|]); try done;
    try (apply inv_set_jobs; [done|done|intros j' [? _]%elem_of_difference; by eapply inv_jobs]).
  { apply inv_store; [done|]. apply stored_ok; simpl; done. }
  all: apply inv_store; [done|]; destruct (seen_ok _ _ _ Hi (in_seen _ _ _ Hi Ht)) as (S1 & S2 & S3 & S4);
    apply stored_ok; simpl; [done|intros x Hx; eauto using past_stored|intros x Hx; eauto using past_stored|done].
Qed.

Lemma step_inv K s o : inv K s -> clock o ⊆ K -> exists s', step s o = Some s' /\ inv K s'.
Proof.
  intros Hi HK. destruct o as [u|c v now|c r now]; simpl in *.
  - eexists. split; [done|]. by apply user_ok.
  - assert (now ∈ K) by (apply HK; left). destruct (s_calls s !! c); [eauto|]. destruct v as [v|]; [|eauto].
    destruct (s_seen s !! v) as [t|] eqn:Hv; [|eauto].
    destruct (goes_on_ok K s c (begin t now)) as (s' & ? & ? & _); [done| |eauto].
    apply begin_ok; [done| |done]. by eapply elem_of_list_lookup_2.
  - assert (now ∈ K) by (apply HK; left). destruct (s_calls s !! c) as [p|] eqn:Hp; [|eauto].
    destruct (call s p r now) as [s1 o1] eqn:Hc.
    destruct (call_ok _ _ _ _ _ _ _ Hi (inv_calls _ _ Hi _ _ Hp) H Hc) as (Hi1 & Ho1 & _).
    destruct (goes_on_ok K s1 c o1) as (s' & ? & ? & _); eauto.
Qed.

Lemma run_snoc s l o : run s (l ++ [o]) = match run s l with None => None | Some s' => step s' o end.
Proof.
  revert s. induction l as [|o' l IH]; intros s; simpl.
  - by destruct (step s o).
  - destruct (step s o') as [s1|]; [apply IH|done].
Qed.

Lemma clocks_app l1 l2 : clocks (l1 ++ l2) = (clocks l1 ++ clocks l2)%list.
Proof. unfold clocks. by rewrite map_app, concat_app. Qed.

Lemma run_inv l : exists s, run init l = Some s /\ inv (clocks l) s.
Proof.
  induction l as [|o l (s & Hr & Hi)] using rev_ind; [exists init; split; [done|apply inv_init]|].
  rewrite run_snoc, Hr. apply step_inv.
  - eapply inv_mono; [|done]. rewrite clocks_app. intros x Hx. apply elem_of_app. by left.
  - rewrite clocks_app. intros x Hx. apply elem_of_app. right. unfold clocks. simpl. by rewrite app_nil_r.
Qed.

Lemma reach l s : run init l = Some s -> inv (clocks l) s.
Proof. intros Hr. destruct (run_inv l) as (s' & Hr' & Hi). congruence. Qed.
