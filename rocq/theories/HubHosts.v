(** Proofs about the hub model: monitored hosts. *)
From stdpp Require Import gmap strings list.
From Coq Require Import ZArith Lia Ascii.
From Verif Require Import SyscallModel FilterModel HashModel HubModel HubSpec HubProofs.
Open Scope Z_scope.
Local Opaque lookup_sc add_syscall add_sampled_syscall remove_syscall add_metrics remove_metrics run_nfilter.

Lemma step_hosts J tbl h C o h' r : repr J h C -> hstep J tbl h o = Ok (h', r) ->
  hosts h' = match o with
             | OStart j c => if decide (selects (J j) (ct_name c))
                             then <[j := add_container (default ∅ (hosts h !! j)) (ct_pod c) (ct_name c)]> (hosts h) else hosts h
             | OStop j c => <[j := remove_container (default ∅ (hosts h !! j)) (ct_pod c) (ct_name c)]> (hosts h)
             | _ => hosts h
             end.
Proof.
  intros Hr. destruct o as [j c|j c|j ns nr|id|ev|ns|ns|mode t]; cbn [hstep]; intros Hs.
  - unfold on_start in Hs. destruct (host_selected (J j) (ct_name c)) eqn:Hsel.
    + rewrite decide_True by (by apply host_selected_spec).
      pose proof (start_repr J tbl j (ct_ns c) (calls_of tbl (J j)) (set_hosts h (<[j := add_container (default ∅ (hosts h !! j)) (ct_pod c) (ct_name c)]> (hosts h))) C 0 (repr_set_hosts _ _ _ _ Hr)) as H.
      destruct (start_calls _ _ _ _ _ _ _) as [[h1 [n ok]]| |]; [|done|done]. injection Hs as <- <-.
      destruct H as (D & _ & _ & H & _). exact H.
    + rewrite decide_False by (intros Hx; apply host_selected_spec in Hx; congruence). by injection Hs as <- <-.
  - unfold on_stop in Hs.
    pose proof (stop_repr J tbl (ct_ns c) (calls_of tbl (J j)) (set_hosts h (<[j := remove_container (default ∅ (hosts h !! j)) (ct_pod c) (ct_name c)]> (hosts h))) C (repr_set_hosts _ _ _ _ Hr)) as H.
    destruct (stop_calls _ _ _ _) as [h1| |]; [|done|done]. injection Hs as <- <-. destruct H as (_ & _ & H & _). exact H.
  - by injection Hs as <- <-.
  - pose proof (delete_repr J tbl h C id Hr) as H.
    destruct (filter (fun c => j_id (J (c_job c)) = id) C) as [|c0 todo] eqn:E.
    + rewrite H in Hs. by injection Hs as <- <-.
    + destruct H as (h1 & E1 & _ & _ & _ & H & _). rewrite E1 in Hs. injection Hs as <- <-. done.
  - destruct (on_event J h ev) as [[h1 ps]| |] eqn:E; [|done|done]. injection Hs as <- <-. by apply on_event_frame in E as (_ & _ & _ & _ & E).
  - by injection Hs as <- <-.
  - by injection Hs as <- <-.
  - destruct (run_nfilter mode t (maps h)) as [m v]. by injection Hs as <- <-.
Qed.

Definition hosts_inv (J : nat -> job) (pre : list hop) (h : hub) : Prop := forall j k,
  (default ∅ (hosts h !! j) !! k = Some true <-> host_started J pre j k /\ ~ host_stopped pre j k) /\
  (default ∅ (hosts h !! j) !! k = Some false <-> host_stopped pre j k).

Lemma started_snoc J pre o j k : host_started J (pre ++ [o]) j k <->
  host_started J pre j k \/ exists c, o = OStart j c /\ selects (J j) (ct_name c) /\ host_name c = k.
Proof.
  unfold host_started. split.
  - intros (c & Hin & H). apply elem_of_app in Hin as [Hin|Hin]; [left; by exists c|]. apply elem_of_list_singleton in Hin as <-. right. by exists c.
  - intros [(c & Hin & H)|(c & -> & H)]; exists c; (split; [|done]); apply elem_of_app; [by left|right; left].
Qed.
Lemma stopped_snoc pre o j k : host_stopped (pre ++ [o]) j k <->
  host_stopped pre j k \/ exists c, o = OStop j c /\ host_name c = k.
Proof.
  unfold host_stopped. split.
  - intros (c & Hin & H). apply elem_of_app in Hin as [Hin|Hin]; [left; by exists c|]. apply elem_of_list_singleton in Hin as <-. right. by exists c.
  - intros [(c & Hin & H)|(c & -> & H)]; exists c; (split; [|done]); apply elem_of_app; [by left|right; left].
Qed.

Lemma step_hosts_inv J tbl pre h C o h' r : repr J h C -> hstep J tbl h o = Ok (h', r) ->
  hosts_inv J pre h -> hosts_inv J (pre ++ [o]) h'.
Proof.
  intros Hr Hs Hi. pose proof (step_hosts _ _ _ _ _ _ _ Hr Hs) as Eh. intros j k. rewrite started_snoc, stopped_snoc.
  destruct (Hi j k) as [It If].
  assert (hosts h' !! j = hosts h !! j -> (forall c, o = OStart j c -> ~ selects (J j) (ct_name c)) -> (forall c, o <> OStop j c) ->
    (default ∅ (hosts h' !! j) !! k = Some true <->
     (host_started J pre j k \/ exists c, o = OStart j c /\ selects (J j) (ct_name c) /\ host_name c = k) /\
     ~ (host_stopped pre j k \/ exists c, o = OStop j c /\ host_name c = k)) /\
    (default ∅ (hosts h' !! j) !! k = Some false <-> host_stopped pre j k \/ exists c, o = OStop j c /\ host_name c = k)) as Hsame.
  { intros E H1 H2. rewrite E.
    assert (~ exists c, o = OStart j c /\ selects (J j) (ct_name c) /\ host_name c = k) as N1 by (intros (c & -> & Hse & _); by eapply H1).
    assert (~ exists c, o = OStop j c /\ host_name c = k) as N2 by (intros (c & -> & _); by eapply H2).
    tauto. }
  destruct o as [j' c|j' c| | | | | |]; try (apply Hsame; [by rewrite Eh|done|done]).
  - destruct (decide (selects (J j') (ct_name c))) as [Hsel|Hsel].
    2: { apply Hsame; [by rewrite Eh| |done]. intros c' [= -> ->]. done. }
    destruct (decide (j' = j)) as [->|Hne].
    2: { apply Hsame; [by rewrite Eh, lookup_insert_ne| |done]. intros c' [= -> ->]. done. }
    rewrite Eh, lookup_insert. cbn [from_option id]. unfold add_container. change (job_key (ct_pod c) (ct_name c)) with (host_name c).
    assert (~ exists c0, OStart j c = OStop j c0 /\ host_name c0 = k) as N2 by (by intros (? & ? & _)).
    destruct (decide (host_name c = k)) as [Ek|Nk].
    + assert (exists c0, OStart j c = OStart j c0 /\ selects (J j) (ct_name c0) /\ host_name c0 = k) as Y1 by (by exists c).
      rewrite Ek. destruct (default ∅ (hosts h !! j) !! k) as [[|]|] eqn:El.
      * rewrite ?El. rewrite ?El in It, If. split; [split; [intros _; tauto|done]|]. split; [done|]. tauto.
      * rewrite ?El. rewrite ?El in It, If. split; [split; [done|]|]; tauto.
      * rewrite lookup_insert. rewrite ?El in It, If.
        assert (~ host_stopped pre j k) as N3 by (intros H; by apply If in H).
        split; [tauto|]. split; [done|]. tauto.
    + assert (~ exists c0, OStart j c = OStart j c0 /\ selects (J j) (ct_name c0) /\ host_name c0 = k) as N1 by (intros (c0 & [= <-] & _ & ?); done).
      destruct (default ∅ (hosts h !! j) !! host_name c); [tauto|]. rewrite lookup_insert_ne by done. tauto.
  - destruct (decide (j' = j)) as [->|Hne].
    2: { apply Hsame; [by rewrite Eh, lookup_insert_ne|done|]. intros c' [= -> ->]. done. }
    rewrite Eh, lookup_insert. cbn [from_option id]. unfold remove_container. change (job_key (ct_pod c) (ct_name c)) with (host_name c).
    assert (~ exists c0, OStop j c = OStart j c0 /\ selects (J j) (ct_name c0) /\ host_name c0 = k) as N1 by (by intros (? & ? & _)).
    destruct (decide (host_name c = k)) as [Ek|Nk].
    + assert (exists c0, OStop j c = OStop j c0 /\ host_name c0 = k) as Y1 by (by exists c).
      rewrite Ek, lookup_insert. split; [split; [done|]; tauto|]. split; [intros _; by right|done].
    + assert (~ exists c0, OStop j c = OStop j c0 /\ host_name c0 = k) as N2 by (intros (c0 & [= <-] & ?); done).
      rewrite lookup_insert_ne by done. tauto.
Qed.
Lemma run_hosts_inv J tbl : forall os pre h C h' rs, repr J h C -> hrun J tbl h os = Ok (h', rs) ->
  hosts_inv J pre h -> hosts_inv J (pre ++ os) h'.
Proof.
  induction os as [|o os IH]; intros pre h C h' rs Hr; cbn [hrun]; [intros [= <- <-] Hi; by rewrite app_nil_r|].
  destruct (hstep J tbl h o) as [[h1 r]| |] eqn:Es; [|done|done].
  destruct (hrun J tbl h1 os) as [[h2 rs2]| |] eqn:Er; [|done|done]. intros [= <- <-] Hi.
  destruct (step_repr _ _ _ _ _ _ _ Hr Es) as (C1 & Hr1 & _).
  replace (pre ++ o :: os)%list with ((pre ++ [o]) ++ os)%list by (by rewrite <- app_assoc).
  eapply IH; [exact Hr1|exact Er|]. exact (step_hosts_inv _ _ _ _ _ _ _ _ Hr Es Hi).
Qed.
Lemma listed_elem m all ret k : monitored_hosts m all ret ->
  NoDup ret /\ (k ∈ ret <-> m !! k = Some true \/ (all = true /\ m !! k = Some false)).
Proof.
  intros (order & Hp & ->).
  assert (NoDup (map fst order)) as Hnd.
  { change (map fst order) with (order.*1). rewrite Hp. apply NoDup_fst_map_to_list. }
  assert (forall kv, kv ∈ order <-> m !! kv.1 = Some kv.2) as Hin.
  { intros [k' b]. rewrite Hp. apply elem_of_map_to_list. }
  split.
  - clear Hin Hp. induction order as [|[k' b] l IH]; [constructor|]. cbn in Hnd. apply NoDup_cons in Hnd as [H1 H2].
    cbn [List.filter snd]. destruct (all || b); [|by apply IH]. cbn [map fst snd]. apply NoDup_cons. split; [|by apply IH].
    intros H. apply H1. apply elem_of_list_In, in_map_iff in H as (x & <- & Hx). apply filter_In in Hx as [Hx _].
    by apply elem_of_list_In, in_map.
  - rewrite elem_of_list_In, in_map_iff. split.
    + intros ([k' b] & E & Hf). cbn in E. subst k'. apply filter_In in Hf as [Hf Hb]. apply elem_of_list_In, Hin in Hf. cbn [fst snd] in *.
      destruct b; [by left|right]. split; [|done]. by destruct all.
    + intros [H|[-> H]].
      * exists (k, true). split; [done|]. apply filter_In. split; [by apply elem_of_list_In, Hin|]. cbn. by destruct all.
      * exists (k, false). split; [done|]. apply filter_In. split; [by apply elem_of_list_In, Hin|]. done.
Qed.
Lemma new_hub_hosts J tbl h : new_hub tbl = Some h -> hosts_inv J [] h.
Proof.
  unfold new_hub. destruct (new_hub_maps tbl) as [m|]; [|done]. intros [= <-] j k. cbn [hosts]. rewrite lookup_empty. cbn [from_option id].
  rewrite lookup_empty. split; (split; [done|]).
  - intros [(c & Hc & _) _]. by apply elem_of_nil in Hc.
  - intros (c & Hc & _). by apply elem_of_nil in Hc.
Qed.
Lemma hosts_exact J tbl h0 os h rs j all ret : new_hub tbl = Some h0 -> hrun J tbl h0 os = Ok (h, rs) ->
  hosts_listed h j all ret ->
  NoDup ret /\ forall k, k ∈ ret <->
    if all then host_started J os j k \/ host_stopped os j k else host_started J os j k /\ ~ host_stopped os j k.
Proof.
  intros H0 Hr Hl. pose proof (run_hosts_inv J tbl os [] h0 [] h rs (new_hub_repr J _ _ H0) Hr (new_hub_hosts J _ _ H0)) as Hi. cbn [app] in Hi.
  split; [by apply (listed_elem _ _ _ "" Hl)|]. intros k. destruct (listed_elem _ _ _ k Hl) as [_ ->]. destruct (Hi j k) as [It If]. rewrite It, If.
  destruct all; [|naive_solver]. split; [tauto|]. destruct (decide (default ∅ (hosts h !! j) !! k = Some false)) as [E|E]; [apply If in E; tauto|].
  assert (~ host_stopped os j k) by (intros H; by apply E, If). tauto.
Qed.

(** Host names are unambiguous as long as container names have no dot. *)
Lemma append_split (c : Ascii.ascii) : forall s1 s2 t1 t2, ~ In c (list_ascii_of_string s1) -> ~ In c (list_ascii_of_string s2) ->
  (s1 ++ String.String c t1)%string = (s2 ++ String.String c t2)%string -> s1 = s2 /\ t1 = t2.
Proof.
  induction s1 as [|a s1 IH]; intros [|b s2] t1 t2 H1 H2; cbn; intros [= E].
  - by subst.
  - subst. exfalso. apply H2. by left.
  - subst. exfalso. apply H1. by left.
  - subst. destruct (IH s2 t1 t2) as [-> ->]; [|..|done|done]; intros Hin; [apply H1|apply H2]; by right.
Qed.
Lemma host_name_inj c c' : no_dot (ct_name c) -> no_dot (ct_name c') -> host_name c = host_name c' ->
  ct_name c = ct_name c' /\ ct_pod c = ct_pod c'.
Proof. intros H1 H2 H. unfold host_name in H. by apply (append_split "."%char) in H. Qed.
