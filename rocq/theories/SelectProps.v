(** C99: which pods a trace follows. C100: pods that opt out. *)
From Coq Require Import ZArith String Ascii Bool Lia.
From stdpp Require Import base list numbers strings pretty gmap.
From Verif Require Import SyscallTable SyscallModel SyscallSpec SyscallProofs FilterModel FilterSpec HubModel HubSpec KernelModel KernelSpec CaptureModel CaptureSpec LineModel LineSpec DecodeModel
  KernelProofs PlainModel PlainSpec PlainProofs LiveModel LiveSpec LiveProofs LiveTop LiveProps
  ClientModel ClientSpec AgentModel AgentSpec AgentProofs SelectModel SelectSpec SelectProofs SelectTop.
Local Open Scope string_scope.
Local Open Scope list_scope.
Local Open Scope Z_scope.
Local Opaque emit.

(** ** C99 *)

(** A container gets rules exactly when the trace asks for it. *)
Theorem C99_followed_iff hub x p name : kube_labels (tr_labels x) -> plain_fields (tr_fields x) ->
  (follows hub x p name = true <-> in_namespace (tr_ns x) p /\ has_labels (tr_labels x) p /\ has_fields (tr_fields x) p /\ host_asked x name).
Proof. exact (followed_iff hub x p name). Qed.
Print Assumptions C99_followed_iff.

(** How the hub's own observer was set up does not matter. *)
Theorem C99_hub_settings_do_not_matter hub hub' x p name : follows hub x p name = follows hub' x p name.
Proof. exact (settings_irrelevant hub hub' x p name). Qed.
Print Assumptions C99_hub_settings_do_not_matter.

(** A field that pods cannot be selected by: no pod is followed. *)
Theorem C99_other_fields_follow_nothing hub x p name f v : kube_labels (tr_fields x) -> tr_fields x !! f = Some v -> ~ selectable f -> follows hub x p name = false.
Proof. intros H. exact (refused_fields hub x p name f v (kube_fields _ H)). Qed.
Print Assumptions C99_other_fields_follow_nothing.

(** A label that is none, without the symbols of selectors: no pod is followed. *)
Theorem C99_bad_labels_follow_nothing hub x p name k v : (forall k v, tr_labels x !! k = Some v -> k <> [] /\ one_word k /\ one_word v) ->
  tr_labels x !! k = Some v -> ~ (kube_key k /\ kube_value v) -> follows hub x p name = false.
Proof. exact (refused_labels hub x p name k v). Qed.
Print Assumptions C99_bad_labels_follow_nothing.

(** With the symbols, the value of a label can be a condition on another. *)
Theorem C99_values_stay_values_refuted hub x p name k v k' v' : kube_key k -> kube_value v -> kube_key k' -> kube_value v' ->
  tr_labels x = {[k := v ++ t "," ++ k' ++ t "!=" ++ v']} -> plain_fields (tr_fields x) ->
  (follows hub x p name = true <-> in_namespace (tr_ns x) p /\ pd_labels p !! k = Some v /\ pd_labels p !! k' <> Some v' /\ has_fields (tr_fields x) p /\ host_asked x name).
Proof. exact (smuggled_term hub x p name k v k' v'). Qed.
Print Assumptions C99_values_stay_values_refuted.

(** matchExpressions are not looked at; here those that ask for a key to be there. *)
Theorem C99_expressions_count_refuted : ~ forall hub x p name, follows hub x p name = true -> Forall (fun k => has_key k p) (tr_expr x).
Proof.
  intros H. set (x := Trace (t "all") (t "default") ∅ [t "app"] ∅ [] [t "execve"] 0). set (p := Pod (t "web") (t "default") ∅ ∅).
  assert (F : follows (server_observer [] [] []) x p (t "main") = true).
  { apply followed_iff; [intros k v E; discriminate E|intros k v E; discriminate E|]. split; [by right|]. split; [intros k v E; discriminate E|]. split; [intros k v E; discriminate E|by left]. }
  pose proof (H _ _ _ _ F) as E. apply Forall_inv in E as (v & E). discriminate E.
Qed.
Print Assumptions C99_expressions_count_refuted.
(** ... whatever they are. *)
Theorem C99_expressions_do_not_matter hub x x' p name : tr_ns x = tr_ns x' -> tr_labels x = tr_labels x' -> tr_fields x = tr_fields x' -> tr_hosts x = tr_hosts x' ->
  follows hub x p name = follows hub x' p name.
Proof. intros E1 E2 E3 E4. unfold follows. rewrite !job_observes, E1, E2, E3. unfold host_matches. rewrite E4. reflexivity. Qed.
Print Assumptions C99_expressions_do_not_matter.

(** `swoll trace`: what it accepts as its labels and fields is what is followed. *)
Theorem C99_command_line hub args ns field sc x p name : trace_cmd args ns field sc = Some x -> (forall f v, tr_fields x !! f = Some v -> selectable f) ->
  (follows hub x p name = true <-> in_namespace ns p /\ has_labels (tr_labels x) p /\ has_fields (tr_fields x) p).
Proof.
  intros E S. destruct (trace_cmd_kube _ _ _ _ _ E) as (E1 & E2 & K1 & K2 & _). rewrite (followed_iff hub x p name K1 (kube_plain_fields _ K2 S)). unfold host_asked. rewrite E1, E2. tauto.
Qed.
Print Assumptions C99_command_line.
Theorem C99_labels_on_the_command_line m ns sc : kube_labels m -> exists x, trace_cmd [set_string m] ns [] sc = Some x /\ tr_labels x = m /\ tr_fields x = ∅ /\ tr_ns x = ns /\ tr_hosts x = [].
Proof. exact (pairs_arrive m ns sc). Qed.
Print Assumptions C99_labels_on_the_command_line.
(** But not one argument for each label. *)
Theorem C99_one_argument_for_each_label_refuted k v k' v' ns field sc : kube_key k -> kube_value v -> kube_key k' -> kube_value v' ->
  trace_cmd [k ++ t "=" ++ v; k' ++ t "=" ++ v'] ns field sc = None.
Proof. exact (two_arguments k v k' v' ns field sc). Qed.
Print Assumptions C99_one_argument_for_each_label_refuted.

(** `swoll top` shows running pods. *)
Theorem C99_top_sees cri cfg ns root m p : kube_labels m ->
  (observes_pod (top_observer cri cfg ns root (set_string m)) p = true <-> in_namespace ns p /\ has_labels m p /\ shows p (t "status.phase") (t "Running")).
Proof. exact (top_sees cri cfg ns root m p). Qed.
Print Assumptions C99_top_sees.

(** A trace with labels, a field and a container name. *)
Definition web_trace : trace := Trace (t "web") (t "default") {[t "app" := t "web"]} [] {[t "spec.nodeName" := t "node-1"]} [t "main"] [t "execve"] 0.
Definition web_pod (labels : gmap text text) : pod := Pod (t "web-0") (t "default") labels {[t "spec.nodeName" := t "node-1"]}.
Example C99_web_trace_is_fine : kube_labels (tr_labels web_trace) /\ plain_fields (tr_fields web_trace).
Proof.
  split.
  - intros k v E. cbn [tr_labels web_trace] in E. apply (lookup_singleton_Some (M := gmap text)) in E as [<- <-]. split; [by apply label_key_spec|by apply label_value_spec].
  - intros k v E. cbn [tr_fields web_trace] in E. apply (lookup_singleton_Some (M := gmap text)) in E as [<- <-]. split; [right; right; left; by left|]. by repeat constructor.
Qed.
Example C99_web_pod_is_followed : follows (server_observer [] [] []) web_trace (web_pod {[t "app" := t "web"]}) (t "main") = true
  /\ follows (server_observer [] [] []) web_trace (web_pod {[t "app" := t "db"]}) (t "main") = false
  /\ follows (server_observer [] [] []) web_trace (web_pod {[t "app" := t "web"]}) (t "proxy") = false.
Proof. vm_compute. repeat split. Qed.

(** ** C100 *)

(** The hub does not know the containers of pods that opt out. *)
Theorem C100_hub_does_not_know_them cri cfg ns root p :
  (observes_pod (trace_observer cri cfg ns root) p = true <-> in_namespace ns p /\ ~ opted_out p)
  /\ (observes_pod (server_observer cri cfg root) p = true <-> ~ opted_out p).
Proof.
  split; [exact (willing (trace_observer cri cfg ns root) p eq_refl eq_refl)|]. rewrite (willing (server_observer cri cfg root) p eq_refl eq_refl).
  split; [intros [_ H]; exact H|intros H; split; [left; reflexivity|exact H]].
Qed.
Print Assumptions C100_hub_does_not_know_them.

Lemma known_dec l ns : (exists c, LiveSpec.known l ns c) \/ forall c, ~ LiveSpec.known l ns c.
Proof.
  induction l as [|o l IH] using rev_ind; [right; intros c; apply known_nil|].
  destruct (decide (0 < ns)) as [P|P]; [|right; intros c (H & _); exact (P H)].
  assert (Keep : (forall start c, o = WPod start c -> ct_ns c <> ns) -> (exists c, LiveSpec.known (l ++ [o]) ns c) \/ forall c, ~ LiveSpec.known (l ++ [o]) ns c).
  { intros K. destruct IH as [(c & H)|H].
    - left. exists c. apply known_snoc. split; [exact P|]. right. split; [exact H|exact K].
    - right. intros c X. apply known_snoc in X as (_ & [[-> E]|[X _]]); [exact (K true c eq_refl E)|exact (H c X)]. }
  destruct o as [o su sc tr lost|start c'|start n|start c'|i]; try (apply Keep; intros; discriminate).
  destruct (decide (ct_ns c' = ns)) as [E|E]; [|apply Keep; intros s c [= <- <-]; exact E]. destruct start.
  - left. exists c'. apply known_snoc. split; [exact P|]. left. split; [reflexivity|exact E].
  - right. intros c X. apply known_snoc in X as (_ & [[[=] _]|[_ X]]). exact (X false c' eq_refl E).
Qed.
(** What `swoll trace` prints names a container of a pod that did not opt out, and is in
    the namespace asked for. *)
Theorem C100_lines_name_willing_pods : forall tbl id flag p tty w0 l w rs q k ps line cri cfg ns root x pods,
  go_table tbl -> start_world tbl = Some w0 -> Forall real l -> by_observers (trace_observer cri cfg ns root) x pods l ->
  wrun tbl (the_trace id flag) p tty w0 l = Some (w, rs) -> rs !! q = Some (URead k ps line) -> ps <> [] ->
  exists e su c pd out, sends l rs k e su /\ line = Some out /\ names_container tty c e su out /\ ct_ns c = ev_pidns e
    /\ pods pd /\ of_pod c pd /\ in_namespace ns pd /\ ~ opted_out pd.
Proof.
  intros tbl id flag p tty w0 l w rs q k ps line cri cfg ns root x pods G S F [BP _] R Hq Hps.
  destruct (C98_lines tbl id flag p tty w0 l w rs q k ps line G S F R Hq) as (e & su & _ & Hs & Hk & Hn & _).
  destruct (known_dec (take q l) (ev_pidns e)) as [(c & K)|N]; [|exfalso; apply Hps, Hn; intros c K; exact (N c K)].
  destruct (Hk c K) as (out & -> & Ho). destruct K as (_ & j & Hj & En & _).
  assert (X : WPod true c ∈ l).
  { apply elem_of_list_lookup. exists j. assert (is_Some (take q l !! j)) as L by (rewrite Hj; eauto). apply lookup_lt_is_Some in L. rewrite take_length in L. rewrite lookup_take in Hj by lia. exact Hj. }
  destruct (BP c X) as (pd & Hpd & Op & Ob). apply (proj1 (C100_hub_does_not_know_them cri cfg ns root pd)) in Ob as [Hns Hoo].
  exists e, su, c, pd, out. repeat (split; [assumption || reflexivity|]). exact Hoo.
Qed.
Print Assumptions C100_lines_name_willing_pods.

(** ** What does not hold *)

(** A pod that opts out, and one that does not, in the same namespace; and a trace of the
    first. *)
Definition quiet_pod : pod := Pod (t "web-0") (t "default") {[t "app" := t "web"; t "swoll" := t "false"]} ∅.
Definition other_pod : pod := Pod (t "db-0") (t "default") ∅ ∅.
Definition both (p : pod) : Prop := p = quiet_pod \/ p = other_pod.
Definition app_trace : trace := Trace [] (t "default") {[t "app" := t "web"]} [] ∅ [] [t "execve"] 0.
Definition own_observer : observer := trace_observer [] [] (t "default") [].
Definition quiet_container : container := Container "default" "web-0" "main" 5.
Definition other_container : container := Container "default" "db-0" "main" 5.
Lemma quiet_opts_out : opted_out quiet_pod.
Proof. unfold opted_out, quiet_pod. cbn [pd_labels]. vm_compute. reflexivity. Qed.
Lemma quiet_followed hub : observes_pod (job_observer hub app_trace) quiet_pod = true.
Proof. rewrite job_observes. vm_compute. reflexivity. Qed.
Lemma other_not_followed hub : observes_pod (job_observer hub app_trace) other_pod = false.
Proof. rewrite job_observes. vm_compute. reflexivity. Qed.
Lemma other_known : observes_pod own_observer other_pod = true.
Proof. apply (proj1 (C100_hub_does_not_know_them [] [] (t "default") [] other_pod)). split; [right; reflexivity|]. intros H. discriminate H. Qed.
Lemma names_differ : unique_names both.
Proof. intros p q [-> | ->] [-> | ->] E _; try reflexivity; discriminate E. Qed.
Lemma pre_fine pre : (pre = [WMatch true quiet_container] \/ pre = [WPod true other_container; WMatch true quiet_container]) ->
  Forall real pre /\ Forall observes pre /\ few_rules pre /\ reported pre 5 /\ reports pre 5 1 /\ by_observers own_observer app_trace both pre.
Proof.
  intros H. assert (BQ : exists p, both p /\ of_pod quiet_container p /\ observes_pod (job_observer own_observer app_trace) p = true)
    by (exists quiet_pod; split; [left; reflexivity|]; split; [split; reflexivity|apply quiet_followed]).
  assert (BO : exists p, both p /\ of_pod other_container p /\ observes_pod own_observer p = true) by (exists other_pod; split; [right; reflexivity|]; split; [split; reflexivity|exact other_known]).
  assert (FR : matched pre = [5] /\ metered pre = []) by (destruct H as [-> | ->]; split; reflexivity).
  split; [destruct H as [-> | ->]; repeat constructor; cbn; lia|]. split; [destruct H as [-> | ->]; repeat constructor|].
  split; [unfold few_rules; destruct FR as [-> ->]; rewrite size_one; change (size (list_to_set ([] : list Z) : gset Z)) with 0%nat; lia|].
  split; [destruct H as [-> | ->]; [exists 0%nat|exists 1%nat]; exists quiet_container; split; reflexivity|]. split.
  - destruct H as [-> | ->]; [exists [0%nat]|exists [1%nat]]; (split; [apply NoDup_singleton|]; split; [reflexivity|]; intros j; rewrite elem_of_list_singleton; split;
      [intros ->; exists quiet_container; split; reflexivity|]; intros (c & Hj & _)); [destruct j as [|j]|destruct j as [|[|j]]]; try discriminate Hj; reflexivity.
  - split; intros c X.
    + destruct H as [-> | ->]; repeat (apply elem_of_cons in X as [Y|X]; [try discriminate Y; injection Y as ->; try exact BO|]); apply not_elem_of_nil in X; contradiction.
    + destruct H as [-> | ->]; repeat (apply elem_of_cons in X as [Y|X]; [try discriminate Y; injection Y as ->; try exact BQ|]); apply not_elem_of_nil in X; contradiction.
Qed.
Lemma quiet_run pre : (pre = [WMatch true quiet_container] \/ pre = [WPod true other_container; WMatch true quiet_container]) ->
  exists w0 p w rs ps line, let l := (pre ++ [execs]) ++ [WRead 0] in
  start_world table = Some w0 /\ wrun table (the_trace "aaaaaaaa" []) p false w0 l = Some (w, rs) /\ Forall real l /\ none_stopped l /\ all_installed rs
  /\ by_observers own_observer app_trace both l
  /\ rs !! Datatypes.S (length pre) = Some (URead (length pre) ps line) /\ sends l rs (length pre) (KEvent 7 0 59 0 0 5 [] 0) nowhere
  /\ (LiveSpec.known pre 5 other_container -> for_trace ps = 1%nat).
Proof.
  intros H. destruct (pre_fine pre H) as (Fr & Fo & FR & Rp & Rn & [BP BM]). destruct (C98_starts table go_table_intro) as (w0 & S). destruct (start_hub _ _ S) as (h0 & H0 & E0).
  set (p := fun (_ : nat) (_ : trace_event) => Printer (fun _ _ _ => []) (fun _ => [])).
  destruct (exec_run table go_table_intro "aaaaaaaa" [] p false h0 H0 pre Fr Fo FR Rp default_asked default_names) as (w & rs & ps & line & R & AI & Hq & Se).
  exists w0, p, w, rs, ps, line. intros l. fold l in R, Se. rewrite <- E0 in R.
  assert (F : Forall real l).
  { unfold l. apply Forall_app. split; [apply Forall_app; split; [exact Fr|]|constructor; [exact Logic.I|constructor]]. constructor; [|constructor]. apply does_real. unfold fits, word, some_ns. cbn [t_pidns t_id]. lia. }
  assert (Em : forall o, (forall k, o <> WRead k) -> o <> execs -> o ∈ l -> o ∈ pre).
  { intros o N1 N2 X. unfold l in X. apply elem_of_app in X as [X|X]; [|apply elem_of_list_singleton in X; contradiction (N1 0%nat)]. apply elem_of_app in X as [X|X]; [exact X|]. apply elem_of_list_singleton in X. contradiction. }
  assert (NS : none_stopped l).
  { intros c X. apply Em in X; [|discriminate|discriminate]. destruct H as [-> | ->]; repeat (apply elem_of_cons in X as [Y|X]; [discriminate Y|]); apply not_elem_of_nil in X; contradiction. }
  split; [exact S|]. split; [exact R|]. split; [exact F|]. split; [exact NS|]. split; [exact AI|].
  split; [split; intros c X; (apply Em in X; [|discriminate|discriminate]); [exact (BP c X)|exact (BM c X)]|].
  split; [exact Hq|]. split; [exact (proj2 (Se _ _) (conj eq_refl eq_refl))|]. intros K.
  destruct (C98_lines table "aaaaaaaa" [] p false w0 l w rs _ _ ps line go_table_intro S F R Hq) as (e & su & _ & Hs & _ & _ & Hn).
  destruct (proj1 (Se e su) Hs) as [-> ->]. cbn [ev_pidns ev_nr] in Hn.
  assert (Tk : take (Datatypes.S (length pre)) l = pre ++ [execs]).
  { unfold l. rewrite take_app_alt; [reflexivity|]. rewrite app_length. cbn. lia. }
  rewrite Tk in Hn. destruct (Hn other_container 1%nat 1%nat) as [N _]; [|exact AI| |exact default_mentions|rewrite N; reflexivity].
  - apply known_snoc. split; [lia|]. right. split; [exact K|]. intros start c'. discriminate.
  - destruct Rn as (ks & Nd & Len & Hks). exists ks. split; [exact Nd|]. split; [exact Len|]. intros k. rewrite Hks. split; intros (c & Hk & E); exists c; (split; [|exact E]).
    + rewrite lookup_app_l; [exact Hk|]. apply lookup_lt_Some in Hk. exact Hk.
    + apply lookup_snoc in Hk as [Hk|[_ Hk]]; [exact Hk|discriminate Hk].
Qed.

(** The kernel is made to report calls of pods that opt out: only what it sends is thrown
    away. *)
Theorem C100_kernel_is_spared_refuted :
  ~ forall tbl id flag p tty w0 l w rs k e su hub x pods,
      go_table tbl -> start_world tbl = Some w0 -> Forall real l -> none_stopped l -> by_observers hub x pods l -> unique_names pods ->
      (forall c, WMatch true c ∈ l -> exists pd, pods pd /\ of_pod c pd /\ opted_out pd) ->
      wrun tbl (the_trace id flag) p tty w0 l = Some (w, rs) -> ~ sends l rs k e su.
Proof.
  intros H. destruct (quiet_run [WMatch true quiet_container] (or_introl eq_refl)) as (w0 & p & w & rs & ps & line & S & R & F & NS & AI & B & Hq & Se & _).
  refine (H table "aaaaaaaa" [] p false w0 _ w rs _ _ _ own_observer app_trace both go_table_intro S F NS B names_differ _ R Se).
  intros c X. exists quiet_pod. split; [left; reflexivity|]. cbn [app] in X. apply elem_of_cons in X as [Y|X]; [|repeat (apply elem_of_cons in X as [Y|X]; [discriminate Y|]); apply not_elem_of_nil in X; contradiction].
  injection Y as ->. split; [split; reflexivity|exact quiet_opts_out].
Qed.
Print Assumptions C100_kernel_is_spared_refuted.

(** If the pod shares its pid namespace with another, its calls are printed, as the
    other's. *)
Theorem C100_their_calls_are_not_shown_refuted :
  ~ forall tbl id flag p tty w0 l w rs q k ps line hub x pods,
      go_table tbl -> start_world tbl = Some w0 -> Forall real l -> none_stopped l -> by_observers hub x pods l -> unique_names pods ->
      (forall c, WMatch true c ∈ l -> exists pd, pods pd /\ of_pod c pd /\ opted_out pd) ->
      wrun tbl (the_trace id flag) p tty w0 l = Some (w, rs) -> rs !! q = Some (URead k ps line) -> for_trace ps = 0%nat.
Proof.
  intros H. destruct (quiet_run [WPod true other_container; WMatch true quiet_container] (or_intror eq_refl)) as (w0 & p & w & rs & ps & line & S & R & F & NS & AI & B & Hq & Se & Hk).
  assert (K : for_trace ps = 1%nat).
  { apply Hk. split; [lia|]. exists 0%nat. split; [reflexivity|]. split; [reflexivity|]. intros j start c' Hj E. destruct j as [|[|j]]; [lia|discriminate E|discriminate E]. }
  assert (Z0 : for_trace ps = 0%nat); [|rewrite K in Z0; discriminate Z0].
  refine (H table "aaaaaaaa" [] p false w0 _ w rs _ _ ps line own_observer app_trace both go_table_intro S F NS B names_differ _ R Hq).
  intros c X. exists quiet_pod. split; [left; reflexivity|]. cbn [app] in X. apply elem_of_cons in X as [Y|X]; [discriminate Y|].
  apply elem_of_cons in X as [Y|X]; [|repeat (apply elem_of_cons in X as [Y|X]; [discriminate Y|]); apply not_elem_of_nil in X; contradiction].
  injection Y as ->. split; [split; reflexivity|exact quiet_opts_out].
Qed.
Print Assumptions C100_their_calls_are_not_shown_refuted.
