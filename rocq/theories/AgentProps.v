(** C86 to C89: what becomes of a Trace resource on its way to the server. *)
From Coq Require Import ZArith String Ascii Bool Lia.
From stdpp Require Import base list numbers strings gmap.
From Verif Require Import HubModel ClientModel ClientSpec AgentModel AgentSpec AgentProofs AgentTop.
Local Open Scope Z_scope.

(** * C86: one endpoint and at most one host: the trace arrives as it was written *)
Theorem C86_trace_arrives e hp x u : clean e -> endpoint_text e hp -> proper x -> (length (tr_hosts x) <= 1)%nat ->
  stands_for x u [hp] (swoll (job_args [e] x u)).
Proof. exact (faithful e hp x u). Qed.
Print Assumptions C86_trace_arrives.
(** a list goes through the flags unchanged, whatever it holds, if its texts have no
    quotes, commas or line ends *)
Theorem C86_lists_survive_the_command_line l : clean_list l ->
  slice_set None (join [comma] l) = Some l /\ slice_get (Some l) = Some l.
Proof. exact (flag_list l). Qed.
Print Assumptions C86_lists_survive_the_command_line.
(** with a carriage return inside a text it stays too; a list that ends in one loses it,
    and what follows a line end is lost *)
Theorem C86_line_ends_survive_refuted a b : clean a -> clean b -> a <> [] ->
  (b <> [] -> slice_set None (a ++ cr :: b)%list = Some [(a ++ cr :: b)%list]) /\
  slice_set None (a ++ [cr])%list = Some [a] /\ slice_set None (a ++ cr :: lf :: b)%list = Some [a].
Proof. intros Ha Hb N. split; [exact (cr_inside a b Ha Hb)|]. split; [exact (cr_last a Ha N)|exact (cr_lf a b Ha N)]. Qed.
Print Assumptions C86_line_ends_survive_refuted.
(** a flag the command does not have is refused, with or without a value *)
Theorem C86_unknown_flags_are_refused f c n v rest : c <> "-"%char -> ~ In "="%char (c :: n) -> ~ In (c :: n) flag_names ->
  parse_args f ((t "--" ++ c :: n)%list :: rest) = None /\ parse_args f ((t "--" ++ (c :: n) ++ "="%char :: v)%list :: rest) = None.
Proof. intros N E. apply unknown_flag. exists c, n. split; [reflexivity|]. split; [exact N|exact E]. Qed.
Print Assumptions C86_unknown_flags_are_refused.
(** so does every map of valid labels *)
Theorem C86_labels_survive_the_command_line m : kube_labels m -> selector_map (set_string m) = Some m.
Proof. exact (set_string_selector m). Qed.
Print Assumptions C86_labels_survive_the_command_line.
(** no endpoints: the job ends well and has asked nobody *)
Theorem C86_no_endpoints_no_requests x u : proper x ->
  exists s, swoll (job_args [] x u) = Requests false [] (tr_ns x) (Some (tr_name x ++ "-"%char :: u)%list) s true.
Proof. exact (nowhere x u). Qed.
Print Assumptions C86_no_endpoints_no_requests.
(** invalid labels are not refused: a value can bring in a requirement of its own *)
Theorem C86_values_stay_values_refuted k v k' v' : kube_key k -> kube_value v -> kube_key k' -> kube_value v' -> k <> k' ->
  selector_map (set_string {[k := (v ++ comma :: k' ++ "="%char :: v')%list]}) = Some (<[k' := v']> {[k := v]}).
Proof. exact (smuggled k v k' v'). Qed.
Print Assumptions C86_values_stay_values_refuted.

Definition web : trace :=
  Trace (t "web") (t "prod") {[t "app" := t "nginx"]} [t "tier in (front)"] {[t "status.podIP" := t "10.0.0.1"]}
    [t "nginx"] [t "sys_open"; t "sys_execve"] 5.
Example kube_value_web : kube_value (t "nginx") /\ kube_value (t "10.0.0.1") /\ kube_key (t "app") /\ kube_key (t "status.podIP").
Proof. split; [|split; [|split]]; [apply label_value_spec|apply label_value_spec|apply label_key_spec|apply label_key_spec]; by vm_compute. Qed.
Lemma clean_check s : forallb (fun c => negb (Ascii.eqb c quote || Ascii.eqb c comma || Ascii.eqb c cr || Ascii.eqb c lf)) s = true -> clean s.
Proof.
  intros H. apply Forall_forall. intros c Hc%elem_of_list_In. rewrite forallb_forall in H. specialize (H c Hc). cbv beta in H.
  apply negb_true_iff in H. repeat apply orb_false_iff in H as [H ?]. by repeat split; apply Ascii.eqb_neq.
Qed.
Lemma single_labels (k v : text) : kube_key k -> kube_value v -> kube_labels {[k := v]}.
Proof. intros Hk Hv k' v' H. apply lookup_singleton_Some in H as [<- <-]. done. Qed.
Example web_proper : proper web.
Proof.
  destruct kube_value_web as (V1 & V2 & K1 & K2). split.
  - done.
  - split; [|done]. repeat (constructor; [by apply clean_check|]). constructor.
  - split; [|done]. repeat (constructor; [by apply clean_check|]). constructor.
  - by apply single_labels.
  - by apply single_labels.
Qed.
Example local_endpoint : endpoint_text (t "swoll.local:9095") (t "swoll.local", 9095).
Proof. by apply (node_v4 (t "swoll.local") []), (ClientTop.cut_none ":" _ []). Qed.
Example C86_nonvacuous : proper web /\ clean (t "swoll.local:9095") /\
  swoll (job_args [t "swoll.local:9095"] web (t "u1")) =
  Requests false [(t "swoll.local", 9095)] (t "prod") (Some (t "web-u1"))
    (Spec [t "sys_open"; t "sys_execve"] [(t "app", t "nginx")] [(t "status.podIP", t "10.0.0.1")] [t "nginx"]) true.
Proof.
  assert (clean (t "swoll.local:9095")) as C by (by apply clean_check). split; [exact web_proper|]. split; [exact C|].
  assert (S := C86_trace_arrives _ _ web (t "u1") C local_endpoint web_proper ltac:(cbn; lia)). unfold stands_for in S.
  rewrite S. cbn [tr_labels tr_fields web]. by rewrite !(map_to_list_singleton (M := gmap text)).
Qed.

(** * C87: with several servers nothing is traced *)
Theorem C87_several_endpoints_refuted a b l x u : Forall clean (a :: b :: l) -> In ":"%char a ->
  swoll (job_args (a :: b :: l) x u) = Fatal.
Proof. exact (several_endpoints a b l x u). Qed.
Print Assumptions C87_several_endpoints_refuted.
(** endpoints found from two nodes or more, whatever the trace *)
Theorem C87_several_nodes_refuted nodes eps x u : (2 <= length nodes)%nat -> Forall (Forall clean) nodes -> find_endpoints [] nodes = Some eps ->
  swoll (job_args eps x u) = Fatal.
Proof. exact (two_nodes nodes eps x u). Qed.
Print Assumptions C87_several_nodes_refuted.
(** a node whose first address is an IPv6 one *)
Theorem C87_ipv6_node_refuted a r x u : clean a -> In ":"%char a -> exists eps, find_endpoints [] [a :: r] = Some eps /\ swoll (job_args eps x u) = Fatal.
Proof. exact (node_v6 a r x u). Qed.
Print Assumptions C87_ipv6_node_refuted.
(** the search, made if the flag gives no endpoints, panics exactly if some node has no address *)
Theorem C87_search_panics_iff flag nodes : find_endpoints flag nodes = None <-> flag = [] /\ [] ∈ nodes.
Proof.
  destruct flag as [|f flag].
  - assert (H := nodes_panic nodes). split; [intros E; split; [done|by apply H]|intros [_ E]; by apply H].
  - split; [intros E; discriminate E|intros [E _]; discriminate E].
Qed.
Print Assumptions C87_search_panics_iff.
(** and else takes the first address of every node, in order, with the default port *)
Theorem C87_search_finds flag nodes eps : find_endpoints flag nodes = Some eps <->
  (flag <> [] /\ eps = flag) \/
  (flag = [] /\ Forall2 (fun n e => exists a r, n = a :: r /\ e = (a ++ t ":9095")%list) nodes eps).
Proof.
  destruct flag as [|f flag].
  - assert (H := nodes_endpoints nodes eps). split; [intros E; right; split; [done|by apply H]|intros [[E _]|[_ E]]; [done|by apply H]].
  - split; [intros [= <-]; by left|intros [[_ ->]|[E _]]; [done|discriminate E]].
Qed.
Print Assumptions C87_search_finds.
(** a cluster of one node with a name or an IPv4 address works *)
Theorem C87_one_node_works a r x u : clean a -> ~ In ":"%char a -> proper x -> (length (tr_hosts x) <= 1)%nat ->
  exists eps, find_endpoints [] [a :: r] = Some eps /\ stands_for x u [(a, 9095)] (swoll (job_args eps x u)).
Proof.
  intros Hc Ha Hp Hh. destruct (node_v4 a r Ha) as [E He]. exists [(a ++ t ":9095")%list]. split; [exact E|].
  apply (faithful _ (a, 9095)); [|exact He|exact Hp|exact Hh]. apply Forall_app. split; [exact Hc|exact colon_clean].
Qed.
Print Assumptions C87_one_node_works.
Example C87_nonvacuous :
  find_endpoints [] [[t "10.0.0.1"; t "node-1"]; [t "10.0.0.2"]] = Some [t "10.0.0.1:9095"; t "10.0.0.2:9095"] /\
  swoll (job_args [t "10.0.0.1:9095"; t "10.0.0.2:9095"] web (t "u1")) = Fatal /\
  find_endpoints [] [[t "10.0.0.1"]; []] = None.
Proof.
  split; [reflexivity|]. split; [|reflexivity]. apply C87_several_endpoints_refuted.
  - repeat (constructor; [by apply clean_check|]). constructor.
  - vm_compute. tauto.
Qed.

(** * C88: with several hosts nothing is seen *)
Theorem C88_several_hosts_refuted e hp x u : clean e -> endpoint_text e hp -> proper x -> (2 <= length (tr_hosts x))%nat ->
  exists s, swoll (job_args [e] x u) = Requests false [hp] (tr_ns x) (Some (tr_name x ++ "-"%char :: u)%list) s true /\
    forall id name, ~ In comma name -> host_selected (hub_job s id) (text_string name) = false.
Proof. exact (several_hosts e hp x u). Qed.
Print Assumptions C88_several_hosts_refuted.
(** up to one host: the containers of that name, or all of them *)
Theorem C88_one_host_works e hp x u : clean e -> endpoint_text e hp -> proper x -> (length (tr_hosts x) <= 1)%nat ->
  exists s, swoll (job_args [e] x u) = Requests false [hp] (tr_ns x) (Some (tr_name x ++ "-"%char :: u)%list) s true /\
    forall id name, host_selected (hub_job s id) (text_string name) = true <-> tr_hosts x = [] \/ In name (tr_hosts x).
Proof.
  intros Hc He Hp Hh. eexists. split; [exact (faithful e hp x u Hc He Hp Hh)|]. intros id name. exact (host_selected_spec _ id name).
Qed.
Print Assumptions C88_one_host_works.
Definition web2 : trace :=
  Trace (t "web") (t "prod") ∅ [] ∅ [t "nginx"; t "envoy"] [t "sys_open"] 0.
Example web2_proper : proper web2.
Proof.
  split; [done| | | |].
  - split; [|done]. repeat (constructor; [by apply clean_check|]). constructor.
  - split; [|done]. repeat (constructor; [by apply clean_check|]). constructor.
  - intros k v H. change (tr_labels web2) with (∅ : gmap text text) in H. by rewrite lookup_empty in H.
  - intros k v H. change (tr_fields web2) with (∅ : gmap text text) in H. by rewrite lookup_empty in H.
Qed.
Example C88_nonvacuous : proper web2 /\ exists s,
  swoll (job_args [t "swoll.local:9095"] web2 (t "u1")) = Requests false [(t "swoll.local", 9095)] (t "prod") (Some (t "web-u1")) s true /\
  host_selected (hub_job s "j") "nginx" = false /\ host_selected (hub_job s "j") "envoy" = false.
Proof.
  assert (clean (t "swoll.local:9095")) as C by (by apply clean_check). split; [exact web2_proper|].
  destruct (C88_several_hosts_refuted _ _ web2 (t "u1") C local_endpoint web2_proper ltac:(cbn; lia)) as (s & E & H).
  exists s. split; [exact E|]. split.
  - apply (H "j"%string (t "nginx")), (ClientTop.cut_none comma _ []). by vm_compute.
  - apply (H "j"%string (t "envoy")), (ClientTop.cut_none comma _ []). by vm_compute.
Qed.

(** * C89: the job resource *)
(** the trace of every valid name runs: only without dots and up to 60 characters *)
Theorem C89_every_trace_runs_refuted x : kube_domain (tr_name x) ->
  job_accepted x = true <-> ~ In "."%char (tr_name x) /\ (length (tr_name x) <= 60)%nat.
Proof. exact (accepted_iff x). Qed.
Print Assumptions C89_every_trace_runs_refuted.
(** the agents' own pods are meant to be left out of every trace (swoll=false): they are not *)
Theorem C89_agents_untraced_refuted x : differs (pod_labels x) (t "swoll") (t "false").
Proof. exact (own_pods x). Qed.
Print Assumptions C89_agents_untraced_refuted.
(** match expressions and the sample rate have no effect *)
Theorem C89_expressions_arrive_refuted eps x x' u : tr_name x = tr_name x' -> tr_ns x = tr_ns x' -> tr_labels x = tr_labels x' -> tr_fields x = tr_fields x' ->
  tr_hosts x = tr_hosts x' -> tr_syscalls x = tr_syscalls x' -> job_args eps x u = job_args eps x' u.
Proof. exact (expressions_lost eps x x' u). Qed.
Print Assumptions C89_expressions_arrive_refuted.
Example C89_nonvacuous : kube_domain (t "web") /\ kube_domain (t "web.v2") /\ job_accepted web = true /\
  job_accepted (Trace (t "web.v2") (t "prod") ∅ [] ∅ [] [] 0) = false /\
  job_args [] web (t "u1") = job_args [] (Trace (t "web") (t "prod") {[t "app" := t "nginx"]} [] {[t "status.podIP" := t "10.0.0.1"]} [t "nginx"] [t "sys_open"; t "sys_execve"] 0) (t "u1").
Proof.
  assert (kube_domain (t "web")) as D1 by (apply dns_subdomain_spec; by vm_compute).
  assert (kube_domain (t "web.v2")) as D2 by (apply dns_subdomain_spec; by vm_compute).
  split; [exact D1|]. split; [exact D2|]. split; [|split].
  - apply (C89_every_trace_runs_refuted web D1). split; [|cbn; lia]. apply (ClientTop.cut_none "." _ []). by vm_compute.
  - apply not_true_iff_false. intros H. apply (C89_every_trace_runs_refuted (Trace _ _ _ _ _ _ _ _) D2) in H as [H _].
    apply H. vm_compute. tauto.
  - by apply C89_expressions_arrive_refuted.
Qed.
