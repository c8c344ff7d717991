(** From the trace to the requests (AgentModel.v). *)
From Coq Require Import ZArith String Ascii Bool Lia.
From stdpp Require Import base list sorting numbers strings gmap.
From Verif Require Import CodecModel JsonModel ClientModel ClientSpec ClientProofs ClientTop HubModel AgentModel AgentSpec AgentProofs.
Local Open Scope Z_scope.

(** * The arguments, read back *)
Definition agent_flags (e s h : list text) (x : trace) (u : text) : flags :=
  Flags (Some e) (Some s) (Some h) false true (t "json") (tr_ns x) [] (job_id x u) (set_string (tr_labels x)) (set_string (tr_fields x)).
Lemma swoll_job eps x u : swoll (job_args eps x u) =
  match slice_set None ([quote] ++ join [comma] eps ++ [quote])%list with
  | None => Fatal
  | Some e =>
      match slice_set None (join [comma] (job_syscalls x)) with
      | None => Fatal
      | Some s =>
          match slice_set None ([quote] ++ join [comma] (tr_hosts x) ++ [quote])%list with
          | None => Fatal
          | Some h => create_cmd (agent_flags e s h x u)
          end
      end
  end.
Proof.
  assert (forall f v rest, parse_args f (t "--endpoints" :: v :: rest) =
    match slice_set (g_endpoints f) v with None => None | Some e => parse_args (Flags (Some e) (g_syscalls f) (g_hosts f) (g_tls f) (g_oneshot f) (g_output f) (g_ns f) (g_file f) (g_jobid f) (g_labels f) (g_fields f)) rest end) as E1.
  { intros [] v rest. change (parse_args ?f (t "--endpoints" :: v :: rest)) with (match set_flag f (t "endpoints") v with Some f0 => parse_args f0 rest | None => None end).
    unfold set_flag. change (text_eqb (t "endpoints") (t "endpoints")) with true. cbn iota. cbn [AgentModel.g_endpoints]. by destruct (slice_set _ v). }
  assert (forall f v rest, parse_args f (t "--syscalls" :: v :: rest) =
    match slice_set (g_syscalls f) v with None => None | Some s => parse_args (Flags (g_endpoints f) (Some s) (g_hosts f) (g_tls f) (g_oneshot f) (g_output f) (g_ns f) (g_file f) (g_jobid f) (g_labels f) (g_fields f)) rest end) as E2.
  { intros [] v rest. change (parse_args ?f (t "--syscalls" :: v :: rest)) with (match set_flag f (t "syscalls") v with Some f0 => parse_args f0 rest | None => None end).
    unfold set_flag. change (text_eqb (t "syscalls") (t "endpoints")) with false. change (text_eqb (t "syscalls") (t "syscalls")) with true. cbn iota. cbn [AgentModel.g_syscalls]. by destruct (slice_set _ v). }
  assert (forall f v rest, parse_args f (t "--match-hosts" :: v :: rest) =
    match slice_set (g_hosts f) v with None => None | Some h => parse_args (Flags (g_endpoints f) (g_syscalls f) (Some h) (g_tls f) (g_oneshot f) (g_output f) (g_ns f) (g_file f) (g_jobid f) (g_labels f) (g_fields f)) rest end) as E3.
  { intros [] v rest. change (parse_args ?f (t "--match-hosts" :: v :: rest)) with (match set_flag f (t "match-hosts") v with Some f0 => parse_args f0 rest | None => None end).
    unfold set_flag. change (text_eqb (t "match-hosts") (t "endpoints")) with false. change (text_eqb (t "match-hosts") (t "syscalls")) with false.
    change (text_eqb (t "match-hosts") (t "match-hosts")) with true. cbn iota. cbn [AgentModel.g_hosts]. by destruct (slice_set _ v). }
  unfold swoll, job_args. change (text_eqb (t "client") (t "client") && text_eqb (t "create") (t "create")) with true. cbn iota.
  rewrite E1. cbn [g_endpoints no_flags]. destruct (slice_set None ([quote] ++ join [comma] eps ++ [quote])%list) as [e|]; [|done].
  rewrite E2. cbn [g_syscalls no_flags]. destruct (slice_set None (join [comma] (job_syscalls x))) as [s|]; [|done].
  rewrite E3. cbn [g_hosts no_flags]. destruct (slice_set None ([quote] ++ join [comma] (tr_hosts x) ++ [quote])%list) as [h|]; [|done].
  reflexivity.
Qed.

Lemma clean_syscalls x : clean_list (tr_syscalls x) -> clean_list (job_syscalls x).
Proof.
  unfold job_syscalls. destruct (tr_syscalls x) as [|a l]; [|done]. intros _. split; [|done].
  constructor; [|constructor]. apply Forall_forall. intros c Hc. repeat (apply elem_of_cons in Hc as [-> |Hc]; [by vm_compute|]). by apply elem_of_nil in Hc.
Qed.
Lemma job_syscalls_some x : exists a l, job_syscalls x = a :: l.
Proof. unfold job_syscalls. destruct (tr_syscalls x) as [|a l]; eauto. Qed.

(** what the job does, for any lists of endpoints and hosts *)
Definition as_one (l : list text) : list text := match join [comma] l with [] => [] | s => [s] end.
Lemma job_does eps x u : Forall clean eps -> proper x ->
  swoll (job_args eps x u) =
  match parse_endpoints (as_one eps) with
  | PErr => Fatal | PPanic => Crash
  | Parsed l => Requests false l (tr_ns x) (Some (tr_name x ++ "-"%char :: u)%list)
      (Spec (job_syscalls x) (map_to_list (tr_labels x)) (map_to_list (tr_fields x)) (as_one (tr_hosts x))) true
  end.
Proof.
  intros He [Hns Hsc Hh Hl Hf]. rewrite swoll_job.
  destruct (flag_quoted eps He) as [E1 E1']. destruct (flag_list _ (clean_syscalls x Hsc)) as [E2 E2'].
  destruct (flag_quoted (tr_hosts x) (proj1 Hh)) as [E3 E3']. rewrite E1, E2, E3. unfold create_cmd, agent_flags.
  cbn [g_endpoints g_syscalls g_hosts g_ns g_labels g_fields g_jobid g_tls g_oneshot].
  rewrite E1'. fold (as_one eps). destruct (parse_endpoints (as_one eps)) as [l| |]; [|done|done].
  destruct (tr_ns x) as [|n ns]; [done|]. rewrite E2', E3'. fold (as_one (tr_hosts x)).
  destruct (selector_spec _ Hl) as (ol & -> & Hol & Hol'). destruct (selector_spec _ Hf) as (of & -> & Hof & Hof').
  destruct (job_syscalls_some x) as (a & r & Ea).
  assert (job_id x u = (tr_name x ++ "-"%char :: u)%list) as Ej by done.
  assert ((match job_id x u with [] => None | j => Some j end) = Some (tr_name x ++ "-"%char :: u)%list) as ->.
  { rewrite Ej. by destruct (tr_name x). }
  f_equal. unfold spec_of. cbn [f_file f_syscalls f_labels f_fields f_hosts]. rewrite Ea.
  change (default (Spec [] [] [] []) None) with (Spec [] [] [] []). cbv zeta. cbn [s_syscalls s_labels s_fields s_hosts].
  assert (default [] ol = map_to_list (tr_labels x)) as Hol2 by done. assert (default [] of = map_to_list (tr_fields x)) as Hof2 by done.
  destruct ol as [lv|], of as [fv|]; cbn [s_syscalls s_labels s_fields s_hosts] in *;
    change (default [] (Some ?v)) with v in *; change (default [] (@None ?T)) with (@nil (text * text)) in *;
    rewrite <- ?Hol2, <- ?Hof2; destruct (as_one (tr_hosts x)); done.
Qed.
Lemma as_one_single a : a <> [] -> as_one [a] = [a].
Proof. unfold as_one. cbn [join]. by destruct a. Qed.
Lemma endpoint_nonempty e hp : endpoint_text e hp -> e <> [].
Proof. intros (p & -> & _). by destruct (hp.1). Qed.

(** one endpoint and at most one host *)
Lemma faithful e hp x u : clean e -> endpoint_text e hp -> proper x -> (length (tr_hosts x) <= 1)%nat ->
  stands_for x u [hp] (swoll (job_args [e] x u)).
Proof.
  intros Hc He Hp Hh. rewrite job_does; [|by repeat constructor|done]. rewrite as_one_single by (by eapply endpoint_nonempty).
  assert (parse_endpoints [e] = Parsed [hp]) as -> by (apply endpoints_parsed; by repeat constructor).
  unfold stands_for. repeat f_equal. destruct Hp as [_ _ [_ N] _ _]. destruct (tr_hosts x) as [|h [|h' l]]; [done| |cbn in Hh; lia].
  apply as_one_single. congruence.
Qed.
(** no endpoint *)
Lemma nowhere x u : proper x -> exists s, swoll (job_args [] x u) = Requests false [] (tr_ns x) (Some (tr_name x ++ "-"%char :: u)%list) s true.
Proof. intros Hp. rewrite job_does; [|constructor|done]. eexists. reflexivity. Qed.

(** * Several endpoints *)
Lemma number_chars p n c : number_text p n -> In c p -> (48 <= code c <= 57)%nat \/ c = "+"%char \/ c = "-"%char.
Proof.
  intros (_ & ds & _ & Hd & H) Hc. rewrite Forall_forall in Hd. assert (In c ds \/ c = "+"%char \/ c = "-"%char) as [I|I].
  { destruct H as [[[-> | ->] _]|[-> _]]; [by left|destruct Hc as [<-|Hc]; tauto..]. }
  - left. apply Hd. by apply elem_of_list_In.
  - tauto.
Qed.
Lemma atoi_bad p c : In c p -> c = comma \/ c = ":"%char -> atoi (String.string_of_list_ascii p) = None.
Proof.
  intros I Hc. apply atoi_none. intros n Hn. destruct (number_chars p n c Hn I) as [H|H].
  - destruct Hc as [-> | ->]; vm_compute in H; lia.
  - destruct Hc as [-> | ->], H; done.
Qed.
Lemma parse_bad e c h p : cut ":" [] e = Some (h, p) -> In c p -> c = comma \/ c = ":"%char -> parse_endpoints [e] = PErr.
Proof. intros E I Hc. cbn [parse_endpoints]. by rewrite E, (atoi_bad p c I Hc). Qed.
Lemma first_colon e : In ":"%char e -> exists h p, e = (h ++ ":"%char :: p)%list /\ ~ In ":"%char h.
Proof.
  induction e as [|c e IH]; [done|]. intros H. destruct (Ascii.ascii_dec c ":") as [->|N].
  - exists [], e. split; [done|]. by intros [].
  - destruct H as [H|H]; [done|]. destruct (IH H) as (h & p & -> & Hh). exists (c :: h), p. split; [done|].
    intros [E|I]; done.
Qed.
Lemma endpoints_fatal eps x u e : as_one eps = [e] -> Forall clean eps -> parse_endpoints [e] = PErr -> swoll (job_args eps x u) = Fatal.
Proof.
  intros Ea He Hp. rewrite swoll_job. destruct (flag_quoted eps He) as [E1 E1']. rewrite E1.
  destruct (slice_set None (join [comma] (job_syscalls x))); [|done]. destruct (slice_set None ([quote] ++ join [comma] (tr_hosts x) ++ [quote])%list); [|done].
  unfold create_cmd, agent_flags. cbn [g_endpoints]. rewrite E1'. fold (as_one eps). rewrite Ea, Hp. reflexivity.
Qed.
Lemma several_endpoints a b l x u : Forall clean (a :: b :: l) -> In ":"%char a ->
  swoll (job_args (a :: b :: l) x u) = Fatal.
Proof.
  intros Hc Ha. destruct (first_colon a Ha) as (h & p & -> & Hh).
  set (r := join [comma] (b :: l)).
  apply (endpoints_fatal _ x u (h ++ ":"%char :: p ++ comma :: r)%list); [|done|].
  - unfold as_one. change (join [comma] ((h ++ ":"%char :: p) :: b :: l))%list with ((h ++ ":"%char :: p) ++ comma :: r)%list.
    rewrite <- app_assoc. cbn [app]. by destruct h.
  - apply (parse_bad _ comma h (p ++ comma :: r)%list); [|apply in_or_app; right; by left|by left].
    apply cut_some. exists h. done.
Qed.
(** * Endpoints from nodes *)
Lemma nodes_panic nodes : node_endpoints nodes = None <-> [] ∈ nodes.
Proof.
  induction nodes as [|[|a as_] nodes IH]; cbn [node_endpoints].
  - split; [done|]. by intros H%elem_of_nil.
  - split; [by left|done].
  - rewrite elem_of_cons. destruct (node_endpoints nodes) as [l|].
    + split; [done|]. intros [H|H]; [done|]. by apply IH in H.
    + split; [|done]. intros _. right. by apply IH.
Qed.
Lemma nodes_endpoints nodes eps : node_endpoints nodes = Some eps <->
  Forall2 (fun n e => exists a r, n = a :: r /\ e = (a ++ t ":9095")%list) nodes eps.
Proof.
  revert eps. induction nodes as [|n nodes IH]; intros eps; cbn [node_endpoints].
  - split; [intros [= <-]; constructor|]. intros H. by inversion H.
  - destruct n as [|a r].
    + split; [done|]. intros H. inversion H as [|? ? ? ? (a & r & ? & _)]; done.
    + destruct (node_endpoints nodes) as [l|] eqn:E.
      * split.
        -- intros [= <-]. constructor; [eauto|]. by apply IH.
        -- intros H. inversion H as [|? e ? eps' (a' & r' & Ha & ->) Hr]; subst. injection Ha as <- <-. apply IH in Hr. by injection Hr as ->.
      * split; [done|]. intros H. inversion H as [|? e ? eps' _ Hr]; subst. by apply IH in Hr.
Qed.
Lemma colon_clean : clean (t ":9095").
Proof. apply Forall_forall. intros c Hc. repeat (apply elem_of_cons in Hc as [-> |Hc]; [by vm_compute|]). by apply elem_of_nil in Hc. Qed.
Lemma two_nodes nodes eps x u : (2 <= length nodes)%nat -> Forall (Forall clean) nodes -> find_endpoints [] nodes = Some eps ->
  swoll (job_args eps x u) = Fatal.
Proof.
  intros Hn Hc He. cbn [find_endpoints] in He. apply nodes_endpoints in He.
  assert (Forall clean eps) as Hce.
  { clear Hn. induction He as [|n e nodes eps (a & r & -> & ->) _ IH]; [constructor|]. apply Forall_cons in Hc as [Ha Hc]. constructor; [|by apply IH].
    apply Forall_app. split; [by apply Forall_cons in Ha as [Ha _]|apply colon_clean]. }
  destruct He as [|n1 e1 nodes1 eps1 (a & r & -> & ->) He]; [cbn in Hn; lia|]. destruct He as [|n2 e2 nodes2 eps2 _ He]; [cbn in Hn; lia|].
  apply several_endpoints; [done|]. apply in_or_app. right. by left.
Qed.
Lemma node_v6 a r x u : clean a -> In ":"%char a -> exists eps, find_endpoints [] [a :: r] = Some eps /\ swoll (job_args eps x u) = Fatal.
Proof.
  intros Hc Ha. eexists. split; [reflexivity|]. destruct (first_colon a Ha) as (h & p & -> & Hh).
  apply (endpoints_fatal _ x u ((h ++ ":"%char :: p) ++ t ":9095")%list).
  - apply as_one_single. by destruct h.
  - constructor; [|constructor]. apply Forall_app. split; [done|apply colon_clean].
  - apply (parse_bad _ ":" h (p ++ t ":9095")%list); [|apply in_or_app; right; by left|by right].
    apply cut_some. exists h. split; [done|]. split; [|done]. by rewrite <- app_assoc.
Qed.
Lemma node_v4 a r : ~ In ":"%char a -> find_endpoints [] [a :: r] = Some [(a ++ t ":9095")%list] /\ endpoint_text (a ++ t ":9095")%list (a, 9095).
Proof.
  intros Ha. split; [done|]. exists (t "9095"). split; [done|]. split; [exact Ha|]. apply atoi_iff. by vm_compute.
Qed.

(** * Several hosts *)
Lemma text_string_inj a b : text_string a = text_string b -> a = b.
Proof. intros H. rewrite <- (String.list_ascii_of_string_of_list_ascii a), <- (String.list_ascii_of_string_of_list_ascii b). by f_equal. Qed.
Lemma host_selected_spec s id name : host_selected (hub_job s id) (text_string name) = true <-> s_hosts s = [] \/ In name (s_hosts s).
Proof.
  unfold host_selected, hub_job. cbn [j_hosts]. destruct (s_hosts s) as [|h l]; [split; [by left|done]|].
  change (existsb (String.eqb (text_string name)) (map text_string (h :: l)) = true <-> h :: l = [] \/ In name (h :: l)).
  rewrite existsb_exists. split.
  - intros (y & I & E). apply String.eqb_eq in E. apply in_map_iff in I as (z & <- & I). apply text_string_inj in E. subst. by right.
  - intros [H|H]; [done|]. exists (text_string name). split; [by apply in_map|apply String.eqb_refl].
Qed.
Lemma several_hosts e hp x u : clean e -> endpoint_text e hp -> proper x -> (2 <= length (tr_hosts x))%nat ->
  exists s, swoll (job_args [e] x u) = Requests false [hp] (tr_ns x) (Some (tr_name x ++ "-"%char :: u)%list) s true /\
    forall id name, ~ In comma name -> host_selected (hub_job s id) (text_string name) = false.
Proof.
  intros Hc He Hp Hh. rewrite job_does; [|by repeat constructor|done]. rewrite as_one_single by (by eapply endpoint_nonempty).
  assert (parse_endpoints [e] = Parsed [hp]) as -> by (apply endpoints_parsed; by repeat constructor).
  eexists. split; [reflexivity|]. intros id name Hn. apply not_true_iff_false. rewrite host_selected_spec. cbn [s_hosts].
  destruct (tr_hosts x) as [|a [|b l]]; [cbn in Hh; lia..|]. unfold as_one.
  change (join [comma] (a :: b :: l)) with (a ++ comma :: join [comma] (b :: l))%list.
  destruct (a ++ comma :: join [comma] (b :: l))%list as [|c r] eqn:E; [by destruct a|]. intros [H|[H|[]]]; [done|].
  apply Hn. rewrite <- H, <- E. apply in_or_app. right. by left.
Qed.

(** * The job resource *)
Lemma insert_single (k v : text) : map_to_list (<[k := v]> (∅ : gmap text text)) = [(k, v)].
Proof. rewrite insert_empty. apply map_to_list_singleton. Qed.
Lemma pod_labels_single x : map_to_list (pod_labels x) = [(t "sw-job", tr_name x)].
Proof. exact (insert_single (t "sw-job") (tr_name x)). Qed.
Lemma dns_label_spec s : dns_label s = true <-> (length s <= 63)%nat /\ kube_label s.
Proof. unfold dns_label. by rewrite andb_true_iff, Nat.leb_le, dns_label_chars_spec. Qed.
Lemma kube_label_sw s : kube_label s -> kube_label (t "sw-" ++ s)%list.
Proof.
  assert (small "s") as S1 by (by apply lower_small). assert (small "w") as S2 by (by apply lower_small).
  intros [(c & -> & Hc)|(c & m & d & -> & Hc & Hd & Hm)]; right.
  - exists "s"%char, ["w"; "-"]%char, c. split; [done|]. split; [done|]. split; [done|]. constructor; [by left|]. constructor; [by right|constructor].
  - exists "s"%char, (["w"; "-"]%char ++ c :: m)%list, d. split; [reflexivity|]. split; [done|]. split; [done|].
    apply Forall_app. split; [constructor; [by left|]; constructor; [by right|constructor]|]. constructor; [by left|done].
Qed.
Lemma kube_label_value s : kube_label s -> (length s <= 63)%nat -> kube_value s.
Proof.
  intros H L. right. split; [done|]. destruct H as [(c & -> & Hc)|(c & m & d & -> & Hc & Hd & Hm)]; [left|right].
  - exists c. split; [done|by apply small_letter].
  - exists c, m, d. split; [done|]. split; [by apply small_letter|]. split; [by apply small_letter|]. eapply Forall_impl; [exact Hm|].
    intros y [Hy|Hy]; [left; by apply small_letter|tauto].
Qed.
Lemma dot_not_label s : In "."%char s -> ~ kube_label s.
Proof. intros I H. destruct (kube_label_in s _ H I) as [L|L]; [|done]. apply lower_small in L. by vm_compute in L. Qed.
Lemma accepted_iff x : kube_domain (tr_name x) -> job_accepted x = true <-> ~ In "."%char (tr_name x) /\ (length (tr_name x) <= 60)%nat.
Proof.
  intros (Hlen & parts & N & Hp & E). unfold job_accepted. rewrite pod_labels_single. cbn [forallb fst snd].
  change (label_key (t "sw-job")) with true. rewrite andb_true_r, andb_true_iff, dns_label_spec, andb_true_l, label_value_spec.
  unfold container_name. assert (length (t "sw-" ++ tr_name x)%list = (3 + length (tr_name x))%nat) as El by done. rewrite El. split.
  - intros [[H1 H2] _]. split; [|lia]. intros I. apply (dot_not_label (t "sw-" ++ tr_name x)%list); [|done]. apply in_or_app. by right.
  - intros [Hd H]. assert (kube_label (tr_name x)) as Hk.
    { destruct parts as [|a [|b l]]; [done| |].
      - apply Forall_cons in Hp as [Ha _]. by rewrite E.
      - exfalso. apply Hd. rewrite E. change (join ["."%char] (a :: b :: l)) with (a ++ "."%char :: join ["."%char] (b :: l))%list.
        apply in_or_app. right. by left. }
    split; [split; [lia|by apply kube_label_sw]|]. apply kube_label_value; [done|lia].
Qed.
Lemma own_pods x : differs (pod_labels x) (t "swoll") (t "false").
Proof. unfold differs, pod_labels. cbv zeta. by rewrite lookup_insert_ne by (by vm_compute). Qed.

(** * What else does not arrive *)
Lemma expressions_lost eps x x' u : tr_name x = tr_name x' -> tr_ns x = tr_ns x' -> tr_labels x = tr_labels x' -> tr_fields x = tr_fields x' ->
  tr_hosts x = tr_hosts x' -> tr_syscalls x = tr_syscalls x' -> job_args eps x u = job_args eps x' u.
Proof. intros E1 E2 E3 E4 E5 E6. unfold job_args, job_syscalls, job_id. by rewrite E1, E2, E3, E4, E5, E6. Qed.
Lemma nameish_no_comma c : nameish c -> c <> comma.
Proof. intros Hc. apply (nameish_not c comma Hc), not_nameish; done. Qed.
Lemma smuggled k v k' v' : kube_key k -> kube_value v -> kube_key k' -> kube_value v' -> k <> k' ->
  selector_map (set_string {[k := (v ++ comma :: k' ++ "="%char :: v')%list]}) = Some (<[k' := v']> {[k := v]}).
Proof.
  intros Hk Hv Hk' Hv' N. unfold set_string. rewrite (map_to_list_singleton (M := gmap text)). cbn [map].
  assert (merge_sort text_le [pair_text (k, v ++ comma :: k' ++ "="%char :: v')%list] = [pair_text (k, v ++ comma :: k' ++ "="%char :: v')%list]) as -> by done.
  cbn [join]. assert (pair_text (k, (v ++ comma :: k' ++ "="%char :: v')%list) = (pair_text (k, v) ++ comma :: pair_text (k', v'))%list) as E.
  { unfold pair_text. cbn [fst snd]. rewrite <- app_assoc. done. }
  rewrite E. unfold selector_map. assert (forall l : text, (match (pair_text (k, v) ++ l)%list with [] => Some (∅ : gmap text text) | _ :: _ => pairs_of (split_on comma [] (pair_text (k, v) ++ l)%list) ∅ end) = pairs_of (split_on comma [] (pair_text (k, v) ++ l)%list) ∅) as -> by (intros l; unfold pair_text; cbn [fst snd]; by destruct k).
  assert (forall a b, kube_key a -> kube_value b -> ~ In comma (pair_text (a, b))) as Nc.
  { intros a b Ha Hb I. unfold pair_text in I. cbn [fst snd] in I. apply in_app_or in I as [I|I]; [by apply (nameish_no_comma _ (kube_key_in _ _ Ha I))|].
    apply in_app_or in I as [[X|[]]|I]; [by vm_compute in X|by apply (nameish_no_comma _ (kube_value_in _ _ Hb I))]. }
  rewrite split_on_sep by auto. rewrite split_on_none by auto. cbn [app].
  change [pair_text (k, v); pair_text (k', v')] with (map pair_text [(k, v); (k', v')]). rewrite pairs_of_spec; [|constructor; [done|]; constructor; [done|]; constructor].
  done.
Qed.

(** * Other arguments *)
Lemma set_unknown f n v : ~ In n flag_names -> set_flag f n v = None.
Proof.
  intros H. unfold flag_names in H. cbn [map In] in H. destruct f. unfold set_flag.
  repeat (match goal with |- context [text_eqb n ?x] => destruct (text_eqb_spec n x) as [->|?]; [exfalso; apply H; tauto|] end). reflexivity.
Qed.
Lemma cut_here sep n : forall acc v, ~ In sep n -> cut sep acc (n ++ sep :: v)%list = Some ((acc ++ n)%list, v).
Proof.
  induction n as [|c n IH]; intros acc v H; cbn [cut app].
  - destruct (Ascii.eqb_spec sep sep); [|contradiction]. rewrite app_nil_r. reflexivity.
  - destruct (Ascii.eqb_spec c sep) as [->|]; [destruct H; left; reflexivity|]. rewrite IH by (intros I; apply H; right; exact I). rewrite <- app_assoc. reflexivity.
Qed.
Definition flag_like (n : text) : Prop := exists c r, n = c :: r /\ c <> "-"%char /\ ~ In "="%char n.
Lemma long_arg f n rest : flag_like n -> parse_args f ((t "--" ++ n)%list :: rest) =
  if is_bool n then match set_flag f n (t "true") with Some f => parse_args f rest | None => None end
  else match rest with v :: rest => match set_flag f n v with Some f => parse_args f rest | None => None end | [] => None end.
Proof.
  intros (c & r & -> & N & E). change (t "--" ++ c :: r)%list with ("-"%char :: "-"%char :: c :: r). 
  assert (C : cut "=" [] (c :: r) = None) by (apply cut_none; exact E).
  cbn [parse_args]. rewrite C. assert (Ne : c <> "="%char) by (intros ->; apply E; left; reflexivity).
  destruct c as [[] [] [] [] [] [] [] []]; try reflexivity; contradiction.
Qed.
Lemma long_arg_eq f n v rest : flag_like n -> parse_args f ((t "--" ++ n ++ "="%char :: v)%list :: rest) =
  match set_flag f n v with Some f => parse_args f rest | None => None end.
Proof.
  intros (c & r & -> & N & E). change (t "--" ++ (c :: r) ++ "="%char :: v)%list with ("-"%char :: "-"%char :: c :: (r ++ "="%char :: v)%list).
  assert (C : cut "=" [] (c :: (r ++ "="%char :: v))%list = Some (c :: r, v)) by exact (cut_here "=" (c :: r) [] v E).
  cbn [parse_args]. rewrite C. assert (Ne : c <> "="%char) by (intros ->; apply E; left; reflexivity).
  destruct c as [[] [] [] [] [] [] [] []]; try reflexivity; contradiction.
Qed.
Lemma unknown_flag f n v rest : flag_like n -> ~ In n flag_names ->
  parse_args f ((t "--" ++ n)%list :: rest) = None /\ parse_args f ((t "--" ++ n ++ "="%char :: v)%list :: rest) = None.
Proof.
  intros L H. rewrite long_arg, long_arg_eq by exact L. split; [|rewrite set_unknown by exact H; reflexivity].
  destruct (is_bool n); [rewrite set_unknown by exact H; reflexivity|]. destruct rest as [|v' rest]; [reflexivity|]. rewrite set_unknown by exact H. reflexivity.
Qed.

(** Carriage returns in a list. *)
Lemma newlines_app a s : ~ In cr a -> newlines (a ++ s)%list = (a ++ newlines s)%list.
Proof.
  induction a as [|c a IH]; intros H; [reflexivity|]. cbn [app newlines]. destruct (Ascii.eqb_spec c cr) as [->|N]; [destruct H; left; reflexivity|].
  rewrite IH by (intros I; apply H; right; exact I). reflexivity.
Qed.
Lemma record_bare s r : forall m cur, Forall (fun c => c <> quote /\ c <> comma /\ c <> lf) s -> m = AtStart \/ m = Bare ->
  record m cur (s ++ r)%list = record (match s with [] => m | _ => Bare end) (cur ++ s)%list r.
Proof.
  induction s as [|c s IH]; intros m cur H Hm; [rewrite app_nil_r; reflexivity|].
  apply Forall_cons in H as [(H1 & H2 & H4) H]. cbn [app record]. rewrite (eqb_ne _ _ H1), (eqb_ne _ _ H2), (eqb_ne _ _ H4).
  assert (record Bare (cur ++ [c]) (s ++ r) = record Bare (cur ++ c :: s) r)%list as E.
  { rewrite IH by (try assumption; right; reflexivity). rewrite <- app_assoc. cbn [app]. destruct s; reflexivity. }
  destruct Hm as [-> | ->]; exact E.
Qed.
Lemma clean_bare s : clean s -> Forall (fun c => c <> quote /\ c <> comma /\ c <> lf) s.
Proof. intros H. eapply Forall_impl; [exact H|]. intros c (A & B & _ & D). tauto. Qed.
Lemma skip_not c s : c <> lf -> skip_empty (c :: s) = c :: s.
Proof. exact (skip_empty_id c s). Qed.
Lemma bare_read s : s <> [] -> Forall (fun c => c <> quote /\ c <> comma /\ c <> lf) s -> match skip_empty s with [] => None | s => record AtStart [] s end = Some [s].
Proof.
  intros N H. destruct s as [|c s]; [contradiction|]. rewrite skip_not by (apply Forall_cons in H; tauto).
  pose proof (record_bare (c :: s) [] AtStart [] H (or_introl eq_refl)) as E. rewrite app_nil_r in E. rewrite E. reflexivity.
Qed.
Lemma cr_inside a b : clean a -> clean b -> b <> [] -> slice_set None (a ++ cr :: b)%list = Some [(a ++ cr :: b)%list].
Proof.
  intros Ha Hb N. unfold slice_set, read_as_csv. assert (X : (a ++ cr :: b)%list <> []) by (destruct a; discriminate).
  assert (R : csv_read (a ++ cr :: b)%list = Some [(a ++ cr :: b)%list]).
  { unfold csv_read. rewrite newlines_app by (apply clean_not; tauto).
    assert (E : newlines (cr :: b) = cr :: b).
    { destruct b as [|d b]; [contradiction|]. assert (D : d <> lf) by (apply Forall_cons in Hb; tauto). cbn [newlines]. change (Ascii.eqb cr cr) with true. cbn iota. rewrite (eqb_ne d lf D).
      f_equal. exact (newlines_id (d :: b) (clean_not cr (d :: b) Hb ltac:(tauto))). }
    rewrite E. apply bare_read; [exact X|]. apply Forall_app. split; [exact (clean_bare a Ha)|]. constructor; [split_and!; discriminate|exact (clean_bare b Hb)]. }
  destruct (a ++ cr :: b)%list; [contradiction|]. rewrite R. reflexivity.
Qed.
Lemma cr_last a : clean a -> a <> [] -> slice_set None (a ++ [cr])%list = Some [a].
Proof.
  intros Ha N. unfold slice_set, read_as_csv. assert (X : (a ++ [cr])%list <> []) by (destruct a; discriminate).
  assert (R : csv_read (a ++ [cr])%list = Some [a]).
  { unfold csv_read. rewrite newlines_app by (apply clean_not; tauto). cbn [newlines]. change (Ascii.eqb cr cr) with true. cbn iota. rewrite app_nil_r. exact (bare_read a N (clean_bare a Ha)). }
  destruct (a ++ [cr])%list; [contradiction|]. rewrite R. reflexivity.
Qed.
Lemma cr_lf a b : clean a -> a <> [] -> slice_set None (a ++ cr :: lf :: b)%list = Some [a].
Proof.
  intros Ha N. unfold slice_set, read_as_csv. assert (X : (a ++ cr :: lf :: b)%list <> []) by (destruct a; discriminate).
  assert (R : csv_read (a ++ cr :: lf :: b)%list = Some [a]).
  { unfold csv_read. rewrite newlines_app by (apply clean_not; tauto).
    change (newlines (cr :: lf :: b)) with (lf :: newlines b). destruct a as [|c a]; [contradiction|]. cbn [app]. rewrite skip_not by (apply Forall_cons in Ha; tauto).
    pose proof (record_bare (c :: a) (lf :: newlines b) AtStart [] (clean_bare _ Ha) (or_introl eq_refl)) as E. cbn [app] in E. rewrite E. reflexivity. }
  destruct (a ++ cr :: lf :: b)%list; [contradiction|]. rewrite R. reflexivity.
Qed.
