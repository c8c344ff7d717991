From Coq Require Import ZArith String Ascii Bool Lia.
From stdpp Require Import base list sorting numbers strings pretty gmap.
From Verif Require Import CodecModel JsonModel HubModel ClientModel ClientSpec AgentModel AgentSpec AgentProofs SelectModel SelectSpec SelectProofs.
Local Open Scope string_scope.
Local Open Scope list_scope.
Local Open Scope Z_scope.

Lemma text_eqb_eq (a b : text) : text_eqb a b = true <-> a = b.
Proof. unfold text_eqb. apply bool_decide_eq_true. Qed.
Lemma existsb_text f l : existsb (text_eqb f) l = true <-> In f l.
Proof. rewrite existsb_exists. split; [intros (x & Hx & E); apply text_eqb_eq in E as ->; done|]. intros H. exists f. split; [done|]. by apply text_eqb_eq. Qed.
Lemma unopt (s : text) : default [] (match s with [] => None | s => Some s end) = s.
Proof. by destruct s. Qed.
Lemma observes_pod_eq o p : observes_pod o p =
  match parse_labels (o_labels o), parse_fields (o_fields o) with
  | Some rs, Some fs => (text_eqb (o_ns o) [] || text_eqb (pd_ns p) (o_ns o)) && forallb (meets (pd_labels p)) rs && forallb (term_holds p) fs
  | _, _ => false
  end.
Proof.
  destruct o as [cri cfg ns l f root]. unfold observes_pod, api_pods, list_options. cbn [o_ns o_labels o_fields fst snd].
  destruct l as [|a l], f as [|b f]; cbn [default from_option]; unfold id; (destruct (parse_labels _); [|reflexivity]); by destruct (parse_fields _).
Qed.
Lemma namespace_iff ns p : text_eqb ns [] || text_eqb (pd_ns p) ns = true <-> in_namespace ns p.
Proof. rewrite orb_true_iff, !text_eqb_eq. done. Qed.

Lemma job_observer_eq hub x : job_observer hub x = Observer (o_cri hub) (o_config hub) (tr_ns x) (set_string (tr_labels x)) (set_string (tr_fields x)) (o_root hub).
Proof. by destruct hub. Qed.
Lemma job_observes hub x p : observes_pod (job_observer hub x) p =
  match parse_labels (set_string (tr_labels x)), parse_fields (set_string (tr_fields x)) with
  | Some rs, Some fs => (text_eqb (tr_ns x) [] || text_eqb (pd_ns p) (tr_ns x)) && forallb (meets (pd_labels p)) rs && forallb (term_holds p) fs
  | _, _ => false
  end.
Proof. rewrite observes_pod_eq, job_observer_eq. reflexivity. Qed.
Lemma host_iff x name : host_matches x name = true <-> host_asked x name.
Proof.
  unfold host_matches, host_asked. destruct (tr_hosts x) as [|h hs]; [split; [by left|done]|]. rewrite existsb_exists. split.
  - intros (y & Hy & E). apply text_eqb_eq in E as ->. by right.
  - intros [E|H]; [done|]. exists name. split; [done|]. by apply text_eqb_eq.
Qed.

(** ** Fields *)

Lemma pod_fields_in f : In f pod_fields <-> f = t "metadata.name" \/ f = t "metadata.namespace" \/ In f pod_extra.
Proof.
  change pod_fields with (t "metadata.name" :: t "metadata.namespace" :: pod_extra). cbn [In]. split; intros H; (destruct H as [H|[H|H]]; [left; by symmetry|right; left; by symmetry|right; by right]).
Qed.
Lemma field_label_iff f : field_label f <> None <-> selectable f.
Proof.
  unfold field_label, selectable. destruct (existsb (text_eqb f) pod_fields) eqn:E.
  - apply existsb_text, pod_fields_in in E. split; [|done]. intros _. destruct E as [E|[E|E]]; eauto.
  - destruct (text_eqb f (t "spec.host")) eqn:E'; [apply text_eqb_eq in E'; split; [eauto|done]|]. split; [done|]. intros H. exfalso.
    assert (~ In f pod_fields) as N by (intros I; apply existsb_text in I; congruence). rewrite pod_fields_in in N.
    assert (f <> t "spec.host") as N' by (intros E0; apply text_eqb_eq in E0; congruence). destruct H as [H|[H|[H|H]]]; eauto.
Qed.
Lemma extra_not f : In f pod_extra -> text_eqb f (t "metadata.name") = false /\ text_eqb f (t "metadata.namespace") = false /\ text_eqb f (t "spec.host") = false.
Proof. intros H. repeat (destruct H as [<-|H]; [repeat split; reflexivity|]). destruct H. Qed.
Lemma field_of_extra p f : In f pod_extra -> field_of p f = default [] (pd_more p !! f).
Proof. intros H. destruct (extra_not f H) as (E1 & E2 & _). unfold field_of. by rewrite E1, E2. Qed.
Lemma extra_label f : In f pod_extra -> field_label f = Some f.
Proof. intros H. unfold field_label. assert (existsb (text_eqb f) pod_fields = true) as ->; [|done]. apply existsb_text, pod_fields_in. by right; right. Qed.
Lemma shows_iff p f v : shows p f v <-> exists g, field_label f = Some g /\ field_of p g = v.
Proof.
  assert (forall f v, In f pod_extra -> (shows p f v <-> field_of p f = v)) as Ex.
  { intros g w H. rewrite (field_of_extra p g H). split.
    - intros S. inversion S as [E|E|g' w' _ L|g' _ L|w' S' E]; subst; try (exfalso; repeat (destruct H as [H|H]; [by vm_compute in H|]); by destruct H).
      + by rewrite L.
      + by rewrite L.
    - destruct (pd_more p !! g) as [u|] eqn:L; intros <-; [by apply shows_extra|by apply shows_nothing]. }
  split.
  - intros S. destruct S as [ | |f v H L|f H L|v S].
    + eexists. split; [reflexivity|]. reflexivity.
    + eexists. split; [reflexivity|]. reflexivity.
    + exists f. split; [by apply extra_label|]. apply Ex; [done|]. by apply shows_extra.
    + exists f. split; [by apply extra_label|]. apply Ex; [done|]. by apply shows_nothing.
    + exists (t "spec.nodeName"). split; [reflexivity|]. apply Ex; [|done]. by left.
  - intros (g & L & <-). unfold field_label in L. destruct (existsb (text_eqb f) pod_fields) eqn:E.
    + injection L as <-. apply existsb_text, pod_fields_in in E as [-> |[-> |E]]; [apply shows_name|apply shows_namespace|]. by apply Ex.
    + destruct (text_eqb f (t "spec.host")) eqn:E'; [|done]. injection L as <-. apply text_eqb_eq in E' as ->. apply shows_host. apply Ex; [by left|done].
Qed.
Lemma selectable_key f : selectable f -> field_key f.
Proof.
  assert (forall s : text, (match s with [] => false | _ => true end) && forallb (fun c => negb (Ascii.eqb c "\") && negb (Ascii.eqb c ",") && negb (Ascii.eqb c "=") && negb (Ascii.eqb c "!")) s = true -> field_key s) as K.
  { intros s E. apply andb_true_iff in E as [E1 E2]. split; [by destruct s|]. apply Forall_forall. intros c Hc. rewrite forallb_forall in E2. apply elem_of_list_In, E2 in Hc.
    rewrite !andb_true_iff, !negb_true_iff, !Ascii.eqb_neq in Hc. tauto. }
  intros [-> |[-> |[H| ->]]]; try (apply K; reflexivity). repeat (destruct H as [<-|H]; [apply K; reflexivity|]). destruct H.
Qed.
Lemma parse_fields_ok m : (forall f v, m !! f = Some v -> selectable f /\ unescaped v) -> exists fs, parse_fields (set_string m) = Some fs /\
  forall p, forallb (term_holds p) fs = true <-> forall f v, m !! f = Some v -> shows p f v.
Proof.
  intros H. destruct (parse_fields_pairs m) as (l & Pl & E).
  { intros f v Hf. destruct (H f v Hf) as [S U]. split; [by apply selectable_key|exact U]. }
  assert (forall kv, kv ∈ l -> m !! kv.1 = Some kv.2) as Hl by (intros [k v] Hkv; rewrite Pl in Hkv; by apply elem_of_map_to_list in Hkv).
  exists (map (fun kv => (default [] (field_label kv.1), true, kv.2)) l). split.
  - rewrite E. apply mapM_all. intros kv Hkv. destruct (H _ _ (Hl kv Hkv)) as [S _]. apply field_label_iff in S. unfold field_term. by destruct (field_label kv.1).
  - intros p. rewrite forallb_forall. split.
    + intros A f v Hf. destruct (H f v Hf) as [S _]. apply field_label_iff in S. apply shows_iff. destruct (field_label f) as [g|] eqn:L; [|done]. exists g. split; [done|].
      assert (term_holds p (default [] (field_label f), true, v) = true) as T.
      { apply A, in_map_iff. exists (f, v). split; [done|]. apply elem_of_list_In. rewrite Pl. by apply elem_of_map_to_list. }
      rewrite L in T. cbn in T. destruct (text_eqb (field_of p g) v) eqn:E'; [by apply text_eqb_eq|done].
    + intros A x Hx. apply in_map_iff in Hx as ([f v] & <- & Hx). apply elem_of_list_In, Hl in Hx. cbn [fst snd] in *. destruct (proj1 (shows_iff p f v) (A f v Hx)) as (g & L & E').
      rewrite L. cbn. apply text_eqb_eq in E'. by rewrite E'.
Qed.
Lemma parse_fields_bad m f v : (forall f v, m !! f = Some v -> field_key f /\ no_escape v) -> m !! f = Some v -> ~ selectable f -> parse_fields (set_string m) = None.
Proof.
  intros H Hf S. destruct (parse_fields_pairs m H) as (l & Pl & E). rewrite E. apply (mapM_none _ _ (f, v)).
  - rewrite Pl. by apply elem_of_map_to_list.
  - unfold field_term. cbn. destruct (field_label f) eqn:L; [|done]. exfalso. apply S, field_label_iff. congruence.
Qed.

(** ** Whom a trace follows *)

Lemma followed_iff hub x p name : kube_labels (tr_labels x) -> plain_fields (tr_fields x) ->
  (follows hub x p name = true <-> in_namespace (tr_ns x) p /\ has_labels (tr_labels x) p /\ has_fields (tr_fields x) p /\ host_asked x name).
Proof.
  intros HL HF. unfold follows. rewrite andb_true_iff, host_iff, job_observes. destruct (parse_set _ HL) as (rs & -> & Hr). destruct (parse_fields_ok _ HF) as (fs & -> & Hf).
  rewrite !andb_true_iff, namespace_iff, Hr, Hf. unfold has_labels, has_fields. tauto.
Qed.
Lemma settings_irrelevant hub hub' x p name : follows hub x p name = follows hub' x p name.
Proof. unfold follows. by rewrite !job_observes. Qed.
Lemma refused_fields hub x p name f v : (forall f v, tr_fields x !! f = Some v -> field_key f /\ no_escape v) -> tr_fields x !! f = Some v -> ~ selectable f -> follows hub x p name = false.
Proof. intros H Hf S. unfold follows. rewrite job_observes, (parse_fields_bad _ f v H Hf S). by destruct (parse_labels _). Qed.
Lemma one_word_plain s : one_word s -> Forall plain s.
Proof.
  unfold one_word. rewrite !Forall_forall. intros H c Hc. specialize (H c Hc). split; [intros ->; apply H; by left|]. split.
  - destruct (blank c) eqn:E; [|done]. exfalso. apply existsb_exists in E as (d & Hd & E). apply Ascii.eqb_eq in E as ->. apply H. cbn in Hd |- *. tauto.
  - destruct (special c) eqn:E; [|done]. exfalso. apply existsb_exists in E as (d & Hd & E). apply Ascii.eqb_eq in E as ->. apply H. cbn in Hd |- *. tauto.
Qed.
Lemma refused_labels hub x p name k v : (forall k v, tr_labels x !! k = Some v -> k <> [] /\ one_word k /\ one_word v) -> tr_labels x !! k = Some v ->
  ~ (kube_key k /\ kube_value v) -> follows hub x p name = false.
Proof.
  intros H Hk B. unfold follows. rewrite job_observes, (parse_bad _ k v Hk); [done| |done].
  intros k' v' H'. destruct (H k' v' H') as (H1 & H2 & H3). split; [done|]. split; by apply one_word_plain.
Qed.

(** A value with a term of its own in it. *)
Lemma set_string_one k w : set_string {[k := w]} = k ++ t "=" ++ w.
Proof. unfold set_string. rewrite map_to_list_singleton. reflexivity. Qed.
Lemma smuggled_term hub x p name k v k' v' : kube_key k -> kube_value v -> kube_key k' -> kube_value v' ->
  tr_labels x = {[k := v ++ t "," ++ k' ++ t "!=" ++ v']} -> plain_fields (tr_fields x) ->
  (follows hub x p name = true <-> in_namespace (tr_ns x) p /\ pd_labels p !! k = Some v /\ pd_labels p !! k' <> Some v' /\ has_fields (tr_fields x) p /\ host_asked x name).
Proof.
  intros Hk Hv Hk' Hv' E HF. unfold follows. rewrite andb_true_iff, host_iff, job_observes.
  destruct (kube_term k true v Hk Hv) as [W1 R1]. destruct (kube_term k' false v' Hk' Hv') as [W2 R2].
  assert (parse_labels (set_string (tr_labels x)) = Some [Req k OneOf [v]; Req k' NoneOf [v']]) as ->.
  { rewrite E, set_string_one. transitivity (parse_labels (join [comma] (map term_text [(k, true, v); (k', false, v')]))).
    - f_equal. unfold term_text. cbn [map join]. by rewrite <- !app_assoc.
    - rewrite parse_terms by (constructor; [exact W1|constructor; [exact W2|constructor]]). cbn [mapM]. rewrite R1. cbn [mbind option_bind]. rewrite R2. reflexivity. }
  destruct (parse_fields_ok _ HF) as (fs & -> & Hf). cbn [forallb]. rewrite !andb_true_iff, namespace_iff, meets_one, meets_none, Hf. unfold has_fields. tauto.
Qed.

(** ** The hub's own *)

Lemma observes_iff o m p : kube_labels m -> o_labels o = set_string m -> o_fields o = [] -> (observes_pod o p = true <-> in_namespace (o_ns o) p /\ has_labels m p).
Proof.
  intros HL El Ef. rewrite observes_pod_eq, El, Ef. destruct (parse_set _ HL) as (rs & -> & Hr). cbn [parse_fields forallb]. rewrite !andb_true_iff, namespace_iff, Hr. unfold has_labels. tauto.
Qed.
Lemma kube_word (k : text) : label_name k = true -> kube_key k /\ kube_value k.
Proof. intros H. apply label_name_spec in H. split; [by left|by right]. Qed.
Lemma willing o p : o_labels o = t "swoll!=false" -> o_fields o = [] -> (observes_pod o p = true <-> in_namespace (o_ns o) p /\ ~ opted_out p).
Proof.
  intros El Ef. rewrite observes_pod_eq, El, Ef. destruct (kube_word (t "swoll") eq_refl) as [Hk _]. destruct (kube_word (t "false") eq_refl) as [_ Hv].
  destruct (kube_term _ false _ Hk Hv) as [W R].
  assert (parse_labels (t "swoll!=false") = Some [Req (t "swoll") NoneOf [t "false"]]) as ->.
  { transitivity (parse_labels (join [comma] (map term_text [(t "swoll", false, t "false")]))); [reflexivity|]. rewrite parse_terms by (constructor; [exact W|constructor]). cbn [mapM]. rewrite R. reflexivity. }
  cbn [parse_fields forallb]. rewrite !andb_true_iff, namespace_iff, meets_none. unfold opted_out. tauto.
Qed.
Lemma top_sees cri cfg ns root m p : kube_labels m ->
  (observes_pod (top_observer cri cfg ns root (set_string m)) p = true <-> in_namespace ns p /\ has_labels m p /\ shows p (t "status.phase") (t "Running")).
Proof.
  intros HL. rewrite observes_pod_eq. cbn [top_observer new_kubernetes foldl apply_opt o_ns o_labels o_fields]. destruct (parse_set _ HL) as (rs & -> & Hr).
  assert (parse_fields (t "status.phase=Running") = Some [(t "status.phase", true, t "Running")]) as -> by reflexivity.
  cbn [forallb]. rewrite !andb_true_iff, namespace_iff, Hr, shows_iff. unfold has_labels. assert (field_label (t "status.phase") = Some (t "status.phase")) as -> by reflexivity.
  unfold term_holds. assert (Bool.eqb (text_eqb (field_of p (t "status.phase")) (t "Running")) true = true <-> field_of p (t "status.phase") = t "Running") as ->.
  { rewrite <- text_eqb_eq. destruct (text_eqb _ _); done. }
  split.
  - intros [[A B] [C _]]. eauto.
  - intros (A & B & g & [= <-] & C). eauto.
Qed.

(** ** The command line *)

Lemma pairs_kube l : forall m m', kube_labels m -> pairs_of l m = Some m' -> kube_labels m'.
Proof.
  induction l as [|x l IH]; intros m m' H E; [by injection E as <-|]. cbn [pairs_of] in E.
  destruct (split_on "=" [] x) as [|k [|v [|]]]; try done. destruct (label_key (trim k)) eqn:Ek; [|done]. destruct (label_value (trim v)) eqn:Ev; [|done]. cbn [andb] in E.
  apply (IH _ _) in E; [done|]. intros k' v' H'. apply lookup_insert_Some in H' as [[<- <-]|[_ H']]; [split; [by apply label_key_spec|by apply label_value_spec]|by apply H].
Qed.
Lemma selector_kube s m : selector_map s = Some m -> kube_labels m.
Proof. unfold selector_map. destruct s; [by intros [= <-]|]. apply pairs_kube. done. Qed.
Lemma kube_fields m : kube_labels m -> forall f v, m !! f = Some v -> field_key f /\ no_escape v.
Proof.
  intros H f v Hf. destruct (H f v Hf) as [Hk Hv]. split.
  - split; [by apply kube_key_nonempty|]. apply Forall_forall. intros c Hc. apply elem_of_list_In in Hc. apply (kube_key_in _ _ Hk) in Hc.
    repeat split; apply (nameish_not c); try done; apply not_nameish; done.
  - apply Forall_forall. intros c Hc. apply elem_of_list_In in Hc. apply (kube_value_in _ _ Hv) in Hc.
    repeat split; apply (nameish_not c); try done; apply not_nameish; done.
Qed.
Lemma trace_cmd_kube args ns field sc x : trace_cmd args ns field sc = Some x ->
  tr_ns x = ns /\ tr_hosts x = [] /\ kube_labels (tr_labels x) /\ kube_labels (tr_fields x) /\ selector_map (join (t " ") args) = Some (tr_labels x) /\ selector_map field = Some (tr_fields x).
Proof.
  unfold trace_cmd. destruct (selector_map (join (t " ") args)) as [m|] eqn:E; [|done]. destruct (selector_map field) as [f|] eqn:E'; [|done]. intros [= <-]. cbn.
  split; [done|]. split; [done|]. split; [exact (selector_kube _ _ E)|]. split; [exact (selector_kube _ _ E')|done].
Qed.
Lemma kube_plain_fields m : kube_labels m -> (forall f v, m !! f = Some v -> selectable f) -> plain_fields m.
Proof. intros H S f v Hf. split; [by apply (S f v)|]. by destruct (kube_fields m H f v Hf). Qed.
Lemma pairs_arrive m ns sc : kube_labels m -> exists x, trace_cmd [set_string m] ns [] sc = Some x /\ tr_labels x = m /\ tr_fields x = ∅ /\ tr_ns x = ns /\ tr_hosts x = [].
Proof. intros H. unfold trace_cmd. cbn [join]. rewrite (set_string_selector m H). eexists. split; [reflexivity|]. done. Qed.
Lemma nameish_no c x : nameish c -> alnum x = false -> x <> "-"%char -> x <> "_"%char -> x <> "."%char -> x <> slash -> c <> x.
Proof. intros H A B C D E. apply (nameish_not c x H), not_nameish; done. Qed.
Lemma two_arguments k v k' v' ns field sc : kube_key k -> kube_value v -> kube_key k' -> kube_value v' ->
  trace_cmd [k ++ t "=" ++ v; k' ++ t "=" ++ v'] ns field sc = None.
Proof.
  intros Hk Hv Hk' Hv'. unfold trace_cmd.
  assert (forall c w, nameish c \/ c = " "%char -> w = comma \/ w = "="%char -> c <> w) as N.
  { intros c w [H| ->] [-> | ->]; try (apply nameish_no; done); done. }
  assert (selector_map (join (t " ") [k ++ t "=" ++ v; k' ++ t "=" ++ v']) = None) as ->; [|done].
  set (s := join (t " ") [k ++ t "=" ++ v; k' ++ t "=" ++ v']).
  assert (s = join ["="%char] [k; v ++ t " " ++ k'; v']) as Es by (unfold s; cbn [join]; by rewrite <- !app_assoc).
  assert (forall a c, In a [k; v ++ t " " ++ k'; v'] -> In c a -> nameish c \/ c = " "%char) as In3.
  { intros a c [<-|[<-|[<-|[]]]] Hc; [left; exact (kube_key_in _ _ Hk Hc)| |left; exact (kube_value_in _ _ Hv' Hc)].
    apply in_app_or in Hc as [Hc|Hc]; [left; exact (kube_value_in _ _ Hv Hc)|]. apply in_app_or in Hc as [[<-|[]]|Hc]; [by right|]. left; exact (kube_key_in _ _ Hk' Hc). }
  assert (split_on "=" [] s = [k; v ++ t " " ++ k'; v']) as S1.
  { rewrite Es. apply split_join; [done|]. apply Forall_forall. intros a Ha I. apply elem_of_list_In in Ha. exact (N _ _ (In3 a _ Ha I) (or_intror eq_refl) eq_refl). }
  assert (split_on comma [] s = [s]) as S2.
  { change s with (join [comma] [s]) at 1. apply split_join; [done|]. constructor; [|constructor]. rewrite Es. intros I. apply in_join in I as [[E|[]]|(a & Ha & I)]; [done|].
    exact (N _ _ (In3 a _ Ha I) (or_introl eq_refl) eq_refl). }
  unfold selector_map. destruct s as [|c r] eqn:E; [by destruct k|]. rewrite S2. cbn [pairs_of]. by rewrite S1.
Qed.
