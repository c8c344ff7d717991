(** Which pods a trace is about, in Kubernetes' terms. *)
From Coq Require Import ZArith String Ascii Bool Lia.
From stdpp Require Import base list numbers strings gmap.
From Verif Require Import HubModel ClientModel ClientSpec AgentModel AgentSpec SelectModel LiveModel.
Local Open Scope string_scope.
Local Open Scope list_scope.
Local Open Scope Z_scope.

(** A trace without namespace is about all namespaces. *)
Definition in_namespace (ns : text) (p : pod) : Prop := ns = [] \/ pd_ns p = ns.
(** matchLabels: the pod has each of these labels, with this value. *)
Definition has_labels (want : gmap (list ascii) (list ascii)) (p : pod) : Prop := forall k v, want !! k = Some v -> pd_labels p !! k = Some v.
(** The fields that can be selected on, and what a pod shows in them. *)
Definition pod_extra : list text :=
  map t ["spec.nodeName"; "spec.restartPolicy"; "spec.schedulerName"; "spec.serviceAccountName"; "status.phase"; "status.podIP"; "status.podIPs"; "status.nominatedNodeName"].
Inductive shows (p : pod) : text -> text -> Prop :=
  | shows_name : shows p (t "metadata.name") (pd_name p)
  | shows_namespace : shows p (t "metadata.namespace") (pd_ns p)
  | shows_extra f v : In f pod_extra -> pd_more p !! f = Some v -> shows p f v
  | shows_nothing f : In f pod_extra -> pd_more p !! f = None -> shows p f []
  | shows_host v : shows p (t "spec.nodeName") v -> shows p (t "spec.host") v.
Definition selectable (f : text) : Prop := f = t "metadata.name" \/ f = t "metadata.namespace" \/ In f pod_extra \/ f = t "spec.host".
Definition has_fields (want : gmap (list ascii) (list ascii)) (p : pod) : Prop := forall f v, want !! f = Some v -> shows p f v.
(** Containers: all of the pod's, or those with a name in the trace's list. *)
Definition host_asked (x : trace) (name : text) : Prop := tr_hosts x = [] \/ In name (tr_hosts x).
(** The expression of a selector that asks for a key to be there. *)
Definition has_key (k : text) (p : pod) : Prop := exists v, pd_labels p !! k = Some v.

(** Fields are written without escapes. *)
Definition unescaped (v : text) : Prop := Forall (fun c => c <> "\"%char /\ c <> ","%char /\ c <> "="%char) v.
Definition plain_fields (m : gmap (list ascii) (list ascii)) : Prop := forall f v, m !! f = Some v -> selectable f /\ unescaped v.
(** Texts without the symbols, the blanks and the NUL of the selectors' grammar. *)
Definition one_word (s : text) : Prop :=
  Forall (fun c => ~ In c ("000" :: " " :: "009" :: "010" :: "013" :: "=" :: "!" :: "(" :: ")" :: "," :: "<" :: ">" :: nil)%char) s.

(** A pod that asks to be left alone. *)
Definition opted_out (p : pod) : Prop := pd_labels p !! t "swoll" = Some (t "false").

(** ** With `swoll trace` (C98) *)

(** The container is one of this pod. *)
Definition of_pod (c : container) (p : pod) : Prop := ct_pod c = text_string (pd_name p) /\ ct_namespace c = text_string (pd_ns p).
(** Observers only report containers of pods they are told of by the API server. *)
Definition by_observers (hub : observer) (x : trace) (pods : pod -> Prop) (l : list wop) : Prop :=
  (forall c, WPod true c ∈ l -> exists p, pods p /\ of_pod c p /\ observes_pod hub p = true)
  /\ (forall c, WMatch true c ∈ l -> exists p, pods p /\ of_pod c p /\ observes_pod (job_observer hub x) p = true).
(** Names of pods are unique. *)
Definition unique_names (pods : pod -> Prop) : Prop := forall p q, pods p -> pods q -> pd_name p = pd_name q -> pd_ns p = pd_ns q -> p = q.
