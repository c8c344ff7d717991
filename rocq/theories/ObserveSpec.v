(** What the observer should report, from the history of informer callbacks. *)
From stdpp Require Import base list strings gmap.
From Coq Require Import ZArith String.
From Verif Require Import TopoModel ObserveModel.

Local Open Scope string_scope.

(** Namespaces are DNS labels: they have no dot. *)
Definition dotted (s : string) : Prop := exists a b, s = a ++ "." ++ b.

(** The containers of a pod the CRI lists as running, that have a pid and a
    resolvable namespace: each as one container, in the CRI's order. *)
Definition belongs (name ns : string) (r : cri_container) : Prop :=
  cri_labels r !! "io.kubernetes.pod.name" = Some name
  /\ cri_labels r !! "io.kubernetes.pod.namespace" = Some ns.

Definition describes (r : cri_container) (c : cval) : Prop :=
  cri_pid r = PidNumber (c_pid c) /\ cri_pidns r = Some (c_pidns c)
  /\ c_id c = cri_id r /\ c_image c = cri_image r /\ c_labels c = cri_labels r
  /\ c_pod c = default "" (cri_labels r !! "io.kubernetes.pod.name")
  /\ c_namespace c = default "" (cri_labels r !! "io.kubernetes.pod.namespace")
  /\ c_name c = default "" (cri_labels r !! "io.kubernetes.container.name")
  /\ c_sandbox c = "".

Definition resolvable (r : cri_container) : Prop :=
  (exists pid, cri_pid r = PidNumber pid) /\ (exists n, cri_pidns r = Some n).

(** [listed answer name ns cs]: [cs] describe the pod's resolvable containers. *)
Inductive listed (name ns : string) : list cri_container -> list cval -> Prop :=
| listed_nil : listed name ns [] []
| listed_skip r rs cs :
    ~ (belongs name ns r /\ resolvable r) -> listed name ns rs cs -> listed name ns (r :: rs) cs
| listed_take r rs c cs :
    belongs name ns r -> describes r c -> listed name ns rs cs ->
    listed name ns (r :: rs) (c :: cs).

Definition answers (answer : cri) (name ns : string) (cs : list cval) : Prop :=
  match answer with
  | None => cs = []
  | Some rs => listed name ns rs cs
  end.

(** The pod a callback is about. *)
Definition about (cb : callback) : option pod :=
  match cb with Add p | Update _ p | Delete p => Some p | DeleteUnknown => None end.

(** What the informer and the API server guarantee: old and new are the same pod,
    pods have a name and a namespace, namespaces have no dot; and deletions are not
    missed. *)
Definition ordinary (cb : callback) : Prop :=
  match cb with
  | Update old new => p_name old = p_name new /\ p_namespace old = p_namespace new
  | _ => True
  end
  /\ match about cb with
     | Some p => p_name p <> "" /\ p_namespace p <> "" /\ ~ dotted (p_namespace p)
     | None => False
     end.

Definition same_pod (p q : pod) : Prop := p_name p = p_name q /\ p_namespace p = p_namespace q.

(** Pids are numbers. *)
Definition numeric (answer : cri) : Prop :=
  match answer with Some rs => Forall (fun r => cri_pid r <> PidOther) rs | None => True end.

(** The callback starts containers: the pod is new, or just began to run. *)
Definition announces (cb : callback) : Prop :=
  match cb with
  | Add _ => True
  | Update old new => p_phase old = "Pending" /\ p_phase new = "Running"
  | _ => False
  end.

(** The callback shows the pod still running. *)
Definition still_running (cb : callback) : Prop :=
  match cb with
  | Update old new => p_phase old = "Running" /\ p_phase new = "Running"
  | _ => False
  end.

(** [remembered p h cs]: since [p] was last deleted, [cs] was the first non-empty
    list of its containers seen while it was still running. *)
Definition sighted (p : pod) (e : callback * cri) (cs : list cval) : Prop :=
  still_running (fst e) /\ (exists q, about (fst e) = Some q /\ same_pod p q)
  /\ answers (snd e) (p_name p) (p_namespace p) cs /\ cs <> [].

Definition deletes (p : pod) (e : callback * cri) : Prop :=
  exists q, fst e = Delete q /\ same_pod p q.

Definition remembered (p : pod) (h : list (callback * cri)) (cs : list cval) : Prop :=
  exists before between e after,
    h = (before ++ between ++ e :: after)%list
    /\ (before = [] \/ exists b d, before = (b ++ [d])%list /\ deletes p d)
    /\ Forall (fun e' => ~ deletes p e') (between ++ e :: after)
    /\ Forall (fun e' => forall cs', ~ sighted p e' cs') between
    /\ sighted p e cs.
