(** C45, C64, C65: the Kubernetes observer. *)
From Coq Require Import ZArith String Lia.
From stdpp Require Import base list strings gmap.
From Verif Require Import TopoModel TopoSpec ObserveModel ObserveSpec ObserveProofs ObserveTop.

Local Open Scope string_scope.
Local Open Scope Z_scope.

(** * C45: what the observer reports

    [h] is what the informer called so far, with the CRI's answers; [cb] is the next
    callback. *)

(** A new pod, or one that just began to run: a start for each container the CRI
    lists for it. *)
Theorem C45_new_containers_are_started :
  forall h cb answer c1 evs p,
    Forall (fun e => ordinary (fst e)) h -> Forall (fun e => numeric (snd e)) h ->
    ordinary cb -> numeric answer -> observe ∅ h = Some (c1, evs) ->
    about cb = Some p -> announces cb ->
    exists c2 cs, handle c1 cb answer = Some (c2, starts cs)
      /\ answers answer (p_name p) (p_namespace p) cs.
Proof. exact (fun h cb answer c1 evs p O N Oc Na E => one_starts h cb answer O N Oc Na c1 evs E p). Qed.

(** A deletion: a stop for each container remembered since the pod's creation; if
    there are none, for those the CRI still lists. *)
Theorem C45_deletion_stops_what_is_remembered :
  forall h p answer c1 evs,
    Forall (fun e => ordinary (fst e)) h -> Forall (fun e => numeric (snd e)) h ->
    ordinary (Delete p) -> numeric answer -> observe ∅ h = Some (c1, evs) ->
    exists c2 cs, handle c1 (Delete p) answer = Some (c2, stops cs)
      /\ (remembered p h cs
          \/ (forall cs', ~ remembered p h cs')
             /\ answers answer (p_name p) (p_namespace p) cs).
Proof.
  exact (fun h p answer c1 evs O N Oc Na E =>
    one_stops h (Delete p) answer O N Oc Na c1 evs E p eq_refl).
Qed.

(** Any other callback: nothing. *)
Theorem C45_nothing_else_is_reported :
  forall h cb answer c1 evs,
    Forall (fun e => ordinary (fst e)) h -> Forall (fun e => numeric (snd e)) h ->
    ordinary cb -> numeric answer -> observe ∅ h = Some (c1, evs) ->
    ~ announces cb -> (forall p, cb <> Delete p) ->
    exists c2, handle c1 cb answer = Some (c2, []).
Proof. exact (fun h cb answer c1 evs O N Oc Na E => one_silent h cb answer O N Oc Na c1 evs E). Qed.

(** Whatever is reported is a container of the pod the callback is about: namespaces
    have no dots, so the cache's keys cannot be confused. *)
Theorem C45_pods_are_not_mixed_up :
  forall h cb answer c1 evs,
    Forall (fun e => ordinary (fst e)) h -> Forall (fun e => numeric (snd e)) h ->
    ordinary cb -> numeric answer -> observe ∅ h = Some (c1, evs) ->
    exists c2 out, handle c1 cb answer = Some (c2, out)
      /\ forall ev, In ev out -> exists ty c p, ev = OEvent ty (Some c) /\ about cb = Some p
           /\ c_pod c = p_name p /\ c_namespace c = p_namespace p.
Proof. exact observe_own. Qed.

(** A pod as the CRI shows it: one container, pid namespace [n]. *)
Definition cri_of (pod ns name : string) (n : Z) : cri_container :=
  Cri name (<["io.kubernetes.pod.name" := pod]> (<["io.kubernetes.pod.namespace" := ns]>
      {["io.kubernetes.container.name" := name]})) "img" (PidNumber 100) (Some n).

(** With dots in namespaces they would be. *)
Theorem C45_dotted_namespaces_would_mix_refuted :
  exists h p answer c1 evs c2 c,
    observe ∅ h = Some (c1, evs) /\ handle c1 (Delete p) answer = Some (c2, [OEvent 1 (Some c)])
    /\ p_name p = "a" /\ c_pod c = "a.b".
Proof.
  exists [(Update (Pod "a.b" "c" "Running") (Pod "a.b" "c" "Running"), Some [cri_of "a.b" "c" "x" 7])],
    (Pod "a" "b.c" "Running"), (Some []).
  assert (X : match observe ∅ [(Update (Pod "a.b" "c" "Running") (Pod "a.b" "c" "Running"), Some [cri_of "a.b" "c" "x" 7])] with
      | Some (c1, _) => match handle c1 (Delete (Pod "a" "b.c" "Running")) (Some []) with
          | Some (_, [OEvent 1 (Some c)]) => String.eqb (c_pod c) "a.b" | _ => false end
      | None => false end = true) by (vm_compute; reflexivity).
  destruct (observe _ _) as [[c1 evs]|]; [|discriminate X].
  destruct (handle c1 _ (Some [])) as [[c2 o]|] eqn:Y in X; [|discriminate X].
  destruct o as [|[|[|[]|] [c|]] []]; try discriminate X. exists c1, evs, c2, c.
  split; [reflexivity|]. split; [exact Y|]. split; [reflexivity|apply String.eqb_eq, X].
Qed.

Definition web0 (phase : string) : pod := Pod "web-0" "prod" phase.

(** A pod is created, runs, is about to be deleted, is gone. *)
Definition lifetime (n : Z) : list (callback * cri) :=
  [ (Add (web0 "Pending"), Some []);
    (Update (web0 "Pending") (web0 "Running"), Some [cri_of "web-0" "prod" "nginx" n; cri_of "other" "prod" "y" 9]);
    (Update (web0 "Running") (web0 "Running"), Some [cri_of "web-0" "prod" "nginx" n]) ].

Lemma no_dot : ~ dotted "prod".
Proof.
  intros (a & b & H). destruct a as [|c1 a]; [discriminate|]. injection H as _ H.
  destruct a as [|c2 a]; [discriminate|]. injection H as _ H.
  destruct a as [|c3 a]; [discriminate|]. injection H as _ H.
  destruct a as [|c4 a]; [discriminate|]. injection H as _ H.
  destruct a; discriminate.
Qed.

Lemma lifetime_ordinary n : Forall (fun e => ordinary (fst e)) (lifetime n)
  /\ Forall (fun e => numeric (snd e)) (lifetime n).
Proof.
  split; unfold lifetime.
  - repeat constructor; cbn; try discriminate; exact no_dot.
  - repeat constructor; cbn; discriminate.
Qed.

Lemma listed_web n : listed "web-0" "prod" [cri_of "web-0" "prod" "nginx" n]
  [Ctr "nginx" "web-0" "" "nginx" "img" "prod"
    (<["io.kubernetes.pod.name" := "web-0"]> (<["io.kubernetes.pod.namespace" := "prod"]>
      {["io.kubernetes.container.name" := "nginx"]})) 100 n].
Proof. apply listed_take; [split; reflexivity|repeat split; reflexivity|constructor]. Qed.

Lemma lifetime_remembered n : exists c, c_pidns c = n /\ remembered (web0 "Running") (lifetime n) [c].
Proof.
  eexists. split; [|unfold lifetime, remembered].
  2: { exists [], [(Add (web0 "Pending"), Some []);
        (Update (web0 "Pending") (web0 "Running"), Some [cri_of "web-0" "prod" "nginx" n; cri_of "other" "prod" "y" 9])],
        (Update (web0 "Running") (web0 "Running"), Some [cri_of "web-0" "prod" "nginx" n]), [].
       split; [reflexivity|]. split; [left; reflexivity|].
       split. { repeat constructor; intros (q & H & _); discriminate H. }
       split. { constructor; [|constructor; [|constructor]].
                - intros cs' [[] _].
                - intros cs' [[H _] _]. discriminate H. }
       split; [split; reflexivity|]. split; [exists (web0 "Running"); repeat split|].
       split; [|discriminate]. apply (listed_web n). }
  reflexivity.
Qed.

(** The observer never panics, unless a pid in the CRI's answer is no number, or the
    informer missed a deletion: then it does. *)
Theorem C45_no_panic :
  forall h,
    Forall (fun e => ordinary (fst e)) h -> Forall (fun e => numeric (snd e)) h ->
    observe ∅ h <> None.
Proof. exact observe_no_panic. Qed.

Theorem C45_missed_deletions_panic_refuted :
  forall h, In DeleteUnknown (map fst h) -> observe ∅ h = None.
Proof. exact (fun h H => observe_unknown h H ∅). Qed.

Example C45_example :
  Forall (fun e => ordinary (fst e)) (lifetime 7) /\ Forall (fun e => numeric (snd e)) (lifetime 7)
  /\ exists c, c_pidns c = 7 /\ remembered (web0 "Running") (lifetime 7) [c].
Proof.
  exact (conj (proj1 (lifetime_ordinary 7)) (conj (proj2 (lifetime_ordinary 7)) (lifetime_remembered 7))).
Qed.

(** * C64: when a pod's containers can be resolved *)

(** After a deletion, the remembered containers cannot. *)
Theorem C64_deleted_containers_are_forgotten :
  forall h p answer cs c,
    Forall (fun e => ordinary (fst e)) (h ++ [(Delete p, answer)])%list ->
    Forall (fun e => numeric (snd e)) (h ++ [(Delete p, answer)])%list ->
    remembered p h cs -> In c cs ->
    resolve (h ++ [(Delete p, answer)])%list (c_pidns c) = Some NotFound.
Proof. exact delete_forgets. Qed.

(** But a container that had stopped before (or restarted in a new namespace) when
    the others were remembered stays in the cache although its pod is gone. *)
Theorem C64_deletion_leaks_the_others_refuted :
  forall h p answer cs n c,
    Forall (fun e => ordinary (fst e)) (h ++ [(Delete p, answer)])%list ->
    Forall (fun e => numeric (snd e)) (h ++ [(Delete p, answer)])%list ->
    remembered p h cs -> (forall c', In c' cs -> c_pidns c' <> n) ->
    resolve h n = Some (Found (Some c)) ->
    resolve (h ++ [(Delete p, answer)])%list n = Some (Found (Some c)).
Proof. exact delete_leaks. Qed.

(** The container ran in namespace 6 and was restarted in namespace 7. *)
Definition restarted : list (callback * cri) :=
  (Add (web0 "Running"), Some [cri_of "web-0" "prod" "nginx" 6]) ::
  [(Update (web0 "Running") (web0 "Running"), Some [cri_of "web-0" "prod" "nginx" 7])].

Lemma two_lookups r6 r7 : match r6, r7 with Some (Found (Some _)), Some NotFound => true | _, _ => false end = true ->
  (exists c, r6 = Some (Found (Some c))) /\ r7 = Some NotFound.
Proof. destruct r6 as [[|[c|]|]|]; try discriminate. destruct r7 as [[| |]|]; try discriminate. intros _. split; [exists c|]; reflexivity. Qed.
Example C64_example :
  Forall (fun e => ordinary (fst e)) (restarted ++ [(Delete (web0 "Running"), None)])%list
  /\ Forall (fun e => numeric (snd e)) (restarted ++ [(Delete (web0 "Running"), None)])%list
  /\ (exists c, remembered (web0 "Running") restarted [c] /\ c_pidns c <> 6)
  /\ (exists c, resolve restarted 6 = Some (Found (Some c)))
  /\ resolve restarted 7 = Some NotFound.
Proof.
  split. { repeat constructor; cbn; try discriminate; exact no_dot. }
  split. { repeat constructor; cbn; discriminate. }
  split.
  { eexists. split.
    - exists [], [(Add (web0 "Running"), Some [cri_of "web-0" "prod" "nginx" 6])],
        (Update (web0 "Running") (web0 "Running"), Some [cri_of "web-0" "prod" "nginx" 7]), [].
      split; [reflexivity|]. split; [left; reflexivity|].
      split. { repeat constructor; intros (q & H & _); discriminate H. }
      split. { constructor; [|constructor]. intros cs' [[] _]. }
      split; [split; reflexivity|]. split; [exists (web0 "Running"); repeat split|].
      split; [|discriminate]. apply (listed_web 7).
    - discriminate. }
  apply two_lookups. vm_compute. reflexivity.
Qed.

(** * C65: restarted containers *)

(** A container in a namespace that no callback announcing its pod was told about
    (as after a restart, or a slower start than its pod's other containers) is never
    resolved: neither at the time nor later. *)
Theorem C65_late_containers_are_never_resolved_refuted :
  forall h n,
    Forall (fun e => ordinary (fst e)) h -> Forall (fun e => numeric (snd e)) h ->
    Forall (fun e => announces (fst e) -> forall p cs c, about (fst e) = Some p ->
      answers (snd e) (p_name p) (p_namespace p) cs -> In c cs -> c_pidns c <> n) h ->
    resolve h n = Some NotFound.
Proof. exact unannounced. Qed.

(** The restarted container of [restarted] is one. *)
Example C65_example :
  Forall (fun e => announces (fst e) -> forall p cs c, about (fst e) = Some p ->
    answers (snd e) (p_name p) (p_namespace p) cs -> In c cs -> c_pidns c <> 7) restarted.
Proof.
  constructor; [|constructor; [|constructor]].
  - cbn [fst snd about]. intros _ p cs c [= <-] H Hc.
    rewrite (listed_unique _ _ _ _ H _ (listed_web 6)) in Hc.
    destruct Hc as [<-|[]]. discriminate.
  - intros [H _]. discriminate H.
Qed.

Print Assumptions C45_new_containers_are_started.
Print Assumptions C45_deletion_stops_what_is_remembered.
Print Assumptions C45_nothing_else_is_reported.
Print Assumptions C45_pods_are_not_mixed_up.
Print Assumptions C45_dotted_namespaces_would_mix_refuted.
Print Assumptions C45_no_panic.
Print Assumptions C45_missed_deletions_panic_refuted.
Print Assumptions C64_deleted_containers_are_forgotten.
Print Assumptions C64_deletion_leaks_the_others_refuted.
Print Assumptions C65_late_containers_are_never_resolved_refuted.
