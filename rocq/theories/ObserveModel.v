(** The Kubernetes observer, pkg/topology/kubernetes.go. *)
From stdpp Require Import base list strings gmap.
From Coq Require Import ZArith String.
From Verif Require Import TopoModel.

Local Open Scope string_scope.

(** What ContainerStatus says about a container's pid (getContainerPid, 212-233):
    an error, bad JSON or no pid; a number; or a pid that is not a number, for
    which the type assertion in line 229 panics. *)
Inductive pid_info := PidError | PidNumber (pid : Z) | PidOther.

(** A container of the CRI's ListContainers answer with what is found out about
    it: its pid, and the inode of that pid's namespace file (ns.go 11-27; [None]:
    stat fails). *)
Record cri_container := Cri {
  cri_id : string; cri_labels : labels; cri_image : string;
  cri_pid : pid_info; cri_pidns : option Z
}.

(** The answer of the CRI: [None] is an error. *)
Definition cri := option (list cri_container).

(** Reading a Go map: "" when absent. *)
Definition label (l : labels) (k : string) : string := default "" (l !! k).

Definition pod_label := "io.kubernetes.pod.name".
Definition namespace_label := "io.kubernetes.pod.namespace".
Definition name_label := "io.kubernetes.container.name".

(** The loop of criContainers (kubernetes.go 271-324) with its optional match
    (pod name, namespace).  [None] is a panic. *)
Fixpoint cri_loop (match_ : option (string * string)) (cs : list cri_container) : option (list cval) :=
  match cs with
  | [] => Some []
  | c :: cs' =>
      let pod := label (cri_labels c) pod_label in
      let kns := label (cri_labels c) namespace_label in
      let name := label (cri_labels c) name_label in
      let skip :=
        match match_ with
        | None => false
        | Some (mpod, mns) =>
            String.eqb pod "" || String.eqb kns ""
            || negb (String.eqb mpod pod) || negb (String.eqb mns kns)
        end in
      if skip then cri_loop match_ cs'
      else match cri_pid c with
           | PidOther => None
           | PidError => cri_loop match_ cs'
           | PidNumber pid =>
               match cri_pidns c with
               | None => cri_loop match_ cs'
               | Some pidns =>
                   match cri_loop match_ cs' with
                   | None => None
                   | Some rest =>
                       Some (Ctr (cri_id c) pod "" name (cri_image c) kns (cri_labels c) pid pidns :: rest)
                   end
               end
           end
  end.

(** A pod, with its phase (a string in the API). *)
Record pod := Pod { p_name : string; p_namespace : string; p_phase : string }.

Definition Pending := "Pending".
Definition Running := "Running".

(** containersForPod (kubernetes.go 348-357): an error is a warning and no
    containers. *)
Definition containers_for_pod (answer : cri) (p : pod) : option (list cval) :=
  match answer with
  | None => Some []
  | Some cs => cri_loop (Some (p_name p, p_namespace p)) cs
  end.

(** The informer's callbacks.  [DeleteUnknown]: the informer missed the deletion
    and passes a DeletedFinalStateUnknown instead of a pod. *)
Inductive callback :=
| Add (p : pod)
| Update (old new : pod)
| Delete (p : pod)
| DeleteUnknown.

Definition key (p : pod) : string := p_name p ++ "." ++ p_namespace p.

Notation phased := (gmap string (list cval)).

(** Events sent to the topology. *)
Definition starts (cs : list cval) : list observation :=
  map (fun c => OEvent EventTypeStart (Some c)) cs.
Definition stops (cs : list cval) : list observation :=
  map (fun c => OEvent EventTypeStop (Some c)) cs.

(** Run's handlers (kubernetes.go 371-448).  A callback asks the CRI at most once;
    [answer] is what it would say at that moment.  [None] is a panic: the type
    assertions of lines 414, 415 fail on a DeletedFinalStateUnknown. *)
Definition handle (cache : phased) (cb : callback) (answer : cri) : option (phased * list observation) :=
  match cb with
  | Update old new =>                                                  (* 372-412 *)
      if String.eqb (p_phase old) Pending && String.eqb (p_phase new) Running then
        match containers_for_pod answer new with
        | None => None
        | Some cs => Some (cache, starts cs)
        end
      else if String.eqb (p_phase old) Running && String.eqb (p_phase new) Running then
        match cache !! key new with
        | Some _ => Some (cache, [])
        | None =>
            match containers_for_pod answer new with
            | None => None
            | Some [] => Some (cache, [])
            | Some cs => Some (<[key new := cs]> cache, [])
            end
        end
      else Some (cache, [])
  | Delete p =>                                                        (* 413-438 *)
      match cache !! key p with
      | Some cs => Some (delete (key p) cache, stops cs)
      | None =>
          match containers_for_pod answer p with
          | None => None
          | Some cs => Some (cache, stops cs)
          end
      end
  | DeleteUnknown => None
  | Add p =>                                                           (* 439-447 *)
      match containers_for_pod answer p with
      | None => None
      | Some cs => Some (cache, starts cs)
      end
  end.

(** A run of the informer: its callbacks, each with the CRI's answer. *)
Fixpoint observe (cache : phased) (h : list (callback * cri)) : option (phased * list observation) :=
  match h with
  | [] => Some (cache, [])
  | (cb, answer) :: h' =>
      match handle cache cb answer with
      | None => None
      | Some (cache', out) =>
          match observe cache' h' with
          | None => None
          | Some (cache'', outs) => Some (cache'', (out ++ outs)%list)
          end
      end
  end.

(** Topology.Run over this observer (topology.go 83-100): the events arrive in
    order through an unbuffered channel. *)
Definition resolve (h : list (callback * cri)) (ns : Z) : option output :=
  match observe ∅ h with
  | None => None
  | Some (_, evs) => Some (lookup_container (run init (map Observe evs)).1 ns).2
  end.
