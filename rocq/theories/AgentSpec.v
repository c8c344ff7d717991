(** What a trace and its job are to each other, in Kubernetes' terms. *)
From Coq Require Import ZArith String Ascii Bool Lia.
From stdpp Require Import base list numbers strings gmap.
From Verif Require Import HubModel ClientModel ClientSpec AgentModel.
Local Open Scope Z_scope.

(** What can stand in a comma-separated list as it is. *)
Definition clean (s : text) : Prop :=
  Forall (fun c => c <> quote /\ c <> comma /\ c <> cr /\ c <> lf) s.
(** Lists of these; a list with just an empty text is not distinguishable from []. *)
Definition clean_list (l : list text) : Prop := Forall clean l /\ l <> [[]].

(** Labels, from the Kubernetes documentation: a value is empty or has at most 63 letters,
    digits, dashes, underscores and dots, with letters or digits at both ends. *)
Definition letter (c : ascii) : Prop :=
  (48 <= code c <= 57)%nat \/ (65 <= code c <= 90)%nat \/ (97 <= code c <= 122)%nat.
Definition small (c : ascii) : Prop := (48 <= code c <= 57)%nat \/ (97 <= code c <= 122)%nat.
Definition between (edge inner : ascii -> Prop) (s : text) : Prop :=
  (exists c, s = [c] /\ edge c) \/
  (exists c m d, s = c :: (m ++ [d])%list /\ edge c /\ edge d /\ Forall inner m).
Definition kube_name (s : text) : Prop :=
  (length s <= 63)%nat /\ between letter (fun c => letter c \/ c = "-"%char \/ c = "_"%char \/ c = "."%char) s.
Definition kube_value (s : text) : Prop := s = [] \/ kube_name s.
(** DNS labels and names. *)
Definition kube_label (s : text) : Prop := between small (fun c => small c \/ c = "-"%char) s.
Definition kube_domain (s : text) : Prop :=
  (length s <= 253)%nat /\ exists parts, parts <> [] /\ Forall kube_label parts /\ s = join [("."%char : ascii)] parts.
(** A key is a name, perhaps with a domain before it. *)
Definition kube_key (s : text) : Prop :=
  kube_name s \/ exists p n, s = (p ++ slash :: n)%list /\ kube_domain p /\ kube_name n.
Definition kube_labels (m : gmap (list ascii) (list ascii)) : Prop :=
  forall k v, m !! k = Some v -> kube_key k /\ kube_value v.

(** The requests a trace stands for: its namespace, the job's id, its system calls
    (sys_execve if there are none), labels, fields and hosts; followed until it ends. *)
Definition stands_for (x : trace) (u : text) (eps : list (text * Z)) (o : outcome) : Prop :=
  o = Requests false eps (tr_ns x) (Some (tr_name x ++ "-"%char :: u)%list)
        (Spec (match tr_syscalls x with [] => [t "sys_execve"] | l => l end)
              (map_to_list (tr_labels x)) (map_to_list (tr_fields x)) (tr_hosts x)) true.

(** A trace whose texts can be passed on. *)
Record proper (x : trace) : Prop := {
  p_ns : tr_ns x <> [];
  p_syscalls : clean_list (tr_syscalls x);
  p_hosts : clean_list (tr_hosts x);
  p_labels : kube_labels (tr_labels x);
  p_fields : kube_labels (tr_fields x) }.

(** The requirement key!=value of a label selector. *)
Definition differs (m : gmap (list ascii) (list ascii)) (k v : text) : Prop := m !! k <> Some v.

(** The job the server runs for a spec: its hosts and calls, as strings (the names of
    HubModel.v). *)
Definition text_string (s : text) : string := String.string_of_list_ascii s.
Definition hub_job (s : spec) (id : string) : job := HubModel.Job id 0 (map text_string (s_syscalls s)) (map text_string (s_hosts s)).

(** The flags of `swoll client create` (`--help`). *)
Definition flag_names : list text :=
  map t ["endpoints"; "syscalls"; "match-hosts"; "use-tls"; "oneshot"; "output"; "namespace"; "file"; "jobid"; "label-selector"; "field-selector"]%string.
