(** What those who look at `swoll top` rely on: about the system calls made in the
    containers and what the observer said, not about maps and keys. *)
From Coq Require Import ZArith String Lia.
From stdpp Require Import base list numbers strings pretty gmap.
From Verif Require Import SyscallModel SyscallTable SyscallSpec FilterModel CodecModel KernelModel KernelSpec HubModel LiveModel LiveSpec ServeModel ServeSpec ChartModel ChartSpec WalkModel ScrapeModel ScrapeSpec TopModel TopLiveModel.

Local Open Scope string_scope.
Local Open Scope list_scope.
Local Open Scope Z_scope.

(** The name the call [nr] has on the screen: none if swoll does not know it. *)
Definition called (nr : Z) (name : string) : Prop :=
  (exists class group, in_class_map class group name /\ (name, nr) ∈ gSyscallMap) \/ (~ has_name nr /\ name = "").
(** The first five columns of a row. *)
Definition heads (c : HubModel.container) (nr e : Z) (hd : list string) : Prop :=
  exists name, called nr name /\ hd = [name; errno_to_string e; ct_namespace c; ct_pod c; ct_name c].

(** The rows below the header, whatever they are sorted by; the rate is a text of its own. *)
Definition screen (m : gmap tkey Z) (rows : list (list string)) : Prop :=
  exists sorted rate, sorted ≡ₚ map_to_list m /\ rows = tail (top_rows false rate sorted).
(** There is one row with these first columns, and it has the count [n]. *)
Definition shown (m : gmap tkey Z) (hd : list string) (n : nat) : Prop :=
  forall rows, screen m rows -> exists rate, forall row, row ∈ rows /\ take 5 row = hd <-> row = hd ++ [pretty (Z.of_nat n); rate].

Definition same_names (a b : HubModel.container) : Prop := ct_namespace a = ct_namespace b /\ ct_pod a = ct_pod b /\ ct_name a = ct_name b.

Section ticks.
Context (tbl : syscalls) (describe : HubModel.container -> TopoModel.container (list (string * string)))
  (srt : list PubSubModel.env -> list PubSubModel.env) (J : nat -> job).

(** A tick during the history: as a scrape (ScrapeSpec.v). *)
Definition tick_of (s0 : server) (l : list sop) (rs : list sout) (at_look at_lookup : nat -> nat) (es : list entry) : Prop :=
  exists snap lookups, (forall i, exists w, moment tbl describe srt J s0 l rs (at_look i) w /\ listing w (snap i))
    /\ (forall i, moment tbl describe srt J s0 l rs (at_lookup i) (lookups i)) /\ ticked snap lookups es.
(** Nothing else happened while it ran, after the first [k] steps. *)
Definition quiet_tick (s0 : server) (l : list sop) (rs : list sout) (k : nat) (es : list entry) : Prop :=
  exists w m, moment tbl describe srt J s0 l rs k w /\ listing w m /\ ticked (fun _ => m) (fun _ => w) es.
(** Some ticks, with the times of their looks and lookups. *)
Definition ticks (s0 : server) (l : list sop) (rs : list sout) (ts : list ((nat -> nat) * (nat -> nat))) (h : list (list entry)) : Prop :=
  Forall2 (fun t es => tick_of s0 l rs t.1 t.2 es) ts h.
(** Some quiet ticks, after [ks] steps. *)
Definition quiet_ticks (s0 : server) (l : list sop) (rs : list sout) (ks : list nat) (h : list (list entry)) : Prop :=
  Forall2 (fun k es => quiet_tick s0 l rs k es) ks h.
End ticks.

(** ** Nobody leaves *)

(** No container stops, and no pid namespace is used twice. *)
Definition all_stay (l : list sop) : Prop :=
  (forall c, SPod false c ∉ l) /\ (forall k ns, ~ did (story l) k (KPrune ns))
  /\ (forall a b, SPod true a ∈ l -> SPod true b ∈ l -> ct_ns a = ct_ns b \/ same_names a b -> a = b).
