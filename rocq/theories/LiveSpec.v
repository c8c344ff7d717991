(** What a user of `swoll trace` relies on: about what happened on the machine and what
    the observers said, not about maps, indexes and buffers. *)
From Coq Require Import ZArith String Lia.
From stdpp Require Import base list numbers strings pretty gmap.
From Verif Require Import FilterModel HubModel KernelModel CaptureModel CaptureSpec LineModel LineSpec DecodeModel PlainSpec LiveModel.

Local Open Scope string_scope.
Local Open Scope list_scope.
Local Open Scope Z_scope.

(** ** What happened *)

(** Step [k] is this. *)
Definition did (l : list wop) (k : nat) (o : kop) : Prop := exists su scratch trailing lost, l !! k = Some (WTask o su scratch trailing lost).
Definition enters_at (l : list wop) (k : nat) (tid : Z) : Prop := exists t args ugid now, did l k (KEnter tid t args ugid now).
Definition leaves_at (l : list wop) (k : nat) (tid : Z) : Prop := exists t ret now cpu, did l k (KExit tid t ret now cpu).

(** A thread enters a call only after it has left the one before. *)
Definition in_turn (l : list wop) : Prop :=
  forall tid i j, (i < j)%nat -> enters_at l i tid -> enters_at l j tid -> exists k, (i < k < j)%nat /\ leaves_at l k tid.

(** Thread [tid] entered a call at [i] and left it at [k]. *)
Definition a_call (l : list wop) (i k : nat) (tid : Z) (t t' : task) (args : list Z) (ugid now now' ret cpu : Z) : Prop :=
  (i < k)%nat /\ did l i (KEnter tid t args ugid now) /\ did l k (KExit tid t' ret now' cpu)
  /\ forall j, (i < j < k)%nat -> ~ enters_at l j tid /\ ~ leaves_at l j tid.

(** The machine's numbers fit their types; tasks have a pid namespace; the tracepoint of
    execve sees execve; nothing else edits the filter. *)
Definition word (x : Z) : Prop := 0 <= x < 2 ^ 64.
Definition some_ns (ns : Z) : Prop := 0 < ns < 2 ^ 32.
Definition fits (o : kop) : Prop :=
  match o with
  | KEnter tid t _ ugid now => word tid /\ word ugid /\ word now /\ some_ns (t_pidns t)
  | KExit tid t _ now _ => word tid /\ word now /\ some_ns (t_pidns t)
  | KExecve tid t _ ugid now _ => word tid /\ word ugid /\ word now /\ some_ns (t_pidns t) /\ t_id t = 59
  | KUser _ => False
  | KPrune _ => True
  end.
Definition nobody : kevent := KEvent 0 0 0 0 0 0 [] 0.
Definition real (o : wop) : Prop :=
  match o with
  | WTask o su scratch _ _ => fits o /\ surroundings_ok nobody su /\ length scratch = 736%nat
  | WMatch _ c => ct_ns c < 2 ^ 32
  | _ => True
  end.

(** The kernel remembers up to 65535 calls in progress. *)
Definition entering (l : list wop) : list Z := omap (fun o => match o with WTask (KEnter tid _ _ _ _) _ _ _ _ => Some tid | _ => None end) l.
Definition few_tasks (l : list wop) : Prop := (size (list_to_set (entering l) : gset Z) <= Z.to_nat 65535)%nat.

(** ** What the observers said *)

(** The container the hub knows for a pid namespace: the last one reported, unless it
    was reported to have stopped. *)
Definition known (l : list wop) (ns : Z) (c : container) : Prop :=
  0 < ns /\ exists k, l !! k = Some (WPod true c) /\ ct_ns c = ns
    /\ forall j start c', (k < j)%nat -> l !! j = Some (WPod start c') -> ct_ns c' <> ns.

(** The trace's observer has reported a container with this pid namespace. *)
Definition reported (l : list wop) (ns : Z) : Prop := exists k c, l !! k = Some (WMatch true c) /\ ct_ns c = ns.
(** ... this many times. *)
Definition reports (l : list wop) (ns : Z) (n : nat) : Prop :=
  exists ks, NoDup ks /\ length ks = n /\ forall k, k ∈ ks <-> exists c, l !! k = Some (WMatch true c) /\ ct_ns c = ns.
(** None was reported to have stopped; every rule could be installed. *)
Definition none_stopped (l : list wop) : Prop := forall c, WMatch false c ∉ l.
Definition all_installed (rs : list wout) : Prop := forall n, UMatched n false ∉ rs.

(** The filter holds 65535 rules: one for each call in each container, one for each
    container's metrics, and three more. *)
Definition matched (l : list wop) : list Z := omap (fun o => match o with WMatch true c => Some (ct_ns c) | _ => None end) l.
Definition metered (l : list wop) : list Z := omap (fun o => match o with WMeter true ns => Some (ns mod 2 ^ 32) | _ => None end) l.
Definition few_rules (l : list wop) : Prop :=
  333 * Z.of_nat (size (list_to_set (matched l) : gset Z)) + Z.of_nat (size (list_to_set (metered l) : gset Z)) + 3 < 65535.

(** ** What the user asked for *)

(** The names on the command line that are this call's. *)
Definition mentions (flag : list string) (nr : Z) (n : nat) : Prop :=
  exists js, NoDup js /\ length js = n
    /\ forall j, j ∈ js <-> exists name, match flag with [] => ["execve"] | _ => flag end !! j = Some name /\ names_call name nr.

(** ** What comes out *)

(** An event was sent at step [k] (if it found room). *)
Definition sends (l : list wop) (rs : list wout) (k : nat) (e : kevent) (su : surroundings) : Prop :=
  exists o scratch trailing r, l !! k = Some (WTask o su scratch trailing false) /\ rs !! k = Some (UTask r) /\ o_event r = Some e.

(** The line of a call in a container. umount2 (166) is printed as umount (C90). *)
Definition names_container (tty : bool) (c : container) (e : kevent) (su : surroundings) (out : list Z) : Prop :=
  exists name params ms before before' result args,
    prototype (ev_nr e) = Some (name, params)
    /\ out = text_bytes "(" ++ ms ++ text_bytes "ms) " ++ repeat 32 before
             ++ paint tty Green (text_bytes (ct_name c) ++ text_bytes "." ++ text_bytes (ct_pod c) ++ text_bytes "." ++ text_bytes (ct_namespace c))
             ++ text_bytes ": [" ++ repeat 32 before' ++ until_nul (su_comm su) ++ text_bytes "] (" ++ result ++ text_bytes ") "
             ++ paint tty Cyan (text_bytes (if decide (ev_nr e = 166) then "umount" else name))
             ++ text_bytes "(" ++ args ++ text_bytes ")" ++ [10].

(** The publications on the trace's own path, one for each line (C15). *)
Definition for_trace (ps : list (option nat * list Z)) : nat := length (List.filter (fun x => match fst x with Some _ => true | None => false end) ps).
