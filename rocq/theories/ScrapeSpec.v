(** What those who scrape `swoll server` rely on: about the system calls made in the
    containers and what the observers said, not about maps and keys. *)
From Coq Require Import ZArith String Lia.
From stdpp Require Import base list numbers strings pretty gmap.
From Verif Require Import SyscallModel SyscallTable SyscallSpec FilterModel CodecModel KernelModel KernelSpec HubModel LiveModel LiveSpec ServeModel ServeSpec ChartModel ChartSpec ScrapeModel.

Local Open Scope string_scope.
Local Open Scope list_scope.
Local Open Scope Z_scope.

(** ** What happened *)

(** At step [k] a task of pid namespace [ns] left the system call numbered [nr], with the
    errno [e], which is 0 for success and is read off the low 32 bits of the result. *)
Definition leaves (l : list sop) (ns nr e : Z) (k : nat) : Prop :=
  exists tid t ret now cpu, did (story l) k (KExit tid t ret now cpu) /\ t_pidns t = ns /\ t_id t mod 2 ^ 32 = nr /\ errno_of ret = e.
Definition enters (l : list sop) (ns nr : Z) (k : nat) : Prop :=
  exists tid t args ugid now, did (story l) k (KEnter tid t args ugid now) /\ t_pidns t = ns /\ t_id t mod 2 ^ 32 = nr.
(** The hub was told before step [k] of a container with this pid namespace, and turned its
    metrics on. That of the number 31337 is on from the start (hub.go 28). *)
Definition metered (l : list sop) (ns : Z) (k : nat) : Prop :=
  ns = 31337 \/ exists q ns', (q < k)%nat /\ l !! q = Some (SMeter true ns') /\ ns' <> -1 /\ ns' mod 2 ^ 32 = ns.
(** The counters of the namespace were removed after step [k]. *)
Definition pruned_after (l : list sop) (ns : Z) (k : nat) : Prop :=
  exists q ns', (k < q)%nat /\ did (story l) q (KPrune ns') /\ ns' mod 2 ^ 32 = ns.

(** Step [k] counts: it left the call, in a namespace whose metrics were on, and is not
    forgotten. -1 is not the number of a call. *)
Definition counts (l : list sop) (ns nr e : Z) (k : nat) : Prop :=
  leaves l ns nr e k /\ metered l ns k /\ nr <> 2 ^ 32 - 1 /\ ~ pruned_after l ns k.
(** Step [k] makes the call known to the counters: one that counts, or, for errno 0, one
    that entered the call. *)
Definition shows (l : list sop) (ns nr e : Z) (k : nat) : Prop :=
  (leaves l ns nr e k \/ (e = 0 /\ enters l ns nr k)) /\ metered l ns k /\ nr <> 2 ^ 32 - 1 /\ ~ pruned_after l ns k.
(** [n] steps are like this. *)
Definition how_many (P : nat -> Prop) (n : nat) : Prop := exists ks, NoDup ks /\ length ks = n /\ forall k, k ∈ ks <-> P k.

(** ** Room *)

(** The filter holds 65535 rules: one for each call in each container of a job, one for
    each container's metrics, and three more. *)
Definition jobbed (l : list sop) : list Z := omap (fun o => match o with SJob _ true c => Some (ct_ns c) | _ => None end) l.
Definition switched (l : list sop) : list Z := omap (fun o => match o with SMeter true ns => Some (ns mod 2 ^ 32) | _ => None end) l.
Definition few_rules (l : list sop) : Prop :=
  333 * Z.of_nat (size (list_to_set (jobbed l) : gset Z)) + Z.of_nat (size (list_to_set (switched l) : gset Z)) + 3 < 65535.
(** There are 65535 counters, one for each namespace, call and errno. *)
Definition counters (l : list sop) : list mkey :=
  omap (fun o => match o with
                 | STask (KEnter _ t _ _ _) _ _ _ _ => Some (MKey (t_pidns t) (t_id t mod 2 ^ 32) 0)
                 | STask (KExit _ t ret _ _) _ _ _ _ => Some (MKey (t_pidns t) (t_id t mod 2 ^ 32) (errno_of ret))
                 | _ => None
                 end) l.
Definition few_counters (l : list sop) : Prop := (size (list_to_set (counters l) : gset mkey) <= Z.to_nat 65535)%nat.

(** ** The scrape *)

(** The call has a name in swoll's tables. *)
Definition has_name (nr : Z) : Prop := exists class group name, in_class_map class group name /\ (name, nr) ∈ gSyscallMap.
(** The labels of a counter: syscall, pod, container, namespace, class, group, err, pidns. *)
Definition tagged (c : HubModel.container) (ns nr e : Z) (ls : list string) : Prop :=
  exists name class group, in_class_map class group name /\ (name, nr) ∈ gSyscallMap
    /\ ls = [name; ct_pod c; ct_name c; ct_namespace c; class; group; errno_to_string e; pretty ns].

Section scrapes.
Context (tbl : syscalls) (describe : HubModel.container -> TopoModel.container (list (string * string)))
  (srt : list PubSubModel.env -> list PubSubModel.env) (J : nat -> job).

(** The world after the first [k] steps of a history that went [rs]. *)
Definition moment (s0 : server) (l : list sop) (rs : list sout) (k : nat) (w : world) : Prop :=
  exists s, srun tbl describe srt J s0 (take k l) s (take k rs) /\ w = sv_world s.
(** A scrape during the history: the [i]th look at the counters was after [at_look i]
    steps, the [i]th lookup of a container after [at_lookup i]. *)
Definition scrape_of (s0 : server) (l : list sop) (rs : list sout) (at_look at_lookup : nat -> nat) (a : scrape) : Prop :=
  exists snap lookups, (forall i, exists w, moment s0 l rs (at_look i) w /\ listing w (snap i)) /\ (forall i, moment s0 l rs (at_lookup i) (lookups i))
    /\ scraped tbl snap lookups a.
(** The looks come one after the other, then the lookups. *)
Definition in_order (at_look at_lookup : nat -> nat) : Prop :=
  (forall i j, (i <= j)%nat -> (at_look i <= at_look j)%nat /\ (at_lookup i <= at_lookup j)%nat) /\ (forall i j, (at_look i <= at_lookup j)%nat).
(** Nothing else happened while it ran, after the first [k] steps. *)
Definition quiet_scrape (s0 : server) (l : list sop) (rs : list sout) (k : nat) (a : scrape) : Prop :=
  exists w m, moment s0 l rs k w /\ listing w m /\ scraped tbl (fun _ => m) (fun _ => w) a.
End scrapes.
