(** Specification vocabulary for the hub: which jobs are registered for which
    (pid namespace, syscall), as a function of the history alone. *)
From stdpp Require Import gmap strings list.
From Coq Require Import ZArith Ascii.
From Verif Require Import SyscallModel FilterModel FilterSpec HashModel HubModel.
Open Scope Z_scope.

(** Job [g_job] wants syscall [g_nr] of pid namespace [g_ns]. *)
Record reg := Reg { g_job : nat; g_ns : Z; g_nr : Z }.
Global Instance reg_eq_dec : EqDecision reg.
Proof. solve_decision. Defined.

(** The syscall numbers a job's specification names (unknown names left out). *)
Definition job_nrs (tbl : syscalls) (jb : job) : list Z :=
  omap (fun s => match lookup_sc tbl (ByString s) with Some sc => Some (sc_nr sc) | None => None end) (j_calls jb).
(** The job's host selector admits a container of this name. *)
Definition selects (jb : job) (name : string) : Prop := j_hosts jb = [] \/ name ∈ j_hosts jb.
Global Instance selects_dec jb name : Decision (selects jb name).
Proof. unfold selects. apply _. Defined.

(** How one step changes the registrations, in the order they were made. A start
    adds one per syscall of the job; a failed update cuts it short. *)
Definition reg_step (J : nat -> job) (tbl : syscalls) (R : list reg) (s : hop * hout) : list reg :=
  match s with
  | (OStart j c, RStarted n ok) =>
      if decide (selects (J j) (ct_name c))
      then R ++ map (Reg j (ct_ns c)) (if ok then job_nrs tbl (J j) else take n (job_nrs tbl (J j)))
      else R
  | (OPush j ns nr, _) => R ++ [Reg j ns nr]
  | (ODelete id, _) => filter (fun g => j_id (J (g_job g)) <> id) R
  | _ => R
  end.
Definition registrations (J : nat -> job) (tbl : syscalls) (os : list hop) (rs : list hout) : list reg :=
  fold_left (reg_step J tbl) (zip os rs) [].

(** The registrations for one (pid namespace, syscall), and those of one job id. *)
Definition regs_at (ns nr : Z) (R : list reg) : list reg := filter (fun g => g_ns g = ns /\ g_nr g = nr) R.
Definition regs_of (J : nat -> job) (id : string) (R : list reg) : list reg := filter (fun g => j_id (J (g_job g)) = id) R.

(** What the hub itself has on record. *)
Definition reg_of (c : ctx) : reg := Reg (c_job c) (c_ns c) (c_nr c).
Definition bucket (h : hub) (ns nr : Z) : list reg := map reg_of (default [] (find_list h ns nr)).
Definition job_list (h : hub) (id : string) : list reg := map reg_of (default [] (idmap h !! id)).

(** No kernel map was full when a start was processed. *)
Definition updates_ok (rs : list hout) : Prop := forall n, RStarted n false ∉ rs.
(** No container stop in the history; no bare PushJob (which installs no rule). *)
Definition no_stops (os : list hop) : Prop := forall j c, OStop j c ∉ os.
Definition no_pushes (os : list hop) : Prop := forall j ns nr, OPush j ns nr ∉ os.
(** The pid namespaces of containers are kernel numbers. *)
Definition kernel_op (o : hop) : Prop :=
  match o with
  | OStart _ c | OStop _ c => kernel_ns (ct_ns c)
  | OKernel mode _ => kernel_mode mode
  | _ => True
  end.
(** The kernel has a rule for (ns, nr). *)
Definition has_rule (h : hub) (ns nr : Z) : Prop := is_Some (nfilter (maps h) !! syscall_rule ns nr).

(** [g] is the first registration in [L] with the lowest sample rate. *)
Definition lowest_reg (J : nat -> job) (L : list reg) (g : reg) : Prop :=
  exists i, L !! i = Some g /\
    (forall g', g' ∈ L -> j_rate (J (g_job g)) <= j_rate (J (g_job g'))) /\
    (forall i' g', (i' < i)%nat -> L !! i' = Some g' -> j_rate (J (g_job g)) < j_rate (J (g_job g'))).
(** The stride of a sampled job among the registrations [L] it shares events with:
    its own rate if it holds the lowest rate, the distance to the lowest otherwise. *)
Definition stride (J : nat -> job) (L : list reg) (j : nat) (d : Z) : Prop :=
  exists g, lowest_reg J L g /\
    d = if decide (g_job g = j) then j_rate (J j) else j_rate (J j) - j_rate (J (g_job g)).

(** How often job [j] is registered in [L]; how often it is offered an event in a
    history; how often it published one. *)
Definition count_job (j : nat) (L : list reg) : Z := Z.of_nat (length (filter (fun g => g_job g = j) L)).
Definition offer (R : list reg) (j : nat) (ev : event) : Z :=
  match e_container ev with None => 0 | Some _ => count_job j (regs_at (e_ns ev) (e_nr ev) R) end.
Fixpoint offers (J : nat -> job) (tbl : syscalls) (j : nat) (R : list reg) (l : list (hop * hout)) : Z :=
  match l with
  | [] => 0
  | s :: l => match s.1 with OEvent ev => offer R j ev | _ => 0 end + offers J tbl j (reg_step J tbl R s) l
  end.
Definition published_by (j : nat) (ps : list (option nat * list Z)) : Z :=
  Z.of_nat (length (filter (fun p => p.1 = Some j) ps)).
Fixpoint published_total (j : nat) (rs : list hout) : Z :=
  match rs with
  | [] => 0
  | RPublished ps :: rs => published_by j ps + published_total j rs
  | _ :: rs => published_total j rs
  end.

(** Host [k] (shown as container.pod) was started, or stopped, for job [j]. *)
Definition host_name (c : container) : string := (ct_name c ++ "." ++ ct_pod c)%string.
Definition host_started (J : nat -> job) (os : list hop) (j : nat) (k : string) : Prop :=
  exists c, OStart j c ∈ os /\ selects (J j) (ct_name c) /\ host_name c = k.
Definition host_stopped (os : list hop) (j : nat) (k : string) : Prop :=
  exists c, OStop j c ∈ os /\ host_name c = k.
(** What MonitoredHosts can return for job [j]. *)
Definition hosts_listed (h : hub) (j : nat) (all : bool) (ret : list string) : Prop :=
  monitored_hosts (default ∅ (hosts h !! j)) all ret.

(** Every event offered to job [j] in the history meets its registrations in a
    bucket with property [P]. *)
Definition at_every_offer (J : nat -> job) (tbl : syscalls) (h0 : hub) (os : list hop) (j : nat) (P : list reg -> Prop) : Prop :=
  forall os1 ev os2 rs1 h1, os = (os1 ++ OEvent ev :: os2)%list -> hrun J tbl h0 os1 = Ok (h1, rs1) ->
    e_container ev <> None ->
    let L := regs_at (e_ns ev) (e_nr ev) (registrations J tbl os1 rs1) in
    j ∈ map g_job L -> P L.
(** Total number of events offered to job [j]: one per registration it meets. *)
Definition offered_total (J : nat -> job) (tbl : syscalls) (j : nat) (os : list hop) (rs : list hout) : Z :=
  offers J tbl j [] (zip os rs).
(** A job naming a syscall the table does not know. *)
Definition unknown_name (tbl : syscalls) (jb : job) : Prop := exists s, s ∈ j_calls jb /\ lookup_sc tbl (ByString s) = None.
(** No dot in a name. *)
Definition no_dot (s : string) : Prop := ~ In "."%char (list_ascii_of_string s).
