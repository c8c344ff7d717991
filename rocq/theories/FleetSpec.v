(** Specification vocabulary for commands over several endpoints, read off what was
    seen. *)
From Coq Require Import ZArith String.
From stdpp Require Import gmap strings list.
From Verif Require Import SyscallModel FilterModel HubModel HubSpec ServerModel ServerSpec FleetModel.
Open Scope Z_scope.

(** What was seen at server [i]. *)
Definition at_server (i : nat) (l : list fev) : list sev :=
  omap (fun e => match e with VServer i' e => if decide (i' = i) then Some e else None | _ => None end) l.
(** The endpoints a command asked, and those that did what it asked for, in order. *)
Definition asked (l : list fev) : list nat := omap (fun e => match e with VSend i _ => Some i | _ => None end) l.
Definition succeeded (l : list fev) : list nat := omap (fun e => match e with VDone i => Some i | _ => None end) l.

(** In [log], command [c] over [eps] ran from its start to its end with status [st];
    [l0] was seen before it, [l1] during it. *)
Definition ran (log l0 : list fev) (c : command) (eps : list nat) (l1 : list fev) (st : Z) : Prop :=
  exists l2, log = (l0 ++ VStart c eps :: l1 ++ VExit st :: l2)%list /\ (forall st', VExit st' ∉ l1) /\ (forall c' eps', VStart c' eps' ∉ l1).

(** Endpoint [i] got the request of [c] and gave the answer wanted, in this order. *)
Definition did (J : nat -> nat -> job) (c : command) (i : nat) (h : list sev) : Prop :=
  exists t h1 h2 h3,
    match c with
    | CCreate id => exists j, j_id (J i j) = id /\ h = (h1 ++ EReq t (RCreate j) :: h2 ++ EAnswer t (RCreate j) (ACode 201) :: h3)%list
    | CDelete id => h = (h1 ++ EReq t (RDelete id) :: h2 ++ EAnswer t (RDelete id) (ACode 200) :: h3)%list
    end.
(** A container in which job [id] has something to watch was started at server [i]. *)
Definition matched (J : nat -> nat -> job) (tbl : syscalls) (i : nat) (id : string) (h : list sev) : Prop :=
  exists j c n ok, EHub (OStart j c) (RStarted n ok) ∈ h /\ j_id (J i j) = id /\ selects (J i j) (ct_name c) /\ job_nrs tbl (J i j) <> [].
(** Every success was preceded by a request of the command to that endpoint, which
    the endpoint got and answered as wanted, no other success in between. *)
Definition each_success (J : nat -> nat -> job) (c : command) (l : list fev) : Prop :=
  forall la i lb, l = (la ++ VDone i :: lb)%list ->
  exists lx t ly, la = (lx ++ VSend i t :: ly)%list /\ (forall k, VDone k ∉ ly) /\ did J c i (at_server i ly).
