(** Specification vocabulary for schedules of concurrent callbacks. *)
From stdpp Require Import gmap strings list.
From Coq Require Import ZArith.
From Verif Require Import SyscallModel FilterModel FilterSpec HashModel HubModel HubSpec ThreadModel.
Open Scope Z_scope.

(** The registrations a schedule made and did not delete, in order: a function of
    what was reported, not of the hub's indexes. *)
Definition treg_step (J : nat -> job) (tbl : syscalls) (R : list reg) (s : top * tout) : list reg :=
  match s with
  | (TStep _, TOPushed j ns nr) => R ++ [Reg j ns nr]
  | (TOther o, TOHub r) => reg_step J tbl R (o, r)
  | _ => R
  end.
Definition tregistrations (J : nat -> job) (tbl : syscalls) (l : list top) (rs : list tout) : list reg :=
  fold_left (treg_step J tbl) (zip l rs) [].

(** No kernel map was full; no stop, bare PushJob or one-step start among the hub
    operations; pid namespaces are kernel numbers. *)
Definition tupdates_ok (rs : list tout) : Prop := TOUpdate false ∉ rs.
Definition plain_op (o : top) : Prop :=
  match o with
  | TStart _ c => kernel_ns (ct_ns c)
  | TStep _ => True
  | TOther (OStart _ _) | TOther (OStop _ _) | TOther (OPush _ _ _) => False
  | TOther _ => True
  end.
(** All callbacks have returned. *)
Definition all_returned (s : tstate) : Prop := forall t, t ∈ t_threads s -> t_prog t = [].
(** Some callback still has to tell the kernel about (ns, nr). *)
Definition in_flight (s : tstate) (ns nr : Z) : Prop := exists t, t ∈ t_threads s /\ t_ns t = ns /\ TAdd nr ∈ t_prog t.
(** No job is deleted while one of its callbacks runs. *)
Definition no_overlap (J : nat -> job) (tbl : syscalls) (s0 : tstate) (l : list top) : Prop :=
  forall l1 id l2 s rs, l = (l1 ++ TOther (ODelete id) :: l2)%list -> trun J tbl s0 l1 = Ok (s, rs) ->
  forall t, t ∈ t_threads s -> t_prog t <> [] -> j_id (J (t_job t)) <> id.
