(** Specification vocabulary for the list commands. *)
From Coq Require Import ZArith String Ascii.
From stdpp Require Import gmap strings list.
From Verif Require Import SyscallModel FilterModel HubModel ServerModel FleetModel QueryModel.
From Verif Require ClientModel ClientSpec.
Open Scope Z_scope.

(** The jobs a server has, as the command asks for them. *)
Definition table_of (completed : bool) (s : srv) : gmap string nat := if completed then ServerModel.completed s else running s.
(** [l] are the jobs of [table], each once, in some order. *)
Definition the_jobs_of (table : gmap string nat) (l : list nat) : Prop := l ≡ₚ (map_to_list table).*2.
(** At some moment after the command started over [f] and before the end of [acts], server
    [i] was up and [l] were its jobs. *)
Definition were_the_jobs (J : nat -> nat -> job) (tbl : syscalls) (walk : nat -> order) (completed : bool) (q : query) (acts : list qact)
  (i : nat) (l : list nat) : Prop :=
  exists early late s, acts = (early ++ late)%list
    /\ f_srv (q_fleet (qrun J tbl walk completed q early)) !! i = Some (Some s)
    /\ (ClientSpec.plain_ids (table_of completed s) -> the_jobs_of (table_of completed s) l)
    /\ (forall x, x ∈ l -> exists id, table_of completed s !! id = Some x)
    /\ (length l <= size (table_of completed s))%nat.
(** Server [i] is up. *)
Definition up (f : fleet) (i : nat) : Prop := exists s, f_srv f !! i = Some (Some s).
(** Go's map order is some order. *)
Definition orders (walk : nat -> order) : Prop := forall k, ClientSpec.any_order (walk k).
