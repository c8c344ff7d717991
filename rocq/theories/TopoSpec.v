(** What the container cache should answer, in terms of the history alone. *)
From stdpp Require Import base list strings gmap.
From Coq Require Import ZArith.
From Verif Require Import TopoModel.

Local Open Scope Z_scope.

(** The valid events: type 0 (start) or 1 (stop) and a container with a positive
    pid namespace. *)
Inductive announced := Started (c : cval) | Stopped (c : cval).

Definition announce (o : op) : option announced :=
  match o with
  | Observe (OEvent 0 (Some c)) => if 0 <? c_pidns c then Some (Started c) else None
  | Observe (OEvent 1 (Some c)) => if 0 <? c_pidns c then Some (Stopped c) else None
  | _ => None
  end.

(** [last_in ns past c]: the latest valid event for [ns] in [past] started [c]. *)
Definition concerns (ns : Z) (a : announced) : Prop :=
  match a with Started c | Stopped c => c_pidns c = ns end.

Definition last_in (ns : Z) (past : list op) (c : cval) : Prop :=
  exists before o after,
    past = (before ++ o :: after)%list /\ announce o = Some (Started c) /\ c_pidns c = ns
    /\ Forall (fun o' => forall a, announce o' = Some a -> ~ concerns ns a) after.

(** What the callback should be told. *)
Definition told (o : op) : list output :=
  match announce o with
  | Some (Started c) => [Report 0 (Some c)]
  | Some (Stopped c) => [Report 1 (Some c)]
  | None => []
  end.

(** The callback (or anyone it passes the pointer to) does not write to it. *)
Definition read_only (o : op) : Prop := match o with WriteGiven _ _ => False | _ => True end.

Definition is_report (o : output) : bool := match o with Report _ _ => true | _ => false end.
