(** What the clients of the watch API see. *)
From Coq Require Import ZArith String.
From stdpp Require Import gmap strings list.
From Verif Require Import PubSubModel HashModel WatchModel.
Open Scope Z_scope.

(** The stream asked for: a job's, or that of a container. *)
Definition asked (a : ask) : list Z :=
  hash_path match a with
            | AskJob id => ["job"%string; id]
            | AskTrace ns pod container => ["ns"%string; ns; pod; container]
            end.

(** A container is among those asked for: the names agree up to the first one left out. *)
Definition agree (R : string -> string -> Prop) (ns pod container ns' pod' container' : string) : Prop :=
  ns = ""%string \/ R ns ns' /\ (pod = ""%string \/ R pod pod' /\ (container = ""%string \/ R container container')).

(** What watcher [w] is subscribed to after a log, if anything. *)
Definition topic_step (w : nat) (p : option (list Z)) (o : obs) : option (list Z) :=
  match o with
  | Joined w' a => if decide (w = w') then Some (asked a) else p
  | Unsubscribed w' => if decide (w = w') then None else p
  | _ => p
  end.
Fixpoint topic (w : nat) (p : option (list Z)) (l : list (Z * obs)) : option (list Z) :=
  match l with [] => p | (_, o) :: l => topic w (topic_step w p o) l end.

(** The stream of watcher [w]: the events published below the path it asked for, from
    the moment it joins to the moment it is unsubscribed, in order. *)
Definition in_topic (p : option (list Z)) (o : obs) : list nat :=
  match o, p with
  | Published e path, Some q => if decide (q `prefix_of` path) then [e] else []
  | _, _ => []
  end.
Fixpoint stream_from (w : nat) (p : option (list Z)) (l : list (Z * obs)) : list nat :=
  match l with
  | [] => []
  | (_, o) :: l => (in_topic p o ++ stream_from w (topic_step w p o) l)%list
  end.
Definition stream (w : nat) (l : list (Z * obs)) : list nat := stream_from w None l.

(** The events its client got, and those its callback was run for. *)
Definition got_of (w : nat) (o : obs) : list nat :=
  match o with Got w' e => if decide (w = w') then [e] else [] | _ => [] end.
Definition called_of (w : nat) (o : obs) : list nat :=
  match o with Called w' e => if decide (w = w') then [e] else [] | _ => [] end.
Definition gots (w : nat) (l : list (Z * obs)) : list nat := concat (map (fun p => got_of w p.2) l).
Definition calls (w : nat) (l : list (Z * obs)) : list nat := concat (map (fun p => called_of w p.2) l).

(** A client that answers every ping in less than three seconds. *)
Definition prompt (w : nat) (s : sys) : Prop :=
  forall t, (t, Pinged w) ∈ log s -> t + 3000 <= clock s ->
    exists t', (t', Ponged w) ∈ log s /\ t <= t' < t + 3000.

(** No write ever blocks. *)
Definition no_stall (acts : list act) : Prop := ~ In (Call false) acts.
