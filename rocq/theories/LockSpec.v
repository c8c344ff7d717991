(** What is expected of the hub's locks, in terms of what an observer sees. *)

From Coq Require Import ZArith Lia List Bool Arith.
From stdpp Require Import base list.
From Verif Require Import LockModel.
Import ListNotations.

(** a callback that asks the hub for nothing *)
Definition is_work (o : op) : bool := match o with OWork _ => true | _ => false end.

(** calls whose callbacks, if they run any, ask the hub for nothing *)
Definition quiet (o : op) : bool :=
  match o with
  | OPub cbs => forallb is_work cbs
  | OEvent pubs => forallb (forallb is_work) pubs
  | _ => true
  end.

(** calls that publish only as a message of the probe *)
Definition inside (o : op) : bool := match o with OPub _ | OWork _ => false | _ => true end.

(** calls that never subscribe or unsubscribe, not even from a callback; H is not asked for
    by a callback either, but a callback may publish *)
Fixpoint publishes_only (o : op) : bool :=
  match o with
  | OWork _ => true
  | OPub cbs => forallb publishes_only cbs
  | _ => false
  end.
Definition no_writer (o : op) : bool :=
  match o with
  | OSub | OUnsub => false
  | OPush | ODel | OWork _ => true
  | OPub cbs => forallb publishes_only cbs
  | OEvent pubs => forallb (forallb publishes_only) pubs
  end.

(** calls that take H first *)
Definition needs_hub (o : op) : bool :=
  match o with OPush | ODel | OEvent _ => true | _ => false end.
(** calls that change the tree of subscriptions *)
Definition changes_tree (o : op) : bool :=
  match o with OSub | OUnsub => true | _ => false end.

(** the whole of a log can be read as: one goroutine at a time is between the lock and the
    unlock of H *)
Fixpoint hub_serial (o : option nat) (l : list note) : bool :=
  match l with
  | [] => true
  | NLockH t :: l' => match o with None => hub_serial (Some t) l' | Some _ => false end
  | NUnlockH t :: l' => match o with Some u => Nat.eqb u t && hub_serial None l' | None => false end
  | _ :: l' => hub_serial o l'
  end.

(** ... and: the tree is changed only while nobody publishes and nobody else changes it *)
Fixpoint tree_safe (rs : list nat) (w : option nat) (l : list note) : bool :=
  match l with
  | [] => true
  | NRead t :: l' => match w with None => tree_safe (t :: rs) None l' | Some _ => false end
  | NUnread t :: l' => existsb (Nat.eqb t) rs && tree_safe (leave t rs) w l'
  | NWrite t :: l' => match rs, w with [], None => tree_safe [] (Some t) l' | _, _ => false end
  | NUnwrite t :: l' => match w with Some u => Nat.eqb u t && tree_safe rs None l' | None => false end
  | _ :: l' => tree_safe rs w l'
  end.

(** ... and: one goroutine at a time is publishing or changing the tree, and all the
    callbacks' work in between is that goroutine's *)
Fixpoint one_section (o : option nat) (l : list note) : bool :=
  match l with
  | [] => true
  | (NRead t | NWrite t) :: l' => match o with None => one_section (Some t) l' | Some _ => false end
  | (NUnread t | NUnwrite t) :: l' => match o with Some u => Nat.eqb u t && one_section None l' | None => false end
  | NWork t _ :: l' => match o with Some u => Nat.eqb u t && one_section o l' | None => false end
  | _ :: l' => one_section o l'
  end.

(** the goroutine that made a note *)
Definition note_of (n : note) : nat :=
  match n with
  | NLockH t | NUnlockH t | NRead t | NUnread t | NWrite t | NUnwrite t | NWork t _ => t
  end.

(** the part of a log that goroutine t made *)
Definition mine (t : nat) (l : list note) : list note := List.filter (λ n, Nat.eqb (note_of n) t) l.

(** what goroutine t is seen to do if it makes the operations p alone *)
Definition notes (t : nat) (p : list instr) : list note :=
  flat_map (λ i, match i with
                 | LockH => [NLockH t] | UnlockH => [NUnlockH t]
                 | RLockP => [NRead t] | RUnlockP => [NUnread t]
                 | WaitP => [] | TakeP => [NWrite t] | UnlockP => [NUnwrite t]
                 | Work k => [NWork t k]
                 end) p.

(** all the calls of all goroutines have returned *)
Definition all_done (n : nat) (s : mach) : Prop := ∀ t, t < n → m_rest s t = [].

(** how many operations are left *)
Definition left_over (n : nat) (s : mach) : nat := list_sum (map (λ t, length (m_rest s t)) (seq 0 n)).

(** goroutine t is inside a callback of a message of the probe *)
Definition delivering (s : mach) (t : nat) : Prop := m_h s = Some t ∧ t ∈ m_in s.
