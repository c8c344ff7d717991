(** Model of the two locks of the hub and of the goroutines that take them.

    pkg/topology/hub.go: Hub embeds a sync.Mutex (H below). internal/pkg/pubsub/pubsub.go:
    PubSub.mu is a sync.RWMutex (P below). A goroutine is the list of the lock operations its
    calls make, in order; one step of the machine is one of them. What a critical section
    does to the maps and to the tree is in HubModel.v and PubSubModel.v, where a section is
    one step: this file is about whether that is right, and about whether it ends. *)

From Coq Require Import ZArith Lia List Bool Arith.
From stdpp Require Import base list.
Import ListNotations.

(** one lock operation. WaitP and TakeP are the two halves of RWMutex.Lock: the first
    closes the door to new readers (and to other writers), the second waits for those that
    are inside. Work k is a piece of work k done by a callback. *)
Inductive instr :=
  | LockH | UnlockH
  | RLockP | RUnlockP
  | WaitP | TakeP | UnlockP
  | Work (k : nat).

(** what a goroutine or a callback can ask for *)
Inductive op :=
  | OSub                              (* Hub.AttachTrace, Hub.AttachPath: hub.go 436-452 *)
  | OUnsub                            (* the function they return: pubsub.go 164-169 *)
  | OPush                             (* Hub.PushJob, made by a running job: hub.go 361-388 *)
  | ODel                              (* Hub.DeleteTrace: hub.go 122-186 *)
  | OWork (k : nat)                   (* anything that takes neither lock *)
  | OPub (cbs : list op)              (* Hub.WriteEvent called by itself: hub.go 190-194;
                                         cbs is what the callbacks it runs ask for *)
  | OEvent (pubs : list (list op)).   (* one message of the probe: hub.go 216-250; one entry
                                         per Publish that it makes, none if no job matches *)

(** pubsub.go 149-170: Subscribe and the Unsubscriber lock P for writing.
    pubsub.go 280-284: Publish holds P for reading while it runs the callbacks.
    hub.go 123, 362: DeleteTrace and PushJob hold H.
    hub.go 231-248: the handler of a message holds H around all its publishes. The Ingest
    and the container lookup before it take neither lock. *)
Fixpoint code (o : op) : list instr :=
  match o with
  | OSub | OUnsub => [WaitP; TakeP; UnlockP]
  | OPush | ODel => [LockH; UnlockH]
  | OWork k => [Work k]
  | OPub cbs => RLockP :: flat_map code cbs ++ [RUnlockP]
  | OEvent pubs => LockH :: flat_map (λ cbs, RLockP :: flat_map code cbs ++ [RUnlockP]) pubs ++ [UnlockH]
  end.

(** a goroutine that makes these calls one after the other *)
Definition program (os : list op) : list instr := flat_map code os.

(** what an observer with access to the locks sees *)
Inductive note :=
  | NLockH (t : nat) | NUnlockH (t : nat)
  | NRead (t : nat) | NUnread (t : nat)
  | NWrite (t : nat) | NUnwrite (t : nat)
  | NWork (t : nat) (k : nat).

(** the locks and what each goroutine has left to do. m_door: the goroutine that has closed
    P to new readers, whether it is waiting or writing. m_in: the readers inside. *)
Record mach := Mach {
  m_rest : nat → list instr;
  m_h : option nat;
  m_door : option nat;
  m_in : list nat;
  m_log : list note
}.

Definition set_rest (f : nat → list instr) (t : nat) (p : list instr) : nat → list instr :=
  λ u, if Nat.eqb u t then p else f u.

(** one reader leaves *)
Fixpoint leave (t : nat) (l : list nat) : list nat :=
  match l with
  | [] => []
  | u :: l' => if Nat.eqb u t then l' else u :: leave t l'
  end.

Definition is_some_eq (o : option nat) (t : nat) : bool :=
  match o with Some u => Nat.eqb u t | None => false end.

(** the next operation of goroutine t; None: it has finished or it is blocked.
    sync.Mutex: Lock waits until the mutex is free. sync.RWMutex: RLock waits while a writer
    is waiting or writing; Lock waits for the other writers, closes the door, then waits for
    the readers. Simplification: a reader that waits at the door can be overtaken by the next
    writer, which Go's mutex does not allow; every schedule of Go's is one of this machine.
    Each function above unlocks only what it locked, so the case of an unlock by another
    goroutine does not arise; the machine has no step for it. *)
Definition next (s : mach) (t : nat) : option mach :=
  match m_rest s t with
  | [] => None
  | i :: p =>
      let r := set_rest (m_rest s) t p in
      match i with
      | LockH => match m_h s with
                 | None => Some (Mach r (Some t) (m_door s) (m_in s) (m_log s ++ [NLockH t]))
                 | Some _ => None
                 end
      | UnlockH => if is_some_eq (m_h s) t
                   then Some (Mach r None (m_door s) (m_in s) (m_log s ++ [NUnlockH t]))
                   else None
      | RLockP => match m_door s with
                  | None => Some (Mach r (m_h s) None (t :: m_in s) (m_log s ++ [NRead t]))
                  | Some _ => None
                  end
      | RUnlockP => if existsb (Nat.eqb t) (m_in s)
                    then Some (Mach r (m_h s) (m_door s) (leave t (m_in s)) (m_log s ++ [NUnread t]))
                    else None
      | WaitP => match m_door s with
                 | None => Some (Mach r (m_h s) (Some t) (m_in s) (m_log s))
                 | Some _ => None
                 end
      | TakeP => if is_some_eq (m_door s) t
                 then match m_in s with
                      | [] => Some (Mach r (m_h s) (m_door s) [] (m_log s ++ [NWrite t]))
                      | _ => None
                      end
                 else None
      | UnlockP => if is_some_eq (m_door s) t
                   then Some (Mach r (m_h s) None (m_in s) (m_log s ++ [NUnwrite t]))
                   else None
      | Work k => Some (Mach r (m_h s) (m_door s) (m_in s) (m_log s ++ [NWork t k]))
      end
  end.

(** the scheduler picks t; nothing happens if it is blocked *)
Definition turn (s : mach) (t : nat) : mach := default s (next s t).
Definition turns (s : mach) (sched : list nat) : mach := fold_left turn sched s.

(** goroutine i makes the calls of the i-th list *)
Definition begin (ts : list (list op)) : mach :=
  Mach (λ t, program (default [] (ts !! t))) None None [] [].
