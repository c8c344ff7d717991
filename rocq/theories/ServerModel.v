(** Model of the job API of cmd/server.go: the tables of running and completed jobs
    and the handlers of /jobs, over the hub of HubModel.v. Every critical section is
    a step of its own, so requests and the hub's callbacks interleave freely. *)
From Coq Require Import ZArith String.
From stdpp Require Import gmap strings list.
From Verif Require Import SyscallModel FilterModel HubModel.
Open Scope Z_scope.

(** What a client asks: POST /jobs/namespaces/{ns} (create), GET /jobs/{id}/ws,
    DELETE /jobs/{id}, GET /jobs. cmd/server.go 806-811. A create whose body does not decode is answered
    400 before anything is touched (349-352) and is left out. *)
Inductive req := RCreate (j : nat) | RGet (id : string) | RDelete (id : string) | RList.

(** What is answered: a status code (137-171), the job a websocket was attached to
    (308-326), or the two tables (291-303). *)
Inductive answer := ACode (c : Z) | AAttached (j : nat) | ATables (run comp : gmap string nat).

(** Where a handler stands. A *traceJob (42-46) is the number of its topology.Job,
    whose trace carries the id: [j_id (J j)] is traceJob.ID (344-369). *)
Inductive pc :=
  | PCreateGet (j : nat)        (* 371: running.add, its get (103) *)
  | PCreatePut (j : nat)        (* running.add, its insertion (107-109) *)
  | PGet (id : string)          (* 311 *)
  | PDeleteGet (id : string)    (* 411 *)
  | PDeleteHub (id : string) (j : nat)   (* 389 *)
  | PRemoveGet (id : string) (j : nat)   (* 394: running.remove, its get (126) *)
  | PRemove (id : string) (j : nat)      (* running.remove, the deletion (130-132) *)
  | PDoneGet (id : string) (j : nat)     (* 399: completed.add, its get *)
  | PDonePut (id : string) (j : nat)     (* completed.add, its insertion *)
  | PList
  | PDone.

(** cmd/server.go 61-67 and the hub. [spawned]: the jobs whose observers run
    (377: go hb.MustRunJob). [fresh]: the next job to be allocated by a create. *)
Record srv := Srv {
  running : gmap string nat;
  completed : gmap string nat;
  hubst : hub;
  fresh : nat;
  spawned : gset nat;
  threads : list (req * pc) }.
Definition set_running (s : srv) x := Srv x (completed s) (hubst s) (fresh s) (spawned s) (threads s).
Definition set_completed (s : srv) x := Srv (running s) x (hubst s) (fresh s) (spawned s) (threads s).
Definition set_hub (s : srv) x := Srv (running s) (completed s) x (fresh s) (spawned s) (threads s).
Definition set_pc (s : srv) (t : nat) (r : req) (p : pc) :=
  Srv (running s) (completed s) (hubst s) (fresh s) (spawned s) (<[t := (r, p)]> (threads s)).

(** What can be seen: a request arrives, a request is answered, the hub does
    something. *)
Inductive sev :=
  | EReq (t : nat) (r : req)
  | EAnswer (t : nat) (r : req) (a : answer)
  | EHub (o : hop) (out : hout).

(** A request's first step. *)
Definition entry (r : req) : pc :=
  match r with RCreate j => PCreateGet j | RGet id => PGet id | RDelete id => PDeleteGet id | RList => PList end.

(** Ending a request. *)
Definition finish (s : srv) (t : nat) (r : req) (a : answer) : res (srv * list sev) :=
  Ok (set_pc s t r PDone, [EAnswer t r a]).
Definition goto (s : srv) (t : nat) (r : req) (p : pc) : res (srv * list sev) := Ok (set_pc s t r p, []).

(** One critical section of request [t]. *)
Definition advance (J : nat -> job) (tbl : syscalls) (s : srv) (t : nat) (r : req) (p : pc) : res (srv * list sev) :=
  match p with
  (* 103-105, 371-374 *)
  | PCreateGet j => match running s !! j_id (J j) with Some _ => finish s t r (ACode 500) | None => goto s t r (PCreatePut j) end
  (* 107-109, 377, 379: the insertion; then the observer is started and the answer sent *)
  | PCreatePut j =>
      let s1 := Srv (<[j_id (J j) := j]> (running s)) (completed s) (hubst s) (fresh s) ({[j]} ∪ spawned s) (threads s) in
      finish s1 t r (ACode 201)
  (* 310-325 *)
  | PGet id => match running s !! id with Some j => finish s t r (AAttached j) | None => finish s t r (ACode 404) end
  (* 410-415 *)
  | PDeleteGet id => match running s !! id with Some j => goto s t r (PDeleteHub id j) | None => finish s t r (ACode 404) end
  (* 389-391, 417-420 *)
  | PDeleteHub id j =>
      match hstep J tbl (hubst s) (ODelete (j_id (J j))) with
      | Ok (h, out) =>
          match out with
          | RDeleted true => Ok (set_pc (set_hub s h) t r (PRemoveGet id j), [EHub (ODelete (j_id (J j))) out])
          | _ => Ok (set_pc (set_hub s h) t r PDone, [EHub (ODelete (j_id (J j))) out; EAnswer t r (ACode 500)])
          end
      | Panic => Panic
      | Fatal => Fatal
      end
  (* 126-128 *)
  | PRemoveGet id j => match running s !! j_id (J j) with Some _ => goto s t r (PRemove id j) | None => finish s t r (ACode 500) end
  (* 130-132 *)
  | PRemove id j => goto (set_running s (delete (j_id (J j)) (running s))) t r (PDoneGet id j)
  (* 103-105 *)
  | PDoneGet id j => match completed s !! j_id (J j) with Some _ => finish s t r (ACode 500) | None => goto s t r (PDonePut id j) end
  (* 107-109, 422 *)
  | PDonePut id j => finish (set_completed s (<[j_id (J j) := j]> (completed s))) t r (ACode 200)
  (* 293-301: under both locks *)
  | PList => finish s t r (ATables (running s) (completed s))
  | PDone => Ok (s, [])
  end.

(** What can happen next. A create allocates the next job; the k-th create of a
    history asks for [J k], so that "for every J" ranges over all ids and
    specifications. *)
Inductive ask := QCreate | QGet (id : string) | QDelete (id : string) | QList.
Inductive sact := SReq (q : ask) | SStep (t : nat) | SHub (o : hop).

(** What the hub does on its own: callbacks of the observers that run, events,
    metrics, the kernel. Nothing but the handlers calls DeleteTrace. *)
Definition own (s : srv) (o : hop) : bool :=
  match o with
  | OStart j _ | OStop j _ => bool_decide (j ∈ spawned s)
  | OPush _ _ _ | ODelete _ => false
  | _ => true
  end.

Definition arrive (s : srv) (r : req) (f : nat) : srv * list sev :=
  (Srv (running s) (completed s) (hubst s) f (spawned s) (threads s ++ [(r, entry r)]), [EReq (length (threads s)) r]).

(** Steps that are not possible do nothing. *)
Definition sstep (J : nat -> job) (tbl : syscalls) (s : srv) (a : sact) : res (srv * list sev) :=
  match a with
  | SReq QCreate => Ok (arrive s (RCreate (fresh s)) (S (fresh s)))
  | SReq (QGet id) => Ok (arrive s (RGet id) (fresh s))
  | SReq (QDelete id) => Ok (arrive s (RDelete id) (fresh s))
  | SReq QList => Ok (arrive s RList (fresh s))
  | SStep t => match threads s !! t with Some (r, p) => advance J tbl s t r p | None => Ok (s, []) end
  | SHub o =>
      if own s o then
        match hstep J tbl (hubst s) o with
        | Ok (h, out) => Ok (set_hub s h, [EHub o out])
        | Panic => Panic
        | Fatal => Fatal
        end
      else Ok (s, [])
  end.

Fixpoint srun (J : nat -> job) (tbl : syscalls) (s : srv) (acts : list sact) : res (srv * list sev) :=
  match acts with
  | [] => Ok (s, [])
  | a :: acts =>
      match sstep J tbl s a with
      | Ok (s1, e1) => match srun J tbl s1 acts with Ok (s2, e2) => Ok (s2, (e1 ++ e2)%list) | Panic => Panic | Fatal => Fatal end
      | Panic => Panic
      | Fatal => Fatal
      end
  end.

(** cmd/server.go 61-67, 799-803: the server as it starts. *)
Definition new_server (tbl : syscalls) : option srv :=
  match new_hub tbl with Some h => Some (Srv ∅ ∅ h 0 ∅ []) | None => None end.
