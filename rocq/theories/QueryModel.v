(** Model of swoll client query running and swoll client query completed
    (cmd/client.go 35-49, 350-377) over the servers of FleetModel.v, which go on
    serving others, watching containers and ending while the command runs. *)
From Coq Require Import ZArith String Ascii.
From stdpp Require Import gmap strings list.
From Verif Require Import SyscallModel FilterModel HubModel ServerModel FleetModel.
From Verif Require ClientModel.
Open Scope Z_scope.

(** The order in which Go walks a map (pkg/client/endpoint.go 353-359). *)
Definition order : Type := gmap (list Z) nat -> list (list Z * nat).

(** What is printed for an endpoint: its error (370), or its list of jobs (379). *)
Inductive report := Failed | Jobs (l : list nat).

(** The command: which list is asked for, the endpoints it is not done with, the number
    of its request to the first of them once that is sent. What it has printed, and the
    status it ended with. *)
Record query := Query {
  q_fleet : fleet;
  q_todo : list nat;
  q_wait : option nat;
  q_out : list (nat * report);
  q_exit : option Z }.
Definition start_query (f : fleet) (eps : list nat) : query := Query f eps None [] None.

(** A line is printed and the loop goes on (369-371, 373-379). *)
Definition prints (q : query) (i : nat) (r : report) (rest : list nat) : query :=
  Query (q_fleet q) rest None (q_out q ++ [(i, r)]) (q_exit q).

(** pkg/client/endpoint.go 298-315, 332-361: one of the two lists of the answer. An
    answer without lists does not come from GET /jobs; it would not decode. *)
Definition listed (walk : order) (completed : bool) (a : answer) : report :=
  match a with
  | ATables run comp => Jobs (ClientModel.client_jobs walk (if completed then comp else run))
  | _ => Failed
  end.

(** What can happen next: something in the fleet, the command goes on, its connection
    fails. *)
Inductive qact := QFleet (a : fact) | QGo | QBreak.

(** cmd/client.go 356-376. [walk k]: the order in which the map of the [k]-th endpoint is
    walked. *)
Definition qgo (J : nat -> nat -> job) (tbl : syscalls) (walk : nat -> order) (completed : bool) (q : query) : query :=
  match q_exit q with
  | Some _ => q
  | None =>
      match q_todo q, q_wait q with
      | [], _ => Query (q_fleet q) [] None (q_out q) (Some 0)
      (* http.Get (endpoint.go 333): nobody listens, or the request is sent *)
      | i :: rest, None =>
          match f_srv (q_fleet q) !! i with
          | Some (Some s) => Query (fstep J tbl (q_fleet q) (FServer i (SReq QList))) (q_todo q) (Some (length (threads s))) (q_out q) None
          | _ => prints q i Failed rest
          end
      (* the answer (338-351) *)
      | i :: rest, Some t =>
          match answer_of i t (f_log (q_fleet q)) with
          | Some a => prints q i (listed (walk (length (q_out q))) completed a) rest
          | None => q
          end
      end
  end.
Definition qstep (J : nat -> nat -> job) (tbl : syscalls) (walk : nat -> order) (completed : bool) (q : query) (a : qact) : query :=
  match a with
  | QFleet a => Query (fstep J tbl (q_fleet q) a) (q_todo q) (q_wait q) (q_out q) (q_exit q)
  | QGo => qgo J tbl walk completed q
  (* endpoint.go 334-336, 340-342: http.Get or reading the body fails *)
  | QBreak => match q_exit q, q_todo q with None, i :: rest => prints q i Failed rest | _, _ => q end
  end.
Definition qrun (J : nat -> nat -> job) (tbl : syscalls) (walk : nat -> order) (completed : bool) (q : query) (acts : list qact) : query :=
  fold_left (qstep J tbl walk completed) acts q.
