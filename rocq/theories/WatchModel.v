(** Model of the websocket watchers of cmd/server.go (175-285, 306-326): the reader
    and the writer goroutine of every connection, their timers, and the callbacks the
    writers leave with the hub, over the subscription tree of PubSubModel.v.

    Simplifications, once for the file:
    - time is counted in milliseconds and goroutines whose timer is due run at once;
    - gorilla/websocket v1.4.2 is modelled by its documented contract: after Close or a
      failed write every write fails at once, a write blocks until the peer takes it,
      the write deadline passes or the connection is closed, and a second writer that
      enters while a write is in progress panics ("concurrent write to websocket
      connection");
    - a ping is taken at once or fails at once; only event writes can block;
    - the hub publishes one event at a time (LockModel.v), and Subscribe and
      Unsubscribe wait until it is not publishing;
    - the events are those the hub publishes (HubModel.v): a number and a path. *)
From Coq Require Import ZArith String.
From stdpp Require Import gmap strings list.
From Verif Require Import PubSubModel HashModel.
Open Scope Z_scope.

(** server.go 50-55. *)
Definition write_wait : Z := 10000.
Definition pong_wait : Z := 30000.
Definition ping_period : Z := 27000.

(** server.go 209-216 and 284-296: the two kinds of watchers, GET /jobs/{id}/ws and
    GET /trace[/namespaces/{ns}[/pods/{pod}[/containers/{container}]]]/ws. *)
Inductive ask := AskJob (id : string) | AskTrace (ns pod container : string).

(** hub.go 447-452 and 436-444, with the arguments of server.go 207 and 246. *)
Definition ask_path (a : ask) : list Z :=
  match a with
  | AskJob id => attach_trace id
  | AskTrace ns pod container => attach_path [ns; pod; container]
  end.

(** Where a writer stands: in its loop (224-235, 257-268), back from it but not yet
    unsubscribed (220), gone. *)
Inductive writer := Pinging | Leaving | Left.

(** A connection with its two goroutines. [w_open]: Close was not called; the reader
    (174-200) runs exactly as long. [w_broken]: a write has failed. [w_due]: the
    ticker's next tick. [w_deadline]: the read deadline. *)
Record watcher := Watcher {
  w_ask : ask; w_open : bool; w_broken : bool; w_due : Z; w_deadline : Z; w_writer : writer }.
Definition w_path (w : watcher) : list Z := ask_path (w_ask w).

(** What can be seen, with its time. Watchers are numbered as they come. *)
Inductive obs :=
  | Joined (w : nat) (a : ask)
  | Published (e : nat) (path : list Z)
  | Called (w e : nat)        (* the callback of w runs with e *)
  | Got (w e : nat)           (* e was written to w's client *)
  | Pinged (w : nat)
  | Ponged (w : nat)
  | Unsubscribed (w : nat).

(** The server. [todo]: the callbacks the current Publish has still to run, [event]
    what it publishes. [stall]: the write of the first of them blocks, at the longest
    until then. *)
Record sys := Sys {
  clock : Z; ws : list watcher; ps : pubsub; todo : list nat; event : nat;
  stall : option Z; crashed : bool; log : list (Z * obs) }.
Definition start : sys := Sys 0 [] new_pubsub [] 0 None false [].

Definition idle (s : sys) : bool := match todo s with [] => true | _ => false end.
Definition note (s : sys) (l : list obs) : list (Z * obs) := (log s ++ map (pair (clock s)) l)%list.

(** Close. *)
Definition shut (w : watcher) : watcher :=
  Watcher (w_ask w) false (w_broken w) (w_due w) (w_deadline w) (w_writer w).
(** A failed write. *)
Definition break (w : watcher) : watcher :=
  Watcher (w_ask w) (w_open w) true (w_due w) (w_deadline w) (w_writer w).

(** Blocked writes to a closed connection fail. *)
Definition settle (s : sys) : sys :=
  match stall s, todo s with
  | Some _, w :: rest =>
      match ws s !! w with
      | Some x =>
          if w_open x then s
          else Sys (clock s) (alter break w (ws s)) (ps s) rest (event s) None (crashed s) (log s)
      | None => s
      end
  | _, _ => s
  end.

(** server.go 177-178, 194-199: the reader's deadline; it closes the connection. *)
Definition expire (now : Z) (w : watcher) : watcher :=
  if w_open w && (w_deadline w <=? now) then shut w else w.

(** What a writer does when it returns: jobWriter closes and unsubscribes (217-221),
    traceWriter closes (241-244). *)
Definition after (a : ask) : writer := match a with AskJob _ => Leaving | AskTrace _ _ _ => Left end.

(** server.go 224-235, 257-268: the tick. The flag says whether a ping was sent. *)
Definition tick (now : Z) (refused : bool) (w : watcher) : watcher * bool :=
  match w_writer w with
  | Pinging =>
      if w_due w <=? now then
        if w_open w && negb (w_broken w) && negb refused
        then (Watcher (w_ask w) true false (w_due w + ping_period) (w_deadline w) Pinging, true)
        else (Watcher (w_ask w) false (w_broken w) (w_due w) (w_deadline w) (after (w_ask w)), false)
      else (w, false)
  | _ => (w, false)
  end.
Fixpoint ticks (now : Z) (refused : list nat) (i : nat) (l : list watcher) : list watcher * list obs :=
  match l with
  | [] => ([], [])
  | w :: l =>
      let '(w', b) := tick now (bool_decide (i ∈ refused)) w in
      let '(l', o) := ticks now refused (S i) l in
      (w' :: l', if b then Pinged i :: o else o)
  end.

(** Does the write that blocks meet the tick of its own connection? *)
Definition clash (s : sys) : bool :=
  match stall s, todo s with
  | Some _, w :: _ =>
      match ws s !! w with
      | Some x => match w_writer x with Pinging => w_due x <=? clock s | _ => false end
      | None => false
      end
  | _, _ => false
  end.

(** One millisecond: the write deadline (211, 249), the read deadlines, the ticks. *)
Definition write_timeout (s : sys) : sys :=
  match stall s, todo s with
  | Some t, w :: rest =>
      if t <=? clock s
      then Sys (clock s) (alter break w (ws s)) (ps s) rest (event s) None (crashed s) (log s)
      else s
  | _, _ => s
  end.
Definition millisecond (refused : list nat) (s : sys) : sys :=
  let s := Sys (clock s + 1) (ws s) (ps s) (todo s) (event s) (stall s) (crashed s) (log s) in
  let s := write_timeout s in
  let s := settle (Sys (clock s) (map (expire (clock s)) (ws s)) (ps s) (todo s) (event s) (stall s) (crashed s) (log s)) in
  if clash s
  then Sys (clock s) (ws s) (ps s) (todo s) (event s) (stall s) true (log s)
  else
    let '(l, o) := ticks (clock s) refused 0 (ws s) in
    Sys (clock s) l (ps s) (todo s) (event s) (stall s) (crashed s) (note s o).

(** What can happen. [Call true]: the hub's next callback writes at once; [Call false]:
    its write blocks. [Millisecond l]: the pings of the watchers in l fail. *)
Inductive act :=
  | Join (a : ask) (draw : Z)
  | Leave (w : nat)
  | Pong (w : nat)
  | Event (e : nat) (path : list Z)
  | Call (takes : bool)
  | Take
  | Unsub (w : nat)
  | Millisecond (refused : list nat).

(** Everything but Event. Steps that are not possible do nothing. *)
Definition do_act (srt : list env -> list env) (s : sys) (a : act) : sys :=
  match a with
  (* 204-216, 240, 246, 176-183: the ticker, the subscription, the read deadline.
     Subscribe returns as long as fewer than 2^64 ids are taken (C04). *)
  | Join a draw =>
      if idle s then
        match step srt (ps s) (Subscribe (ask_path a) "" "" draw) with
        | Ok p => Sys (clock s) (ws s ++ [Watcher a true false (clock s + ping_period) (clock s + pong_wait) Pinging])
                      p [] (event s) None (crashed s) (note s [Joined (length (ws s)) a])
        | _ => s
        end
      else s
  (* 193-199: ReadMessage fails, the reader closes *)
  | Leave w => settle (Sys (clock s) (alter shut w (ws s)) (ps s) (todo s) (event s) (stall s) (crashed s) (log s))
  (* 183-187 *)
  | Pong w =>
      match ws s !! w with
      | Some x =>
          if w_open x
          then Sys (clock s) (<[w := Watcher (w_ask x) true (w_broken x) (w_due x) (clock s + pong_wait) (w_writer x)]> (ws s))
                   (ps s) (todo s) (event s) (stall s) (crashed s) (note s [Ponged w])
          else s
      | None => s
      end
  | Event _ _ => s
  (* 208-215, 247-255 *)
  | Call takes =>
      match stall s, todo s with
      | None, w :: rest =>
          match ws s !! w with
          | Some x =>
              if w_open x && negb (w_broken x) then
                if takes
                then Sys (clock s) (ws s) (ps s) rest (event s) None (crashed s) (note s [Called w (event s); Got w (event s)])
                else Sys (clock s) (ws s) (ps s) (todo s) (event s) (Some (clock s + write_wait)) (crashed s) (note s [Called w (event s)])
              else Sys (clock s) (ws s) (ps s) rest (event s) None (crashed s) (note s [Called w (event s)])
          | None => s
          end
      | _, _ => s
      end
  (* the peer takes the blocked write *)
  | Take =>
      match stall s, todo s with
      | Some _, w :: rest =>
          Sys (clock s) (ws s) (ps s) rest (event s) None (crashed s) (note s [Got w (event s)])
      | _, _ => s
      end
  (* 220 *)
  | Unsub w =>
      match ws s !! w with
      | Some x =>
          match w_writer x with
          | Leaving =>
              if idle s then
                match step srt (ps s) (Unsubscribe w) with
                | Ok p => Sys (clock s) (<[w := Watcher (w_ask x) (w_open x) (w_broken x) (w_due x) (w_deadline x) Left]> (ws s))
                              p [] (event s) None (crashed s) (note s [Unsubscribed w])
                | _ => Sys (clock s) (ws s) (ps s) [] (event s) None true (log s)
                end
              else s
          | _ => s
          end
      | None => s
      end
  | Millisecond refused => millisecond refused s
  end.

(** One step. An event is published when the hub is idle; the callbacks are those
    Publish finds (PubSubModel.v). A crashed server does nothing. *)
Inductive wstep (srt : list env -> list env) : sys -> act -> sys -> Prop :=
| ws_event s e path h calls :
    crashed s = false -> idle s = true -> publish (ps s) (linear path) h (Some calls) ->
    wstep srt s (Event e path)
      (Sys (clock s) (ws s) (ps s) calls e None false (note s [Published e path]))
| ws_do s a :
    (forall e path, a <> Event e path) ->
    wstep srt s a (if crashed s then s else do_act srt s a).

Inductive wrun (srt : list env -> list env) : sys -> list act -> sys -> Prop :=
| wr_nil s : wrun srt s [] s
| wr_cons s a s1 acts s2 : wstep srt s a s1 -> wrun srt s1 acts s2 -> wrun srt s (a :: acts) s2.
