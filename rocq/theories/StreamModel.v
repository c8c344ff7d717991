(** The client's side of a watched job: pkg/client/endpoint.go 138-237, and
    `swoll client watch`, cmd/client.go 77-141.

    Times are nanoseconds.  The websocket library (gorilla/websocket 1.4.2) is
    modelled as: a data message larger than the read limit ends reading after a
    close message was sent; a read after the deadline fails unless it is served from
    the bytes already buffered; after a close message was sent every later write
    fails.  Message fragments are not modelled. *)
From Coq Require Import ZArith List Lia.
From stdpp Require Import base list numbers.

Local Open Scope list_scope.
Local Open Scope Z_scope.

(** endpoint.go 20-29. *)
Definition second : Z := 1000000000.
Definition pong_wait : Z := 60 * second.
Definition ping_period : Z := pong_wait * 9 / 10.
Definition max_message_size : nat := 4096.

Section Event.
Context {A : Type}.

(** What arrives: a data message of a size, with the event json.Unmarshal makes of
    it if it can (211-213); control messages; the end of the connection, with
    whether writing to it then fails too. *)
Inductive frame :=
| Data (size : nat) (ev : option A)
| Ping
| Pong
| Close
| Broken (write_fails : bool).

Inductive reason := Oversized | TimedOut | Closed | Lost | Cancelled.

(** What the user sees besides events: the close handler's line (157-160), a
    warning from watchJob (cmd/client.go 122-124), a warning from writeWebsock
    (182-185). *)
Inductive notice := CloseLine | ReadWarning | PingWarning.

Record stream := Stream {
  now : Z;
  deadline : Z;               (* of reads *)
  next_ping : Z;              (* when the ticker fires *)
  queue : list frame;         (* arrived, not yet read *)
  held : option A;            (* read, not yet taken from the channel (217-218) *)
  ended : option reason;      (* readWebsock has returned *)
  writer : bool;              (* writeWebsock runs *)
  shown : list A;             (* taken from the channel, printed *)
  pongs : nat;                (* answers sent to the server's pings *)
  pings : list Z;             (* times at which pings were sent *)
  notices : list notice
}.

(** createWebsock (138-163), ReadTraceJob (229-237), called at time [t]. *)
Definition dial (t : Z) : stream :=
  {| now := t; deadline := t + pong_wait; next_ping := t + ping_period;
     queue := []; held := None; ended := None; writer := true; shown := []; pongs := 0;
     pings := []; notices := [] |}.

Inductive input :=
| Arrive (f : frame)
| Reset (write_fails : bool)   (* the connection is torn down, what was queued is gone *)
| Read (buffered : bool)       (* the reader asks for the next frame *)
| Take                         (* watchJob receives from the channel *)
| Wait (d : Z)
| Tick                         (* the ticker's channel is received from *)
| Cancel.                      (* ctx is done *)

Definition set_queue (q : list frame) (s : stream) : stream :=
  Stream (now s) (deadline s) (next_ping s) q (held s) (ended s) (writer s) (shown s) (pongs s)
    (pings s) (notices s).
Definition set_deadline (d : Z) (s : stream) : stream :=
  Stream (now s) d (next_ping s) (queue s) (held s) (ended s) (writer s) (shown s) (pongs s)
    (pings s) (notices s).
Definition set_held (h : option A) (s : stream) : stream :=
  Stream (now s) (deadline s) (next_ping s) (queue s) h (ended s) (writer s) (shown s) (pongs s)
    (pings s) (notices s).
Definition show (a : A) (s : stream) : stream :=
  Stream (now s) (deadline s) (next_ping s) (queue s) None (ended s) (writer s) (shown s ++ [a])
    (pongs s) (pings s) (notices s).
Definition answer (s : stream) : stream :=
  Stream (now s) (deadline s) (next_ping s) (queue s) (held s) (ended s) (writer s) (shown s)
    (S (pongs s)) (pings s) (notices s).
Definition finish (r : reason) (ns : list notice) (s : stream) : stream :=
  Stream (now s) (deadline s) (next_ping s) (queue s) None (Some r) (writer s) (shown s) (pongs s)
    (pings s) (notices s ++ ns).
Definition sleep (d : Z) (s : stream) : stream :=
  Stream (now s + Z.max 0 d) (deadline s) (next_ping s) (queue s) (held s) (ended s) (writer s)
    (shown s) (pongs s) (pings s) (notices s).
Definition set_ticker (n : Z) (w : bool) (ps : list Z) (ns : list notice) (s : stream) : stream :=
  Stream (now s) (deadline s) n (queue s) (held s) (ended s) w (shown s) (pongs s)
    (pings s ++ ps) (notices s ++ ns).

(** One turn of readWebsock's loop (197-225): conn.ReadMessage goes through control
    frames by itself, one frame per [Read] here.  A close message is written on the
    way out (199-206); only when that fails is an error returned and reported.
    After an oversized message the library has already written one. *)
Definition read (buffered : bool) (s : stream) : stream :=
  match ended s, held s with
  | None, None =>
      if negb buffered && (deadline s <=? now s) then finish TimedOut [] s
      else match queue s with
      | [] => s
      | f :: q =>
          let s := set_queue q s in
          match f with
          | Data n ev =>
              if (max_message_size <? n)%nat then finish Oversized [ReadWarning] s
              else set_held ev s
          | Ping => answer s
          | Pong => set_deadline (now s + pong_wait) s
          | Close => finish Closed [CloseLine] s
          | Broken fails => finish Lost (if fails then [ReadWarning] else []) s
          end
      end
  | _, _ => s
  end.

(** One turn of writeWebsock's loop (165-189).  Once readWebsock has returned, a
    close message was sent or the connection cannot be written to.  A ticker drops
    the ticks nobody received in time. *)
Definition tick (s : stream) : stream :=
  if writer s && (next_ping s <=? now s) then
    match ended s with
    | None => set_ticker (next_ping s + ping_period * ((now s - next_ping s) / ping_period + 1)) true
                [now s] [] s
    | Some _ => set_ticker (next_ping s) false [] [PingWarning] s
    end
  else s.

Definition step (i : input) (s : stream) : stream :=
  match i with
  | Arrive f => set_queue (queue s ++ [f]) s
  | Reset fails => set_queue [Broken fails] s
  | Read b => read b s
  | Take => match held s with Some a => show a s | None => s end
  | Wait d => sleep d s
  | Tick => tick s
  | Cancel =>
      (* writeWebsock returns and closes the connection (167-170, 187), readWebsock
         returns at its select (219) or because of that *)
      let s' := set_ticker (next_ping s) false [] [] s in
      match ended s with None => finish Cancelled [] s' | Some _ => s' end
  end.

Fixpoint run (is : list input) (s : stream) : stream :=
  match is with
  | [] => s
  | i :: is' => run is' (step i s)
  end.

(** * Several endpoints: watchJob (cmd/client.go 110-141)

    One goroutine per endpoint, one channel without a buffer; the loop prints what
    it receives.  A goroutine whose stream has ended waits for ctx.Done (126). *)
Record watch := Watch {
  w_streams : list stream;
  w_out : list (nat * A);     (* printed, with the endpoint it came from *)
  w_running : bool            (* cmdClientWatch has not received a signal (102-106) *)
}.

Inductive winput := At (ep : nat) (i : input) | Clock (d : Z) | Signal.

Definition dial_all (t : Z) (n : nat) : watch :=
  {| w_streams := replicate n (dial t); w_out := []; w_running := true |}.

(** An input [At] other than Cancel and Wait concerns one endpoint; time passes for all;
    a signal ends the command. *)
Definition wstep (i : winput) (w : watch) : watch :=
  if w_running w then
    match i with
    | At ep j =>
        match w_streams w !! ep with
        | Some s =>
            {| w_streams := <[ep := step j s]> (w_streams w);
               w_out := w_out w ++ match j, held s with Take, Some a => [(ep, a)] | _, _ => [] end;
               w_running := true |}
        | None => w
        end
    | Clock d => {| w_streams := map (sleep d) (w_streams w); w_out := w_out w; w_running := true |}
    | Signal => {| w_streams := map (step Cancel) (w_streams w); w_out := w_out w; w_running := false |}
    end
  else w.

Fixpoint wrun (is : list winput) (w : watch) : watch :=
  match is with
  | [] => w
  | i :: is' => wrun is' (wstep i w)
  end.

End Event.
Arguments frame : clear implicits.
Arguments stream : clear implicits.
Arguments input : clear implicits.
Arguments watch : clear implicits.
Arguments winput : clear implicits.
