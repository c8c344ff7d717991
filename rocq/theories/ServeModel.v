(** `swoll server` (cmd/server.go 727-903): the machine, the hub, its jobs and the
    websocket clients together. *)
From Coq Require Import ZArith String Lia.
From stdpp Require Import base list numbers strings gmap.
From Verif Require Import SyscallModel FilterModel KernelModel RawModel CaptureModel DecodeModel MsgModel TopoModel HubModel LineModel PlainModel LiveModel.
From Verif Require PubSubModel WatchModel.

Local Open Scope string_scope.
Local Open Scope list_scope.
Local Open Scope Z_scope.

(** The record being published (hub.go 217-252), with the number of the step that sent
    it: what Ingest made of it, its container, the paths it has still to be published on,
    and the text of the write in progress (server.go 208-215, 247-255). *)
Record publishing := Publishing {
  pb_record : nat; pb_event : trace_event; pb_args : list Z; pb_container : HubModel.container;
  pb_paths : list (list Z); pb_text : list Z }.

(** The machine and the hub (LiveModel.v), the record being published, the clients
    (WatchModel.v). *)
Record server := Server { sv_world : world; sv_pub : option publishing; sv_sys : WatchModel.sys }.

(** What happens. Everything concurrent is interleaved. *)
Inductive sop :=
  | STask (o : kop) (su : surroundings) (scratch trailing : list Z) (lost : bool)
  | SPod (start : bool) (c : HubModel.container)          (* the hub's own observer *)
  | SMeter (start : bool) (ns : Z)
  | SJob (j : nat) (start : bool) (c : HubModel.container) (* the observer of job j *)
  | SDelete (id : string)                                 (* DELETE /jobs/{id}, server.go 387-420 *)
  | SRead (i : nat)                                       (* the hub takes a record *)
  | SPublish                                              (* and publishes it on the next path *)
  | SCall (p : jparams) (takes : bool)                    (* the next callback writes *)
  | SClient (a : WatchModel.act).                         (* everything else of WatchModel.v *)
Inductive sout :=
  | VNone
  | VTask (r : kout)
  | VMatched (pushed : nat) (ok : bool)
  | VDeleted (found : bool)
  | VRead (k : nat) (ps : list (option nat * list Z))
  | VJoined (w : nat)
  | VWrote (w k : nat) (text : list Z).

(** hub.go 217-250: the hub's lock is held until everything is published. *)
Definition busy (s : server) : bool :=
  match sv_pub s with
  | Some b => negb (WatchModel.idle (sv_sys s)) || negb (bool_decide (pb_paths b = []))
  | None => false
  end.
Definition stays (s : server) : server := Server (with_hub (sv_world s) (w_hub (sv_world s))) (sv_pub s) (sv_sys s).
Definition with_world (s : server) (w : world) : server := Server w (sv_pub s) (sv_sys s).

(** topology.go 114-148, then job.go 108-193. PushJob waits for the hub; the stop branch
    does not take its lock. *)
Definition job_step (tbl : syscalls) (J : nat -> job) (s : server) (j : nat) (start : bool) (c : HubModel.container) : option (server * sout) :=
  if (0 <? ct_ns c) && negb (start && busy s) then
    match hstep J tbl (w_hub (sv_world s)) (if start then OStart j c else OStop j c) with
    | Ok (h, RStarted n ok) => Some (with_world s (with_hub (sv_world s) h), VMatched n ok)
    | Ok (h, _) => Some (with_world s (with_hub (sv_world s) h), VNone)
    | Panic | Fatal => None
    end
  else Some (stays s, VNone).

(** hub.go 122-186. *)
Definition delete_step (tbl : syscalls) (J : nat -> job) (s : server) (id : string) : option (server * sout) :=
  if busy s then Some (stays s, VNone)
  else match hstep J tbl (w_hub (sv_world s)) (ODelete id) with
       | Ok (h, RDeleted b) => Some (with_world s (with_hub (sv_world s) h), VDeleted b)
       | Ok (h, _) => Some (with_world s (with_hub (sv_world s) h), VNone)
       | Panic | Fatal => None
       end.

(** hub.go 217-250 up to the first Publish; the paths are those of on_event. *)
Definition take_step (tbl : syscalls) (J : nat -> job) (s : server) (i : nat) : option (server * sout) :=
  if busy s then Some (stays s, VNone)
  else
    let w := sv_world s in
    match w_ring w !! i with
    | None => Some (stays s, VNone)
    | Some (k, bs) =>
        let took h := World h (w_metrics w) (w_calls w) (w_cache w) (delete i (w_ring w)) (S (w_now w)) in
        match ingest (InBytes bs), ingest_bytes bs with
        | Ingested t, Some r =>
            if nil_syscall tbl w t then None
            else match on_event J (w_hub w) (event_of tbl w t) with
                 | Ok (h, ps) =>
                     Some (Server (took h)
                             (match w_cache w !! t_pid_ns t with
                              | Some c => Some (Publishing k t (r_args r) c (map snd ps) [])
                              | None => None
                              end) (sv_sys s), VRead k ps)
                 | Panic | Fatal => None
                 end
        | IngestError, _ => Some (Server (took (w_hub w)) None (sv_sys s), VRead k [])
        | _, _ => None
        end
    end.

Section clients.
(** The container of an event as the server describes it: with its id, image and labels. *)
Context (tbl : syscalls) (describe : HubModel.container -> TopoModel.container (list (string * string))).
Context (srt : list PubSubModel.env -> list PubSubModel.env).

Definition text_of (p : jparams) (b : publishing) : option (list Z) :=
  message p (lookup_sc tbl (ByInt (t_syscall (pb_event b)))) (Some (describe (pb_container b))) (pb_args b) (pb_event b).

(** A panic of a connection's goroutine ends the program. *)
Definition unless_crashed (s : server) (sys : WatchModel.sys) (b : option publishing) (r : sout) : option (server * sout) :=
  if WatchModel.crashed sys then None else Some (Server (with_hub (sv_world s) (w_hub (sv_world s))) b sys, r).

(** server.go 208-215, 247-255: the text is made when the callback runs, and only if no
    write has failed before (WriteJSON of gorilla/websocket 1.4.2 asks for a writer
    first). *)
Definition call_step (s : server) (p : jparams) (takes : bool) : option (server * sout) :=
  let y := sv_sys s in
  match sv_pub s, WatchModel.stall y, WatchModel.todo y with
  | Some b, None, w :: _ =>
      match WatchModel.ws y !! w with
      | Some x =>
          let y' := WatchModel.do_act srt y (WatchModel.Call takes) in
          if WatchModel.w_broken x then unless_crashed s y' (Some b) VNone
          else match text_of p b with
               | None => None
               | Some text =>
                   let b' := Publishing (pb_record b) (pb_event b) (pb_args b) (pb_container b) (pb_paths b) text in
                   unless_crashed s y' (Some b') (if WatchModel.w_open x && takes then VWrote w (pb_record b) text else VNone)
               end
      | None => Some (stays s, VNone)
      end
  | _, _, _ => Some (stays s, VNone)
  end.

(** The rest of WatchModel.v. *)
Definition client_step (s : server) (a : WatchModel.act) : option (server * sout) :=
  let y := sv_sys s in
  let y' := WatchModel.do_act srt y a in
  match a with
  | WatchModel.Event _ _ | WatchModel.Call _ => Some (stays s, VNone)
  | WatchModel.Join _ _ =>
      unless_crashed s y' (sv_pub s) (if (length (WatchModel.ws y) <? length (WatchModel.ws y'))%nat then VJoined (length (WatchModel.ws y)) else VNone)
  | WatchModel.Take =>
      unless_crashed s y' (sv_pub s)
        (match sv_pub s, WatchModel.stall y, WatchModel.todo y with
         | Some b, Some _, w :: _ => VWrote w (pb_record b) (pb_text b)
         | _, _, _ => VNone
         end)
  | _ => unless_crashed s y' (sv_pub s) VNone
  end.

Context (J : nat -> job).

(** Everything but SPublish. [None]: the program has ended. *)
Definition sdo (s : server) (o : sop) : option (server * sout) :=
  let w := sv_world s in
  match o with
  | STask o su scratch trailing lost =>
      match task_step tbl w o su scratch trailing lost with
      | (w', UTask r) => Some (with_world s w', VTask r)
      | (w', _) => Some (with_world s w', VNone)
      end
  | SPod start c => Some (with_world s (pod_step w start c), VNone)
  | SMeter start ns =>
      match meter_step tbl J w start ns with Some (w', _) => Some (with_world s w', VNone) | None => None end
  | SJob j start c => job_step tbl J s j start c
  | SDelete id => delete_step tbl J s id
  | SRead i => take_step tbl J s i
  | SPublish => Some (stays s, VNone)
  | SCall p takes => call_step s p takes
  | SClient a => client_step s a
  end.

(** hub.go 190-194 and job.go 232-245 call Publish path by path, each when the callbacks
    of the one before have returned; which callbacks it runs is in PubSubModel.v. *)
Inductive sstep : server -> sop -> option (server * sout) -> Prop :=
| ss_do s o :
    (o = SPublish -> WatchModel.idle (sv_sys s) = false \/ forall b, sv_pub s = Some b -> pb_paths b = []) ->
    sstep s o (sdo s o)
| ss_publish s b path rest y :
    sv_pub s = Some b -> pb_paths b = path :: rest -> WatchModel.idle (sv_sys s) = true ->
    WatchModel.wstep srt (sv_sys s) (WatchModel.Event (pb_record b) path) y ->
    sstep s SPublish
      (Some (Server (with_hub (sv_world s) (w_hub (sv_world s)))
               (Some (Publishing (pb_record b) (pb_event b) (pb_args b) (pb_container b) rest (pb_text b))) y, VNone)).

Inductive srun : server -> list sop -> server -> list sout -> Prop :=
| sr_nil s : srun s [] s []
| sr_snoc s l s1 rs o s2 r : srun s l s1 rs -> sstep s1 o (Some (s2, r)) -> srun s (l ++ [o]) s2 (rs ++ [r]).
End clients.

(** server.go 727-903. *)
Definition start_server (tbl : syscalls) : option server :=
  match start_world tbl with Some w => Some (Server w None WatchModel.start) | None => None end.
