(** C94 and C95: watching a job. *)
From Coq Require Import ZArith List Lia.
From stdpp Require Import base list numbers.
From Verif Require Import StreamModel StreamSpec StreamProofs.
From Verif Require MsgProps.

Local Open Scope list_scope.
Local Open Scope Z_scope.

Section Event.
Context {A : Type}.
Implicit Types (is : list (input A)).

(** * C94: one endpoint *)

(** Unless the connection is torn down, what is shown is a prefix of the events that
    arrived, in their order, none twice; and while the stream has not ended none is
    lost: those not shown are about to be, or wait to be read. *)
Theorem C94_events_are_shown_in_order : forall t is, (forall f, Reset f ∉ is) ->
  shown (run is (dial t)) `prefix_of` events (arrived is) /\
  (ended (run is (dial t)) = None ->
   shown (run is (dial t)) ++ waiting (held (run is (dial t))) ++ events (queue (run is (dial t)))
   = events (arrived is)).
Proof. exact in_order_reset. Qed.

(** Torn down: a prefix still, of what arrived before. *)
Theorem C94_torn_down : forall t is1 f is2, (forall f, Reset f ∉ is1) ->
  shown (run (is1 ++ Reset f :: is2) (dial t)) `prefix_of` events (arrived is1).
Proof. exact torn_down. Qed.

(** Small messages, no end from the other side, and never a minute without an answer
    to a ping: the stream stays and nothing is lost. *)
Theorem C94_a_healthy_stream_lasts : forall t is, Forall harmless is -> answered is (dial t) ->
  ended (run is (dial t)) = None /\
  shown (run is (dial t)) ++ waiting (held (run is (dial t))) ++ events (queue (run is (dial t)))
  = events (arrived is).
Proof. exact healthy. Qed.

(** It times out only after a minute without an answer; *)
Theorem C94_times_out_only_after_silence : forall t is, ended (run is (dial t)) = Some TimedOut ->
  exists is1 is2 is3, is = is1 ++ is2 ++ is3 /\ Pong ∉ frames_read is2 (run is1 (dial t))
    /\ pong_wait <= elapsed is2.
Proof. exact timed_out. Qed.

(** and after such a minute, however many events came in it, the next read from the
    network ends it. *)
Theorem C94_silence_ends_the_stream : forall t is1 is2,
  Pong ∉ frames_read is2 (run is1 (dial t)) -> pong_wait <= elapsed is2 ->
  held (run (is1 ++ is2) (dial t)) = None ->
  ended (run (is1 ++ is2 ++ [Read false]) (dial t)) <> None.
Proof. exact silence_ends. Qed.

(** A message over the limit ends it, and the user is warned; *)
Theorem C94_an_oversized_message_ends_the_stream : forall t is n ev,
  Data n ev ∈ frames_read is (dial t) -> (max_message_size < n)%nat ->
  ended (run is (dial t)) = Some Oversized /\ ReadWarning ∈ notices (run is (dial t)).
Proof. exact oversized. Qed.

(** after the end nothing is shown any more, whatever arrives. *)
Theorem C94_nothing_after_the_end : forall t is1 is2, ended (run is1 (dial t)) <> None ->
  shown (run (is1 ++ is2) (dial t)) = shown (run is1 (dial t)).
Proof. exact after_end. Qed.

(** Every end the user did not ask for is reported, at the latest when the ticker
    fires 54 seconds later. *)
Theorem C94_the_user_is_told : forall t is1 is2 is3,
  ended (run is1 (dial t)) <> None -> Cancel ∉ is1 ++ is2 -> 54 * second <= elapsed is2 ->
  PingWarning ∈ notices (run (is1 ++ is2 ++ Tick :: is3) (dial t)).
Proof. exact told. Qed.

(** While the stream is up a ping leaves every 54 seconds, if the ticker is listened
    to: no two pings of a prompt client are further apart. *)
Theorem C94_pings_leave : forall t is1 is2 is3,
  ended (run (is1 ++ is2) (dial t)) = None -> 54 * second <= elapsed is2 -> Tick ∉ is2 ->
  t + elapsed (is1 ++ is2) ∈ pings (run (is1 ++ is2 ++ Tick :: is3) (dial t)).
Proof. exact pings_leave. Qed.

(** * C95: several endpoints *)

(** Each endpoint's stream is what it would be alone, and what is printed of it is what
    it would show alone: order kept, nothing lost or doubled by the others. *)
Theorem C95_endpoints_do_not_disturb_each_other : forall t n (ws : list (winput A)) ep, (ep < n)%nat ->
  w_streams (wrun ws (dial_all t n)) !! ep = Some (run (seen_by ep ws) (dial t)) /\
  printed_of ep (w_out (wrun ws (dial_all t n))) = shown (run (seen_by ep ws) (dial t)).
Proof. exact endpoints_apart. Qed.

(** Nothing is printed that no endpoint sent. *)
Theorem C95_printed_comes_from_an_endpoint : forall t n (ws : list (winput A)) ep a,
  (ep, a) ∈ w_out (wrun ws (dial_all t n)) -> (ep < n)%nat.
Proof. exact printed_from. Qed.

(** The command runs until it gets a signal. *)
Theorem C95_runs_until_a_signal : forall t n (ws : list (winput A)),
  w_running (wrun ws (dial_all t n)) = true <-> Signal ∉ ws.
Proof. intros t n ws. apply wrun_running. reflexivity. Qed.

End Event.

(** * False of the code *)

(** mprotect of a page, watched: with C93, the message is over the limit, so reading
    it ends the stream. *)
Theorem C94_mprotect_ends_the_watch : forall p tbl c bs t r msg l (ev : option DecodeModel.trace_event) t0 is,
  JsonSpec.bytes bs -> DecodeModel.ingest (DecodeModel.InBytes bs) = DecodeModel.Ingested t ->
  RawModel.ingest_bytes bs = Some r -> DecodeModel.t_syscall t = 10 ->
  DecodeModel.c64 (RawModel.r_args r) (DecodeModel.slot_start 1) = Some l -> 3073 <= l ->
  (Z.to_nat l <= length (MsgModel.j_heap p))%nat ->
  MsgModel.message p (SyscallModel.lookup_sc tbl (SyscallModel.ByInt (DecodeModel.t_syscall t))) c
    (RawModel.r_args r) t = Some msg ->
  Data (length msg) ev ∈ frames_read is (dial t0) ->
  ended (run is (dial t0)) = Some Oversized.
Proof.
  intros p tbl c bs t r msg l ev t0 is Hb Hi Hr Hn Hl H3 Hh Hm Hin.
  apply (oversized t0 is (length msg) ev Hin).
  exact (MsgProps.C93_mprotect_messages_never_fit p tbl c bs t r msg l Hb Hi Hr Hn Hl H3 Hh Hm).
Qed.

(** Events that arrive all the time keep a stream up: no.  Three events in a minute,
    read and shown at once, and the stream is over. *)
Definition busy : list (input nat) :=
  concat (map (fun n => [Wait (20 * second); Arrive (Data 100 (Some n)); Read false; Take]) [1; 2; 3]%nat).
Theorem C94_traffic_keeps_the_stream_up_refuted :
  ~ forall t (is : list (input nat)), Forall harmless is ->
      (forall is1 is2 is3, is = is1 ++ is2 ++ is3 -> frames_read is2 (run is1 (dial t)) = [] ->
         elapsed is2 < pong_wait) ->
      ended (run is (dial t)) = None.
Proof.
  intros H. specialize (H 0 busy).
  assert (Hc : ended (run busy (dial 0)) = Some TimedOut) by (vm_compute; reflexivity).
  rewrite H in Hc; [discriminate| |].
  - apply harmless_all. vm_compute. reflexivity.
  - intros is1 is2 is3 E Hf.
    pose proof (cuts (fun is1 is2 => negb (match frames_read is2 (run is1 (dial 0)) with [] => true | _ => false end)
      || (elapsed is2 <? pong_wait)) busy ltac:(vm_compute; reflexivity) is1 is2 is3 E) as Hb.
    cbv beta in Hb. rewrite Hf in Hb. apply Z.ltb_lt, Hb.
Qed.

(** Slow output only delays: no.  The terminal is held for a minute and more; the answer
    to the ping has long arrived, unread, and the stream ends. *)
Definition is_pong (i : input nat) : bool := match i with Arrive Pong => true | _ => false end.
Definition slow : list (input nat) :=
  [Arrive (Data 100 (Some 1%nat)); Read false; Wait (40 * second); Arrive Pong; Wait (40 * second); Take; Read false].
Theorem C94_slow_output_only_delays_refuted :
  ~ forall t (is : list (input nat)), Forall harmless is ->
      (forall is1 is2 is3, is = is1 ++ is2 ++ is3 -> Arrive Pong ∉ is2 -> elapsed is2 < pong_wait) ->
      ended (run is (dial t)) = None.
Proof.
  intros H. specialize (H 0 slow).
  assert (Hc : ended (run slow (dial 0)) = Some TimedOut) by (vm_compute; reflexivity).
  rewrite H in Hc; [discriminate| |].
  - apply harmless_all. vm_compute. reflexivity.
  - intros is1 is2 is3 E Hf.
    pose proof (cuts (fun _ is2 => existsb is_pong is2 || (elapsed is2 <? pong_wait)) slow
      ltac:(vm_compute; reflexivity) is1 is2 is3 E) as Hb.
    cbv beta in Hb. apply orb_true_iff in Hb. destruct Hb as [Hb|Hb]; [|apply Z.ltb_lt, Hb].
    exfalso. apply existsb_exists in Hb. destruct Hb as (i & Hi & Hp). apply Hf.
    apply elem_of_list_In. destruct i as [[]| | | | | |]; try discriminate. exact Hi.
Qed.

(** The command ends when every stream has: no, it waits for a signal for ever. *)
Theorem C95_ends_with_the_streams_refuted :
  ~ forall t n (ws : list (winput nat)), (forall s, s ∈ w_streams (wrun ws (dial_all t n)) -> ended s <> None) ->
      exists ws', Signal ∉ ws' /\ w_running (wrun (ws ++ ws') (dial_all t n)) = false.
Proof.
  intros H. destruct (H 0 2%nat [At 0 (Arrive Close); At 0 (Read false); At 1 (Arrive Close); At 1 (Read true)])
    as (ws' & Hs & Hr).
  - intros s Hs. apply elem_of_list_In in Hs. vm_compute in Hs. destruct Hs as [<- |[<- |[]]]; discriminate.
  - assert (Hx := proj2 (wrun_running (A := nat) ([At 0 (Arrive Close); At 0 (Read false); At 1 (Arrive Close); At 1 (Read true)] ++ ws')
      (dial_all 0 2) eq_refl)). rewrite Hx in Hr; [discriminate|].
    rewrite not_elem_of_app, !not_elem_of_cons. repeat split; try discriminate; [apply not_elem_of_nil|exact Hs].
Qed.

(** * Concrete cases *)

(** A healthy minute and a half: an event, an answered ping, an event. *)
Definition healthy_history : list (input nat) :=
  [Arrive (Data 300 (Some 7%nat)); Read false; Take; Wait (54 * second); Tick; Arrive Pong; Read false;
   Wait (40 * second); Arrive (Data 50 None); Read true; Arrive (Data 4096 (Some 8%nat)); Read false; Take;
   Arrive (Data 10 (Some 9%nat))].
Example C94_healthy_nonvacuous : Forall harmless healthy_history /\ answered healthy_history (dial 0) /\
  shown (run healthy_history (dial 0)) = [7; 8]%nat /\ events (arrived healthy_history) = [7; 8; 9]%nat.
Proof.
  split; [|split; [|split; vm_compute; reflexivity]].
  - apply harmless_all. vm_compute. reflexivity.
  - intros is1 is2 is3 E Hf.
    pose proof (cuts (fun is1 is2 => existsb (fun f => match f with Pong => true | _ => false end)
      (frames_read is2 (run is1 (dial 0))) || (elapsed is2 <? pong_wait)) healthy_history
      ltac:(vm_compute; reflexivity) is1 is2 is3 E) as Hb.
    cbv beta in Hb. apply orb_true_iff in Hb. destruct Hb as [Hb|Hb]; [|apply Z.ltb_lt, Hb].
    exfalso. apply existsb_exists in Hb. destruct Hb as (f & Hi & Hp). apply Hf.
    apply elem_of_list_In. destruct f; try discriminate. exact Hi.
Qed.

Definition big_history : list (input nat) :=
  [Arrive (Data 300 (Some 7%nat)); Arrive (Data 4097 (Some 8%nat)); Arrive (Data 10 (Some 9%nat)); Read false; Take; Read true].
Example C94_oversized_nonvacuous : Data 4097 (Some 8%nat) ∈ frames_read big_history (dial 0) /\
  shown (run (big_history ++ [Read true; Take]) (dial 0)) = [7]%nat /\
  PingWarning ∈ notices (run (big_history ++ [Wait (54 * second)] ++ [Tick]) (dial 0)).
Proof.
  split; [|split].
  - apply elem_of_list_In. vm_compute. right. left. reflexivity.
  - vm_compute. reflexivity.
  - apply elem_of_list_In. vm_compute. right. left. reflexivity.
Qed.

Example C95_nonvacuous :
  w_out (wrun [At 0 (Arrive (Data 9 (Some 1%nat))); At 1 (Arrive (Data 9 (Some 2%nat))); At 1 (Read false); At 0 (Read false);
               At 0 Take; At 1 Take] (dial_all 0 2)) = [(0, 1); (1, 2)]%nat.
Proof. vm_compute. reflexivity. Qed.

Print Assumptions C94_events_are_shown_in_order.
Print Assumptions C94_torn_down.
Print Assumptions C94_a_healthy_stream_lasts.
Print Assumptions C94_times_out_only_after_silence.
Print Assumptions C94_silence_ends_the_stream.
Print Assumptions C94_an_oversized_message_ends_the_stream.
Print Assumptions C94_nothing_after_the_end.
Print Assumptions C94_the_user_is_told.
Print Assumptions C94_pings_leave.
Print Assumptions C94_mprotect_ends_the_watch.
Print Assumptions C94_traffic_keeps_the_stream_up_refuted.
Print Assumptions C94_slow_output_only_delays_refuted.
Print Assumptions C95_endpoints_do_not_disturb_each_other.
Print Assumptions C95_printed_comes_from_an_endpoint.
Print Assumptions C95_runs_until_a_signal.
Print Assumptions C95_ends_with_the_streams_refuted.
