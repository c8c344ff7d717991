(** Property C116: lists of jobs from several endpoints. *)
From Coq Require Import ZArith String Ascii Lia.
From stdpp Require Import gmap strings list.
From Verif Require Import SyscallModel FilterModel HubModel HubSpec HubProps ServerModel ServerSpec ServerProofs ServerProps
  FleetModel FleetSpec FleetProofs QueryModel QuerySpec QueryProofs.
From Verif Require ClientModel ClientSpec.
Open Scope Z_scope.

(** The command, started over [eps] after the servers have done [before], and what
    happened since. *)
Notation asking J tbl n before eps := (start_query (frun J tbl (new_fleet tbl n) before) eps).
Notation query_after J tbl n before walk completed eps acts := (qrun J tbl walk completed (asking J tbl n before eps) acts).

(** C116: the endpoints are shown in the order given, each as often as it is listed; the
    command ends with 0 after the last one and never with anything else. *)
Theorem C116_every_endpoint_in_turn : forall J tbl s0 n before walk completed eps acts, new_server tbl = Some s0 -> orders walk ->
  let q := query_after J tbl n before walk completed eps acts in
  (exists rest, eps = ((q_out q).*1 ++ rest)%list) /\ (forall st, q_exit q = Some st -> st = 0 /\ (q_out q).*1 = eps).
Proof.
  intros J tbl s0 n before walk completed eps acts H0 W q.
  destruct (query_inv J tbl s0 walk completed _ eps acts H0 W (run_servers J tbl s0 n before H0)) as (_ & _ & _ & _ & E & X). cbn in E. fold q in E, X. split.
  - by exists (q_todo q).
  - intros st Hst. destruct X as [X|[X Ht]]; [congruence|]. split; [congruence|]. by rewrite Ht, app_nil_r in E.
Qed.
Print Assumptions C116_every_endpoint_in_turn.
(** A list that is shown for an endpoint is the list of its running, or of its completed,
    jobs at a moment between the start of the command and now: exactly its jobs, each
    once, if their ids are well-formed text, and else some of them. *)
Theorem C116_lists_are_true : forall J tbl s0 n before walk completed eps acts i l, new_server tbl = Some s0 -> orders walk ->
  (i, Jobs l) ∈ q_out (query_after J tbl n before walk completed eps acts) ->
  were_the_jobs J tbl walk completed (asking J tbl n before eps) acts i l.
Proof.
  intros J tbl s0 n before walk completed eps acts i l H0 W.
  destruct (query_inv J tbl s0 walk completed _ eps acts H0 W (run_servers J tbl s0 n before H0)) as (_ & _ & Ht & _). exact (Ht i l).
Qed.
Print Assumptions C116_lists_are_true.
(** A failing endpoint costs its own list only: one whose server is up has its list shown
    unless a connection broke. *)
Theorem C116_failures_are_their_own : forall J tbl s0 n before walk completed eps acts, new_server tbl = Some s0 -> orders walk ->
  let q := query_after J tbl n before walk completed eps acts in
  q_exit q = Some 0 -> QBreak ∉ acts -> forall k i, eps !! k = Some i -> up (q_fleet q) i ->
  exists l, q_out q !! k = Some (i, Jobs l).
Proof.
  intros J tbl s0 n before walk completed eps acts H0 W q Hx Hb k i Hk Hu.
  destruct (query_inv J tbl s0 walk completed _ eps acts H0 W (run_servers J tbl s0 n before H0)) as (_ & _ & _ & Hf & E & X). cbn in E. fold q in E, X, Hf.
  destruct X as [X|[_ Ht]]; [congruence|]. rewrite Ht, app_nil_r in E. rewrite <- E, list_lookup_fmap in Hk.
  destruct (q_out q !! k) as [[i' r]|] eqn:Eq; [|discriminate Hk]. cbn in Hk. injection Hk as ->. destruct r as [|l]; [|by exists l].
  exfalso. destruct (Hf i) as [H|H]; [by apply elem_of_list_lookup_2 in Eq|by apply Hb|by apply H].
Qed.
Print Assumptions C116_failures_are_their_own.

(** The status does not tell that anything was shown: with no server up, any list of
    endpoints ends with 0 and errors only. *)
Theorem C116_status_tells_refuted : forall J tbl walk completed eps, exists acts, QBreak ∉ acts /\
  let q := query_after J tbl 0 [] walk completed eps acts in
  q_exit q = Some 0 /\ q_out q = map (fun i => (i, Failed)) eps.
Proof.
  intros J tbl walk completed eps. exists (replicate (length eps) QGo ++ [QGo])%list. split.
  { intros H. apply elem_of_app in H as [H|H]; [apply elem_of_replicate in H as [H _]; discriminate H|]. apply elem_of_list_singleton in H. discriminate H. }
  cbv zeta. unfold qrun. rewrite fold_left_app. cbn [fold_left qstep].
  assert (forall out, fold_left (qstep J tbl walk completed) (replicate (length eps) QGo) (Query (new_fleet tbl 0) eps None out None)
    = Query (new_fleet tbl 0) [] None (out ++ map (fun i => (i, Failed)) eps) None) as H.
  { induction eps as [|i eps IH]; intros out; cbn [length replicate fold_left map]; [by rewrite app_nil_r|].
    change (qstep J tbl walk completed (Query (new_fleet tbl 0) (i :: eps) None out None) QGo) with (Query (new_fleet tbl 0) eps None (out ++ [(i, Failed)]) None).
    by rewrite IH, <- app_assoc. }
  unfold start_query. change (frun J tbl (new_fleet tbl 0) []) with (new_fleet tbl 0). rewrite H. split; reflexivity.
Qed.
Print Assumptions C116_status_tells_refuted.

(** Two servers; the first is asked, then a job is created there and one at the second,
    which is asked then. *)
Definition qx_walk : nat -> order := fun _ m => map_to_list m.
Definition qx_jobs (i : nat) : nat -> job := sx_jobs.
Definition qx_create (i t : nat) : list qact := [QFleet (FServer i (SReq QCreate)); QFleet (FServer i (SStep t)); QFleet (FServer i (SStep t))].
Definition qx_acts : list qact :=
  ([QGo; QFleet (FServer 0 (SStep 0)); QGo] ++ qx_create 0 1 ++ qx_create 1 0 ++ [QGo; QFleet (FServer 1 (SStep 1)); QGo; QGo])%list.
Notation qx_after acts := (query_after qx_jobs ex_table 2 [] qx_walk false [0; 1]%nat acts).
Lemma qx_orders : orders qx_walk.
Proof. intros k m. reflexivity. Qed.
(** How many jobs run at a server. *)
Definition at_work (f : fleet) (i : nat) : option nat := match f_srv f !! i with Some (Some s) => Some (size (running s)) | _ => None end.

(** The lists are of different moments: what they show together may never have been so. *)
Theorem C116_one_moment_refuted :
  q_exit (qx_after qx_acts) = Some 0 /\ q_out (qx_after qx_acts) = [(0, Jobs []); (1, Jobs [0])]%nat /\
  forall early late, qx_acts = (early ++ late)%list ->
  ~ (at_work (q_fleet (qx_after early)) 0 = Some 0%nat /\ at_work (q_fleet (qx_after early)) 1 = Some 1%nat).
Proof.
  split; [vm_compute; reflexivity|]. split; [vm_compute; reflexivity|]. intros early late E [H1 H2].
  assert (forallb (fun k => match at_work (q_fleet (qx_after (take k qx_acts))) 0, at_work (q_fleet (qx_after (take k qx_acts))) 1 with
    | Some a, Some b => negb (Nat.eqb a 0 && Nat.eqb b 1) | _, _ => true end) (seq 0 14) = true) as C by (vm_compute; reflexivity).
  assert (early = take (length early) qx_acts) as Ee by (rewrite E; by rewrite take_app).
  rewrite forallb_forall in C. specialize (C (length early)). rewrite <- Ee, H1, H2 in C. discriminate C. apply in_seq.
  assert (length early <= length qx_acts)%nat by (rewrite E, app_length; lia). cbn in H. lia.
Qed.
Print Assumptions C116_one_moment_refuted.
(** An endpoint that takes the request and does not answer holds up all those behind it. *)
Theorem C116_silent_endpoint_refuted : forall k,
  let q := qx_after (replicate k QGo) in q_out q = [] /\ q_exit q = None /\ up (q_fleet q) 0 /\ up (q_fleet q) 1.
Proof.
  intros k. cbv zeta. destruct k as [|k].
  - split; [reflexivity|]. split; [reflexivity|]. split; (eexists; vm_compute; reflexivity).
  - set (q1 := qx_after [QGo]).
    assert (qstep qx_jobs ex_table qx_walk false q1 QGo = q1) as F by (vm_compute; reflexivity).
    assert (qx_after (replicate (S k) QGo) = q1) as ->.
    { change (fold_left (qstep qx_jobs ex_table qx_walk false) (replicate k QGo) q1 = q1). induction k as [|k IH]; [reflexivity|]. cbn [replicate fold_left]. by rewrite F. }
    split; [vm_compute; reflexivity|]. split; [vm_compute; reflexivity|]. split; (eexists; vm_compute; reflexivity).
Qed.
Print Assumptions C116_silent_endpoint_refuted.

(** One endpoint is down, the other one is shown. *)
Definition qx_half : list qact := (qx_create 1 0 ++ [QGo; QFleet (FServer 1 (SStep 1)); QGo; QGo; QGo])%list.
Example C116_nonvacuous :
  (exists s0, new_server ex_table = Some s0) /\ orders qx_walk /\
  let q := query_after qx_jobs ex_table 2 [] qx_walk false [1; 2]%nat qx_half in
  q_exit q = Some 0 /\ QBreak ∉ qx_half /\ up (q_fleet q) 1 /\ q_out q = [(1%nat, Jobs [0%nat]); (2%nat, Failed)].
Proof.
  split.
  { assert (match new_server ex_table with Some _ => true | None => false end = true) as E by (vm_compute; reflexivity).
    destruct (new_server ex_table) as [s0|]; [by exists s0|discriminate E]. }
  split; [exact qx_orders|]. cbv zeta. split; [vm_compute; reflexivity|]. split.
  { intros H. apply elem_of_list_In in H. cbn in H. intuition discriminate. }
  split; [eexists; vm_compute; reflexivity|]. vm_compute. reflexivity.
Qed.
