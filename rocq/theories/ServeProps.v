(** C105: `swoll server`. *)
From Coq Require Import ZArith String Lia.
From stdpp Require Import base list numbers strings pretty gmap.
From Verif Require Import SyscallTable SyscallModel SyscallSpec SyscallProofs FilterModel FilterSpec KernelModel KernelSpec RawModel DecodeModel CaptureModel CaptureSpec
  MsgModel MsgSpec ReadSpec TopoModel HubModel HubSpec HubTop LineModel LiveModel LiveSpec LiveProofs LiveTop PlainSpec PlainProofs ServeModel ServeSpec ServeFrame ServeProofs.
From Verif Require Import PubSubModel PubSubSpec PubSubTop HashModel WatchModel WatchSpec WatchProofs WatchTop ServeWatch ServeTop ServeEnds.

Local Open Scope string_scope.
Local Open Scope list_scope.
Local Open Scope Z_scope.
Local Opaque gSyscallMap gClassMap table emit.

Lemma server_hub tbl s0 : start_server tbl = Some s0 -> exists h0, new_hub tbl = Some h0.
Proof. unfold start_server, start_world. destruct (new_hub tbl) as [h|]; [|discriminate]. intros _. exists h. reflexivity. Qed.

(** It starts. *)
Theorem C105_starts : forall tbl, go_table tbl -> is_Some (start_server tbl).
Proof.
  intros tbl G. rewrite (go_table_eq _ G). assert (H : (if start_server table then true else false) = true) by (vm_compute; reflexivity).
  destruct (start_server table) as [w|]; [eexists; reflexivity|discriminate].
Qed.
Print Assumptions C105_starts.

(** An event is sent only of a call that a job demanded when it was entered; and of
    every such call, if no container was reported to have stopped and every rule could be
    installed. *)
Theorem C105_events_are_demanded : forall tbl describe srt J s0 l s rs k e su,
  go_table tbl -> start_server tbl = Some s0 -> Forall plausible l -> in_turn (story l) -> srun tbl describe srt J s0 l s rs ->
  sends (story l) (outcomes rs) k e su -> about J l rs k e.
Proof.
  intros tbl describe srt J s0 l s rs k e su G E0 F T R. destruct (server_hub _ _ E0) as (h0 & H0). exact (sent_about tbl describe srt J G h0 H0 s0 E0 l s rs k e su F T R).
Qed.
Print Assumptions C105_events_are_demanded.
Theorem C105_demanded_calls_are_sent : forall tbl describe srt J s0 l s rs k e,
  go_table tbl -> start_server tbl = Some s0 -> Forall plausible l -> in_turn (story l) -> few_tasks (story l) -> nothing_stopped l -> everything_installed rs ->
  srun tbl describe srt J s0 l s rs -> about J l rs k e ->
  exists o su scratch trailing lost, l !! k = Some (STask o su scratch trailing lost) /\ (lost = false -> sends (story l) (outcomes rs) k e su).
Proof.
  intros tbl describe srt J s0 l s rs k e G E0 F T FT N A R Ab. destruct (server_hub _ _ E0) as (h0 & H0).
  destruct (about_sent tbl describe srt J G h0 H0 s0 E0 l s rs k e F T N A FT R Ab) as (o & r & (su & sc & tr & lost & D) & Hr & He). exists o, su, sc, tr, lost. split; [apply story_task; exact D|].
  intros ->. exists o, sc, tr, r. split; [exact D|]. split; [exact Hr|exact He].
Qed.
Print Assumptions C105_demanded_calls_are_sent.

(** A record that was sent is taken at most once, and otherwise still waiting. *)
Theorem C105_no_record_is_lost : forall tbl describe srt J s0 l s rs k e su,
  start_server tbl = Some s0 -> srun tbl describe srt J s0 l s rs -> sends (story l) (outcomes rs) k e su ->
  (exists q ps, (k < q)%nat /\ took rs q k ps) \/ exists bs, (k, bs) ∈ w_ring (sv_world s).
Proof. intros tbl describe srt J s0 l s rs k e su E0. destruct (server_hub _ _ E0) as (h0 & H0). exact (not_lost tbl describe srt J h0 H0 s0 E0 l s rs k e su). Qed.
Print Assumptions C105_no_record_is_lost.
Theorem C105_read_once : forall tbl describe srt J s0 l s rs q q' k ps ps',
  go_table tbl -> start_server tbl = Some s0 -> Forall plausible l -> srun tbl describe srt J s0 l s rs -> took rs q k ps -> took rs q' k ps' -> q = q'.
Proof. intros tbl describe srt J s0 l s rs q q' k ps ps' G E0. destruct (server_hub _ _ E0) as (h0 & H0). exact (took_once tbl describe srt J G h0 H0 s0 E0 l s rs q q' k ps ps'). Qed.
Print Assumptions C105_read_once.

(** A text that is written to a client is that of an event sent before, the last one
    that the hub took, of a container the hub knew; the client came before, and asked for
    it; and the text says what happened. *)
Theorem C105_clients_get_only_what_they_asked_for : forall tbl describe srt J s0 l s rs q w k text,
  go_table tbl -> sort_contract srt -> start_server tbl = Some s0 -> Forall plausible l -> srun tbl describe srt J s0 l s rs -> wrote rs q w k text ->
  exists a i q0 ps e su c p takes,
    came l rs i w a /\ (i < q)%nat /\ took rs q0 k ps /\ (k < q0 < q)%nat /\ (forall q' k' ps', took rs q' k' ps' -> (q' < q)%nat -> (q' <= q0)%nat)
    /\ sends (story l) (outcomes rs) k e su /\ LiveSpec.known (take q0 (story l)) (ev_pidns e) c /\ meant_for J (take q0 l) (take q0 rs) a c (ev_nr e)
    /\ SCall p takes ∈ l /\ says p (describe c) e su text.
Proof. intros tbl describe srt J s0 l s rs q w k text G Srt E0. destruct (server_hub _ _ E0) as (h0 & H0). exact (sound tbl describe srt J G Srt h0 H0 s0 E0 l s rs q w k text). Qed.
Print Assumptions C105_clients_get_only_what_they_asked_for.

(** A client that came before an event was taken and is there when the hub is done gets
    its text: once, if it asked for containers; as often as the job's calls are in force,
    if it asked for a job. It gets nothing of an event it did not ask for. *)
Theorem C105_clients_get_all_they_asked_for : forall tbl describe srt J s0 l s rs w i a q k ps,
  go_table tbl -> sort_contract srt -> start_server tbl = Some s0 -> Forall plausible l -> srun tbl describe srt J s0 l s rs ->
  came l rs i w a -> took rs q k ps -> (i < q)%nat -> busy s = false -> stays_open s w ->
  exists e su, sends (story l) (outcomes rs) k e su
    /\ ((forall c, ~ LiveSpec.known (take q (story l)) (ev_pidns e) c) -> texts w k rs = 0%nat)
    /\ forall c, LiveSpec.known (take q (story l)) (ev_pidns e) c ->
       match a with
       | AskTrace ns pod name =>
           (demanded J (take q l) (take q rs) (ev_pidns e) (ev_nr e) -> agree eq ns pod name (ct_namespace c) (ct_pod c) (ct_name c) -> texts w k rs = 1%nat)
           /\ (~ demanded J (take q l) (take q rs) (ev_pidns e) (ev_nr e) \/ ~ agree (fun a b => hash a = hash b) ns pod name (ct_namespace c) (ct_pod c) (ct_name c) -> texts w k rs = 0%nat)
       | AskJob id =>
           id <> "" -> (forall m i j, in_force J (take q l) (take q rs) (ev_pidns e) (ev_nr e) m i j -> j_rate (J j) <= 0 /\ (hash (j_id (J j)) = hash id -> j_id (J j) = id)) ->
           forall n, times_in_force J (take q l) (take q rs) (ev_pidns e) (ev_nr e) id n -> texts w k rs = n
       end.
Proof. intros tbl describe srt J s0 l s rs w i a q k ps G Srt E0. destruct (server_hub _ _ E0) as (h0 & H0). exact (complete tbl describe srt J G Srt h0 H0 s0 E0 l s rs w i a q k ps). Qed.
Print Assumptions C105_clients_get_all_they_asked_for.

(** What ends the server. *)
Theorem C105_when_it_ends : forall tbl describe srt J s0 l s rs o,
  go_table tbl -> sort_contract srt -> start_server tbl = Some s0 -> Forall plausible l -> srun tbl describe srt J s0 l s rs -> plausible o ->
  sstep tbl describe srt J s o None -> ends J l rs o.
Proof. intros tbl describe srt J s0 l s rs o G Srt E0. destruct (server_hub _ _ E0) as (h0 & H0). exact (when_it_ends tbl describe srt J G Srt h0 H0 s0 E0 l s rs o). Qed.
Print Assumptions C105_when_it_ends.

(** Whatever else happens, it goes on. *)
Theorem C105_goes_on : forall tbl describe srt J s0 l s rs o,
  go_table tbl -> sort_contract srt -> start_server tbl = Some s0 -> Forall plausible l -> srun tbl describe srt J s0 l s rs -> plausible o -> ~ ends J l rs o ->
  exists s' r, sstep tbl describe srt J s o (Some (s', r)).
Proof. intros tbl describe srt J s0 l s rs o G Srt E0. destruct (server_hub _ _ E0) as (h0 & H0). exact (goes_on tbl describe srt J G Srt h0 H0 s0 E0 l s rs o). Qed.
Print Assumptions C105_goes_on.

(** Unless a write blocks or no text can be made of the event, finitely many publishes
    and writes bring it to everyone, and nobody is disconnected by it. *)
Theorem C105_gets_done : forall tbl describe srt J s0 p l s rs,
  go_table tbl -> sort_contract srt -> start_server tbl = Some s0 -> reasonable p -> Forall plausible l -> srun tbl describe srt J s0 l s rs -> stall (sv_sys s) = None ->
  (forall q k ps e su, took rs q k ps -> (forall q' k' ps', took rs q' k' ps' -> (q' <= q)%nat) -> sends (story l) (outcomes rs) k e su -> ~ unprintable p e) ->
  exists l2 s2 rs2, Forall (fun o => o = SPublish \/ o = SCall p true) l2 /\ srun tbl describe srt J s0 (l ++ l2) s2 (rs ++ rs2)
    /\ busy s2 = false /\ ws (sv_sys s2) = ws (sv_sys s).
Proof.
  intros tbl describe srt J s0 p l s rs G Srt E0 Rp F R Hs Hp. destruct (server_hub _ _ E0) as (h0 & H0).
  destruct (drains tbl describe srt J G Srt h0 H0 s0 E0 p l s rs Rp F R Hs Hp) as (l2 & s2 & rs2 & A1 & A2 & _ & A4 & A5 & _). exists l2, s2, rs2. split; [exact A1|]. split; [exact A2|]. split; [exact A4|exact A5].
Qed.
Print Assumptions C105_gets_done.

(** A read of a negative count, by anyone in a container that a job demands reads of and
    a client follows, ends the server. *)
Theorem C105_a_negative_count_ends_it : forall tbl describe srt J s0 p l s rs w i ns pod name q k ps e su c,
  go_table tbl -> sort_contract srt -> start_server tbl = Some s0 -> reasonable p -> Forall plausible l -> srun tbl describe srt J s0 l s rs ->
  came l rs i w (AskTrace ns pod name) -> took rs q k ps -> (i < q)%nat -> sends (story l) (outcomes rs) k e su ->
  LiveSpec.known (take q (story l)) (ev_pidns e) c -> demanded J (take q l) (take q rs) (ev_pidns e) (ev_nr e) ->
  agree eq ns pod name (ct_namespace c) (ct_pod c) (ct_name c) ->
  ev_nr e = 0 -> s64 (nth 2 (ev_enter e) 0) < 0 -> stays_open s w -> stall (sv_sys s) = None ->
  exists l2 s2 rs2, Forall (fun o => o = SPublish \/ o = SCall p true) l2 /\ srun tbl describe srt J s0 (l ++ l2) s2 (rs ++ rs2) /\ sstep tbl describe srt J s2 (SCall p true) None.
Proof.
  intros tbl describe srt J s0 p l s rs w i ns pod name q k ps e su c G Srt E0 Rp F R Ca Tk Iq Se Kn Dm Ag Hn Hc. destruct (server_hub _ _ E0) as (h0 & H0).
  refine (unprintable_ends tbl describe srt J G Srt h0 H0 s0 E0 p l s rs w i ns pod name q k ps e su c Rp F R Ca Tk Iq Se Kn Dm Ag _).
  intros p'. left. split; [rewrite Hn; left|exact Hc].
Qed.
Print Assumptions C105_a_negative_count_ends_it.

(** ** A session: a container, a job that demands its reads, a client, a read *)

Definition shop : HubModel.container := Container "default" "shop" "app" 5.
Definition reads_job : nat -> job := fun _ => Job "reads" 0 ["read"] [].
Definition described (c : HubModel.container) : TopoModel.container (list (string * string)) := TopoModel.Ctr "" (ct_pod c) "" (ct_name c) "" (ct_namespace c) [] 0 (ct_ns c).
Definition plain_p : jparams := JParams (fun l => l) 0 [].
Definition doing (o : kop) : sop := STask o nowhere (repeat 0 736) [] false.
Definition opening (count : Z) : list sop :=
  [SPod true shop; SJob 0 true shop; SClient (Join (AskTrace "default" "" "") 0);
   doing (KEnter 7 (Task 5 7 0) [3; 0; count] 0 0); doing (KExit 7 (Task 5 7 0) 0 0 0)].
Definition session (count : Z) : list sop := opening count ++ [SRead 0].

Lemma plain_p_reasonable : reasonable plain_p.
Proof. split; [reflexivity|constructor|cbn; lia]. Qed.
Lemma doing_plausible o : fits o -> plausible (doing o).
Proof.
  intros H. split; [exact (does_real o H)|]. split; [intros a b X; discriminate|]. split; [|split; [|constructor]].
  - cbn [su_comm nowhere]. repeat constructor; lia.
  - apply Forall_forall. intros x X. apply elem_of_list_In, repeat_spec in X. lia.
Qed.
Lemma session_plausible count : Forall plausible (session count).
Proof.
  unfold session, opening. cbn [app].
  constructor; [split; exact Logic.I|]. constructor; [split; [cbn; lia|cbn; lia]|]. constructor; [split; [cbn; lia|exact Logic.I]|].
  constructor; [apply doing_plausible; unfold fits, word, some_ns; cbn; lia|]. constructor; [apply doing_plausible; unfold fits, word, some_ns; cbn; lia|].
  constructor; [split; exact Logic.I|]. constructor.
Qed.
Lemma read_names : names_call "read" 0.
Proof.
  assert (C : match lookup_sc table (ByString "read") with Some sc => sc_nr sc =? 0 | None => false end = true) by (vm_compute; reflexivity).
  destruct (lookup_sc table (ByString "read")) as [sc|] eqn:L; [|discriminate]. apply Z.eqb_eq in C. rewrite <- C. exact (lookup_names _ _ L).
Qed.
Lemma reads_installed : match new_hub table with Some h => match hstep reads_job table h (OStart 0 shop) with HubModel.Ok (_, RStarted _ true) => true | _ => false end | None => false end = true.
Proof. vm_compute. reflexivity. Qed.
Lemma client_comes : let y := do_act some_sort start (Join (AskTrace "default" "" "") 0) in
  ws y = [Watcher (AskTrace "default" "" "") true false ping_period pong_wait Pinging] /\ crashed y = false /\ stall y = None.
Proof. vm_compute. split; [reflexivity|]. split; reflexivity. Qed.

Section session.
Context (describe : HubModel.container -> TopoModel.container (list (string * string))) (s0 : server) (E0 : start_server table = Some s0) (count : Z).
Local Notation run := (srun table describe some_sort reads_job).
Local Notation step := (sstep table describe some_sort reads_job).

Lemma in_force_reads l rs ns nr m i j : in_force reads_job l rs ns nr m i j -> nr = 0.
Proof.
  intros (c & n & ok & name & _ & _ & _ & _ & H & N & _). cbn [reads_job j_calls] in H. destruct i as [|[|i]]; [|discriminate H|discriminate H]. injection H as <-. exact (names_functional _ _ _ N read_names).
Qed.

Lemma session_runs : exists s rs ps, run s0 (session count) s rs /\ came (session count) rs 2 0 (AskTrace "default" "" "") /\ took rs 5 4 ps
  /\ sends (story (session count)) (outcomes rs) 4 (KEvent 7 0 0 0 0 5 [3; 0; count] 0) nowhere
  /\ demanded reads_job (take 5 (session count)) (take 5 rs) 5 0 /\ stays_open s 0 /\ stall (sv_sys s) = None.
Proof.
  destruct (server_hub _ _ E0) as (h0 & H0). pose proof (start_eq table h0 H0 s0 E0) as (Ew & Ep & Ey).
  pose proof (session_plausible count) as Fs.
  (* the container and the job *)
  pose proof (ss_do table describe some_sort reads_job s0 (SPod true shop) ltac:(discriminate)) as S1. cbn [sdo] in S1. set (s1 := with_world s0 (pod_step (sv_world s0) true shop)) in *.
  pose proof (sr_snoc _ _ _ _ _ _ _ _ _ _ _ (sr_nil table describe some_sort reads_job s0) S1) as R1. cbn [app] in R1.
  pose proof (ss_do table describe some_sort reads_job s1 (SJob 0 true shop) ltac:(discriminate)) as S2. cbn [sdo] in S2. unfold job_step in S2.
  assert (B1 : busy s1 = false) by (unfold busy, s1; cbn [with_world sv_pub]; rewrite Ep; reflexivity).
  assert (W1 : w_hub (sv_world s1) = h0) by (unfold s1; cbn [with_world sv_world]; rewrite Ew; reflexivity).
  rewrite B1, W1 in S2. change ((0 <? ct_ns shop) && negb (true && false)) with true in S2. cbv iota in S2.
  pose proof reads_installed as Ri. rewrite H0 in Ri. destruct (hstep reads_job table h0 (OStart 0 shop)) as [[h r]| |]; [|discriminate Ri..]. destruct r; try discriminate Ri. destruct ok; [|discriminate Ri].
  set (s2 := with_world s1 (with_hub (sv_world s1) h)) in *.
  pose proof (sr_snoc _ _ _ _ _ _ _ _ _ _ _ R1 S2) as R2. cbn [app] in R2.
  (* the client *)
  pose proof (ss_do table describe some_sort reads_job s2 (SClient (Join (AskTrace "default" "" "") 0)) ltac:(discriminate)) as S3. cbn [sdo] in S3. unfold client_step, unless_crashed in S3.
  assert (Y2 : sv_sys s2 = start) by exact Ey. rewrite Y2 in S3. destruct client_comes as (Y3 & Y4 & Y5). cbv zeta in Y3, Y4, Y5. rewrite Y4, Y3 in S3.
  change (length (ws start) <? length [Watcher (AskTrace "default" "" "") true false ping_period pong_wait Pinging])%nat with true in S3. cbv iota in S3. change (length (ws start)) with 0%nat in S3.
  set (s3 := Server _ _ _) in S3.
  pose proof (sr_snoc _ _ _ _ _ _ _ _ _ _ _ R2 S3) as R3. cbn [app] in R3.
  (* the call *)
  pose proof (ss_do table describe some_sort reads_job s3 (doing (KEnter 7 (Task 5 7 0) [3; 0; count] 0 0)) ltac:(discriminate)) as S4. unfold doing in S4 at 2. cbn [sdo] in S4.
  destruct (task_step table (sv_world s3) (KEnter 7 (Task 5 7 0) [3; 0; count] 0 0) nowhere (repeat 0 736) [] false) as [w4 r4] eqn:T4.
  assert (X4 : exists q4, r4 = UTask q4) by (unfold task_step in T4; destruct (kstep _ _ _) as [? ?]; injection T4 as _ <-; eexists; reflexivity). destruct X4 as [q4 ->].
  set (s4 := with_world s3 w4) in *. pose proof (sr_snoc _ _ _ _ _ _ _ _ _ _ _ R3 S4) as R4. cbn [app] in R4.
  pose proof (ss_do table describe some_sort reads_job s4 (doing (KExit 7 (Task 5 7 0) 0 0 0)) ltac:(discriminate)) as S5. unfold doing in S5 at 2. cbn [sdo] in S5.
  destruct (task_step table (sv_world s4) (KExit 7 (Task 5 7 0) 0 0 0) nowhere (repeat 0 736) [] false) as [w5 r5] eqn:T5.
  assert (X5 : exists q5, r5 = UTask q5) by (unfold task_step in T5; destruct (kstep _ _ _) as [? ?]; injection T5 as _ <-; eexists; reflexivity). destruct X5 as [q5 ->].
  set (s5 := with_world s4 w5) in *. pose proof (sr_snoc _ _ _ _ _ _ _ _ _ _ _ R4 S5) as R5. cbn [app] in R5.
  set (rs5 := [VNone; VMatched pushed true; VJoined 0; VTask q4; VTask q5]) in *.
  change (run s0 (opening count) s5 rs5) in R5.
  assert (F5 : Forall plausible (opening count)) by (apply Forall_app in Fs as [F5 _]; exact F5).
  (* the event *)
  assert (Fo : forall q, (2 <= q)%nat -> in_force reads_job (take q (opening count)) (take q rs5) 5 0 1 0 0).
  { intros q Hq. exists shop, pushed, true, "read". rewrite !lookup_take by lia. split; [reflexivity|]. split; [reflexivity|]. split; [reflexivity|]. split; [left; reflexivity|]. split; [reflexivity|]. split; [exact read_names|].
    split; [left; reflexivity|]. intros q' b Hq' Hl. apply lookup_take_Some in Hl as [Hl _]. destruct q' as [|[|[|[|[|q']]]]]; discriminate Hl. }
  assert (Da : forall k o, did (story (opening count)) k o -> k = 3%nat /\ o = KEnter 7 (Task 5 7 0) [3; 0; count] 0 0 \/ k = 4%nat /\ o = KExit 7 (Task 5 7 0) 0 0 0).
  { intros k o (su & sc & tr & lost & Hk). destruct k as [|[|[|[|[|k]]]]]; try discriminate Hk; injection Hk; intros; [left|right]; (split; [reflexivity|congruence]). }
  assert (D3 : did (story (opening count)) 3 (KEnter 7 (Task 5 7 0) [3; 0; count] 0 0)) by (exists nowhere, (repeat 0 736), [], false; reflexivity).
  assert (D4 : did (story (opening count)) 4 (KExit 7 (Task 5 7 0) 0 0 0)) by (exists nowhere, (repeat 0 736), [], false; reflexivity).
  assert (It : in_turn (story (opening count))).
  { intros tid i j Hij (t1 & a1 & u1 & n1 & X) (t2 & a2 & u2 & n2 & Y). apply Da in X as [[-> _]|[_ X]]; [|discriminate X]. apply Da in Y as [[-> _]|[_ Y]]; [lia|discriminate Y]. }
  assert (Ft : few_tasks (story (opening count))).
  { unfold few_tasks. change (entering (story (opening count))) with [7]. cbn [list_to_set]. rewrite union_empty_r_L, size_singleton. lia. }
  assert (Ns : nothing_stopped (opening count)).
  { intros j c X. unfold opening in X. repeat (apply elem_of_cons in X as [Y|X]; [discriminate Y|]). apply not_elem_of_nil in X. exact X. }
  assert (Ai : everything_installed rs5).
  { intros n X. unfold rs5 in X. repeat (apply elem_of_cons in X as [Y|X]; [discriminate Y|]). apply not_elem_of_nil in X. exact X. }
  assert (Ab : about reads_job (opening count) rs5 4 (KEvent 7 0 0 0 0 5 [3; 0; count] 0)).
  { left. exists 3%nat, 7, (Task 5 7 0), (Task 5 7 0), [3; 0; count], 0, 0, 0, 0, 0. split; [|split; [reflexivity|split; [lia|split; [cbn; lia|split; [|reflexivity]]]]].
    - split; [lia|]. split; [exact D3|]. split; [exact D4|]. intros j Hj. lia.
    - exists 1%nat, 0%nat, 0%nat. apply Fo. lia. }
  destruct (C105_demanded_calls_are_sent table describe some_sort reads_job s0 (opening count) s5 rs5 4 _ go_table_intro E0 F5 It Ft Ns Ai R5 Ab) as (o & su & sc & tr & lost & Hl & Se).
  injection Hl as <- <- <- <- <-. specialize (Se eq_refl).
  (* it is taken *)
  assert (P5 : sv_pub s5 = None) by exact Ep.
  assert (Y6 : sv_sys s5 = do_act some_sort start (Join (AskTrace "default" "" "") 0)) by reflexivity.
  destruct (C105_no_record_is_lost _ _ _ _ _ _ _ _ _ _ _ E0 R5 Se) as [(q & ps & Hq & Tk)|(bs & Hb)].
  { apply lookup_lt_Some in Tk. change (length rs5) with 5%nat in Tk. lia. }
  assert (Ne : ~ ends reads_job (opening count) rs5 (SRead 0)).
  { cbn [ends]. intros (k & e & su & Sk & _ & X). destruct (sends_named table describe some_sort reads_job go_table_intro h0 H0 s0 E0 _ _ _ _ _ _ F5 R5 Sk) as (j & name & Nj & Nm).
    apply elem_of_list_singleton in Nj. subst name. rewrite (names_functional _ _ _ Nm read_names) in X. destruct X as [X|(_ & m & i & j1 & m' & i' & j' & _ & _ & _ & X & _)]; [discriminate X|]. cbn in X. lia. }
  assert (Pr : plausible (SRead 0)) by (split; exact Logic.I).
  destruct (C105_goes_on table describe some_sort reads_job s0 _ _ _ _ go_table_intro some_sort_contract E0 F5 R5 Pr Ne) as (s6 & r6 & S6).
  pose proof (sr_snoc _ _ _ _ _ _ _ _ _ _ _ R5 S6) as R6. change (opening count ++ [SRead 0]) with (session count) in R6.
  destruct (read_step_cases table describe some_sort reads_job _ _ _ _ S6) as [Ys C]. 
  assert (Ri6 : forall k' bs', (k', bs') ∈ w_ring (sv_world s5) -> k' = 4%nat).
  { intros k' bs' X. destruct (f_ring_spec table (sv_world s0) (start_fresh table h0 H0 s0 E0) _ _ _ (srun_framed _ _ _ _ _ _ _ _ R5)) as [[_ M] _]. apply M in X as [Sr _].
    destruct (record_sent table describe some_sort reads_job s0 _ _ _ _ _ F5 R5 Sr) as (e & su & scr & tr & (o & sc & tr' & r & A1 & A2 & A3) & _).
    assert (D : did (story (opening count)) k' o) by (exists su, sc, tr', false; exact A1). destruct (Da _ _ D) as [[-> ->]|[-> _]]; [|reflexivity].
    destruct (task_at table describe some_sort reads_job go_table_intro h0 H0 s0 E0 _ _ _ _ _ F5 R5 D) as (wk & os & hrs & T & _ & E & _). rewrite A2 in E. apply Some_inj, utask_inj in E. rewrite E in A3.
    destruct (sent_from _ _ _ _ A3) as [(? & ? & ? & ? & ? & X)|(? & ? & ? & ? & ? & ? & X)]; discriminate X. }
  assert (Tk : exists ps, r6 = VRead 4 ps).
  { destruct C as [(_ & _ & [X|X])|(_ & k' & bs' & Hk & C)].
    - unfold busy in X. rewrite P5 in X. discriminate X.
    - destruct (w_ring (sv_world s5)) as [|x xs]; [apply not_elem_of_nil in Hb; contradiction|discriminate X].
    - assert (k' = 4%nat) as -> by exact (Ri6 _ _ (elem_of_list_lookup_2 _ _ _ Hk)).
      destruct C as [(_ & X & _)|(t & rw & hh & ps & _ & _ & _ & _ & X & _)]; [exists []; exact X|exists ps; exact X]. }
  destruct Tk as [ps ->]. exists s6, (rs5 ++ [VRead 4 ps]), ps. split; [exact R6|]. split; [exists 0; split; reflexivity|]. split; [reflexivity|]. split; [|split; [|split]].
  - destruct Se as (o & sc & tr & r & A1 & A2 & A3). exists o, sc, tr, r. split; [exact A1|]. split; [exact A2|exact A3].
  - exists 1%nat, 0%nat, 0%nat. exact (Fo 5%nat ltac:(lia)).
  - exists (Watcher (AskTrace "default" "" "") true false ping_period pong_wait Pinging). rewrite Ys, Y6, Y3. split; [reflexivity|]. split; reflexivity.
  - rewrite Ys, Y6. exact Y5.
Qed.
End session.
Lemma shop_known count : LiveSpec.known (take 5 (story (session count))) 5 shop.
Proof. split; [lia|]. exists 0%nat. split; [reflexivity|]. split; [reflexivity|]. intros j start c Lt Hj. destruct j as [|[|[|[|[|j]]]]]; [lia| | |discriminate Hj|discriminate Hj|discriminate Hj]; injection Hj as <- <-; discriminate. Qed.

Lemma only_read count rs k e su : sends (story (session count)) (outcomes rs) 4 e su -> took rs 5 4 k ->
  forall q k' ps e' su', took rs q k' ps -> (forall q' k'' ps', took rs q' k'' ps' -> (q' <= q)%nat) -> sends (story (session count)) (outcomes rs) k' e' su' -> length rs = 6%nat -> e' = e.
Proof.
  intros Se Tk q k' ps e' su' Tq La Se' Len. pose proof (La _ _ _ Tk) as L5. pose proof (lookup_lt_Some _ _ _ Tq) as L6. rewrite Len in L6. assert (q = 5%nat) as -> by lia.
  unfold took in Tk, Tq. rewrite Tk in Tq. injection Tq as <- _.
  destruct Se as (o1 & sc1 & tr1 & r1 & A1 & A2 & A3), Se' as (o2 & sc2 & tr2 & r2 & B1 & B2 & B3). rewrite A2 in B2. apply Some_inj, utask_inj in B2. subst r2. rewrite A3 in B3. apply Some_inj in B3. symmetry. exact B3.
Qed.

Example C105_nonvacuous : exists s0 l s rs q ps c e su,
  describes described /\ start_server table = Some s0 /\ Forall plausible l /\ srun table described some_sort reads_job s0 l s rs
  /\ came l rs 2 0 (AskTrace "default" "" "") /\ took rs q 4 ps /\ (2 < q)%nat /\ busy s = false /\ stays_open s 0
  /\ sends (story l) (outcomes rs) 4 e su /\ LiveSpec.known (take q (story l)) (ev_pidns e) c /\ demanded reads_job (take q l) (take q rs) (ev_pidns e) (ev_nr e)
  /\ agree eq "default" "" "" (ct_namespace c) (ct_pod c) (ct_name c) /\ texts 0 4 rs = 1%nat.
Proof.
  destruct (C105_starts table go_table_intro) as [s0 E0]. set (describe := described).
  destruct (session_runs describe s0 E0 16) as (s & rs & ps & R & Ca & Tk & Se & Dm & (x & So) & Hs).
  pose proof (srun_length _ _ _ _ _ _ _ _ R) as Len. change (length (session 16)) with 6%nat in Len.
  destruct (C105_gets_done table describe some_sort reads_job s0 plain_p _ _ _ go_table_intro some_sort_contract E0 plain_p_reasonable (session_plausible 16) R Hs) as (l2 & s2 & rs2 & F2 & R2 & B2 & W2).
  { intros q k ps' e su Tq La Sq. rewrite (only_read 16 rs ps _ _ Se Tk q k ps' e su Tq La Sq Len). intros [[_ X]|[[X _]|[X _]]]; [vm_compute in X; discriminate|discriminate X|discriminate X]. }
  assert (F : Forall plausible (session 16 ++ l2)) by exact (more_plausible plain_p _ _ plain_p_reasonable (session_plausible 16) F2).
  exists s0, (session 16 ++ l2), s2, (rs ++ rs2), 5%nat, ps, shop, (KEvent 7 0 0 0 0 5 [3; 0; 16] 0), nowhere.
  assert (Ca' : came (session 16 ++ l2) (rs ++ rs2) 2 0 (AskTrace "default" "" "")) by (destruct Ca as (d & C1 & C2); exists d; split; apply lookup_app_l_Some; assumption).
  assert (Tk' : took (rs ++ rs2) 5 4 ps) by (apply lookup_app_l_Some; exact Tk).
  assert (St' : stays_open s2 0) by (exists x; rewrite W2; exact So).
  assert (Se' : sends (story (session 16 ++ l2)) (outcomes (rs ++ rs2)) 4 (KEvent 7 0 0 0 0 5 [3; 0; 16] 0) nowhere).
  { destruct Se as (o' & sc & tr & r' & A1 & A2 & A3). exists o', sc, tr, r'. apply story_task in A1. apply outcome_task in A2.
    split; [apply story_task, lookup_app_l_Some; exact A1|]. split; [apply outcome_task, lookup_app_l_Some; exact A2|exact A3]. }
  assert (Kn' : LiveSpec.known (take 5 (story (session 16 ++ l2))) 5 shop) by exact (shop_known 16).
  assert (Dm' : demanded reads_job (take 5 (session 16 ++ l2)) (take 5 (rs ++ rs2)) 5 0) by (rewrite (take_app_le rs) by lia; exact Dm).
  assert (Ag : agree eq "default" "" "" (ct_namespace shop) (ct_pod shop) (ct_name shop)) by (right; split; [reflexivity|]; left; reflexivity).
  split; [intros c; split; [reflexivity|split; [reflexivity|split; reflexivity]]|].
  split; [exact E0|]. split; [exact F|]. split; [exact R2|]. split; [exact Ca'|]. split; [exact Tk'|]. split; [lia|]. split; [exact B2|]. split; [exact St'|]. split; [exact Se'|]. split; [exact Kn'|]. split; [exact Dm'|]. split; [exact Ag|].
  destruct (C105_clients_get_all_they_asked_for table describe some_sort reads_job s0 _ _ _ 0 2 _ 5 4 ps go_table_intro some_sort_contract E0 F R2 Ca' Tk' ltac:(lia) B2 St') as (e & su & Se2 & _ & H).
  assert (e = KEvent 7 0 0 0 0 5 [3; 0; 16] 0) as ->.
  { destruct Se' as (o1 & sc1 & tr1 & r1 & A1 & A2 & A3), Se2 as (o2 & sc2 & tr2 & r2 & C1 & C2 & C3). rewrite A2 in C2. apply Some_inj, utask_inj in C2. subst r2. rewrite A3 in C3. apply Some_inj in C3. symmetry. exact C3. }
  destruct (H shop Kn') as [H1 _]. exact (H1 Dm' Ag).
Qed.

(** ** What does not hold *)

(** No process in a container can end the server: not so. *)
Theorem C105_a_call_cannot_end_it_refuted :
  ~ forall tbl describe srt J s0 l s rs o,
      go_table tbl -> sort_contract srt -> start_server tbl = Some s0 -> Forall plausible l -> plausible o ->
      (forall j name, name ∈ j_calls (J j) -> exists nr, names_call name nr /\ decoder nr <> None) -> (forall j, j_rate (J j) <= 0) -> (forall p, SCall p false ∉ l) ->
      srun tbl describe srt J s0 l s rs -> ~ sstep tbl describe srt J s o None.
Proof.
  intros H. destruct (C105_starts table go_table_intro) as [s0 E0]. set (describe := described).
  set (n := 2 ^ 64 - 1). destruct (session_runs describe s0 E0 n) as (s & rs & ps & R & Ca & Tk & Se & Dm & So & Hs).
  destruct (C105_a_negative_count_ends_it table describe some_sort reads_job s0 plain_p (session n) s rs 0 2 "default" "" "" 5 4 ps _ _ shop go_table_intro some_sort_contract E0 plain_p_reasonable (session_plausible n) R Ca Tk ltac:(lia) Se (shop_known n) Dm) as (l2 & s2 & rs2 & F2 & R2 & S2);
    [right; split; [reflexivity|]; left; reflexivity|reflexivity|vm_compute; reflexivity|exact So|exact Hs|].
  refine (H table describe some_sort reads_job s0 _ _ _ (SCall plain_p true) go_table_intro some_sort_contract E0 (more_plausible plain_p _ _ plain_p_reasonable (session_plausible n) F2) _ _ _ _ R2 S2).
  - split; [exact Logic.I|exact plain_p_reasonable].
  - intros j name X. apply elem_of_list_singleton in X. subst name. exists 0. split; [exact read_names|discriminate].
  - intros j. cbn. lia.
  - intros p X. apply elem_of_app in X as [X|X].
    + unfold session, opening in X. cbn [app] in X. repeat (apply elem_of_cons in X as [Y|X]; [discriminate Y|]). apply not_elem_of_nil in X. exact X.
    + rewrite Forall_forall in F2. destruct (F2 _ X) as [Y|Y]; discriminate Y.
Qed.
Print Assumptions C105_a_call_cannot_end_it_refuted.

(** The server checks the names of the calls when a job is made: not so. A job with a
    name that is none ends it when a container it might follow stops. *)
Theorem C105_a_job_cannot_end_it_refuted :
  ~ forall tbl describe srt J s0 l s rs j start c,
      go_table tbl -> sort_contract srt -> start_server tbl = Some s0 -> Forall plausible l -> ct_ns c < 2 ^ 32 ->
      srun tbl describe srt J s0 l s rs -> ~ sstep tbl describe srt J s (SJob j start c) None.
Proof.
  intros H. destruct (C105_starts table go_table_intro) as [s0 E0]. destruct (server_hub _ _ E0) as (h0 & H0). pose proof (start_hub table h0 H0 s0 E0) as Eh.
  set (J := fun _ : nat => Job "j" 0 ["redd"] []). set (describe := described).
  assert (U : unknown_name table (J 0%nat)).
  { exists "redd". split; [left|]. assert (X : match lookup_sc table (ByString "redd") with Some _ => false | None => true end = true) by (vm_compute; reflexivity). destruct (lookup_sc table (ByString "redd")); [discriminate X|reflexivity]. }
  refine (H table describe some_sort J s0 [] s0 [] 0%nat false shop go_table_intro some_sort_contract E0 (Forall_nil_2 _) ltac:(cbn; lia) (sr_nil _ _ _ _ _) _).
  pose proof (ss_do table describe some_sort J s0 (SJob 0 false shop) ltac:(discriminate)) as S. cbn [sdo] in S. unfold job_step in S. change ((0 <? ct_ns shop) && negb (false && busy s0)) with true in S. cbv iota in S.
  rewrite Eh in S. rewrite (proj2 (stop_outcome J table h0 [] h0 [] 0 shop H0 eq_refl) U) in S. exact S.
Qed.
Print Assumptions C105_a_job_cannot_end_it_refuted.
