(** More about WatchModel.v: closed connections, crashes, blocked writes. *)
From Coq Require Import ZArith String Lia.
From stdpp Require Import gmap strings list.
From Verif Require Import PubSubModel PubSubSpec PubSubProofs PubSubTop HashModel WatchModel WatchSpec WatchProofs.
Open Scope Z_scope.

(** * Closed connections get nothing *)
Lemma evolves_dead s s' w a x x' : evolves s s' w a x x' -> alive x' = true -> alive x = true.
Proof.
  intros He Ha. apply alive_spec in Ha as [Ho Hb]. pose proof (evolves_broken _ _ _ _ _ _ He Hb) as Hb0.
  apply alive_spec. split; [|done]. destruct He as [Hc|c He Hc|He Hc Hx _|He Hc Hw|rf b1 b2 y He Hc _ Hy _|rf b1 b2 _ Hc]; try done.
  - by rewrite break_open in Ho.
  - apply tick_facts in Ho. subst y. rewrite break_open, expire_open, break_open in Ho. by apply andb_prop in Ho as [Ho _].
  - rewrite break_open, expire_open, break_open in Ho. by apply andb_prop in Ho as [Ho _].
Qed.
Lemma step_dead srt s a s' w x : stall_ok s -> wstep srt s a s' -> ws s !! w = Some x -> alive x = false ->
  gots w (log s') = gots w (log s).
Proof.
  intros Hso Hst Hx Ha. destruct (step_notes _ _ _ _ Hso Hst) as (l & -> & Hr). rewrite gots_app.
  enough (gots w (map (pair (clock s')) l) = []) as -> by (by rewrite app_nil_r).
  induction l as [|o l IH]; [done|]. cbn [map]. unfold gots in *. cbn [map concat snd].
  rewrite IH by (intros p Hp; apply Hr; by right). rewrite app_nil_r.
  specialize (Hr o ltac:(by left)). destruct o; try done. cbn [got_of]. destruct (decide (w = w0)) as [->|]; [|done].
  destruct Hr as (y & Hy & Hya). rewrite Hx in Hy. injection Hy as <-. by rewrite Ha in Hya.
Qed.
Lemma run_dead srt s acts s' w : sort_contract srt -> wrun srt s acts s' -> forall x, inv srt s -> ws s !! w = Some x -> alive x = false ->
  gots w (log s') = gots w (log s) /\ exists x', ws s' !! w = Some x' /\ alive x' = false.
Proof.
  intros Hsrt H. induction H as [|s a s1 acts s2 Hst Hr IH]; intros x HI Hx Ha; [eauto|].
  destruct (step_evolves _ _ _ _ _ _ (i_stall _ _ HI) Hst Hx) as (x1 & Hx1 & He).
  assert (alive x1 = false) as Ha1.
  { destruct (alive x1) eqn:E; [|done]. by rewrite (evolves_dead _ _ _ _ _ _ He E) in Ha. }
  destruct (IH x1 (inv_step _ _ _ _ Hsrt HI Hst) Hx1 Ha1) as [-> H']. split; [|done].
  by apply (step_dead srt s a s1 w x); [apply HI|..].
Qed.
Lemma closed_gets_nothing srt acts0 s acts s' w x : sort_contract srt -> wrun srt start acts0 s -> wrun srt s acts s' ->
  ws s !! w = Some x -> w_open x = false -> gots w (log s') = gots w (log s).
Proof.
  intros Hsrt H0 H Hx Ho. apply (run_dead srt s acts s' w Hsrt H x); [by apply (inv_reach _ acts0)|done|].
  unfold alive. by rewrite Ho.
Qed.

(** * Unsubscribing works *)
Lemma unsub_works srt acts s w x s' : sort_contract srt -> wrun srt start acts s -> crashed s = false -> idle s = true ->
  ws s !! w = Some x -> w_writer x = Leaving -> wstep srt s (Unsub w) s' ->
  crashed s' = false /\ (clock s, Unsubscribed w) ∈ log s' /\ idle s' = true.
Proof.
  intros Hsrt Hr Hcr Hi Hx Hw Hst. pose proof (inv_reach _ _ _ Hsrt Hr) as HI.
  destruct (unsub_ok srt s w x Hsrt (i_core _ _ HI) Hx Hw) as [p Hp].
  inversion Hst as [|s1 a1 Hne]; subst. rewrite Hcr. cbn [do_act]. rewrite Hx, Hw, Hi, Hp. cbn [crashed log]. split; [done|].
  split; [|done]. unfold note. apply elem_of_app. right. by left.
Qed.

(** * Crashes *)
Lemma clash_none s : stall s = None -> clash s = false.
Proof. intros H. unfold clash. by rewrite H. Qed.
Lemma settle_stall s : stall s = None -> stall (settle s) = None.
Proof. intros H. unfold settle. by rewrite H. Qed.
Lemma write_timeout_stall s : stall s = None -> stall (write_timeout s) = None.
Proof. intros H. unfold write_timeout. by rewrite H. Qed.
Lemma quiet_step srt s a s' : sort_contract srt -> inv srt s -> wstep srt s a s' -> a <> Call false ->
  stall s = None -> crashed s = false -> stall s' = None /\ crashed s' = false.
Proof.
  intros Hsrt HI Hst Hna Hs Hc. destruct Hst as [s e path h cs _ _ _|s a Hne]; [done|]. rewrite Hc.
  destruct a as [a d|v|v|e p|tk| |v|rf]; cbn [do_act].
  - destruct (idle s); [|done]. by destruct (step _ _ _).
  - rewrite settle_crashed. split; [by apply settle_stall|done].
  - destruct (ws s !! v) as [x|]; [|done]. by destruct (w_open x).
  - done.
  - rewrite Hs. destruct (todo s) as [|u r]; [done|]. destruct (ws s !! u); [|done]. destruct (_ && _); [destruct tk|]; try done.
  - rewrite Hs. done.
  - destruct (ws s !! v) as [x|] eqn:Ev; [|done]. destruct (w_writer x) eqn:Ex; try done. destruct (idle s); [|done].
    destruct (unsub_ok srt s v x Hsrt (i_core _ _ HI) Ev Ex) as [p Hp]. by rewrite Hp.
  - unfold millisecond. cbv zeta. set (s0 := Sys (clock s + 1) _ _ _ _ _ _ _).
    assert (stall (write_timeout s0) = None) as H1 by (by apply write_timeout_stall).
    assert (crashed (write_timeout s0) = false) as C1 by (by rewrite write_timeout_crashed).
    set (s1 := write_timeout s0) in *. clearbody s1. set (s1' := Sys (clock s1) _ _ _ _ _ _ _).
    assert (stall (settle s1') = None) as H2 by (by apply settle_stall).
    assert (crashed (settle s1') = false) as C2 by (by rewrite settle_crashed).
    set (s2 := settle s1') in *. clearbody s2. rewrite (clash_none _ H2).
    by destruct (ticks _ _ _ _).
Qed.
Lemma no_stall_no_crash srt acts s : sort_contract srt -> wrun srt start acts s -> no_stall acts -> crashed s = false.
Proof.
  intros Hsrt Hr Hn. enough (stall s = None /\ crashed s = false) by tauto. revert s Hr.
  induction acts as [|a acts IH] using rev_ind; intros s Hr.
  - inversion Hr; subst. done.
  - apply wrun_snoc in Hr as (s1 & Hr & Hst). destruct (IH) with (s := s1) as [H1 H2]; [|done|].
    { intros Hin. apply Hn, in_or_app. by left. }
    apply (quiet_step srt s1 a); [done|by apply (inv_reach _ acts)|done| |done|done].
    intros ->. apply Hn, in_or_app. right. by left.
Qed.

(** A write that blocks when its connection's ping is due. *)
Lemma stalled_millisecond s t w r x : stall s = Some t -> todo s = w :: r -> ws s !! w = Some x ->
  w_open x = true -> w_writer x = Pinging -> clock s < w_due x -> w_due x < t -> w_due x < w_deadline x -> crashed s = false ->
  clock (millisecond [] s) = clock s + 1 /\
  (w_due x = clock s + 1 -> crashed (millisecond [] s) = true) /\
  (clock s + 1 < w_due x -> stall (millisecond [] s) = Some t /\ todo (millisecond [] s) = w :: r /\
     ws (millisecond [] s) !! w = Some x /\ crashed (millisecond [] s) = false).
Proof.
  intros Hs Ht Hx Ho Hw Hclk Hdt Hdl Hcr. unfold millisecond. cbv zeta.
  set (s0 := Sys (clock s + 1) _ _ _ _ _ _ _).
  assert (write_timeout s0 = s0) as E0.
  { unfold write_timeout, s0. cbn [stall todo clock]. rewrite Hs, Ht.
    assert (t <=? clock s + 1 = false) as -> by (apply Z.leb_gt; lia). done. }
  rewrite E0. set (s1 := Sys (clock s0) (map (expire (clock s0)) (ws s0)) _ _ _ _ _ _).
  assert (ws s1 !! w = Some x) as Hx1.
  { unfold s1, s0. cbn [ws clock]. change (map (expire (clock s + 1)) (ws s)) with (expire (clock s + 1) <$> ws s).
    rewrite list_lookup_fmap, Hx. cbn. unfold expire. rewrite Ho. cbn [andb].
    assert (w_deadline x <=? clock s + 1 = false) as -> by (apply Z.leb_gt; lia). done. }
  assert (stall s1 = Some t /\ todo s1 = w :: r /\ clock s1 = clock s + 1 /\ crashed s1 = false) as (S1 & S2 & S3 & S4) by done.
  assert (settle s1 = s1) as E1 by (unfold settle; by rewrite S1, S2, Hx1, Ho).
  rewrite E1. clearbody s1. unfold clash. rewrite S1, S2, Hx1, Hw, S3.
  destruct (w_due x <=? clock s + 1) eqn:Ed.
  - apply Z.leb_le in Ed. cbn [clock crashed stall todo ws]. split; [done|]. split; [done|]. lia.
  - apply Z.leb_gt in Ed. destruct (ticks (clock s + 1) [] 0 (ws s1)) as [l o] eqn:Et.
    cbn [clock crashed stall todo ws]. split; [done|]. split; [lia|]. intros _. split; [done|]. split; [done|]. split; [|done].
    pose proof (ticks_lookup (clock s + 1) [] (ws s1) 0 w) as Hl. rewrite Et, Hx1 in Hl. cbn [fst] in Hl. rewrite Hl. cbn.
    unfold tick. rewrite Hw. assert (w_due x <=? clock s + 1 = false) as -> by (apply Z.leb_gt; lia). done.
Qed.
Lemma stalled_crash srt n : forall s t w r x s', stall s = Some t -> todo s = w :: r -> ws s !! w = Some x ->
  w_open x = true -> w_writer x = Pinging -> clock s < w_due x -> w_due x < t -> w_due x < w_deadline x -> crashed s = false ->
  w_due x <= clock s + Z.of_nat n ->
  wrun srt s (repeat (Millisecond []) n) s' -> crashed s' = true.
Proof.
  induction n as [|n IH]; intros s t w r x s' Hs Ht Hx Ho Hw Hclk Hdt Hdl Hcr Hn Hr; [lia|].
  cbn [repeat] in Hr. inversion Hr as [|s0 a s1 acts s2 Hst Hr1]; subst.
  assert (s1 = millisecond [] s) as -> by (inversion Hst; subst; rewrite Hcr; done).
  destruct (stalled_millisecond s t w r x Hs Ht Hx Ho Hw Hclk Hdt Hdl Hcr) as (Hc & H1 & H2).
  destruct (Z.eq_dec (w_due x) (clock s + 1)) as [He|Hne].
  - specialize (H1 He). destruct (crashed s') eqn:E; [done|]. by rewrite (crashed_run _ _ _ _ Hr1 E) in H1.
  - destruct (H2 ltac:(lia)) as (G1 & G2 & G3 & G4). apply (IH _ t w r x s' G1 G2 G3 Ho Hw); [lia|done|done|done|lia|done].
Qed.

(** Its existence. *)
Lemma wrun_ms srt n s : crashed s = false -> (forall k, (k <= n)%nat -> crashed (Nat.iter k (millisecond []) s) = false) ->
  wrun srt s (repeat (Millisecond []) n) (Nat.iter n (millisecond []) s).
Proof.
  revert s. induction n as [|n IH]; intros s Hc Hk; [constructor|]. cbn [repeat].
  rewrite Nat.iter_succ_r.
  assert (crashed (millisecond [] s) = false) as Hc1 by (apply (Hk 1%nat); lia).
  econstructor.
  - pose proof (ws_do srt s (Millisecond [])) as H. rewrite Hc in H. apply H. done.
  - apply IH; [done|]. intros k Hle. specialize (Hk (S k) ltac:(lia)).
    by rewrite Nat.iter_succ_r in Hk.
Qed.
Lemma wrun_exists_ms srt n s : exists s', wrun srt s (repeat (Millisecond []) n) s'.
Proof.
  revert s. induction n as [|n IH]; intros s; [eexists; constructor|].
  cbn [repeat]. destruct (IH (if crashed s then s else do_act srt s (Millisecond []))) as [s' Hs'].
  exists s'. econstructor; [|exact Hs']. apply ws_do. done.
Qed.
Lemma expire_quiet c x : c < w_deadline x -> expire c x = x.
Proof. intros H. unfold expire. apply Z.leb_gt in H. rewrite H. by destruct (w_open x). Qed.
Lemma tick_quiet c r x : c < w_due x -> tick c r x = (x, false).
Proof. intros H. unfold tick. apply Z.leb_gt in H. rewrite H. by destruct (w_writer x). Qed.
Lemma quiet_ms x p e l n : forall c, c + Z.of_nat n < w_due x -> c + Z.of_nat n < w_deadline x ->
  Nat.iter n (millisecond []) (Sys c [x] p [] e None false l) = Sys (c + Z.of_nat n) [x] p [] e None false l.
Proof.
  induction n as [|n IH]; intros c H1 H2.
  - change (Sys c [x] p [] e None false l = Sys (c + Z.of_nat 0) [x] p [] e None false l). by replace (c + Z.of_nat 0) with c by lia.
  - rewrite Nat.iter_succ, IH by lia. unfold millisecond, write_timeout, settle, clash.
    cbn [clock ws ps todo event stall crashed log map ticks].
    rewrite expire_quiet, tick_quiet by lia.
    unfold note. cbn [map log clock]. rewrite app_nil_r. by replace (c + Z.of_nat (S n)) with (c + Z.of_nat n + 1) by lia.
Qed.

(** A watcher of job "j", alone. *)
Definition jx (o b : bool) (d : Z) (wr : writer) : watcher := Watcher (AskJob "j") o b ping_period d wr.
Definition j0 : watcher := jx true false pong_wait Pinging.
Definition st (c : Z) (x : watcher) (p : pubsub) (l : list (Z * obs)) : sys := Sys c [x] p [] 0 None false l.
Lemma joins_any k : exists p, wrun some_sort start [Join k 0] (st 0 (fresh_watcher k 0) p [(0, Joined 0 k)]) /\
  publish p (linear (ask_path k)) 0 (Some [0%nat]).
Proof.
  assert (exists p, step some_sort new_pubsub (Subscribe (ask_path k) "" "" 0) = Ok p) as [p Hp].
  { destruct (histories_run some_sort [Subscribe (ask_path k) "" "" 0]) as [p Hp].
    - exact some_sort_contract.
    - done.
    - intros path sh dn d Hin. apply elem_of_list_singleton in Hin. injection Hin as _ _ _ ->. lia.
    - done.
    - exists p. cbn [run] in Hp. by destruct (step _ _ _). }
  exists p. assert (wrun some_sort start [Join k 0] (st 0 (fresh_watcher k 0) p [(0, Joined 0 k)])) as R1.
  { econstructor; [|constructor]. pose proof (ws_do some_sort start (Join k 0)) as H. cbn [crashed start] in H.
    unfold do_act in H. change (idle start) with true in H. change (WatchModel.ps start) with new_pubsub in H. cbn iota in H.
    rewrite Hp in H. apply H. done. }
  split; [done|].
  pose proof (inv_reach _ _ _ some_sort_contract R1) as HI.
  destruct (c_tree _ _ (i_core _ _ HI)) as (os & [O1 O2 O3 O4]). cbn [ps st] in *.
  destruct (publish_returns some_sort os p (linear (ask_path k)) 0 some_sort_contract O1 O2) as [r Hr].
  destruct (prefix_delivery _ _ _ _ _ _ some_sort_contract O1 O2 Hr) as (cs & -> & _).
  destruct (publish_watchers _ _ _ _ _ some_sort_contract (i_core _ _ HI) Hr) as [Hnd Hcs].
  assert (cs = [0%nat]) as ->; [|done].
  assert (0%nat ∈ cs) as H0 by (apply Hcs; eexists; split; [done|]; split; done).
  assert (forall w, w ∈ cs -> w = 0%nat) as Hall.
  { intros w Hw. apply Hcs in Hw as (x & Hx & _). destruct w as [|w]; [done|]. by destruct w. }
  destruct cs as [|a [|b cs]]; [by apply elem_of_nil in H0| |].
  - f_equal. apply Hall. by left.
  - exfalso. apply NoDup_cons in Hnd as [Hn _]. apply Hn. rewrite (Hall a ltac:(by left)). rewrite <- (Hall b ltac:(right; by left)) at 1. by left.
Qed.
Lemma joins : exists p, wrun some_sort start [Join (AskJob "j") 0] (st 0 j0 p [(0, Joined 0 (AskJob "j"))]) /\
  publish p (linear (job_path "j")) 0 (Some [0%nat]).
Proof. exact (joins_any (AskJob "j")). Qed.
Lemma waits x p l c n : c + Z.of_nat n < w_due x -> c + Z.of_nat n < w_deadline x ->
  wrun some_sort (st c x p l) (repeat (Millisecond []) n) (st (c + Z.of_nat n) x p l).
Proof.
  intros H1 H2. unfold st. rewrite <- quiet_ms by done. apply wrun_ms; [done|]. intros k Hk. rewrite quiet_ms by lia. done.
Qed.
Lemma publishes x p l c : publish p (linear (job_path "j")) 0 (Some [0%nat]) ->
  wstep some_sort (st c x p l) (Event 0 (job_path "j")) (Sys c [x] p [0%nat] 0 None false (l ++ [(c, Published 0 (job_path "j"))])%list).
Proof. intros Hp. by apply (ws_event some_sort (st c x p l) 0 (job_path "j") 0 [0%nat]). Qed.

(** It gets an event at 0 s, leaves at once, and is unsubscribed after 27 s. *)
Definition visit_acts : list act :=
  [Join (AskJob "j") 0; Event 0 (job_path "j"); Call true].
Lemma visit : exists p s1 s2 s3, wrun some_sort start visit_acts s1 /\
  s1 = st 0 j0 p [(0, Joined 0 (AskJob "j")); (0, Published 0 (job_path "j")); (0, Called 0 0); (0, Got 0 0)] /\
  wrun some_sort s1 (Leave 0 :: repeat (Millisecond []) (Z.to_nat 27000)) s2 /\
  crashed s2 = false /\ clock s2 = 27000 /\ idle s2 = true /\ ws s2 !! 0%nat = Some (jx false false pong_wait Leaving) /\
  wstep some_sort s2 (Unsub 0) s3 /\ log s3 = (log s1 ++ [(27000%Z, Unsubscribed 0)])%list.
Proof.
  destruct joins as (p & R1 & Hp). set (l1 := [(0, Joined 0 (AskJob "j")); (0, Published 0 (job_path "j")); (0, Called 0 0); (0, Got 0 0)]).
  assert (wrun some_sort start visit_acts (st 0 j0 p l1)) as R2.
  { apply (wrun_app _ _ [_] _ _ _ R1). econstructor; [by apply publishes|]. econstructor; [|constructor].
    by apply (ws_do some_sort (Sys 0 [j0] p [0%nat] 0 None false [(0, Joined 0 (AskJob "j")); (0, Published 0 (job_path "j"))]) (Call true)). }
  set (s2 := st 27000 (jx false false pong_wait Leaving) p l1).
  assert (wrun some_sort (st 0 j0 p l1) (Leave 0 :: repeat (Millisecond []) (Z.to_nat 27000)) s2) as R3.
  { econstructor; [by apply (ws_do some_sort (st 0 j0 p l1) (Leave 0))|].
    replace (Z.to_nat 27000) with (Z.to_nat 26999 + 1)%nat by lia. rewrite repeat_app.
    apply (wrun_app _ _ _ (st 26999 (jx false false pong_wait Pinging) p l1)).
    - pose proof (waits (jx false false pong_wait Pinging) p l1 0 (Z.to_nat 26999)) as H.
      replace (0 + Z.of_nat (Z.to_nat 26999)) with 26999 in H by lia. apply H; done.
    - econstructor; [|constructor]. by apply (ws_do some_sort (st 26999 (jx false false pong_wait Pinging) p l1) (Millisecond [])). }
  pose proof (wrun_app _ _ _ _ _ _ R2 R3) as R23.
  pose proof (inv_reach _ _ _ some_sort_contract R23) as HI.
  destruct (unsub_ok some_sort s2 0 _ some_sort_contract (i_core _ _ HI) eq_refl eq_refl) as [q Hq].
  eexists p, _, s2, _. split; [exact R2|]. split; [done|]. split; [exact R3|].
  repeat (split; [done|]). split.
  - apply ws_do. done.
  - change (crashed s2) with false. cbn iota. unfold do_act. change (ws s2 !! 0%nat) with (Some (jx false false pong_wait Leaving)).
    cbn [w_writer jx]. change (idle s2) with true. cbn iota. rewrite Hq. done.
Qed.

(** A watcher of containers that leaves: its callback is run all the same. *)
Definition ghost_acts (ns pod container : string) : list act :=
  (Join (AskTrace ns pod container) 0 :: Leave 0 :: repeat (Millisecond []) (Z.to_nat 27000) ++
   [Event 0 (ask_path (AskTrace ns pod container)); Call true])%list.
Lemma ghost ns pod container : exists s x l, wrun some_sort start (ghost_acts ns pod container) s /\
  crashed s = false /\ ws s !! 0%nat = Some x /\ w_open x = false /\ w_writer x = Left /\
  log s = (l ++ [(27000%Z, Called 0 0)])%list.
Proof.
  set (k := AskTrace ns pod container). destruct (joins_any k) as (p & R1 & Hp).
  set (l0 := [(0, Joined 0 k)]) in *.
  set (x1 := Watcher k false false ping_period pong_wait Pinging).
  set (x2 := Watcher k false false ping_period pong_wait Left).
  set (s := Sys 27000 [x2] p [] 0 None false ((l0 ++ [(27000, Published 0 (ask_path k))]) ++ [(27000, Called 0 0)])%list).
  exists s, x2, (l0 ++ [(27000, Published 0 (ask_path k))])%list. split; [|done].
  apply (wrun_app _ _ [_] _ _ _ R1).
  econstructor; [by apply (ws_do some_sort (st 0 (fresh_watcher k 0) p l0) (Leave 0))|].
  replace (Z.to_nat 27000) with (Z.to_nat 26999 + 1)%nat by lia. rewrite repeat_app, <- (assoc_L (++)%list).
  apply (wrun_app _ _ _ (st 26999 x1 p l0)).
  - pose proof (waits x1 p l0 0 (Z.to_nat 26999)) as H.
    replace (0 + Z.of_nat (Z.to_nat 26999)) with 26999 in H by lia. apply H; done.
  - change (repeat (Millisecond []) 1) with [Millisecond []]. cbn [app].
    econstructor; [by apply (ws_do some_sort (st 26999 x1 p l0) (Millisecond []))|].
    econstructor.
    { change (settle _) with (st 27000 x2 p l0) || idtac. by apply (ws_event some_sort (st 27000 x2 p l0) 0 (ask_path k) 0 [0%nat]). }
    econstructor; [|constructor].
    by apply (ws_do some_sort (Sys 27000 [x2] p [0%nat] 0 None false (l0 ++ [(27000, Published 0 (ask_path k))])) (Call true)).
Qed.

(** One that answers its ping. *)
Definition stay_acts : list act :=
  (Join (AskJob "j") 0 :: repeat (Millisecond []) (Z.to_nat 27000) ++ [Pong 0])%list.
Lemma stay : exists p, wrun some_sort start stay_acts
  (st 27000 (Watcher (AskJob "j") true false 54000 57000 Pinging) p [(0, Joined 0 (AskJob "j")); (27000, Pinged 0); (27000, Ponged 0)]).
Proof.
  destruct joins as (p & R1 & Hp). exists p. set (l0 := [(0, Joined 0 (AskJob "j"))]) in *.
  apply (wrun_app _ _ [_] _ _ _ R1).
  replace (Z.to_nat 27000) with (Z.to_nat 26999 + 1)%nat by lia. rewrite repeat_app.
  rewrite <- (assoc_L (++)%list). apply (wrun_app _ _ _ (st 26999 j0 p l0)).
  - pose proof (waits j0 p l0 0 (Z.to_nat 26999)) as H.
    replace (0 + Z.of_nat (Z.to_nat 26999)) with 26999 in H by lia. apply H; done.
  - cbn [app]. econstructor; [by apply (ws_do some_sort (st 26999 j0 p l0) (Millisecond []))|].
    econstructor; [|constructor].
    by apply (ws_do some_sort (st 27000 (Watcher (AskJob "j") true false 54000 pong_wait Pinging) p (l0 ++ [(27000, Pinged 0)])) (Pong 0)).
Qed.

(** One whose network blocks. *)
Definition jam_acts : list act :=
  (Join (AskJob "j") 0 :: repeat (Millisecond []) (Z.to_nat 20000) ++ [Event 0 (job_path "j"); Call false])%list.
Lemma jam : exists p l, wrun some_sort start jam_acts (Sys 20000 [j0] p [0%nat] 0 (Some 30000) false l).
Proof.
  destruct joins as (p & R1 & Hp). set (l0 := [(0, Joined 0 (AskJob "j"))]) in *. eexists p, _.
  apply (wrun_app _ _ [_] _ _ _ R1). apply (wrun_app _ _ _ (st 20000 j0 p l0)).
  - pose proof (waits j0 p l0 0 (Z.to_nat 20000)) as H.
    replace (0 + Z.of_nat (Z.to_nat 20000)) with 20000 in H by lia. apply H; done.
  - econstructor; [by apply publishes|]. econstructor; [|constructor].
    by apply (ws_do some_sort (Sys 20000 [j0] p [0%nat] 0 None false _) (Call false)).
Qed.
Lemma crash_reachable : exists s,
  wrun some_sort start (jam_acts ++ repeat (Millisecond []) (Z.to_nat 7000)) s /\ crashed s = true.
Proof.
  destruct jam as (p & l & R). destruct (wrun_exists_ms some_sort (Z.to_nat 7000) (Sys 20000 [j0] p [0%nat] 0 (Some 30000) false l)) as [s5 R5].
  exists s5. split; [exact (wrun_app _ _ _ _ _ _ R R5)|].
  eapply (stalled_crash some_sort (Z.to_nat 7000) _ 30000 0%nat [] j0 s5); [..|exact R5]; done.
Qed.

(** * A write blocks for ten seconds at most *)
Lemma settle_stall_eq s t : stall (settle s) = Some t -> stall s = Some t.
Proof.
  intros H. unfold settle in H. destruct (stall s) as [v|] eqn:E; [|by rewrite E in H].
  destruct (todo s) as [|u r]; [by rewrite E in H|]. destruct (ws s !! u) as [x|]; [|by rewrite E in H].
  destruct (w_open x); [by rewrite E in H|done].
Qed.
Lemma stall_bound srt acts s t : sort_contract srt -> wrun srt start acts s -> crashed s = false -> stall s = Some t ->
  clock s < t <= clock s + write_wait.
Proof.
  intros Hsrt. revert s t. induction acts as [|a acts IH] using rev_ind; intros s t Hr Hcr Hs.
  - inversion Hr; subst. done.
  - apply wrun_snoc in Hr as (s1 & Hr & Hst). pose proof (crashed_before _ _ _ _ Hst Hcr) as Hcr1.
    specialize (IH s1 t Hr Hcr1). pose proof (i_stall _ _ (inv_reach _ _ _ Hsrt Hr)) as Hso.
    destruct Hst as [s1 e path h cs _ _ _|s1 a Hne]; [done|]. rewrite Hcr1 in *.
    destruct a as [a d|v|v|e p|tk| |v|rf]; cbn [do_act] in *.
    + destruct (idle s1); [|by apply IH]. destruct (step _ _ _); [done|by apply IH..].
    + apply settle_stall_eq in Hs. cbn [stall] in Hs. rewrite settle_clock. by apply IH.
    + destruct (ws s1 !! v) as [x|]; [|by apply IH]. destruct (w_open x); by apply IH.
    + by apply IH.
    + destruct (stall s1) as [t1|] eqn:E1; [rewrite E1 in Hs; by apply IH|].
      destruct (todo s1) as [|u r]; [by rewrite E1 in Hs|]. destruct (ws s1 !! u) as [y|]; [|by rewrite E1 in Hs].
      destruct (_ && _); [destruct tk|]; try done. cbn [stall clock] in *. injection Hs as <-. unfold write_wait. lia.
    + destruct (stall s1) as [t1|] eqn:E1; [|by rewrite E1 in Hs]. destruct (todo s1); [rewrite E1 in Hs; by apply IH|done].
    + destruct (ws s1 !! v) as [x|]; [|by apply IH]. destruct (w_writer x); try (by apply IH).
      destruct (idle s1); [|by apply IH]. by destruct (step _ _ _).
    + unfold millisecond in *. cbv zeta in *.
      set (s0 := Sys (clock s1 + 1) _ _ _ _ _ _ _) in *.
      assert (stall (write_timeout s0) = Some t -> stall s1 = Some t /\ clock s1 + 1 < t) as Hw.
      { unfold write_timeout, s0. cbn [stall todo clock]. destruct (stall s1) as [t1|] eqn:E1; [|done].
        destruct (Hso t1 E1) as (w & r & x & Ht & _). rewrite Ht.
        destruct (t1 <=? clock s1 + 1) eqn:El; [done|]. apply Z.leb_gt in El. cbn [stall]. intros H. injection H as <-. done. }
      assert (clock (write_timeout s0) = clock s1 + 1) as Hc by (by rewrite write_timeout_clock).
      set (s2 := write_timeout s0) in *. clearbody s2. set (s2' := Sys (clock s2) _ _ _ _ _ _ _) in *.
      assert (clock (settle s2') = clock s1 + 1) as Hc2 by (by rewrite settle_clock).
      assert (stall (settle s2') = Some t -> stall s2 = Some t) as Hs2 by apply (settle_stall_eq s2').
      set (s3 := settle s2') in *. clearbody s3.
      assert (stall s3 = Some t /\ clock s1 + 1 = clock s3) as [H3 _].
      { destruct (clash s3); [done|]. by destruct (ticks _ _ _ _). }
      destruct (Hw (Hs2 H3)) as [G1 G2]. specialize (IH G1).
      assert (clock (if clash s3 then Sys (clock s3) (ws s3) (ps s3) (todo s3) (event s3) (stall s3) true (log s3)
        else let '(l, o) := ticks (clock s3) rf 0 (ws s3) in
          Sys (clock s3) l (ps s3) (todo s3) (event s3) (stall s3) (crashed s3) (note s3 o)) = clock s3) as ->.
      { destruct (clash s3); [done|]. by destruct (ticks _ _ _ _). }
      lia.
Qed.

(** * What is asked for *)
Lemma asked_for ns pod ctr ns' pod' ctr' sc e :
  (agree eq ns pod ctr ns' pod' ctr' ->
     in_topic (Some (asked (AskTrace ns pod ctr))) (Published e (event_path ns' pod' ctr' sc)) = [e]) /\
  (in_topic (Some (asked (AskTrace ns pod ctr))) (Published e (event_path ns' pod' ctr' sc)) <> [] ->
     agree (fun a b => hash a = hash b) ns pod ctr ns' pod' ctr').
Proof.
  unfold in_topic, asked, event_path, hash_path, ns_stream, agree. cbn [hash_components].
  change (String.eqb "ns" "") with false. cbn [hash_components].
  destruct (String.eqb_spec ns "") as [->|Hn].
  { split; [intros _; rewrite decide_True; [done|]; by apply prefix_cons, prefix_cons, prefix_nil|intros _; by left]. }
  destruct (String.eqb_spec pod "") as [->|Hp].
  { destruct (String.eqb_spec ns' "") as [->|Hn'].
    - split; [intros [?|[-> _]]; done|]. destruct (decide _) as [D|]; [|done].
      apply prefix_cons_inv_2, prefix_cons_inv_2 in D. by apply prefix_nil_not in D.
    - split.
      + intros [?|[-> _]]; [done|]. rewrite decide_True; [done|]. by apply prefix_cons, prefix_cons, prefix_cons, prefix_nil.
      + destruct (decide _) as [D|]; [|done]. intros _. right. split; [|by left].
        apply prefix_cons_inv_2, prefix_cons_inv_2 in D. by apply prefix_cons_inv_1 in D. }
  destruct (String.eqb_spec ctr "") as [->|Hc].
  { destruct (String.eqb_spec ns' "") as [->|Hn'].
    - split; [intros [?|[-> _]]; done|]. destruct (decide _) as [D|]; [|done].
      apply prefix_cons_inv_2, prefix_cons_inv_2 in D. by apply prefix_nil_not in D.
    - destruct (String.eqb_spec pod' "") as [->|Hp'].
      + split; [intros [?|[-> [?|[-> _]]]]; done|]. destruct (decide _) as [D|]; [|done].
        do 3 apply prefix_cons_inv_2 in D. by apply prefix_nil_not in D.
      + split.
        * intros [?|[-> [?|[-> _]]]]; [done..|]. rewrite decide_True; [done|]. do 4 apply prefix_cons. apply prefix_nil.
        * destruct (decide _) as [D|]; [|done]. intros _. right. do 2 apply prefix_cons_inv_2 in D.
          split; [by apply prefix_cons_inv_1 in D|]. right. apply prefix_cons_inv_2 in D.
          split; [by apply prefix_cons_inv_1 in D|by left]. }
  destruct (String.eqb_spec ns' "") as [->|Hn'].
  - split; [intros [?|[-> _]]; done|]. destruct (decide _) as [D|]; [|done].
    apply prefix_cons_inv_2, prefix_cons_inv_2 in D. by apply prefix_nil_not in D.
  - destruct (String.eqb_spec pod' "") as [->|Hp'].
    + split; [intros [?|[-> [?|[-> _]]]]; done|]. destruct (decide _) as [D|]; [|done].
      do 3 apply prefix_cons_inv_2 in D. by apply prefix_nil_not in D.
    + destruct (String.eqb_spec ctr' "") as [->|Hc'].
      * split; [intros [?|[-> [?|[-> [?| ->] ] ] ] ]; done|]. destruct (decide _) as [D|]; [|done].
        do 4 apply prefix_cons_inv_2 in D. by apply prefix_nil_not in D.
      * split.
        -- intros [?|[-> [?|[-> [?| ->] ] ] ] ]; [done..|]. rewrite decide_True; [done|]. do 5 apply prefix_cons. apply prefix_nil.
        -- destruct (decide _) as [D|]; [|done]. intros _. right. do 2 apply prefix_cons_inv_2 in D.
           split; [by apply prefix_cons_inv_1 in D|]. right. apply prefix_cons_inv_2 in D.
           split; [by apply prefix_cons_inv_1 in D|]. right. apply prefix_cons_inv_2 in D.
           by apply prefix_cons_inv_1 in D.
Qed.
