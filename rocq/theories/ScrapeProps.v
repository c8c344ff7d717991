(** C106: GET /metrics of `swoll server`. *)
From Coq Require Import ZArith String Lia.
From stdpp Require Import base list numbers strings pretty gmap.
From Verif Require Import SyscallTable SyscallModel SyscallSpec SyscallProofs FilterModel KernelModel KernelSpec CaptureModel CaptureSpec HubModel LiveModel LiveSpec PlainProofs ServeModel ServeSpec ServeProofs PubSubSpec PubSubTop WatchTop ServeEnds ServeProps
  WalkModel CodecModel ChartModel ChartSpec ChartTop ScrapeModel ScrapeSpec ScrapeProofs ScrapeFit ScrapeTop.

Local Open Scope string_scope.
Local Open Scope list_scope.
Local Open Scope Z_scope.
Local Opaque gSyscallMap gClassMap table kstep.

(** Every count in an answer is that of the steps that left this call with this errno in
    this container since its counters were last removed, whatever went on meanwhile: the
    number when the map was asked for it, under the names the hub had for the namespace
    when it was asked. *)
Theorem C106_a_sample_is_a_count : forall tbl describe srt J s0 l s rs at_look at_lookup ss ls v,
  go_table tbl -> start_server tbl = Some s0 -> Forall plausible l -> few_rules l -> few_counters l -> srun tbl describe srt J s0 l s rs ->
  scrape_of tbl describe srt J s0 l rs at_look at_lookup (Samples ss) -> In (Sample DCount ls v) ss ->
  exists i c ns nr e n, LiveSpec.known (story (take (at_lookup i) l)) ns c /\ (exists k, shows (take (at_look i) l) ns nr e k)
    /\ how_many (counts (take (at_look i) l) ns nr e) n /\ tagged c ns nr e ls /\ v = to_f64 (Z.of_nat n mod 2 ^ 64).
Proof. intros tbl describe srt J s0 l s rs al ak ss ls v G E0. destruct (server_hub _ _ E0) as (h0 & H0). exact (a_sample tbl describe srt J G h0 H0 s0 E0 l s rs al ak ss ls v). Qed.
Print Assumptions C106_a_sample_is_a_count.

(** With nothing else going on the counts are exactly those of the calls seen in the
    containers the hub knows. *)
Theorem C106_the_samples : forall tbl describe srt J s0 l s rs k ss ls v,
  go_table tbl -> start_server tbl = Some s0 -> Forall plausible l -> few_rules l -> few_counters l -> srun tbl describe srt J s0 l s rs ->
  quiet_scrape tbl describe srt J s0 l rs k (Samples ss) ->
  In (Sample DCount ls v) ss <-> exists c ns nr e n, LiveSpec.known (story (take k l)) ns c /\ (exists j, shows (take k l) ns nr e j)
    /\ how_many (counts (take k l) ns nr e) n /\ tagged c ns nr e ls /\ v = to_f64 (Z.of_nat n mod 2 ^ 64).
Proof. intros tbl describe srt J s0 l s rs k ss ls v G E0. destruct (server_hub _ _ E0) as (h0 & H0). exact (quiet_samples tbl describe srt J G h0 H0 s0 E0 l s rs k ss ls v). Qed.
Print Assumptions C106_the_samples.

(** A scrape can be made at any time, and ends. *)
Theorem C106_ends : forall tbl describe srt J s0 l s rs k,
  go_table tbl -> start_server tbl = Some s0 -> Forall plausible l -> few_rules l -> few_counters l -> srun tbl describe srt J s0 l s rs ->
  exists a, quiet_scrape tbl describe srt J s0 l rs k a.
Proof. intros tbl describe srt J s0 l s rs k G E0. destruct (server_hub _ _ E0) as (h0 & H0). exact (quiet_exists tbl describe srt J G h0 H0 s0 E0 l s rs k). Qed.
Print Assumptions C106_ends.

(** It ends the server exactly if a call was seen in a known container that has no name. *)
Theorem C106_crashes_iff : forall tbl describe srt J s0 l s rs k a,
  go_table tbl -> start_server tbl = Some s0 -> Forall plausible l -> few_rules l -> few_counters l -> srun tbl describe srt J s0 l s rs ->
  quiet_scrape tbl describe srt J s0 l rs k a ->
  a = Crashed <-> exists c ns nr e j, LiveSpec.known (story (take k l)) ns c /\ shows (take k l) ns nr e j /\ ~ has_name nr.
Proof. intros tbl describe srt J s0 l s rs k a G E0. destruct (server_hub _ _ E0) as (h0 & H0). exact (quiet_crash tbl describe srt J G h0 H0 s0 E0 l s rs k a). Qed.
Print Assumptions C106_crashes_iff.

(** Otherwise it is answered with an error exactly if a call was seen in a known container
    with two errnos that have no name. *)
Theorem C106_refused_iff : forall tbl describe srt J s0 l s rs k a,
  go_table tbl -> start_server tbl = Some s0 -> Forall plausible l -> few_rules l -> few_counters l -> srun tbl describe srt J s0 l s rs ->
  quiet_scrape tbl describe srt J s0 l rs k a ->
  a = Refused <-> a <> Crashed /\ exists c ns nr e e' j j', LiveSpec.known (story (take k l)) ns c
    /\ shows (take k l) ns nr e j /\ shows (take k l) ns nr e' j' /\ e <> e' /\ ~ named e /\ ~ named e'.
Proof. intros tbl describe srt J s0 l s rs k a G E0. destruct (server_hub _ _ E0) as (h0 & H0). exact (quiet_refused tbl describe srt J G h0 H0 s0 E0 l s rs k a). Qed.
Print Assumptions C106_refused_iff.

(** ** Histories without jobs and clients *)

Definition simple (o : sop) : Prop := match o with STask _ _ _ _ _ | SPod _ _ | SMeter _ _ => True | _ => False end.
Lemma simple_runs s0 l : start_server table = Some s0 -> Forall plausible l -> Forall simple l -> exists s rs, srun table described some_sort reads_job s0 l s rs.
Proof.
  intros E0. induction l as [|o l IH] using rev_ind; intros F S; [eexists _, _; apply sr_nil|].
  apply Forall_app in F as [F Fo]. apply Forall_inv in Fo. apply Forall_app in S as [S So]. apply Forall_inv in So. destruct (IH F S) as (s & rs & R).
  destruct (C105_goes_on table described some_sort reads_job s0 l s rs o go_table_intro some_sort_contract E0 F R Fo) as (s' & r & St).
  { destruct o; try destruct So; intros X; exact X. }
  exists s', (rs ++ [r]). exact (sr_snoc _ _ _ _ _ _ _ _ _ _ _ R St).
Qed.

(** A container with its metrics on, in which the call [nr] returns [ret]. *)
Definition leaving (ns nr ret : Z) : sop := doing (KExit 7 (Task ns 7 nr) ret 0 0).
Definition seen (more : list sop) : list sop := SPod true shop :: SMeter true 5 :: more.
Definition quietly (o : sop) : Prop := match o with STask _ _ _ _ _ | SMeter _ _ => True | _ => False end.
Lemma leaving_plausible ns nr ret : some_ns ns -> plausible (leaving ns nr ret).
Proof. intros H. apply doing_plausible. cbn [fits t_pidns]. split; [unfold word; lia|]. split; [unfold word; lia|exact H]. Qed.
Lemma seen_plausible more : Forall plausible more -> Forall plausible (seen more).
Proof. intros H. constructor; [split; exact Logic.I|]. constructor; [split; exact Logic.I|exact H]. Qed.
Lemma seen_simple more : Forall quietly more -> Forall simple (seen more).
Proof. intros H. constructor; [exact Logic.I|]. constructor; [exact Logic.I|]. apply (Forall_impl _ _ _ H). intros o. destruct o; exact id || intros []. Qed.
Lemma seen_known more : Forall quietly more -> LiveSpec.known (story (seen more)) 5 shop.
Proof.
  intros H. split; [lia|]. exists 0%nat. split; [reflexivity|]. split; [reflexivity|]. intros j start c Hj Hl. exfalso. destruct j as [|[|j]]; [lia|discriminate Hl|].
  cbn [story seen map] in Hl. change (map machine more !! j = Some (WPod start c)) in Hl. apply list_lookup_fmap_inv in Hl as (o & Eo & Hl). rewrite Forall_forall in H. specialize (H o (elem_of_list_lookup_2 _ _ _ Hl)). destruct o; try destruct H; discriminate Eo.
Qed.
Lemma seen_shows more j nr ret : more !! j = Some (leaving 5 nr ret) -> nr mod 2 ^ 32 <> 2 ^ 32 - 1 -> (forall i x su sc tr lost, more !! i = Some (STask (KPrune x) su sc tr lost) -> False) ->
  shows (seen more) 5 (nr mod 2 ^ 32) (KernelSpec.errno_of ret) (2 + j).
Proof.
  intros Hj N P. split; [|split; [|split; [exact N|]]].
  - left. exists 7, (Task 5 7 nr), ret, 0, 0. split; [|repeat split; reflexivity]. exists nowhere, (repeat 0 736), [], false. cbn [story seen map]. change (map machine more !! j = Some (machine (leaving 5 nr ret))). apply list_lookup_fmap_Some_2 || (rewrite list_lookup_fmap, Hj; reflexivity).
  - right. exists 1%nat, 5. split; [lia|]. split; [reflexivity|]. split; [lia|reflexivity].
  - intros (q & x & Hq & (su & sc & tr & lost & D) & _). destruct q as [|[|q]]; [lia|lia|]. cbn [story seen map] in D. change (map machine more !! q = Some (WTask (KPrune x) su sc tr lost)) in D. apply list_lookup_fmap_inv in D as (o & Eo & D).
    destruct o as [y su' sc' tr' lost'| | | | | | | |]; try discriminate Eo. cbn [machine] in Eo. injection Eo as <- <- <- <- <-. exact (P _ _ _ _ _ _ D).
Qed.
Lemma no_name : ~ has_name 9999.
Proof.
  apply (nameless table go_table_intro). assert (X : match lookup_sc table (ByInt 9999) with Some _ => false | None => true end = true) by (vm_compute; reflexivity). destruct (lookup_sc table (ByInt 9999)); [discriminate X|reflexivity].
Qed.
Lemma unnamed e : existsb (Z.eqb e) (map fst CodecTables.errno_names) = false -> ~ named e.
Proof. intros H I. assert (X : existsb (Z.eqb e) (map fst CodecTables.errno_names) = true) by (apply existsb_exists; exists e; split; [exact I|apply Z.eqb_refl]). rewrite X in H. discriminate. Qed.
Lemma small_counters l n : size (list_to_set (counters l) : gset mkey) = n -> Z.of_nat n <= 65535 -> few_counters l.
Proof. unfold few_counters. intros -> H. apply Nat2Z.inj_le. rewrite Z2Nat.id by lia. exact H. Qed.

(** ** What does not hold *)

(** No process in a container can end the server by a system call: not so. The call 9999
    fails with ENOSYS, is counted, and the next scrape finds no name for it. *)
Theorem C106_a_call_cannot_crash_a_scrape_refuted :
  ~ forall tbl describe srt J s0 l s rs k a,
      go_table tbl -> start_server tbl = Some s0 -> Forall plausible l -> few_rules l -> few_counters l -> srun tbl describe srt J s0 l s rs ->
      quiet_scrape tbl describe srt J s0 l rs k a -> a <> Crashed.
Proof.
  intros H. destruct (C105_starts table go_table_intro) as [s0 E0]. set (more := [leaving 5 9999 (-38)]).
  assert (Q : Forall quietly more) by (repeat constructor).
  assert (F : Forall plausible (seen more)) by (apply seen_plausible; constructor; [apply leaving_plausible; unfold some_ns; lia|constructor]).
  assert (FR : few_rules (seen more)) by (vm_compute; reflexivity).
  assert (FC : few_counters (seen more)) by (apply (small_counters _ 1); [vm_compute; reflexivity|lia]).
  destruct (simple_runs s0 _ E0 F (seen_simple _ Q)) as (s & rs & R).
  destruct (C106_ends table described some_sort reads_job s0 _ s rs 3 go_table_intro E0 F FR FC R) as [a A].
  refine (H table described some_sort reads_job s0 _ s rs 3%nat a go_table_intro E0 F FR FC R A _).
  apply (C106_crashes_iff table described some_sort reads_job s0 _ s rs 3 a go_table_intro E0 F FR FC R A).
  exists shop, 5, 9999, 38, 2%nat. change (take 3 (seen more)) with (seen more). split; [exact (seen_known _ Q)|]. split; [|exact no_name].
  refine (seen_shows more 0 9999 (-38) eq_refl ltac:(discriminate) _). intros [|i] x su sc tr lost Hi; discriminate Hi.
Qed.
Print Assumptions C106_a_call_cannot_crash_a_scrape_refuted.

(** No process in a container can keep the server from being scraped: not so. Two lseeks
    to just below 4 GiB are counted as errors without a name, and no scrape is answered
    while the container is there. *)
Theorem C106_a_call_cannot_stop_the_scrapes_refuted :
  ~ forall tbl describe srt J s0 l s rs k a,
      go_table tbl -> start_server tbl = Some s0 -> Forall plausible l -> few_rules l -> few_counters l -> srun tbl describe srt J s0 l s rs ->
      (forall ns nr e j, shows l ns nr e j -> has_name nr) ->
      quiet_scrape tbl describe srt J s0 l rs k a -> exists ss, a = Samples ss.
Proof.
  intros H. destruct (C105_starts table go_table_intro) as [s0 E0]. set (more := [leaving 5 8 (2 ^ 32 - 200); leaving 5 8 (2 ^ 32 - 201)]).
  assert (Q : Forall quietly more) by (repeat constructor).
  assert (F : Forall plausible (seen more)) by (apply seen_plausible; repeat (constructor; [apply leaving_plausible; unfold some_ns; lia|]); constructor).
  assert (FR : few_rules (seen more)) by (vm_compute; reflexivity).
  assert (FC : few_counters (seen more)) by (apply (small_counters _ 2); [vm_compute; reflexivity|lia]).
  destruct (simple_runs s0 _ E0 F (seen_simple _ Q)) as (s & rs & R).
  destruct (C106_ends table described some_sort reads_job s0 _ s rs 4 go_table_intro E0 F FR FC R) as [a A].
  assert (Nm : forall ns nr e j, shows (seen more) ns nr e j -> has_name nr).
  { assert (L : has_name 8). { apply (named_call table go_table_intro). assert (X : match lookup_sc table (ByInt 8) with Some _ => true | None => false end = true) by (vm_compute; reflexivity). unfold SyscallSpec.known. destruct (lookup_sc table (ByInt 8)); [eexists; reflexivity|discriminate X]. }
    intros ns nr e j ([(tid & t & ret & now & cpu & (su & sc & tr & lost & D) & E1 & E2 & E3)|(_ & tid & t & args & ugid & now & (su & sc & tr & lost & D) & E1 & E2)] & _).
    - destruct j as [|[|[|[|j]]]]; try discriminate D; injection D as <- <- <- <- <- <- <- <- <-; subst nr; exact L.
    - destruct j as [|[|[|[|j]]]]; discriminate D. }
  destruct (H table described some_sort reads_job s0 _ s rs 4%nat a go_table_intro E0 F FR FC R Nm A) as [ss ->].
  assert (X : Samples ss = Refused).
  { apply (C106_refused_iff table described some_sort reads_job s0 _ s rs 4 _ go_table_intro E0 F FR FC R A). split; [discriminate|]. change (take 4 (seen more)) with (seen more).
    exists shop, 5, 8, 200, 201, 2%nat, 3%nat. split; [exact (seen_known _ Q)|].
    assert (P : forall i x su sc tr lost, more !! i = Some (STask (KPrune x) su sc tr lost) -> False) by (intros [|[|i]] x su sc tr lost Hi; discriminate Hi).
    split; [exact (seen_shows more 0 8 (2 ^ 32 - 200) eq_refl ltac:(discriminate) P)|]. split; [exact (seen_shows more 1 8 (2 ^ 32 - 201) eq_refl ltac:(discriminate) P)|]. split; [lia|]. split; apply unnamed; reflexivity. }
  discriminate X.
Qed.
Print Assumptions C106_a_call_cannot_stop_the_scrapes_refuted.

(** A container that stops does not keep others from being scraped: not so. Its counters
    are removed while a scrape goes over them, which makes it start over: it finds the
    others twice and is answered with an error. *)
Definition cart : HubModel.container := Container "default" "cart" "app" 6.
Definition two : list sop := [SPod true shop; SMeter true 5; SPod true cart; SMeter true 6; leaving 5 0 0; leaving 6 0 0].
Definition stopping : list sop := two ++ [doing (KPrune 6)].
Lemma two_leave k ns nr e : leaves stopping ns nr e k <-> nr = 0 /\ e = 0 /\ (k = 4%nat /\ ns = 5 \/ k = 5%nat /\ ns = 6).
Proof.
  split.
  - intros (tid & t & ret & now & cpu & (su & sc & tr & lost & D) & <- & <- & <-).
    destruct k as [|[|[|[|[|[|[|k]]]]]]]; try discriminate D; injection D as <- <- <- <- <- <- <- <- <-; (split; [reflexivity|]; split; [reflexivity|]); [left|right]; split; reflexivity.
  - intros (-> & -> & [[-> ->]|[-> ->]]); [exists 7, (Task 5 7 0), 0, 0, 0|exists 7, (Task 6 7 0), 0, 0, 0]; (split; [|repeat split; reflexivity]); exists nowhere, (repeat 0 736), [], false; reflexivity.
Qed.
Lemma none_enters k ns nr : ~ enters stopping ns nr k.
Proof. intros (tid & t & args & ugid & now & (su & sc & tr & lost & D) & _). destruct k as [|[|[|[|[|[|[|k]]]]]]]; discriminate D. Qed.
Lemma story_take k l : story (take k l) = take k (story l).
Proof. unfold story. apply (fmap_take machine). Qed.
Lemma leaves_take l n ns nr e k : leaves (take n l) ns nr e k -> leaves l ns nr e k.
Proof. intros (tid & t & ret & now & cpu & (su & sc & tr & lost & D) & H). rewrite story_take in D. exists tid, t, ret, now, cpu. split; [|exact H]. exists su, sc, tr, lost. apply lookup_take_Some in D as [D _]. exact D. Qed.
Lemma enters_take l n ns nr k : enters (take n l) ns nr k -> enters l ns nr k.
Proof. intros (tid & t & a & u & now & (su & sc & tr & lost & D) & H). rewrite story_take in D. exists tid, t, a, u, now. split; [|exact H]. exists su, sc, tr, lost. apply lookup_take_Some in D as [D _]. exact D. Qed.
Lemma two_show n k ns nr e : shows (take n stopping) ns nr e k -> nr = 0 /\ e = 0 /\ (ns = 5 \/ ns = 6).
Proof. intros ([L|[_ L]] & _); [apply leaves_take, two_leave in L; tauto|apply enters_take in L; destruct (none_enters _ _ _ L)]. Qed.
Lemma stopping_quiet n : (n <= 7)%nat -> forall q, (4 <= q)%nat -> forall x, did (story (take n stopping)) q (KPrune x) -> (n = 7)%nat /\ x = 6.
Proof.
  intros Hn q Hq x (su & sc & tr & lost & D). rewrite story_take in D. apply lookup_take_Some in D as [D L]. destruct q as [|[|[|[|[|[|[|q]]]]]]]; try lia; try discriminate D. injection D as <- _ _ _ _. lia.
Qed.
Lemma shop_shown n : (n = 6 \/ n = 7)%nat -> shows (take n stopping) 5 0 0 4.
Proof.
  intros Hn. split; [left; exists 7, (Task 5 7 0), 0, 0, 0; split; [|repeat split; reflexivity]; exists nowhere, (repeat 0 736), [], false; destruct Hn as [-> | ->]; reflexivity|].
  split; [right; exists 1%nat, 5; split; [lia|]; split; [destruct Hn as [-> | ->]; reflexivity|]; split; [lia|reflexivity]|]. split; [lia|].
  intros (q & x & Hq & D & E). apply stopping_quiet in D as [_ ->]; [discriminate E|lia|lia].
Qed.
Lemma cart_shown : shows (take 6 stopping) 6 0 0 5.
Proof.
  split; [left; exists 7, (Task 6 7 0), 0, 0, 0; split; [|repeat split; reflexivity]; exists nowhere, (repeat 0 736), [], false; reflexivity|].
  split; [right; exists 3%nat, 6; split; [lia|]; split; [reflexivity|]; split; [lia|reflexivity]|]. split; [lia|].
  intros (q & x & Hq & D & E). apply stopping_quiet in D as [? ->]; [discriminate|lia|lia].
Qed.
Lemma cart_gone k : ~ shows (take 7 stopping) 6 0 0 k.
Proof.
  intros ([L|[_ L]] & _ & _ & P); [apply leaves_take, two_leave in L as (_ & _ & [[_ L]|[-> _]]); [discriminate L|]|apply enters_take in L; destruct (none_enters _ _ _ L)].
  apply P. exists 6%nat, 6. split; [lia|]. split; [exists nowhere, (repeat 0 736), [], false; reflexivity|reflexivity].
Qed.
Lemma collect_app tbl a b : forall l, collect_loop tbl (a ++ b) = Some l -> exists la lb, collect_loop tbl a = Some la /\ collect_loop tbl b = Some lb /\ l = la ++ lb.
Proof.
  induction a as [|[[k v] [c|]] a IH]; intros l; cbn [app collect_loop].
  - intros H. exists [], l. split; [reflexivity|]. split; [exact H|reflexivity].
  - destruct (lookup_sc tbl (ByInt (mk_nr k))); [|discriminate]. destruct (collect_loop tbl (a ++ b)) as [l'|]; [|discriminate]. intros [= <-]. destruct (IH l' eq_refl) as (la & lb & -> & B & ->). eexists _, lb. split; [reflexivity|]. split; [exact B|reflexivity].
  - intros H. destruct (IH l H) as (la & lb & A & B & C). exists la, lb. split; [exact A|]. split; [exact B|exact C].
Qed.
Lemma twice tbl k v v' c x ss : gather tbl true [((k, v), Some c); x; ((k, v'), Some c)] <> Samples ss.
Proof.
  intros X. unfold gather, collect in X. destruct (collect_loop tbl _) as [l|] eqn:E; [|discriminate X]. destruct (bool_decide _) eqn:D in X; [|discriminate X]. apply bool_decide_eq_true_1 in D.
  apply (collect_app tbl [_; x] [_]) in E as (la & lb & A & B & ->). apply (collect_app tbl [_] [x]) in A as (l1 & l2 & A & _ & ->). cbn [collect_loop] in A, B. destruct (lookup_sc tbl (ByInt (mk_nr k))) as [sc|]; [|discriminate A]. apply Some_inj in A. apply Some_inj in B. subst l1 lb.
  cbn [map app sm_desc sm_labels] in D. apply NoDup_cons in D as [D _]. apply D. right. rewrite map_app. apply elem_of_app. right. left.
Qed.

Theorem C106_a_stop_spoils_no_scrape_refuted :
  ~ forall tbl describe srt J s0 l s rs at_look at_lookup a,
      go_table tbl -> start_server tbl = Some s0 -> Forall plausible l -> few_rules l -> few_counters l -> srun tbl describe srt J s0 l s rs ->
      (forall ns nr e j, shows l ns nr e j -> has_name nr /\ named e) ->
      in_order at_look at_lookup ->
      scrape_of tbl describe srt J s0 l rs at_look at_lookup a -> exists ss, a = Samples ss.
Proof.
  intros H. destruct (C105_starts table go_table_intro) as [s0 E0]. destruct (server_hub _ _ E0) as (h0 & H0).
  assert (F : Forall plausible stopping).
  { repeat (constructor; [solve [split; exact Logic.I|apply leaving_plausible; unfold some_ns; lia|apply doing_plausible; exact Logic.I]|]). constructor. }
  assert (Sm : Forall simple stopping) by (repeat (constructor; [exact Logic.I|]); constructor).
  assert (FR : few_rules stopping) by (vm_compute; reflexivity).
  assert (FC : few_counters stopping) by (apply (small_counters _ 2); [vm_compute; reflexivity|lia]).
  destruct (simple_runs s0 _ E0 F Sm) as (s & rs & R).
  destruct (srun_split _ _ _ _ _ _ _ _ 6 R) as (s6 & R6 & _). destruct (srun_split _ _ _ _ _ _ _ _ 7 R) as (s7 & R7 & _).
  assert (M6 : moment table described some_sort reads_job s0 stopping rs 6 (sv_world s6)) by (exists s6; split; [exact R6|reflexivity]).
  assert (M7 : moment table described some_sort reads_job s0 stopping rs 7 (sv_world s7)) by (exists s7; split; [exact R7|reflexivity]).
  destruct (at_moment table described some_sort reads_job go_table_intro h0 H0 s0 E0 _ _ _ _ _ F FR FC R M6) as [T6 K6]. destruct (at_moment table described some_sort reads_job go_table_intro h0 H0 s0 E0 _ _ _ _ _ F FR FC R M7) as [T7 K7].
  destruct (proj2 (ta_shown _ _ T6 5 0 0) (ex_intro _ 4%nat (shop_shown 6 (or_introl eq_refl)))) as [v5 V5]. destruct (proj2 (ta_shown _ _ T6 6 0 0) (ex_intro _ 5%nat cart_shown)) as [v6 V6].
  destruct (proj2 (ta_shown _ _ T7 5 0 0) (ex_intro _ 4%nat (shop_shown 7 (or_intror eq_refl)))) as [v7 V7].
  assert (only6 : forall k, is_Some (w_metrics (sv_world s6) !! k) -> k = MKey 5 0 0 \/ k = MKey 6 0 0).
  { intros [ns nr e] X. apply (ta_shown _ _ T6) in X as [k X]. apply two_show in X as (-> & -> & [-> | ->]); [left|right]; reflexivity. }
  assert (only7 : forall k, is_Some (w_metrics (sv_world s7) !! k) -> k = MKey 5 0 0).
  { intros [ns nr e] X. apply (ta_shown _ _ T7) in X as [k X]. pose proof (two_show _ _ _ _ _ X) as (-> & -> & [-> | ->]); [reflexivity|]. destruct (cart_gone _ X). }
  set (m6 := [(MKey 5 0 0, v5); (MKey 6 0 0, v6)]). set (m7 := [(MKey 5 0 0, v7)]).
  assert (L6 : listing (sv_world s6) m6).
  { split; [apply (bool_decide_eq_true_1 _); vm_compute; reflexivity|]. apply map_eq. intros k. unfold m6. cbn [list_to_map foldr uncurry fst snd]. destruct (decide (k = MKey 5 0 0)) as [->|N1]; [rewrite lookup_insert; symmetry; exact V5|]. rewrite lookup_insert_ne by congruence.
    destruct (decide (k = MKey 6 0 0)) as [->|N2]; [rewrite lookup_insert; symmetry; exact V6|]. rewrite lookup_insert_ne by congruence. rewrite lookup_empty. destruct (w_metrics (sv_world s6) !! k) as [y|] eqn:Ek; [|reflexivity]. destruct (only6 k (mk_is_Some _ _ Ek)); contradiction. }
  assert (L7 : listing (sv_world s7) m7).
  { split; [apply (bool_decide_eq_true_1 _); vm_compute; reflexivity|]. apply map_eq. intros k. unfold m7. cbn [list_to_map foldr uncurry fst snd]. destruct (decide (k = MKey 5 0 0)) as [->|N1]; [rewrite lookup_insert; symmetry; exact V7|]. rewrite lookup_insert_ne by congruence.
    rewrite lookup_empty. destruct (w_metrics (sv_world s7) !! k) as [y|] eqn:Ek; [|reflexivity]. destruct (N1 (only7 k (mk_is_Some _ _ Ek))). }
  set (snap := fun i => if (i <? 2)%nat then m6 else m7). set (at_look := fun i => if (i <? 2)%nat then 6%nat else 7%nat).
  set (r := [(MKey 5 0 0, v5); (MKey 6 0 0, v6); (MKey 5 0 0, v7)]).
  assert (Q : query_all snap 4 = Some r) by (vm_compute; reflexivity).
  assert (A : scrape_of table described some_sort reads_job s0 stopping rs at_look (fun _ => 7%nat) (gather table true (answers (fun _ => sv_world s7) r))).
  { exists snap, (fun _ => sv_world s7). split; [|split; [intros i; exact M7|exact (scraped_intro _ _ _ 4 r Q)]]. intros i. unfold at_look, snap. destruct (i <? 2)%nat; [exists (sv_world s6); split; [exact M6|exact L6]|exists (sv_world s7); split; [exact M7|exact L7]]. }
  assert (Nm : forall ns nr e j, shows stopping ns nr e j -> has_name nr /\ named e).
  { intros ns nr e j X. rewrite <- (firstn_all2 (n := 7) stopping) in X by (cbn; lia). apply two_show in X as (-> & -> & _). split; [|vm_compute; tauto]. apply (named_call table go_table_intro).
    assert (X : match lookup_sc table (ByInt 0) with Some _ => true | None => false end = true) by (vm_compute; reflexivity). unfold SyscallSpec.known. destruct (lookup_sc table (ByInt 0)); [eexists; reflexivity|discriminate X]. }
  assert (O : in_order at_look (fun _ => 7%nat)).
  { split; [intros i j Hij|intros i j]; unfold at_look; [destruct (Nat.ltb_spec i 2), (Nat.ltb_spec j 2); lia|destruct (i <? 2)%nat; lia]. }
  destruct (H table described some_sort reads_job s0 stopping s rs at_look (fun _ => 7%nat) _ go_table_intro E0 F FR FC R Nm O A) as [ss X].
  assert (Kn : LiveSpec.known (story (take 7 stopping)) 5 shop).
  { split; [lia|]. exists 0%nat. split; [reflexivity|]. split; [reflexivity|]. intros j start c Hj Hl. destruct j as [|[|[|[|[|[|[|j]]]]]]]; try discriminate Hl; [lia|]. injection Hl as _ <-. discriminate. }
  assert (Kc : w_cache (sv_world s7) !! 5 = Some shop) by (apply K7; [lia|exact Kn]).
  unfold r, answers in X. cbn [imap fst mk_ns compose] in X. unfold compose, lookup_container at 1 3 in X. rewrite Kc in X. exact (twice _ _ _ _ _ _ _ X).
Qed.
Print Assumptions C106_a_stop_spoils_no_scrape_refuted.

(** ** An answer: two reads in a container *)
Example C106_nonvacuous : exists s0 s rs ss ls,
  start_server table = Some s0 /\ Forall plausible (seen [leaving 5 0 0; leaving 5 0 0]) /\ few_rules (seen [leaving 5 0 0; leaving 5 0 0]) /\ few_counters (seen [leaving 5 0 0; leaving 5 0 0])
  /\ srun table described some_sort reads_job s0 (seen [leaving 5 0 0; leaving 5 0 0]) s rs
  /\ quiet_scrape table described some_sort reads_job s0 (seen [leaving 5 0 0; leaving 5 0 0]) rs 4 (Samples ss)
  /\ tagged shop 5 0 0 ls /\ In (Sample DCount ls 2) ss.
Proof.
  set (more := [leaving 5 0 0; leaving 5 0 0]). destruct (C105_starts table go_table_intro) as [s0 E0].
  assert (Q : Forall quietly more) by (repeat constructor).
  assert (F : Forall plausible (seen more)) by (apply seen_plausible; repeat (constructor; [apply leaving_plausible; unfold some_ns; lia|]); constructor).
  assert (FR : few_rules (seen more)) by (vm_compute; reflexivity).
  assert (FC : few_counters (seen more)) by (apply (small_counters _ 1); [vm_compute; reflexivity|lia]).
  destruct (simple_runs s0 _ E0 F (seen_simple _ Q)) as (s & rs & R).
  destruct (C106_ends table described some_sort reads_job s0 _ s rs 4 go_table_intro E0 F FR FC R) as [a A].
  assert (P : forall i x su sc tr lost, more !! i = Some (STask (KPrune x) su sc tr lost) -> False) by (intros [|[|i]] x su sc tr lost Hi; discriminate Hi).
  assert (Sh : forall ns nr e j, shows (seen more) ns nr e j -> nr = 0 /\ e = 0).
  { intros ns nr e j ([(tid & t & ret & now & cpu & (su & sc & tr & lost & D) & E1 & E2 & E3)|(_ & tid & t & args & ugid & now & (su & sc & tr & lost & D) & E1 & E2)] & _).
    - destruct j as [|[|[|[|j]]]]; try discriminate D; injection D as <- <- <- <- <- <- <- <- <-; subst nr e; split; reflexivity.
    - destruct j as [|[|[|[|j]]]]; discriminate D. }
  assert (Hs : exists sc, lookup_sc table (ByInt 0) = Some sc).
  { assert (Y : match lookup_sc table (ByInt 0) with Some _ => true | None => false end = true) by (vm_compute; reflexivity). destruct (lookup_sc table (ByInt 0)) as [sc|]; [exists sc; reflexivity|discriminate Y]. }
  assert (H0 : has_name 0) by (apply (named_call table go_table_intro); exact Hs).
  assert (Ns : a <> Crashed).
  { intros X. apply (C106_crashes_iff table described some_sort reads_job s0 _ s rs 4 a go_table_intro E0 F FR FC R A) in X as (c & ns & nr & e & j & _ & X & N). apply Sh in X as [-> _]. exact (N H0). }
  assert (Nr : a <> Refused).
  { intros X. apply (C106_refused_iff table described some_sort reads_job s0 _ s rs 4 a go_table_intro E0 F FR FC R A) in X as (_ & c & ns & nr & e & e' & j & j' & _ & X & Y & N & _). apply Sh in X as [_ ->]. apply Sh in Y as [_ ->]. exact (N eq_refl). }
  destruct a as [ss| |]; [|destruct (Nr eq_refl)|destruct (Ns eq_refl)].
  destruct Hs as [sc Hsc]. assert (Tg : tagged shop 5 0 0 (labels sc (Owner (ct_namespace shop) (ct_pod shop) (ct_name shop)) (MKey 5 0 0))) by (apply (tagged_iff table go_table_intro); exists sc; split; [exact Hsc|reflexivity]).
  exists s0, s, rs, ss, (labels sc (Owner (ct_namespace shop) (ct_pod shop) (ct_name shop)) (MKey 5 0 0)). do 6 (split; [assumption|]). split; [exact Tg|].
  apply (C106_the_samples table described some_sort reads_job s0 _ s rs 4 ss _ _ go_table_intro E0 F FR FC R A). change (take 4 (seen more)) with (seen more).
  exists shop, 5, 0, 0, 2%nat. split; [exact (seen_known _ Q)|]. split; [exists 2%nat; exact (seen_shows more 0 0 0 eq_refl ltac:(discriminate) P)|]. split; [|split; [exact Tg|reflexivity]].
  exists [2%nat; 3%nat]. split; [apply (bool_decide_eq_true_1 _); reflexivity|]. split; [reflexivity|]. intros k. split.
  - intros X. apply elem_of_cons in X as [->|X]; [|apply elem_of_list_singleton in X as ->].
    + destruct (seen_shows more 0 0 0 eq_refl ltac:(discriminate) P) as ([L|[_ L]] & B); [split; [exact L|exact B]|]. destruct L as (? & ? & ? & ? & ? & (? & ? & ? & ? & D) & _). discriminate D.
    + destruct (seen_shows more 1 0 0 eq_refl ltac:(discriminate) P) as ([L|[_ L]] & B); [split; [exact L|exact B]|]. destruct L as (? & ? & ? & ? & ? & (? & ? & ? & ? & D) & _). discriminate D.
  - intros ((tid & t & ret & now & cpu & (su & sc' & tr & lost & D) & _) & _). destruct k as [|[|[|[|k]]]]; try discriminate D; [left|right; left].
Qed.

(** ** The rules of the server's jobs *)

(** Every rule can be installed while there are few containers and calls, so what C105
    says of the calls that are sent holds of every such history. *)
Theorem C105_rules_fit : forall tbl describe srt J s0 l s rs,
  go_table tbl -> start_server tbl = Some s0 -> Forall plausible l -> few_rules l -> srun tbl describe srt J s0 l s rs -> everything_installed rs.
Proof. intros tbl describe srt J s0 l s rs G E0. destruct (server_hub _ _ E0) as (h0 & H0). exact (rules_fit tbl describe srt J G h0 H0 s0 E0 l s rs). Qed.
Print Assumptions C105_rules_fit.
