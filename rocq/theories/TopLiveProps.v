(** C107: `swoll top`, from the system call to the screen. *)
From Coq Require Import ZArith String Lia.
From stdpp Require Import base list numbers strings pretty gmap.
From Verif Require Import SyscallTable SyscallModel SyscallSpec SyscallProofs FilterModel KernelModel KernelSpec CaptureModel CaptureSpec HubModel LiveModel LiveSpec PlainProofs ServeModel ServeSpec ServeProofs PubSubSpec PubSubTop WatchTop ServeEnds ServeProps
  WalkModel CodecModel ChartModel ChartSpec ChartTop ScrapeModel ScrapeSpec ScrapeProofs ScrapeTop ScrapeProps TopModel TopSpec TopProofs TopLiveModel TopLiveSpec TopLiveProofs.

Local Open Scope string_scope.
Local Open Scope list_scope.
Local Open Scope Z_scope.
Local Opaque gSyscallMap gClassMap table kstep.

(** Every row on the screen, after any ticks and whatever went on during them, has the
    names the hub had for a pid namespace when a tick asked for it, and the number of
    steps that left the row's call with the row's errno there, when that tick looked. *)
Theorem C107_a_row_is_a_count : forall tbl describe srt J s0 l s rs ts h rows row,
  go_table tbl -> start_top tbl = Some s0 -> Forall of_top l -> Forall plausible l -> few_rules l -> few_counters l -> Z.of_nat (length l) <= 2 ^ 53 ->
  srun tbl describe srt J s0 l s rs -> ticks tbl describe srt J s0 l rs ts h -> screen (top_run tbl ∅ h).1 rows -> row ∈ rows ->
  exists t i c ns nr e n hd rate, t ∈ ts /\ LiveSpec.known (story (take (t.2 i) l)) ns c /\ (exists j, shows (take (t.1 i) l) ns nr e j)
    /\ how_many (counts (take (t.1 i) l) ns nr e) n /\ heads c nr e hd /\ row = hd ++ [pretty (Z.of_nat n); rate].
Proof. intros tbl describe srt J s0 l s rs ts h rows row G E0 _. destruct (server_hub _ _ E0) as (h0 & H0). exact (a_row tbl describe srt J G h0 H0 s0 E0 l s rs ts h rows row). Qed.
Print Assumptions C107_a_row_is_a_count.

(** A call made in a container has its row after the next quiet tick, with the number of
    times it was left, if call and errno have names and no other namespace has a container
    of the same names. *)
Theorem C107_every_call_has_its_row : forall tbl describe srt J s0 l s rs ts h k es c ns nr e n hd,
  go_table tbl -> start_top tbl = Some s0 -> Forall of_top l -> Forall plausible l -> few_rules l -> few_counters l -> Z.of_nat (length l) <= 2 ^ 53 ->
  srun tbl describe srt J s0 l s rs -> ticks tbl describe srt J s0 l rs ts h -> quiet_tick tbl describe srt J s0 l rs k es ->
  LiveSpec.known (story (take k l)) ns c -> (exists j, shows (take k l) ns nr e j) -> how_many (counts (take k l) ns nr e) n -> heads c nr e hd ->
  has_name nr -> named e -> (forall ns' c', LiveSpec.known (story (take k l)) ns' c' -> same_names c' c -> ns' = ns) ->
  shown (top_run tbl ∅ (h ++ [es])).1 hd n.
Proof. intros tbl describe srt J s0 l s rs ts h k es c ns nr e n hd G E0 _. destruct (server_hub _ _ E0) as (h0 & H0). exact (the_row tbl describe srt J G h0 H0 s0 E0 l s rs ts h k es c ns nr e n hd). Qed.
Print Assumptions C107_every_call_has_its_row.

(** While no container stops, what the two graphs got so far adds up to the number of
    calls left in the containers: without an error for one, with an error for the other. *)
Theorem C107_graphs_add_up : forall tbl describe srt J s0 l s rs ks h k es,
  go_table tbl -> start_top tbl = Some s0 -> Forall of_top l -> Forall plausible l -> few_rules l -> few_counters l -> 65535 * Z.of_nat (length l) <= 2 ^ 53 ->
  srun tbl describe srt J s0 l s rs -> quiet_ticks tbl describe srt J s0 l rs ks h -> quiet_tick tbl describe srt J s0 l rs k es -> Forall (fun k' => (k' <= k)%nat) ks ->
  all_stay (take k l) -> (forall ns nr e j, shows (take k l) ns nr e j -> has_name nr /\ named e) ->
  (exists n, how_many (fun j => exists c ns nr, LiveSpec.known (story (take k l)) ns c /\ counts (take k l) ns nr 0 j) n
     /\ sum (map fst (top_run tbl ∅ (h ++ [es])).2) = Z.of_nat n)
  /\ exists n, how_many (fun j => exists c ns nr e, LiveSpec.known (story (take k l)) ns c /\ e <> 0 /\ counts (take k l) ns nr e j) n
     /\ sum (map snd (top_run tbl ∅ (h ++ [es])).2) = Z.of_nat n.
Proof.
  intros tbl describe srt J s0 l s rs ks h k es G E0 _ F FR FC B R Qs Q Le S Nm. destruct (server_hub _ _ E0) as (h0 & H0).
  pose proof (the_graphs tbl describe srt J G h0 H0 s0 E0 l s rs ks h k es F FR FC B R Qs Q Le S Nm) as X. split.
  - destruct (X false) as (n & (js & N & L & A) & E). exists n. split; [|exact E]. exists js. split; [exact N|]. split; [exact L|]. intros j. rewrite A. split.
    + intros (c & ns & nr & e & Hk & He & Hc). apply Z.eqb_eq in He. subst e. exists c, ns, nr. split; [exact Hk|exact Hc].
    + intros (c & ns & nr & Hk & Hc). exists c, ns, nr, 0. split; [exact Hk|]. split; [reflexivity|exact Hc].
  - destruct (X true) as (n & (js & N & L & A) & E). exists n. split; [|exact E]. exists js. split; [exact N|]. split; [exact L|]. intros j. rewrite A. split.
    + intros (c & ns & nr & e & Hk & He & Hc). apply Z.eqb_neq in He. exists c, ns, nr, e. split; [exact Hk|]. split; [exact He|exact Hc].
    + intros (c & ns & nr & e & Hk & He & Hc). exists c, ns, nr, e. split; [exact Hk|]. split; [apply Z.eqb_neq; exact He|exact Hc].
Qed.
Print Assumptions C107_graphs_add_up.

(** The kernel never sends top a record. *)
Theorem C107_nothing_is_sent : forall tbl describe srt J s0 l s rs k e su,
  go_table tbl -> start_top tbl = Some s0 -> Forall of_top l -> Forall plausible l -> srun tbl describe srt J s0 l s rs -> ~ sends (story l) (outcomes rs) k e su.
Proof. intros tbl describe srt J s0 l s rs k e su G E0 Ft F R. destruct (server_hub _ _ E0) as (h0 & H0). exact (nothing_sent tbl describe srt J G h0 H0 s0 E0 l s rs k e su Ft F R). Qed.
Print Assumptions C107_nothing_is_sent.

(** Nothing that happens on the machine or to the containers ends its hub. *)
Theorem C107_goes_on : forall tbl describe srt J s0 l s rs o,
  go_table tbl -> sort_contract srt -> start_top tbl = Some s0 -> Forall of_top (l ++ [o]) -> Forall plausible (l ++ [o]) -> srun tbl describe srt J s0 l s rs ->
  exists s' r, sstep tbl describe srt J s o (Some (s', r)).
Proof.
  intros tbl describe srt J s0 l s rs o G Srt E0 Ft F R. apply Forall_app in Ft as [Ft Fo]. apply Forall_inv in Fo. apply Forall_app in F as [F Po]. apply Forall_inv in Po.
  refine (C105_goes_on tbl describe srt J s0 l s rs o G Srt E0 F R Po _). destruct o; try destruct Fo; cbn [ends]; try (intros X; exact X).
  intros (k & e & su & Sk & _). exact (C107_nothing_is_sent _ _ _ _ _ _ _ _ _ _ _ G E0 Ft F R Sk).
Qed.
Print Assumptions C107_goes_on.

(** A tick can be made at any time, and ends. *)
Theorem C107_ticks_end : forall tbl describe srt J s0 l s rs k,
  go_table tbl -> start_top tbl = Some s0 -> Forall of_top l -> Forall plausible l -> few_rules l -> few_counters l -> srun tbl describe srt J s0 l s rs ->
  exists es, quiet_tick tbl describe srt J s0 l rs k es.
Proof.
  intros tbl describe srt J s0 l s rs k G E0 _ F FR FC R. destruct (C106_ends tbl describe srt J s0 l s rs k G E0 F FR FC R) as (a & w & m & M & L & S). inversion S as [fuel r Q Eg]; subst. eexists. exists w, m. split; [exact M|]. split; [exact L|]. exact (ticked_intro _ _ fuel r Q).
Qed.
Print Assumptions C107_ticks_end.

(** ** What does not hold *)

Definition sidecar : HubModel.container := HubModel.Container "proxy" "front" "shop" 5.
Lemma of_simple l : Forall simple l -> Forall of_top l.
Proof. intros H. apply (Forall_impl _ _ _ H). intros o. destruct o; exact id || intros []. Qed.
Lemma read_name : has_name 0.
Proof.
  apply (named_call table go_table_intro). assert (X : match lookup_sc table (ByInt 0) with Some _ => true | None => false end = true) by (vm_compute; reflexivity). unfold SyscallSpec.known. destruct (lookup_sc table (ByInt 0)); [eexists; reflexivity|discriminate X].
Qed.
Lemma heads_exist c nr e : exists hd, heads c nr e hd.
Proof. eexists. exists (sc_text table nr). split; [apply (called_iff table go_table_intro); reflexivity|reflexivity]. Qed.
Lemma some_screen m : exists rows, screen m rows.
Proof. eexists. exists (map_to_list m), (fun _ => ""). split; reflexivity. Qed.

(** The calls of every running container are shown under its names: not so. Containers
    that share a pid namespace are all shown under the name of the one reported last. *)
Definition shared_ns : list sop := [SPod true shop; SPod true sidecar; SMeter true 5; SMeter true 5; leaving 5 0 0].
Theorem C107_every_container_has_its_rows_refuted :
  ~ forall tbl describe srt J s0 l s rs k es c nr e j hd,
      go_table tbl -> start_top tbl = Some s0 -> Forall of_top l -> Forall plausible l -> few_rules l -> few_counters l -> Z.of_nat (length l) <= 2 ^ 53 ->
      srun tbl describe srt J s0 l s rs -> quiet_tick tbl describe srt J s0 l rs k es ->
      SPod true c ∈ take k l -> (forall c', SPod false c' ∉ l) -> shows (take k l) (ct_ns c) nr e j -> has_name nr -> named e -> heads c nr e hd ->
      exists n, shown (top_run tbl ∅ [es]).1 hd n.
Proof.
  intros H. destruct (C105_starts table go_table_intro) as [s0 E0].
  assert (F : Forall plausible shared_ns) by (repeat (constructor; [solve [split; exact Logic.I|apply leaving_plausible; unfold some_ns; lia]|]); constructor).
  assert (Sm : Forall simple shared_ns) by (repeat (constructor; [exact Logic.I|]); constructor).
  assert (FR : few_rules shared_ns) by (vm_compute; reflexivity).
  assert (FC : few_counters shared_ns) by (apply (small_counters _ 1); [vm_compute; reflexivity|lia]).
  destruct (simple_runs s0 _ E0 F Sm) as (s & rs & R). destruct (C107_ticks_end table described some_sort reads_job s0 _ s rs 5 go_table_intro E0 (of_simple _ Sm) F FR FC R) as [es Q].
  destruct (heads_exist shop 0 0) as [hd Hd].
  assert (Sh : shows (take 5 shared_ns) 5 0 0 4).
  { split; [left; exists 7, (Task 5 7 0), 0, 0, 0; split; [|repeat split; reflexivity]; exists nowhere, (repeat 0 736), [], false; reflexivity|].
    split; [right; exists 2%nat, 5; split; [lia|]; split; [reflexivity|]; split; [lia|reflexivity]|]. split; [lia|]. intros (q & x & Hq & (su & sc & tr & lost & D) & _). destruct q as [|[|[|[|[|q]]]]]; discriminate D. }
  destruct (H table described some_sort reads_job s0 shared_ns s rs 5%nat es shop 0 0 4%nat hd go_table_intro E0 (of_simple _ Sm) F FR FC ltac:(cbn; lia) R Q) as [n Hn].
  - left.
  - intros c' I. repeat (apply elem_of_cons in I as [I|I]; [discriminate I|]). apply not_elem_of_nil in I. exact I.
  - exact Sh.
  - exact read_name.
  - vm_compute. tauto.
  - exact Hd.
  - destruct (some_screen (top_run table ∅ [es]).1) as [rows Sr]. destruct (Hn rows Sr) as [rate Hr]. destruct (proj2 (Hr _) eq_refl) as [I _].
    assert (T : ticks table described some_sort reads_job s0 shared_ns rs [(fun _ => 5%nat, fun _ => 5%nat)] [es]) by (constructor; [exact (quiet_is_tick _ _ _ _ _ _ _ _ _ Q)|constructor]).
    destruct (C107_a_row_is_a_count table described some_sort reads_job s0 shared_ns s rs _ [es] rows _ go_table_intro E0 (of_simple _ Sm) F FR FC ltac:(cbn; lia) R T Sr I) as (t & i & c & ns & nr & e & n' & hd' & rate' & It & Hk & _ & _ & Hd' & Er).
    apply elem_of_list_singleton in It. subst t. cbn [snd] in Hk. destruct Hd as (name & _ & ->). destruct Hd' as (name' & _ & ->). injection Er as _ _ _ _ En _ _.
    change (take 5 shared_ns) with shared_ns in Hk. pose proof (known_pod _ _ _ Hk) as (Ic & _ & Pn). destruct Hk as (_ & q & Hq & Eq & L).
    destruct q as [|[|q]].
    + injection Hq as <-. apply (L 1%nat true sidecar); [lia|reflexivity|exact Eq].
    + injection Hq as <-. discriminate En.
    + unfold shared_ns in Ic. apply elem_of_cons in Ic as [[= ->]|Ic]; [|apply elem_of_cons in Ic as [[= ->]|Ic]; [discriminate En|repeat (apply elem_of_cons in Ic as [Ic|Ic]; [discriminate Ic|]); apply not_elem_of_nil in Ic; exact Ic]].
      destruct q as [|[|[|q]]]; discriminate Hq.
Qed.
Print Assumptions C107_every_container_has_its_rows_refuted.

(** The rows are those of containers that are there: not so. A row stays when its
    container has stopped. *)
Definition leaving_town : list sop := ScrapeProps.seen [leaving 5 0 0; SMeter false 5; SPod false shop].
Theorem C107_rows_of_stopped_containers_go_refuted :
  ~ forall tbl describe srt J s0 l s rs ks h k es rows row c nr e hd more,
      go_table tbl -> start_top tbl = Some s0 -> Forall of_top l -> Forall plausible l -> few_rules l -> few_counters l -> Z.of_nat (length l) <= 2 ^ 53 ->
      srun tbl describe srt J s0 l s rs -> quiet_ticks tbl describe srt J s0 l rs ks h -> quiet_tick tbl describe srt J s0 l rs k es -> Forall (fun k' => (k' <= k)%nat) ks ->
      screen (top_run tbl ∅ (h ++ [es])).1 rows -> row ∈ rows -> row = hd ++ more -> heads c nr e hd ->
      exists ns c', LiveSpec.known (story (take k l)) ns c' /\ same_names c' c.
Proof.
  intros H. destruct (C105_starts table go_table_intro) as [s0 E0]. destruct (server_hub _ _ E0) as (h0 & H0). set (l := leaving_town).
  assert (F : Forall plausible l) by (repeat (constructor; [solve [split; exact Logic.I|apply leaving_plausible; unfold some_ns; lia]|]); constructor).
  assert (Sm : Forall simple l) by (repeat (constructor; [exact Logic.I|]); constructor).
  assert (FR : few_rules l) by (vm_compute; reflexivity).
  assert (FC : few_counters l) by (apply (small_counters _ 1); [vm_compute; reflexivity|lia]).
  destruct (simple_runs s0 _ E0 F Sm) as (s & rs & R).
  destruct (C107_ticks_end table described some_sort reads_job s0 _ s rs 3 go_table_intro E0 (of_simple _ Sm) F FR FC R) as [es1 Q1].
  destruct (C107_ticks_end table described some_sort reads_job s0 _ s rs 5 go_table_intro E0 (of_simple _ Sm) F FR FC R) as [es2 Q2].
  assert (N5 : forall ns c, ~ LiveSpec.known (story (take 5 l)) ns c).
  { intros ns c Hk. pose proof (known_pod _ _ _ Hk) as (Ic & <- & _). destruct Hk as (_ & q & Hq & _ & L).
    assert (c = shop) as ->. { unfold l, leaving_town, ScrapeProps.seen in Ic. cbn [take] in Ic. apply elem_of_cons in Ic as [[= ->]|Ic]; [reflexivity|]. repeat (apply elem_of_cons in Ic as [Ic|Ic]; [discriminate Ic|]). apply not_elem_of_nil in Ic. contradiction. }
    destruct q as [|[|[|[|[|q]]]]]; try discriminate Hq. exact (L 4%nat false shop ltac:(lia) eq_refl eq_refl). }
  assert (Kn : LiveSpec.known (story (take 3 l)) 5 shop).
  { split; [lia|]. exists 0%nat. split; [reflexivity|]. split; [reflexivity|]. intros j start c Hj Hl. exfalso. destruct j as [|[|[|j]]]; [lia|discriminate Hl|discriminate Hl|discriminate Hl]. }
  assert (Sh : shows (take 3 l) 5 0 0 2).
  { split; [left; exists 7, (Task 5 7 0), 0, 0, 0; split; [|repeat split; reflexivity]; exists nowhere, (repeat 0 736), [], false; reflexivity|].
    split; [right; exists 1%nat, 5; split; [lia|]; split; [reflexivity|]; split; [lia|reflexivity]|]. split; [lia|]. intros (q & x & Hq & (su & sc & tr & lost & D) & _). destruct q as [|[|[|q]]]; discriminate D. }
  assert (Mo : exists w, moment table described some_sort reads_job s0 l rs 3 w) by (destruct Q1 as (w & m & M & _); exists w; exact M). destruct Mo as [w Mo].
  destruct (a_number table described some_sort reads_job go_table_intro h0 H0 s0 E0 l s rs 3 w 5 0 0 F FR FC R Mo) as [n Hn].
  assert (U : forall ns' c', LiveSpec.known (story (take 3 l)) ns' c' -> same_names c' shop -> ns' = 5).
  { intros ns' c' Hk _. pose proof (known_pod _ _ _ Hk) as (Ic & <- & _). unfold l, leaving_town, ScrapeProps.seen in Ic. cbn [take] in Ic. apply elem_of_cons in Ic as [[= ->]|Ic]; [reflexivity|]. repeat (apply elem_of_cons in Ic as [Ic|Ic]; [discriminate Ic|]). apply not_elem_of_nil in Ic. contradiction. }
  assert (E1 := the_entry table described some_sort reads_job go_table_intro h0 H0 s0 E0 l s rs [] [] 3 es1 shop 5 0 0 n F FR FC ltac:(cbn; lia) R ltac:(constructor) Q1 Kn (ex_intro _ 2%nat Sh) Hn read_name ltac:(vm_compute; tauto) U). cbn [app] in E1.
  assert (X : exact_counts (concat [es1; es2])).
  { apply (ticks_exact table described some_sort reads_job go_table_intro h0 H0 s0 E0 l s rs [(fun _ => 3%nat, fun _ => 3%nat); (fun _ => 5%nat, fun _ => 5%nat)]); try assumption; [cbn; lia|]. constructor; [exact (quiet_is_tick _ _ _ _ _ _ _ _ _ Q1)|]. constructor; [exact (quiet_is_tick _ _ _ _ _ _ _ _ _ Q2)|constructor]. }
  assert (E2 : (top_run table ∅ ([es1] ++ [es2])).1 !! (ct_pod shop, ct_namespace shop, ct_name shop, sc_text table 0, errno_to_string 0) = Some (Z.of_nat n)).
  { cbn [concat] in X. rewrite app_nil_r in X. unfold exact_counts in X. apply Forall_app in X as [X1 X2]. apply TopProofs.stays; cbn [concat]; rewrite ?app_nil_r; try assumption.
    intros [[[ns nr e] v] x] c' I Es. destruct (units table described some_sort reads_job go_table_intro h0 H0 s0 E0 _ _ _ _ _ _ _ _ _ _ _ F FR FC R (quiet_is_tick _ _ _ _ _ _ _ _ _ Q2) I) as (_ & _ & _ & _ & _ & _ & _ & K). unfold TopSpec.seen in Es. cbn [fst snd] in Es. destruct x as [o|]; [|discriminate]. destruct (K o eq_refl) as (c & Hk & _). exact (N5 _ _ Hk). }
  destruct (some_screen (top_run table ∅ ([es1] ++ [es2])).1) as [rows Sr].
  pose proof (shown_iff _ _ _ _ _ _ _ E2) as Hs. destruct (Hs rows Sr) as [rate Hr]. destruct (proj2 (Hr _) eq_refl) as [I _].
  destruct (H table described some_sort reads_job s0 l s rs [3%nat] [es1] 5%nat es2 rows _ shop 0 0 [sc_text table 0; errno_to_string 0; ct_namespace shop; ct_pod shop; ct_name shop] _ go_table_intro E0 (of_simple _ Sm) F FR FC ltac:(cbn; lia) R
    ltac:(constructor; [exact Q1|constructor]) Q2 ltac:(constructor; [lia|constructor]) Sr I eq_refl) as (ns & c' & Hk & _).
  - exists (sc_text table 0). split; [apply (called_iff table go_table_intro); reflexivity|reflexivity].
  - exact (N5 _ _ Hk).
Qed.
Print Assumptions C107_rows_of_stopped_containers_go_refuted.

(** ** A screen: two reads and a failed one in a container, seen in two ticks *)
Definition at_work : list sop := ScrapeProps.seen [leaving 5 0 0; leaving 5 0 (-9); leaving 5 0 0].
Lemma at_work_counts k : (3 <= k)%nat -> forall ns nr e j, counts (take k at_work) ns nr e j -> ns = 5 /\ nr = 0 /\ ((e = 0 /\ (j = 2 \/ j = 4)%nat) \/ (e = 9 /\ j = 3%nat)).
Proof.
  intros _ ns nr e j ((tid & t & ret & now & cpu & (su & sc & tr & lost & D) & <- & <- & <-) & _). rewrite story_take in D. apply lookup_take_Some in D as [D _].
  destruct j as [|[|[|[|[|j]]]]]; try discriminate D; injection D as <- <- <- <- <- <- <- <- <-; split; [reflexivity|split; [reflexivity|left; split; [reflexivity|left; reflexivity]]|reflexivity|split; [reflexivity|right; split; reflexivity]|reflexivity|split; [reflexivity|left; split; [reflexivity|right; reflexivity]]].
Qed.
Lemma at_work_count j ret : ScrapeProps.seen [leaving 5 0 0; leaving 5 0 (-9); leaving 5 0 0] !! j = Some (leaving 5 0 ret) -> counts at_work 5 0 (KernelSpec.errno_of ret) j.
Proof.
  intros D. assert (J2 : (2 <= j)%nat) by (destruct j as [|[|j]]; [discriminate D|discriminate D|lia]).
  split; [exists 7, (Task 5 7 0), ret, 0, 0; split; [|repeat split; reflexivity]; exists nowhere, (repeat 0 736), [], false; unfold story; rewrite list_lookup_fmap; unfold at_work; rewrite D; reflexivity|].
  split; [right; exists 1%nat, 5; split; [lia|]; split; [reflexivity|]; split; [lia|reflexivity]|]. split; [lia|]. intros (q & x & Hq & (su & sc & tr & lost & X) & _). destruct q as [|[|[|[|[|q]]]]]; discriminate X.
Qed.
Example C107_nonvacuous : exists s0 s rs es1 es2 hd,
  start_top table = Some s0 /\ Forall of_top at_work /\ Forall plausible at_work /\ few_rules at_work /\ few_counters at_work
  /\ srun table described some_sort reads_job s0 at_work s rs
  /\ quiet_tick table described some_sort reads_job s0 at_work rs 3 es1 /\ quiet_tick table described some_sort reads_job s0 at_work rs 5 es2
  /\ all_stay (take 5 at_work) /\ (forall ns nr e j, shows (take 5 at_work) ns nr e j -> has_name nr /\ named e)
  /\ heads shop 0 0 hd /\ shown (top_run table ∅ [es1; es2]).1 hd 2
  /\ sum (map fst (top_run table ∅ [es1; es2]).2) = 2 /\ sum (map snd (top_run table ∅ [es1; es2]).2) = 1.
Proof.
  destruct (C105_starts table go_table_intro) as [s0 E0].
  assert (F : Forall plausible at_work) by (repeat (constructor; [solve [split; exact Logic.I|apply leaving_plausible; unfold some_ns; lia]|]); constructor).
  assert (Sm : Forall simple at_work) by (repeat (constructor; [exact Logic.I|]); constructor).
  assert (FR : few_rules at_work) by (vm_compute; reflexivity).
  assert (FC : few_counters at_work) by (apply (small_counters _ 2); [vm_compute; reflexivity|lia]).
  destruct (simple_runs s0 _ E0 F Sm) as (s & rs & R).
  destruct (C107_ticks_end table described some_sort reads_job s0 _ s rs 3 go_table_intro E0 (of_simple _ Sm) F FR FC R) as [es1 Q1].
  destruct (C107_ticks_end table described some_sort reads_job s0 _ s rs 5 go_table_intro E0 (of_simple _ Sm) F FR FC R) as [es2 Q2].
  destruct (heads_exist shop 0 0) as [hd Hd].
  assert (St : all_stay (take 5 at_work)).
  { change (take 5 at_work) with at_work. split; [intros c I; repeat (apply elem_of_cons in I as [I|I]; [discriminate I|]); apply not_elem_of_nil in I; exact I|]. split.
    - intros k ns (su & sc & tr & lost & D). destruct k as [|[|[|[|[|k]]]]]; discriminate D.
    - assert (X : forall a, SPod true a ∈ at_work -> a = shop). { intros a I. apply elem_of_cons in I as [[= ->]|I]; [reflexivity|]. repeat (apply elem_of_cons in I as [I|I]; [discriminate I|]). apply not_elem_of_nil in I. contradiction. }
      intros a b A B _. rewrite (X a A), (X b B). reflexivity. }
  assert (Sh : forall ns nr e j, shows (take 5 at_work) ns nr e j -> has_name nr /\ named e).
  { intros ns nr e j (L & M). destruct L as [L|(_ & tid & t & args & ugid & now & (su & sc & tr & lost & D) & _)]; [|exfalso; destruct j as [|[|[|[|[|j]]]]]; discriminate D].
    destruct (at_work_counts 5 ltac:(lia) ns nr e j (conj L M)) as (-> & -> & [[-> _]|[-> _]]); (split; [exact read_name|vm_compute; tauto]). }
  assert (Kn : LiveSpec.known (story (take 5 at_work)) 5 shop).
  { apply (stay_known (take 5 at_work) shop); [exact St|left|cbn; lia]. }
  assert (Hm : how_many (counts (take 5 at_work) 5 0 0) 2).
  { exists [2%nat; 4%nat]. split; [apply (bool_decide_eq_true_1 _); reflexivity|]. split; [reflexivity|]. intros j. split.
    - intros I. apply elem_of_cons in I as [->|I]; [exact (at_work_count 2 0 eq_refl)|]. apply elem_of_list_singleton in I as ->. exact (at_work_count 4 0 eq_refl).
    - intros C. apply at_work_counts in C as (_ & _ & [[_ [-> | ->]]|[X _]]); [left|right; left|discriminate X|lia]. }
  exists s0, s, rs, es1, es2, hd. split; [exact E0|]. split; [exact (of_simple _ Sm)|]. do 4 (split; [assumption|]). split; [exact Q1|]. split; [exact Q2|]. split; [exact St|]. split; [exact Sh|]. split; [exact Hd|]. split.
  - apply (C107_every_call_has_its_row table described some_sort reads_job s0 at_work s rs [(fun _ => 3%nat, fun _ => 3%nat)] [es1] 5 es2 shop 5 0 0 2 hd); try assumption; try exact go_table_intro; try exact (of_simple _ Sm).
    + cbn. lia.
    + constructor; [exact (quiet_is_tick _ _ _ _ _ _ _ _ _ Q1)|constructor].
    + exists 2%nat. apply counts_shows. exact (at_work_count 2 0 eq_refl).
    + exact read_name.
    + vm_compute. tauto.
    + intros ns' c' Hk _. pose proof (known_pod _ _ _ Hk) as (I & <- & _). apply elem_of_cons in I as [[= ->]|I]; [reflexivity|]. repeat (apply elem_of_cons in I as [I|I]; [discriminate I|]). apply not_elem_of_nil in I. contradiction.
  - destruct (C107_graphs_add_up table described some_sort reads_job s0 at_work s rs [3%nat] [es1] 5 es2 go_table_intro E0 (of_simple _ Sm) F FR FC ltac:(cbn; lia) R ltac:(constructor; [exact Q1|constructor]) Q2 ltac:(constructor; [lia|constructor]) St Sh) as [(n & Hn & En) (m & Hm' & Em)].
    change ([es1] ++ [es2]) with [es1; es2] in En, Em. rewrite En, Em. split.
    + rewrite (how_many_one _ _ 2%nat Hn); [reflexivity|]. destruct Hm as (js & N & L & A). exists js. split; [exact N|]. split; [exact L|]. intros j. rewrite A. split.
      * intros C. exists shop, 5, 0. split; [exact Kn|exact C].
      * intros (c & ns & nr & Hk & C). pose proof (at_work_counts 5 ltac:(lia) _ _ _ _ C) as (-> & -> & _). exact C.
    + rewrite (how_many_one _ _ 1%nat Hm'); [reflexivity|]. exists [3%nat]. split; [apply (bool_decide_eq_true_1 _); reflexivity|]. split; [reflexivity|]. intros j. rewrite elem_of_list_singleton. split.
      * intros ->. exists shop, 5, 0, 9. split; [exact Kn|]. split; [lia|]. exact (at_work_count 3 (-9) eq_refl).
      * intros (c & ns & nr & e & Hk & Ne & C). apply at_work_counts in C as (_ & _ & [[X _]|[_ X]]); [contradiction|exact X|lia].
Qed.
