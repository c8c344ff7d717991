(** Proofs about GET /metrics of `swoll server`. *)
From Coq Require Import ZArith String Lia.
From stdpp Require Import base list numbers strings pretty gmap.
From Verif Require Import SyscallTable SyscallModel SyscallSpec SyscallProofs FilterModel FilterSpec FilterProofs HubModel HubSpec HubProofs HubKernel HubTop
  KernelModel KernelSpec KernelProofs CodecModel RawModel DecodeModel CaptureModel CaptureSpec MsgModel PlainSpec PlainProofs LiveModel LiveSpec LiveProofs LiveTop ServeModel ServeSpec ServeFrame ServeProofs
  WalkModel WalkProofs ChartModel ChartSpec ChartProofs ScrapeModel ScrapeSpec.

Local Open Scope string_scope.
Local Open Scope list_scope.
Local Open Scope Z_scope.
Local Opaque gSyscallMap gClassMap table emit kstep fstep.
Local Notation u32 := FilterModel.u32.
Local Notation s32 := FilterModel.s32.

Section scrape.
Context (tbl : syscalls) (describe : HubModel.container -> TopoModel.container (list (string * string)))
  (srt : list PubSubModel.env -> list PubSubModel.env) (J : nat -> job).
Local Notation step := (sstep tbl describe srt J).
Local Notation run := (srun tbl describe srt J).
Context (G : go_table tbl).

(** * What a step does to the filter *)

Definition edits (o : sop) (f : fop) : Prop :=
  match f with
  | FKernel _ _ | FRemoveSyscall _ _ | FRemoveMetrics _ => True
  | FAddSyscall a ns | FAddSampled a ns _ =>
      exists j c nr, o = SJob j true c /\ ns = ct_ns c /\ a = ByInt nr /\ SyscallSpec.known tbl nr /\ 0 <= nr <= 332 /\ 0 < ns < 2 ^ 32
  | FAddMetrics ns => o = SMeter true ns
  | FEnable => False
  end.
Definition edited (o : sop) (m m' : kmaps) : Prop := exists os, Forall (edits o) os /\ m' = fsteps tbl os m.

Lemma edited_same o m : edited o m m.
Proof. exists []. split; [constructor|reflexivity]. Qed.
Lemma edited_one o f m : edits o f -> edited o m (fstep tbl f m).
Proof. intros H. exists [f]. split; [constructor; [exact H|constructor]|reflexivity]. Qed.
Lemma edited_trans o m1 m2 m3 : edited o m1 m2 -> edited o m2 m3 -> edited o m1 m3.
Proof. intros (a & F1 & ->) (b & F2 & ->). exists (a ++ b). split; [apply Forall_app; split; assumption|]. unfold fsteps. rewrite fold_left_app. reflexivity. Qed.

Lemma consult_edits o : forall os h h' hrs, Forall consult os -> hrun J tbl h os = Ok (h', hrs) -> edited o (maps h) (maps h').
Proof.
  induction os as [|x os IH]; intros h h' hrs F R; cbn [hrun] in R; [injection R as <- <-; apply edited_same|].
  inversion F as [|? ? (mode & t & -> & _) F']; subst. cbn [hstep] in R.
  destruct (run_nfilter mode t (maps h)) as [m v] eqn:E. destruct (hrun J tbl (set_maps h m) os) as [[h2 rs2]| |] eqn:E2; [|discriminate..]. injection R as <- <-.
  eapply edited_trans; [|exact (IH _ _ _ F' E2)]. cbn [set_maps maps]. pose proof (edited_one o (FKernel mode t) (maps h) I) as X.
  Local Transparent fstep. cbn [fstep] in X. rewrite E in X. exact X. Local Opaque fstep.
Qed.
Lemma stops_edits o ns : forall cs h h', stop_calls tbl cs ns h = Ok h' -> edited o (maps h) (maps h').
Proof.
  induction cs as [|[nr|] cs IH]; intros h h' S; cbn [stop_calls] in S; [injection S as <-; apply edited_same| |discriminate].
  eapply edited_trans; [|exact (IH _ _ S)]. exact (edited_one o (FRemoveSyscall (ByInt nr) ns) (maps h) I).
Qed.
Lemma delete_edits o : forall todo h jid h' jid', delete_loop tbl todo h jid = (h', jid') -> edited o (maps h) (maps h').
Proof.
  induction todo as [|c todo IH]; intros h jid h' jid' D; cbn [delete_loop] in D; [injection D as <- <-; apply edited_same|].
  destruct (find_list h (c_ns c) (c_nr c)) as [l|]; [|exact (IH _ _ _ _ D)].
  eapply edited_trans; [|exact (IH _ _ _ _ D)]. clear IH D.
  set (h1 := set_list h (c_ns c) (c_nr c) (list_remove c l)).
  assert (E1 : maps h1 = maps h) by reflexivity.
  set (h2 := match list_remove c l with [] => clear_list (set_maps h1 (remove_syscall tbl (ByInt (c_nr c)) (c_ns c) (maps h1)).1) (c_ns c) (c_nr c) | _ => h1 end).
  assert (E2 : edited o (maps h) (maps h2)).
  { unfold h2. destruct (list_remove c l).
    - assert (E3 : forall x ns nr, maps (clear_list x ns nr) = maps x) by (intros x ns nr; unfold clear_list; destruct (nsmap x !! ns); reflexivity).
      rewrite E3. exact (edited_one o (FRemoveSyscall (ByInt (c_nr c)) (c_ns c)) (maps h) I).
    - rewrite E1. apply edited_same. }
  destruct (nsmap h2 !! c_ns c) as [t|]; [|exact E2]. destruct (decide _); exact E2.
Qed.
Lemma install_edits j c h nr m b : SyscallSpec.known tbl nr -> 0 <= nr <= 332 -> 0 < ct_ns c < 2 ^ 32 -> install J tbl h j (ct_ns c) nr = Ok (m, b) ->
  edited (SJob j true c) (maps h) m.
Proof.
  intros K Rg P E. unfold install in E.
  assert (Add : forall m1, edited (SJob j true c) m1 (add_syscall tbl (ByInt nr) (ct_ns c) m1).1).
  { intros m1. apply (edited_one _ (FAddSyscall (ByInt nr) (ct_ns c))). exists j, c, nr. repeat (split; [reflexivity || assumption|]). exact P. }
  assert (Sam : forall m1 rate, edited (SJob j true c) m1 (add_sampled_syscall tbl (ByInt nr) (ct_ns c) rate m1).1).
  { intros m1 rate. apply (edited_one _ (FAddSampled (ByInt nr) (ct_ns c) rate)). exists j, c, nr. repeat (split; [reflexivity || assumption|]). exact P. }
  destruct (0 <? j_rate (J j)).
  - destruct (lowest J h nr (ct_ns c)) as [low| |]; [|discriminate..].
    set (m1 := if (match low with Some l => j_rate (J (c_job l)) <? j_rate (J j) | None => false end) then (remove_syscall tbl (ByInt nr) (ct_ns c) (maps h)).1 else maps h) in E.
    assert (E1 : edited (SJob j true c) (maps h) m1).
    { unfold m1. match goal with |- context [if ?b then _ else _] => destruct b end; [|apply edited_same]. exact (edited_one _ (FRemoveSyscall (ByInt nr) (ct_ns c)) (maps h) I). }
    specialize (Sam m1 (j_rate (J j))). destruct (add_sampled_syscall tbl (ByInt nr) (ct_ns c) (j_rate (J j)) m1) as [m2 ok]. cbn [fst] in Sam.
    destruct ok; injection E as E.
    + specialize (Add m2). rewrite E in Add. exact (edited_trans _ _ _ _ E1 (edited_trans _ _ _ _ Sam Add)).
    + subst m2. exact (edited_trans _ _ _ _ E1 Sam).
  - injection E as E. specialize (Add (maps h)). rewrite E in Add. exact Add.
Qed.
Lemma starts_edits j c : 0 < ct_ns c < 2 ^ 32 -> forall cs h n h' n' ok, (forall nr, Some nr ∈ cs -> SyscallSpec.known tbl nr /\ 0 <= nr <= 332) ->
  start_calls J tbl cs j (ct_ns c) h n = Ok (h', (n', ok)) -> edited (SJob j true c) (maps h) (maps h').
Proof.
  intros P. induction cs as [|[nr|] cs IH]; intros h n h' n' ok K S; cbn [start_calls] in S; [injection S as <- <- <-; apply edited_same| |discriminate].
  destruct (K nr) as [K1 K2]; [left|]. destruct (install J tbl _ j (ct_ns c) nr) as [[m b]| |] eqn:E; [|discriminate..].
  pose proof (install_edits _ _ _ _ _ _ K1 K2 P E) as X. change (maps (push_job J h j (ct_ns c) nr)) with (maps h) in X. destruct b.
  - eapply edited_trans; [exact X|]. exact (IH _ _ _ _ _ (fun nr' H => K nr' ltac:(right; exact H)) S).
  - injection S as <- <- <-. exact X.
Qed.

Lemma step_edits s o s' r : plausible o -> step s o (Some (s', r)) -> edited o (maps (w_hub (sv_world s))) (maps (w_hub (sv_world s'))).
Proof.
  intros Fo S. destruct o as [o su sc tr lost|start c|start ns|j start c|id|i| |p takes|a].
  - pose proof (step_do _ _ _ _ _ _ _ S ltac:(discriminate)) as E. cbn [sdo] in E. unfold task_step in E. destruct Fo as ((Fo & _) & _).
    destruct (task_hub J tbl (w_hub (sv_world s)) (w_metrics (sv_world s)) (w_calls (sv_world s)) o) as (os2 & hrs2 & R2 & C2); [intros u ->; exact Fo|].
    pose proof (consult_edits (STask o su sc tr lost) _ _ _ _ C2 R2) as X. destruct (kstep tbl _ o) as [ks r']. apply Some_inj, pair_equal_spec in E as [<- <-]. exact X.
  - pose proof (step_do _ _ _ _ _ _ _ S ltac:(discriminate)) as E. cbn [sdo] in E. apply Some_inj, pair_equal_spec in E as [<- <-]. apply edited_same.
  - pose proof (step_do _ _ _ _ _ _ _ S ltac:(discriminate)) as E. cbn [sdo] in E. unfold meter_step in E. destruct start; cbn [hstep] in E; apply Some_inj, pair_equal_spec in E as [<- <-].
    + exact (edited_one _ (FAddMetrics ns) _ eq_refl).
    + exact (edited_one _ (FRemoveMetrics ns) _ I).
  - pose proof (step_do _ _ _ _ _ _ _ S ltac:(discriminate)) as E. cbn [sdo] in E. unfold job_step in E. destruct Fo as [_ Fo].
    destruct (Z.ltb_spec 0 (ct_ns c)) as [P|P]; cbn [andb] in E; [|apply Some_inj, pair_equal_spec in E as [<- <-]; apply edited_same].
    destruct (negb _); [|apply Some_inj, pair_equal_spec in E as [<- <-]; apply edited_same]. destruct start; cbn [hstep] in E.
    + destruct (on_start J tbl (w_hub (sv_world s)) j c) as [[h2 [n ok]]| |] eqn:E2; [|discriminate..]. apply Some_inj, pair_equal_spec in E as [<- <-].
      unfold on_start in E2. destruct (host_selected _ _); [|injection E2 as <- <- <-; apply edited_same].
      refine (starts_edits j c _ _ _ _ _ _ _ _ E2); [lia|]. exact (calls_range tbl G (J j)).
    + destruct (on_stop J tbl (w_hub (sv_world s)) j c) as [h2| |] eqn:E2; [|discriminate..]. apply Some_inj, pair_equal_spec in E as [<- <-].
      exact (stops_edits _ _ _ _ _ E2).
  - pose proof (step_do _ _ _ _ _ _ _ S ltac:(discriminate)) as E. cbn [sdo] in E. unfold delete_step in E.
    destruct (busy s); [apply Some_inj, pair_equal_spec in E as [<- <-]; apply edited_same|]. cbn [hstep] in E.
    destruct (delete_trace tbl (w_hub (sv_world s)) id) as [[h2 b]| |] eqn:E2; [|discriminate..]. apply Some_inj, pair_equal_spec in E as [<- <-].
    unfold delete_trace in E2. destruct (idmap _ !! id) as [jid|]; [|injection E2 as <- <-; apply edited_same].
    destruct (delete_loop tbl jid _ jid) as [h3 [|]] eqn:D; [|discriminate]. injection E2 as <- <-. exact (delete_edits _ _ _ _ _ _ D).
  - destruct (read_step_cases _ _ _ _ _ _ _ _ S) as (_ & [(Ew & _ & _)|(_ & k & bs & Er & [(_ & _ & _ & Ew)|(t & rw & h & ps & _ & _ & _ & Oe & _ & Ew & _)])]); rewrite Ew; [apply edited_same..|].
    cbn [w_hub]. destruct (on_event_frame _ _ _ _ _ Oe) as (_ & _ & -> & _). apply edited_same.
  - destruct (same_hub _ _ _ _ _ _ _ _ S) as (-> & _); [exact I|]. apply edited_same.
  - destruct (same_hub _ _ _ _ _ _ _ _ S) as (-> & _); [exact I|]. apply edited_same.
  - destruct (same_hub _ _ _ _ _ _ _ _ S) as (-> & _); [exact I|]. apply edited_same.
Qed.

(** * The rules there are *)

(** Turning the metrics of namespace -1 on makes another rule (C55). *)
Definition proper (l : list sop) : list Z := omap (fun o => match o with SMeter true ns => if decide (ns = -1) then None else Some (u32 ns) | _ => None end) l.
Definition rules_of (l : list sop) : list fkey := all_keys (jobbed l) (proper l).

Lemma all_keys_in k mns kns : k ∈ all_keys mns kns <->
  k = syscall_rule 0 218 \/ k = metrics_rule 31337 \/ k = FKey 4 0 0 (-1) \/ (exists ns, ns ∈ kns /\ k = metrics_rule ns) \/ exists ns nr, ns ∈ mns /\ 0 <= nr <= 332 /\ k = syscall_rule ns nr.
Proof.
  unfold all_keys. rewrite !elem_of_app, !elem_of_cons, elem_of_nil. split.
  - intros [[H|[H|[H|[]]]]|[H|H]]; [tauto..| |].
    + do 3 right. left. apply elem_of_list_In, in_map_iff in H as (ns & <- & H). exists ns. split; [apply elem_of_list_In, H|reflexivity].
    + do 4 right. apply elem_of_list_In, in_concat in H as (x & H & K). apply in_map_iff in H as (ns & <- & H). unfold call_keys in K. apply in_map_iff in K as (i & <- & K). apply in_seq in K.
      exists ns, (Z.of_nat i). split; [apply elem_of_list_In, H|]. split; [lia|reflexivity].
  - intros [H|[H|[H|[(ns & H & ->)|(ns & nr & H & R & ->)]]]]; [tauto..| |].
    + right. left. apply elem_of_list_In, in_map, elem_of_list_In, H.
    + right. right. apply elem_of_list_In, in_concat. exists (call_keys ns). split; [apply in_map, elem_of_list_In, H|]. apply in_map_iff. exists (Z.to_nat nr). rewrite Z2Nat.id by lia. split; [reflexivity|]. apply in_seq. lia.
Qed.
Lemma all_keys_mono mns kns mns' kns' k : (forall x, x ∈ mns -> x ∈ mns') -> (forall x, x ∈ kns -> x ∈ kns') -> k ∈ all_keys mns kns -> k ∈ all_keys mns' kns'.
Proof. rewrite !all_keys_in. intros A B [H|[H|[H|[(ns & H & E)|(ns & nr & H & R & E)]]]]; [tauto..| |]; [do 3 right; left|do 4 right]; eauto 10. Qed.
Lemma held_mono ks ks' m : (forall k, k ∈ ks -> k ∈ ks') -> held ks m -> held ks' m.
Proof. intros H [A B]. split; [|exact B]. intros k K. exact (H k (A k K)). Qed.
Lemma proper_app l l' : proper (l ++ l') = proper l ++ proper l'.
Proof. apply omap_app. Qed.
Lemma jobbed_app l l' : jobbed (l ++ l') = jobbed l ++ jobbed l'.
Proof. apply omap_app. Qed.
Lemma switched_app l l' : switched (l ++ l') = switched l ++ switched l'.
Proof. apply omap_app. Qed.
Lemma proper_switched l ns : ns ∈ proper l -> ns ∈ switched l.
Proof.
  unfold proper, switched. rewrite !elem_of_list_omap. intros (o & H & E). exists o. split; [exact H|]. destruct o as [| |start n| | | | | |]; try discriminate. destruct start; [|discriminate].
  destruct (decide (n = -1)); [discriminate|exact E].
Qed.

Lemma add_metrics_any ns m : ns <> -1 -> puts_rule m (add_metrics tbl ns m) (metrics_rule (u32 ns)) FilterSpec.fresh.
Proof.
  intros N. Local Transparent add_metrics. unfold add_metrics, with_rule. rewrite metrics_new_rule. destruct (Z.eqb_spec ns (-1)) as [|_]; [contradiction|].
  exact (add_rule_puts (FKey (4 + 2 ^ 14) (u32 ns) 0 0) FilterSpec.fresh m). Local Opaque add_metrics.
Qed.
Lemma add_metrics_none m : puts_rule m (add_metrics tbl (-1) m) (FKey 4 0 0 (-1)) FilterSpec.fresh.
Proof. Local Transparent add_metrics. unfold add_metrics, with_rule. rewrite metrics_new_rule. exact (add_rule_puts (FKey 4 0 0 0) FilterSpec.fresh m). Local Opaque add_metrics. Qed.
Lemma edits_held ks o f m : edits o f -> FKey 4 0 0 (-1) ∈ ks -> (forall j c nr, o = SJob j true c -> 0 <= nr <= 332 -> syscall_rule (ct_ns c) nr ∈ ks) ->
  (forall ns, o = SMeter true ns -> ns <> -1 -> metrics_rule (u32 ns) ∈ ks) -> held ks m -> held ks (fstep tbl f m).
Proof.
  Local Transparent fstep. intros Ed Ka Kj Km H. destruct f as [a ns|a ns rate|a ns|ns|ns| |mode t]; cbn [edits] in Ed; cbn [fstep].
  - destruct Ed as (j & c & nr & -> & -> & -> & K & R & P). eapply held_put; [exact (Kj _ _ _ eq_refl R)| |apply (add_syscall_puts tbl nr); [exact G|exact K|unfold kernel_ns; lia]|exact H]. right. left.
  - destruct Ed as (j & c & nr & -> & -> & -> & K & R & P). eapply held_put; [exact (Kj _ _ _ eq_refl R)| |apply (add_sampled_puts tbl nr); [exact G|exact K|unfold kernel_ns; lia]|exact H]. right. left.
  - destruct (remove_any tbl a ns m) as [C F]. exact (held_delete ks _ _ C F H).
  - subst o. destruct (decide (ns = -1)) as [->|N].
    + eapply held_put; [exact Ka| |apply add_metrics_none|exact H]. do 3 right. left.
    + eapply held_put; [exact (Km _ eq_refl N)| |apply (add_metrics_any ns _ N)|exact H]. do 2 right. left.
  - destruct (remove_metrics_any tbl ns m) as [C (k & _ & F)]. refine (held_delete ks _ _ C _ H). right. exists k. exact F.
  - destruct Ed.
  - exact (held_run ks mode t m H).
  Local Opaque fstep.
Qed.
Lemma edited_held ks o m m' : edited o m m' -> FKey 4 0 0 (-1) ∈ ks -> (forall j c nr, o = SJob j true c -> 0 <= nr <= 332 -> syscall_rule (ct_ns c) nr ∈ ks) ->
  (forall ns, o = SMeter true ns -> ns <> -1 -> metrics_rule (u32 ns) ∈ ks) -> held ks m -> held ks m'.
Proof.
  intros (os & F & ->) Ka Kj Km. revert m F. induction os as [|f os IH]; intros m F H; [exact H|]. inversion F as [|? ? Ef F']; subst. cbn [fsteps fold_left]. apply IH; [exact F'|].
  exact (edits_held ks o f m Ef Ka Kj Km H).
Qed.

Context (h0 : hub) (H0 : new_hub tbl = Some h0) (s0 : server) (E0 : start_server tbl = Some s0).
Lemma s0_hub : w_hub (sv_world s0) = h0.
Proof. exact (start_hub tbl h0 H0 s0 E0). Qed.

Lemma rules_held : forall l s rs, Forall plausible l -> run s0 l s rs -> held (rules_of l) (maps (w_hub (sv_world s))).
Proof.
  intros l. induction l as [|o l IH] using rev_ind; intros s rs F R.
  - apply srun_nil in R as [-> ->]. rewrite s0_hub. apply (start_held tbl G h0 H0); [left|right; left].
  - apply Forall_app in F as [F Fo]. apply Forall_cons in Fo as [Fo _]. apply srun_snoc in R as (s1 & rs1 & r & R & S & ->).
    eapply edited_held; [exact (step_edits _ _ _ _ Fo S)| | | |].
    + do 2 right. left.
    + intros j c nr -> Rg. apply call_key_in; [|exact Rg]. rewrite jobbed_app. apply elem_of_app. right. left.
    + intros ns -> N. apply meter_key_in. rewrite proper_app. apply elem_of_app. right. unfold proper. cbn [omap list_omap]. rewrite decide_False by exact N. left.
    + refine (held_mono _ _ _ _ (IH _ _ F R)). intros k. apply all_keys_mono; intros x Hx; rewrite ?jobbed_app, ?proper_app; apply elem_of_app; left; exact Hx.
Qed.
Lemma rules_room l s rs : Forall plausible l -> few_rules l -> run s0 l s rs ->
  (size (config (maps (w_hub (sv_world s)))) < config_max)%nat /\ (size (nfilter (maps (w_hub (sv_world s)))) < nfilter_max)%nat.
Proof.
  intros F FR R. set (mns := elements (list_to_set (jobbed l) : gset Z)). set (kns := elements (list_to_set (switched l) : gset Z)).
  apply (held_room (all_keys mns kns)).
  - refine (held_mono _ _ _ _ (rules_held _ _ _ F R)). intros k. apply all_keys_mono; intros x Hx; apply elem_of_elements, elem_of_list_to_set; [exact Hx|exact (proper_switched _ _ Hx)].
  - rewrite all_keys_length. unfold few_rules in FR. change (size (list_to_set (jobbed l) : gset Z)) with (length mns) in FR. change (size (list_to_set (switched l) : gset Z)) with (length kns) in FR. lia.
Qed.

(** * Whose metrics are on *)

Lemma metered_nil ns : metered [] ns 0 <-> ns = 31337.
Proof. split; [intros [H|(q & ns' & H & _)]; [exact H|lia]|left; assumption]. Qed.
Lemma metered_snoc l o ns : metered (l ++ [o]) ns (length (l ++ [o])) <->
  metered l ns (length l) \/ exists ns', o = SMeter true ns' /\ ns' <> -1 /\ ns' mod 2 ^ 32 = ns.
Proof.
  unfold metered. rewrite app_length. cbn [length]. split.
  - intros [H|(q & ns' & Hq & Hl & H)]; [left; left; exact H|]. apply lookup_snoc in Hl as [Hl|[-> ->]]; [|right; exists ns'; split; [reflexivity|exact H]].
    left. right. exists q, ns'. split; [exact (lookup_lt_Some _ _ _ Hl)|]. split; [exact Hl|exact H].
  - intros [[H|(q & ns' & Hq & Hl & H)]|(ns' & -> & H)]; [left; exact H|right..].
    + exists q, ns'. split; [lia|]. split; [apply lookup_app_l_Some; exact Hl|exact H].
    + exists (length l), ns'. split; [lia|]. split; [rewrite lookup_app_r, Nat.sub_diag by lia; reflexivity|exact H].
Qed.
Lemma metered_take l ns k : metered (take k l) ns (length (take k l)) -> metered l ns k.
Proof.
  intros [H|(q & ns' & Hq & Hl & H)]; [left; exact H|]. right. rewrite take_length in Hq. rewrite lookup_take in Hl by lia. exists q, ns'. split; [lia|]. split; [exact Hl|exact H].
Qed.
Lemma metered_take' l ns k : (k <= length l)%nat -> metered l ns k -> metered (take k l) ns (length (take k l)).
Proof.
  intros L [H|(q & ns' & Hq & Hl & H)]; [left; exact H|]. right. exists q, ns'. rewrite take_length. split; [lia|]. rewrite lookup_take by lia. split; [exact Hl|exact H].
Qed.

Definition on (m : kmaps) (ns : Z) : Prop := configured m 1 /\ configured m (4 + 2 ^ 14) /\ allows m (metrics_rule ns).
Lemma on_fsteps ns : forall os m, on m ns -> on (fsteps tbl os m) ns.
Proof.
  intros os m H. apply (fsteps_ind tbl (fun m => on m ns)); [|exact H]. intros o x (A & B & C). split; [apply fstep_config; exact A|]. split; [apply fstep_config; exact B|]. apply fstep_metrics; [exact G|exact C].
Qed.
Lemma on_put ns m r : configured m 1 -> puts_rule m r (metrics_rule ns) FilterSpec.fresh -> r.2 = true -> on r.1 ns.
Proof.
  intros C [P _] E. destruct (P E) as [Pf Pc]. split; [|split].
  - destruct C as (v & Hv & Hn). exists v. rewrite Pc, lookup_insert_ne by discriminate. split; assumption.
  - exists 1. rewrite Pc, lookup_insert. split; [reflexivity|discriminate].
  - exists 0, 0. rewrite Pf, lookup_insert. reflexivity.
Qed.
Lemma start_on : on (maps h0) 31337.
Proof.
  unfold new_hub in H0. destruct (new_hub_maps tbl) as [m|] eqn:E; [|discriminate]. injection H0 as <-. cbn [maps].
  unfold new_hub_maps in E. cbn [filter_self negb] in E. destruct (add_syscall tbl (ByString stub_syscall) 0 (KMaps ∅ ∅)) as [m2 b2]. destruct b2; [|discriminate E]. cbn [negb fst] in E.
  pose proof (add_metrics_any stub_metrics_ns m2 ltac:(discriminate)) as [P _].
  destruct (add_metrics tbl stub_metrics_ns m2) as [m3 b3]. destruct b3; [|discriminate E]. cbn [negb fst snd] in E, P. destruct (P eq_refl) as [Pf Pc].
  unfold enable in E. destruct (map_update config_max (config m3) mode_enabled 1) as [c|] eqn:Em; [|discriminate E]. apply map_update_some in Em as ->. cbn [negb] in E. injection E as <-.
  split; [|split].
  - exists 1. cbn [config]. rewrite lookup_insert. split; [reflexivity|discriminate].
  - exists 1. cbn [config]. rewrite lookup_insert_ne by discriminate. rewrite Pc, lookup_insert. split; [reflexivity|discriminate].
  - exists 0, 0. cbn [nfilter]. rewrite Pf, lookup_insert. reflexivity.
Qed.
Lemma metered_on : forall l s rs, Forall plausible l -> few_rules l -> run s0 l s rs -> forall ns, metered l ns (length l) -> on (maps (w_hub (sv_world s))) ns.
Proof.
  intros l. induction l as [|o l IH] using rev_ind; intros s rs F FR R ns M.
  - apply srun_nil in R as [-> ->]. apply metered_nil in M as ->. rewrite s0_hub. exact start_on.
  - apply Forall_app in F as [F Fo]. apply Forall_cons in Fo as [Fo _]. apply srun_snoc in R as (s1 & rs1 & r & R & S & ->).
    assert (FR1 : few_rules l).
    { unfold few_rules in *. pose proof (subseteq_size (list_to_set (jobbed l) : gset Z) (list_to_set (jobbed (l ++ [o])))) as A. pose proof (subseteq_size (list_to_set (switched l) : gset Z) (list_to_set (switched (l ++ [o])))) as B.
      rewrite jobbed_app, list_to_set_app_L in *. rewrite switched_app, list_to_set_app_L in *. specialize (A ltac:(set_solver)). specialize (B ltac:(set_solver)). lia. }
    apply metered_snoc in M as [M|(ns' & -> & N & <-)].
    + destruct (step_edits _ _ _ _ Fo S) as (os & _ & ->). apply on_fsteps. exact (IH _ _ F FR1 R ns M).
    + destruct (rules_room _ _ _ F FR1 R) as [R1 R2].
      assert (C : configured (maps (w_hub (sv_world s1))) 1) by (apply (IH _ _ F FR1 R 31337); left; reflexivity).
      pose proof (step_do _ _ _ _ _ _ _ S ltac:(discriminate)) as E. cbn [sdo] in E. unfold meter_step in E. cbn [hstep] in E. apply Some_inj, pair_equal_spec in E as [<- <-].
      change (maps (w_hub (sv_world (with_world s1 (with_hub (sv_world s1) (set_maps (w_hub (sv_world s1)) (add_metrics tbl ns' (maps (w_hub (sv_world s1)))).1))))))
        with (add_metrics tbl ns' (maps (w_hub (sv_world s1)))).1.
      apply on_put with (m := maps (w_hub (sv_world s1))); [exact C|apply add_metrics_any; exact N|].
      Local Transparent add_metrics. unfold add_metrics, with_rule. rewrite metrics_new_rule. unfold add_rule. rewrite (update_room config_max) by exact R1. rewrite (update_room nfilter_max) by exact R2. reflexivity.
      Local Opaque add_metrics.
Qed.
Lemma metered_iff l s rs t : Forall plausible l -> few_rules l -> run s0 l s rs ->
  (run_nfilter 4 t (maps (w_hub (sv_world s)))).2 <> 1 <-> metered l (t_pidns t) (length l).
Proof.
  intros F FR R. rewrite (verdict_exact _ 4 t (s32 (u32 (t_id t)))) by (reflexivity || (right; reflexivity)). split.
  - intros (_ & k & v & (i & Hs & _ & Hf & _) & _). destruct (rules_held _ _ _ F R) as [A _]. specialize (A k (ex_intro _ v Hf)). apply all_keys_in in A.
    assert (X : k = metrics_rule (t_pidns t) \/ k_flags k ∈ [4 + 2^13 + 2^14 + 2^15; 4 + 2^14 + 2^15; 4 + 2^13 + 2^15; 4 + 2^15]).
    { unfold subjects in Hs. destruct i as [|[|[|[|[|i]]]]]; cbn in Hs; [..|discriminate]; injection Hs as <-; [left; reflexivity|right; cbn; set_solver..]. }
    destruct X as [->|X].
    + destruct A as [A|[A|[A|[(ns & A & B)|(ns & nr & _ & _ & A)]]]]; try discriminate A.
      * left. injection A as A. exact A.
      * right. injection B as B. unfold proper in A. apply elem_of_list_omap in A as (o & A & Eo). destruct o as [| |start n| | | | | |]; try discriminate Eo. destruct start; [|discriminate Eo].
        destruct (decide (n = -1)) as [|N]; [discriminate Eo|]. injection Eo as Eo. apply elem_of_list_lookup in A as [q A]. exists q, n. split; [exact (lookup_lt_Some _ _ _ A)|]. split; [exact A|]. split; [exact N|]. rewrite B, <- Eo. reflexivity.
    + exfalso. destruct A as [->|[->|[->|[(ns & _ & ->)|(ns & nr & _ & _ & ->)]]]]; cbn [k_flags syscall_rule metrics_rule] in X; repeat (apply elem_of_cons in X as [X|X]; [discriminate X|]); apply elem_of_nil in X; exact X.
  - intros M. destruct (metered_on _ _ _ F FR R _ M) as (C1 & C2 & c & h & C3). split; [exact C1|]. exists (metrics_rule (t_pidns t)), (FVal 0 c h 0). split; [|split; [discriminate|left; reflexivity]].
    exists 0%nat. split; [reflexivity|]. split; [exact C2|]. split; [exact C3|]. intros j k' Hj. lia.
Qed.

(** * Counting *)

Lemma step_metrics s o s' r : step s o (Some (s', r)) ->
  match o with
  | STask x _ _ _ _ => w_metrics (sv_world s') = ks_metrics (kstep tbl (kernel_of (sv_world s)) x).1
  | _ => w_metrics (sv_world s') = w_metrics (sv_world s)
  end.
Proof.
  intros S. destruct o as [o su sc tr lost|start c|start ns|j start c|id|i| |p takes|a].
  - pose proof (step_do _ _ _ _ _ _ _ S ltac:(discriminate)) as E. cbn [sdo] in E. unfold task_step in E. fold (kernel_of (sv_world s)) in E. destruct (kstep tbl (kernel_of (sv_world s)) o) as [ks kr].
    apply Some_inj, pair_equal_spec in E as [<- <-]. reflexivity.
  - pose proof (step_do _ _ _ _ _ _ _ S ltac:(discriminate)) as E. cbn [sdo] in E. apply Some_inj, pair_equal_spec in E as [<- <-]. reflexivity.
  - destruct (other_out _ _ _ _ _ _ _ _ S) as (_ & _ & h & ->); [discriminate..|reflexivity].
  - destruct (other_out _ _ _ _ _ _ _ _ S) as (_ & _ & h & ->); [discriminate..|reflexivity].
  - destruct (other_out _ _ _ _ _ _ _ _ S) as (_ & _ & h & ->); [discriminate..|reflexivity].
  - destruct (read_step_cases _ _ _ _ _ _ _ _ S) as (_ & [(Ew & _ & _)|(_ & k & bs & Er & [(_ & _ & _ & Ew)|(t & rw & h & ps & _ & _ & _ & Oe & _ & Ew & _)])]); rewrite Ew; reflexivity.
  - destruct (other_out _ _ _ _ _ _ _ _ S) as (_ & _ & h & ->); [discriminate..|reflexivity].
  - destruct (other_out _ _ _ _ _ _ _ _ S) as (_ & _ & h & ->); [discriminate..|reflexivity].
  - destruct (other_out _ _ _ _ _ _ _ _ S) as (_ & _ & h & ->); [discriminate..|reflexivity].
Qed.

Lemma fill_iff upd t st : (fill_metrics upd t st).2 <> None <-> (run_nfilter 4 t (ks_filter st)).2 <> 1 /\ u32 (t_id t) <> 2 ^ 32 - 1.
Proof.
  unfold fill_metrics. change mode_metrics with 4. destruct (run_nfilter 4 t (ks_filter st)) as [f v]. cbn [snd]. unfold action_drop. destruct (Z.eqb_spec v 1) as [->|N]; [cbn [snd]; tauto|].
  destruct (Z.eqb_spec (u32 (t_id t)) 0xFFFFFFFF) as [E|N2].
  - cbn [snd]. split; [intros H; destruct (H eq_refl)|]. intros [_ H]. destruct (H E).
  - destruct (upd _ _ _). cbn [snd]. split; [intros _; split; [exact N|exact N2]|discriminate].
Qed.
Lemma metric_exit st tid t ret now cpu : o_metric (kstep tbl st (KExit tid t ret now cpu)).2 <> None <-> (run_nfilter 4 t (ks_filter st)).2 <> 1 /\ u32 (t_id t) <> 2 ^ 32 - 1.
Proof.
  Local Transparent kstep. cbn [kstep]. unfold sys_exit. rewrite <- (fill_iff (fun ns nr => update_metrics ns nr (ret_err ret) now) t st).
  destruct (fill_metrics _ t st) as [s1 mo]. cbn [snd]. destruct (ks_calls s1 !! tid); [|reflexivity]. destruct (negb _); [reflexivity|]. destruct (negb _); reflexivity.
  Local Opaque kstep.
Qed.
Lemma metric_enter st tid t args ugid now : o_metric (kstep tbl st (KEnter tid t args ugid now)).2 <> None <-> (run_nfilter 4 t (ks_filter st)).2 <> 1 /\ u32 (t_id t) <> 2 ^ 32 - 1.
Proof.
  Local Transparent kstep. cbn [kstep]. unfold sys_enter. rewrite <- (fill_iff (fun ns nr => update_metrics_ktime ns nr now) t st).
  destruct (fill_metrics _ t st) as [s1 mo]. cbn [snd]. destruct (_ =? nr_execve); [reflexivity|]. destruct (run_nfilter _ _ _) as [f v]. destruct (v =? _); [reflexivity|]. destruct (store _ _ _ _). reflexivity.
  Local Opaque kstep.
Qed.

(** ** Histories with one more step *)
Definition exits_now (o : sop) (ns nr e : Z) : Prop :=
  exists tid t ret now cpu su sc tr lost, o = STask (KExit tid t ret now cpu) su sc tr lost /\ t_pidns t = ns /\ t_id t mod 2 ^ 32 = nr /\ KernelSpec.errno_of ret = e.
Definition enters_now (o : sop) (ns nr : Z) : Prop :=
  exists tid t args ugid now su sc tr lost, o = STask (KEnter tid t args ugid now) su sc tr lost /\ t_pidns t = ns /\ t_id t mod 2 ^ 32 = nr.
Definition prunes_now (o : sop) (ns : Z) : Prop := exists ns' su sc tr lost, o = STask (KPrune ns') su sc tr lost /\ ns' mod 2 ^ 32 = ns.

Lemma did_lt l k x : did (story l) k x -> (k < length l)%nat.
Proof. intros (su & sc & tr & lost & H). apply lookup_lt_Some in H. unfold story in H. rewrite map_length in H. exact H. Qed.
Lemma did_snoc l o k x : did (story (l ++ [o])) k x <-> did (story l) k x \/ (k = length l /\ exists su sc tr lost, o = STask x su sc tr lost).
Proof.
  unfold did, story. rewrite map_app. cbn [map]. split.
  - intros (su & sc & tr & lost & H). apply lookup_snoc in H as [H|[-> H]]; [left; eauto|]. right. rewrite map_length. split; [reflexivity|]. exists su, sc, tr, lost. destruct o; try discriminate H. cbn [machine] in H. injection H as -> -> -> -> ->. reflexivity.
  - intros [(su & sc & tr & lost & H)|[-> (su & sc & tr & lost & ->)]]; exists su, sc, tr, lost.
    + apply lookup_app_l_Some. exact H.
    + rewrite lookup_app_r, map_length, Nat.sub_diag by (rewrite map_length; lia). reflexivity.
Qed.
Lemma leaves_lt l ns nr e k : leaves l ns nr e k -> (k < length l)%nat.
Proof. intros (tid & t & ret & now & cpu & D & _). exact (did_lt _ _ _ D). Qed.
Lemma enters_lt l ns nr k : enters l ns nr k -> (k < length l)%nat.
Proof. intros (tid & t & a & u & now & D & _). exact (did_lt _ _ _ D). Qed.
Lemma leaves_snoc l o ns nr e k : leaves (l ++ [o]) ns nr e k <-> leaves l ns nr e k \/ (k = length l /\ exits_now o ns nr e).
Proof.
  unfold leaves, exits_now. split.
  - intros (tid & t & ret & now & cpu & D & H). apply did_snoc in D as [D|[-> (su & sc & tr & lost & ->)]]; [left|right; split; [reflexivity|]]; exists tid, t, ret, now, cpu; [split; [exact D|exact H]|].
    exists su, sc, tr, lost. split; [reflexivity|exact H].
  - intros [(tid & t & ret & now & cpu & D & H)|(-> & tid & t & ret & now & cpu & su & sc & tr & lost & -> & H)]; exists tid, t, ret, now, cpu; (split; [apply did_snoc|exact H]); [left; exact D|right; split; [reflexivity|]; exists su, sc, tr, lost; reflexivity].
Qed.
Lemma enters_snoc l o ns nr k : enters (l ++ [o]) ns nr k <-> enters l ns nr k \/ (k = length l /\ enters_now o ns nr).
Proof.
  unfold enters, enters_now. split.
  - intros (tid & t & a & u & now & D & H). apply did_snoc in D as [D|[-> (su & sc & tr & lost & ->)]]; [left|right; split; [reflexivity|]]; exists tid, t, a, u, now; [split; [exact D|exact H]|].
    exists su, sc, tr, lost. split; [reflexivity|exact H].
  - intros [(tid & t & a & u & now & D & H)|(-> & tid & t & a & u & now & su & sc & tr & lost & -> & H)]; exists tid, t, a, u, now; (split; [apply did_snoc|exact H]); [left; exact D|right; split; [reflexivity|]; exists su, sc, tr, lost; reflexivity].
Qed.
Lemma pruned_snoc l o ns k : (k < length l)%nat -> pruned_after (l ++ [o]) ns k <-> pruned_after l ns k \/ prunes_now o ns.
Proof.
  intros L. unfold pruned_after, prunes_now. split.
  - intros (q & ns' & Hq & D & E). apply did_snoc in D as [D|[-> (su & sc & tr & lost & ->)]]; [left; eauto 10|right; eauto 10].
  - intros [(q & ns' & Hq & D & E)|(ns' & su & sc & tr & lost & -> & E)]; [exists q, ns'; split; [exact Hq|]; split; [apply did_snoc; left; exact D|exact E]|].
    exists (length l), ns'. split; [exact L|]. split; [apply did_snoc; right; split; [reflexivity|eauto 10]|exact E].
Qed.
Lemma pruned_last l o ns : ~ pruned_after (l ++ [o]) ns (length l).
Proof. intros (q & ns' & Hq & D & _). apply did_lt in D. rewrite app_length in D. cbn [length] in D. lia. Qed.
Lemma metered_le l o ns k : (k <= length l)%nat -> metered (l ++ [o]) ns k <-> metered l ns k.
Proof.
  intros L. unfold metered. split; (intros [H|(q & ns' & Hq & Hl & H)]; [left; exact H|right; exists q, ns'; split; [exact Hq|]; split; [|exact H]]).
  - rewrite lookup_app_l in Hl by lia. exact Hl.
  - apply lookup_app_l_Some. exact Hl.
Qed.
Lemma counts_snoc l o ns nr e k : counts (l ++ [o]) ns nr e k <->
  (counts l ns nr e k /\ ~ prunes_now o ns) \/ (k = length l /\ exits_now o ns nr e /\ metered l ns (length l) /\ nr <> 2 ^ 32 - 1).
Proof.
  unfold counts. rewrite leaves_snoc. split.
  - intros ([H|[-> H]] & M & N & P).
    + pose proof (leaves_lt _ _ _ _ _ H) as L. rewrite pruned_snoc in P by exact L. rewrite metered_le in M by lia. left. tauto.
    + rewrite metered_le in M by lia. right. tauto.
  - intros [((H & M & N & P) & Q)|(-> & H & M & N)].
    + pose proof (leaves_lt _ _ _ _ _ H) as L. rewrite pruned_snoc by exact L. rewrite metered_le by lia. tauto.
    + rewrite metered_le by lia. pose proof (pruned_last l o ns). tauto.
Qed.
Lemma shows_lt l ns nr e k : shows l ns nr e k -> (k < length l)%nat.
Proof. intros ([H|[_ H]] & _); [exact (leaves_lt _ _ _ _ _ H)|exact (enters_lt _ _ _ _ H)]. Qed.
Lemma shows_snoc l o ns nr e k : shows (l ++ [o]) ns nr e k <->
  (shows l ns nr e k /\ ~ prunes_now o ns) \/ (k = length l /\ (exits_now o ns nr e \/ (e = 0 /\ enters_now o ns nr)) /\ metered l ns (length l) /\ nr <> 2 ^ 32 - 1).
Proof.
  unfold shows. rewrite leaves_snoc, enters_snoc. split.
  - intros (H & M & N & P). assert (X : (leaves l ns nr e k \/ (e = 0 /\ enters l ns nr k)) \/ (k = length l /\ (exits_now o ns nr e \/ (e = 0 /\ enters_now o ns nr)))) by tauto. destruct X as [X|[-> X]].
    + assert (L : (k < length l)%nat) by (destruct X as [X|[_ X]]; [exact (leaves_lt _ _ _ _ _ X)|exact (enters_lt _ _ _ _ X)]). rewrite pruned_snoc in P by exact L. rewrite metered_le in M by lia. left. tauto.
    + rewrite metered_le in M by lia. right. tauto.
  - intros [((H & M & N & P) & Q)|(-> & H & M & N)].
    + assert (L : (k < length l)%nat) by (destruct H as [X|[_ X]]; [exact (leaves_lt _ _ _ _ _ X)|exact (enters_lt _ _ _ _ X)]). rewrite pruned_snoc by exact L. rewrite metered_le by lia. tauto.
    + rewrite metered_le by lia. pose proof (pruned_last l o ns). tauto.
Qed.

(** ** The counters *)
Record tally (l : list sop) (m : gmap mkey mval) : Prop := Tally {
  ta_dom : forall k, is_Some (m !! k) -> k ∈ counters l;
  ta_count : forall ns nr e, exists ks, NoDup ks /\ (forall k, k ∈ ks <-> counts l ns nr e k) /\ KernelProofs.cnt m (MKey ns nr e) = Z.of_nat (length ks) mod 2 ^ 64;
  ta_shown : forall ns nr e, is_Some (m !! MKey ns nr e) <-> exists k, shows l ns nr e k
}.
Lemma counters_snoc l o : counters (l ++ [o]) = counters l ++ counters [o].
Proof. unfold counters. rewrite omap_app. reflexivity. Qed.
Lemma few_counters_app l o : few_counters (l ++ [o]) -> few_counters l.
Proof.
  clear. unfold few_counters. intros H. pose proof (subseteq_size (list_to_set (counters l) : gset mkey) (list_to_set (counters (l ++ [o])))) as A.
  rewrite counters_snoc, list_to_set_app_L in A, H. specialize (A ltac:(apply union_subseteq_l)). lia.
Qed.
Lemma few_rules_app l o : few_rules (l ++ [o]) -> few_rules l.
Proof.
  clear. intros FR. unfold few_rules in *. pose proof (subseteq_size (list_to_set (jobbed l) : gset Z) (list_to_set (jobbed (l ++ [o])))) as A. pose proof (subseteq_size (list_to_set (switched l) : gset Z) (list_to_set (switched (l ++ [o])))) as B.
  rewrite jobbed_app, list_to_set_app_L in *. rewrite switched_app, list_to_set_app_L in *. specialize (A ltac:(set_solver)). specialize (B ltac:(set_solver)). lia.
Qed.
Lemma room_for l o (m : gmap mkey mval) k v : (forall k, is_Some (m !! k) -> k ∈ counters l) -> few_counters (l ++ [o]) -> k ∈ counters [o] -> store metrics_max m k v = (<[k := v]> m, true).
Proof.
  intros D FC K. unfold store, map_update. destruct (m !! k) eqn:Em; [reflexivity|]. rewrite decide_True; [reflexivity|].
  unfold few_counters in FC. change metrics_max with (Z.to_nat 65535). eapply Nat.lt_le_trans; [|exact FC]. rewrite <- (size_dom (D:=gset mkey)). apply subset_size. split.
  - intros x Hx. apply elem_of_list_to_set. rewrite counters_snoc. apply elem_of_app. left. apply D. apply elem_of_dom. exact Hx.
  - intros X. assert (Y : k ∈ dom m). { apply X, elem_of_list_to_set. rewrite counters_snoc. apply elem_of_app. right. exact K. } apply elem_of_dom in Y as [y Y]. rewrite Em in Y. discriminate.
Qed.
(** A step that touches no counter. *)
Lemma tally_same l o m : (forall ns nr e, ~ (exits_now o ns nr e /\ metered l ns (length l) /\ nr <> 2 ^ 32 - 1)) -> (forall ns nr, ~ (enters_now o ns nr /\ metered l ns (length l) /\ nr <> 2 ^ 32 - 1)) -> (forall ns, ~ prunes_now o ns) -> tally l m -> tally (l ++ [o]) m.
Proof.
  intros A B C [D E F]. split.
  - intros k H. rewrite counters_snoc. apply elem_of_app. left. exact (D k H).
  - intros ns nr e. destruct (E ns nr e) as (ks & H1 & H2 & H3). exists ks. split; [exact H1|]. split; [|exact H3]. intros k. rewrite H2, counts_snoc. specialize (A ns nr e). specialize (C ns). tauto.
  - intros ns nr e. rewrite F. split; intros [k H]; exists k; revert H; rewrite shows_snoc; specialize (A ns nr e); specialize (B ns nr); specialize (C ns); tauto.
Qed.
Lemma exits_task tid t ret now cpu su sc tr lost ns nr e : exits_now (STask (KExit tid t ret now cpu) su sc tr lost) ns nr e <-> MKey ns nr e = MKey (t_pidns t) (t_id t mod 2 ^ 32) (KernelSpec.errno_of ret).
Proof.
  split; [|intros [= -> -> ->]; exists tid, t, ret, now, cpu, su, sc, tr, lost; repeat split; reflexivity].
  intros (tid' & t' & ret' & now' & cpu' & su' & sc' & tr' & lost' & E & <- & <- & <-). injection E as -> -> -> -> -> -> -> -> ->. reflexivity.
Qed.
Lemma enters_task tid t args ugid now su sc tr lost ns nr : enters_now (STask (KEnter tid t args ugid now) su sc tr lost) ns nr <-> ns = t_pidns t /\ nr = t_id t mod 2 ^ 32.
Proof.
  split; [|intros [-> ->]; exists tid, t, args, ugid, now, su, sc, tr, lost; repeat split; reflexivity].
  intros (tid' & t' & a' & u' & now' & su' & sc' & tr' & lost' & E & <- & <-). injection E as -> -> -> -> -> -> -> -> ->. split; reflexivity.
Qed.
Lemma prunes_task x su sc tr lost ns : prunes_now (STask (KPrune x) su sc tr lost) ns <-> ns = x mod 2 ^ 32.
Proof.
  split; [|intros ->; exists x, su, sc, tr, lost; split; reflexivity].
  intros (x' & su' & sc' & tr' & lost' & E & <-). injection E as -> -> -> -> ->. reflexivity.
Qed.
Lemma tally_exit l m tid t ret now cpu su sc tr lost :
  let o := STask (KExit tid t ret now cpu) su sc tr lost in
  few_counters (l ++ [o]) -> metered l (t_pidns t) (length l) -> u32 (t_id t) <> 2 ^ 32 - 1 -> tally l m ->
  tally (l ++ [o]) (update_metrics (t_pidns t) (u32 (t_id t)) (ret_err ret) now m).1.
Proof.
  intros o FC M N [D E F]. set (K := MKey (t_pidns t) (t_id t mod 2 ^ 32) (KernelSpec.errno_of ret)).
  assert (U : exists v, update_metrics (t_pidns t) (u32 (t_id t)) (ret_err ret) now m = (<[K := v]> m, true)).
  { unfold update_metrics. pose proof (exit_key (t_pidns t) (u32 (t_id t)) ret now m) as X. destruct (exit_metric _ _ _ _ _) as [k v]. cbn [fst] in X. subst k. exists v. apply (room_for l o); [exact D|exact FC|]. left. }
  assert (NP : forall ns, ~ prunes_now o ns). { intros ns (x & a & b & c & d & X & _). discriminate X. }
  assert (NE : forall ns nr, ~ enters_now o ns nr). { intros ns nr (a1 & a2 & a3 & a4 & a5 & a6 & a7 & a8 & a9 & X & _). discriminate X. }
  destruct U as [v U]. split.
  - intros k H. rewrite U in H. cbn [fst] in H. rewrite counters_snoc. apply elem_of_app. destruct (decide (k = K)) as [->|Nk]; [right; left|]. rewrite lookup_insert_ne in H by congruence. left. exact (D k H).
  - intros ns nr e. destruct (E ns nr e) as (ks & H1 & H2 & H3). rewrite update_count by (rewrite U; reflexivity). change (MKey (t_pidns t) (u32 (t_id t)) (KernelSpec.errno_of ret)) with K. destruct (decide (MKey ns nr e = K)) as [EK|NK].
    + exists (length l :: ks). split; [|split].
      * constructor; [|exact H1]. rewrite H2. intros (X & _). apply leaves_lt in X. lia.
      * intros k. rewrite elem_of_cons, H2, counts_snoc. specialize (NP ns). pose proof (proj2 (exits_task tid t ret now cpu su sc tr lost ns nr e) EK) as X. injection EK as -> -> ->. unfold u32 in N. change (2 ^ 32) with 4294967296 in *. tauto.
      * rewrite H3. cbn [length]. unfold FilterModel.u64. rewrite Z.add_mod_idemp_l by lia. f_equal. lia.
    + exists ks. split; [exact H1|]. split; [|exact H3]. intros k. rewrite H2, counts_snoc. specialize (NP ns). unfold o. rewrite exits_task. fold K. tauto.
  - intros ns nr e. rewrite U. cbn [fst]. destruct (decide (MKey ns nr e = K)) as [EK|NK].
    + rewrite EK, lookup_insert. split; [|intros _; eexists; reflexivity]. intros _. exists (length l). apply shows_snoc. right. split; [reflexivity|]. split; [left; apply exits_task; exact EK|]. injection EK as -> -> ->. split; [exact M|exact N].
    + rewrite lookup_insert_ne by congruence. rewrite F. split; intros [k H]; exists k; revert H; rewrite shows_snoc; specialize (NP ns); specialize (NE ns nr); unfold o in *; rewrite exits_task; fold K; tauto.
Qed.
Lemma tally_enter l m tid t args ugid now su sc tr lost :
  let o := STask (KEnter tid t args ugid now) su sc tr lost in
  few_counters (l ++ [o]) -> metered l (t_pidns t) (length l) -> u32 (t_id t) <> 2 ^ 32 - 1 -> tally l m ->
  tally (l ++ [o]) (update_metrics_ktime (t_pidns t) (u32 (t_id t)) now m).1.
Proof.
  intros o FC M N [D E F]. set (K := MKey (t_pidns t) (t_id t mod 2 ^ 32) 0).
  assert (U : exists v, update_metrics_ktime (t_pidns t) (u32 (t_id t)) now m = (<[K := v]> m, true)).
  { unfold update_metrics_ktime. eexists. apply (room_for l o); [exact D|exact FC|]. left. }
  assert (NP : forall ns, ~ prunes_now o ns). { intros ns (x & a & b & c & d & X & _). discriminate X. }
  assert (NE : forall ns nr e, ~ exits_now o ns nr e). { intros ns nr e (a1 & a2 & a3 & a4 & a5 & a6 & a7 & a8 & a9 & X & _). discriminate X. }
  destruct U as [v U]. split.
  - intros k H. rewrite U in H. cbn [fst] in H. rewrite counters_snoc. apply elem_of_app. destruct (decide (k = K)) as [->|Nk]; [right; left|]. rewrite lookup_insert_ne in H by congruence. left. exact (D k H).
  - intros ns nr e. destruct (E ns nr e) as (ks & H1 & H2 & H3). rewrite ktime_count. exists ks. split; [exact H1|]. split; [|exact H3]. intros k. rewrite H2, counts_snoc. specialize (NP ns). specialize (NE ns nr e). tauto.
  - intros ns nr e. rewrite U. cbn [fst]. destruct (decide (MKey ns nr e = K)) as [EK|NK].
    + rewrite EK, lookup_insert. split; [|intros _; eexists; reflexivity]. intros _. exists (length l). injection EK as -> -> ->. apply shows_snoc. right. split; [reflexivity|]. split; [right; split; [reflexivity|apply enters_task; split; reflexivity]|]. split; [exact M|exact N].
    + rewrite lookup_insert_ne by congruence. rewrite F. split; intros [k H]; exists k; revert H; rewrite shows_snoc; specialize (NP ns); specialize (NE ns nr e); unfold o in *; rewrite enters_task.
      * tauto.
      * intros [H|(_ & [H|(-> & -> & ->)] & _)]; [tauto|tauto|]. destruct (NK eq_refl).
Qed.
Lemma tally_prune l m x su sc tr lost : tally l m -> tally (l ++ [STask (KPrune x) su sc tr lost]) (prune x m).
Proof.
  set (o := STask (KPrune x) su sc tr lost). intros [D E F].
  assert (NX : forall ns nr e, ~ exits_now o ns nr e). { intros ns nr e (a1 & a2 & a3 & a4 & a5 & a6 & a7 & a8 & a9 & X & _). discriminate X. }
  assert (NE : forall ns nr, ~ enters_now o ns nr). { intros ns nr (a1 & a2 & a3 & a4 & a5 & a6 & a7 & a8 & a9 & X & _). discriminate X. }
  split.
  - intros k H. rewrite prune_lookup in H. destruct (decide _); [destruct H as [? H]; discriminate H|]. rewrite counters_snoc. apply elem_of_app. left. exact (D k H).
  - intros ns nr e. unfold KernelProofs.cnt. rewrite prune_lookup. cbn [mk_ns]. destruct (decide _) as [->|N].
    + exists []. split; [constructor|]. split; [|reflexivity]. intros k. rewrite counts_snoc. pose proof (proj2 (prunes_task x su sc tr lost (u32 x)) eq_refl) as P. fold o in P. specialize (NX (u32 x) nr e). split; [intros H; apply elem_of_nil in H; destruct H|tauto].
    + destruct (E ns nr e) as (ks & H1 & H2 & H3). exists ks. split; [exact H1|]. split; [|exact H3]. intros k. rewrite H2, counts_snoc. specialize (NX ns nr e). unfold o at 1. rewrite prunes_task. unfold u32 in N. tauto.
  - intros ns nr e. rewrite prune_lookup. cbn [mk_ns]. destruct (decide _) as [->|N].
    + split; [intros [? H]; discriminate H|]. intros [k H]. apply shows_snoc in H. pose proof (proj2 (prunes_task x su sc tr lost (u32 x)) eq_refl) as P. fold o in P. specialize (NX (u32 x) nr e). specialize (NE (u32 x) nr). tauto.
    + rewrite F. split; intros [k H]; exists k; revert H; rewrite shows_snoc; specialize (NX ns nr e); specialize (NE ns nr); unfold o at 1; rewrite prunes_task; unfold u32 in N; tauto.
Qed.
Lemma s0_metrics : w_metrics (sv_world s0) = ∅.
Proof. pose proof E0 as E. unfold start_server, start_world in E. rewrite H0 in E. apply Some_inj in E. subst s0. reflexivity. Qed.
Lemma counted : forall l s rs, Forall plausible l -> few_rules l -> few_counters l -> run s0 l s rs -> tally l (w_metrics (sv_world s)).
Proof.
  intros l. induction l as [|o l IH] using rev_ind; intros s rs F FR FC R.
  - apply srun_nil in R as [-> ->]. rewrite s0_metrics. split.
    + intros k [v H]. rewrite lookup_empty in H. discriminate H.
    + intros ns nr e. exists []. split; [constructor|]. split; [|reflexivity]. intros k. split; [intros H; apply elem_of_nil in H; destruct H|]. intros (H & _). apply leaves_lt in H. cbn in H. lia.
    + intros ns nr e. split; [intros [v H]; rewrite lookup_empty in H; discriminate H|]. intros [k H]. apply shows_lt in H. cbn in H. lia.
  - apply Forall_app in F as [F Fo]. apply Forall_inv in Fo. apply srun_snoc in R as (s1 & rs1 & r & R & S & ->).
    pose proof (few_rules_app _ _ FR) as FR1. pose proof (IH _ _ F FR1 (few_counters_app _ _ FC) R) as T. apply step_metrics in S.
    destruct o as [x su sc tr lost|start c|start ns|j start c|id|i| |p takes|a]; [|rewrite S; apply tally_same; [intros ? ? ? [(?&?&?&?&?&?&?&?&?&Y&_) _]; discriminate Y|intros ? ? [(?&?&?&?&?&?&?&?&?&Y&_) _]; discriminate Y|intros ? (?&?&?&?&?&Y&_); discriminate Y|exact T]..].
    rewrite S. pose proof (kstep_metrics tbl (kernel_of (sv_world s1)) x) as [K _]. rewrite K. clear K S. change (ks_metrics (kernel_of (sv_world s1))) with (w_metrics (sv_world s1)).
    destruct x as [tid t args ugid now|tid t ret now cpu|tid t args ugid now cpu|fo|ns]; unfold metrics_after.
    + pose proof (metric_enter (kernel_of (sv_world s1)) tid t args ugid now) as Q. change (ks_filter (kernel_of (sv_world s1))) with (maps (w_hub (sv_world s1))) in Q. rewrite (metered_iff _ _ _ t F FR1 R) in Q. destruct (o_metric _).
      * destruct (proj1 Q ltac:(discriminate)) as [Q1 Q2]. apply tally_enter; assumption.
      * apply tally_same; [intros ? ? ? [(?&?&?&?&?&?&?&?&?&Y&_) _]; discriminate Y| |intros ? (?&?&?&?&?&Y&_); discriminate Y|exact T]. intros ns nr (Y & M & N). apply enters_task in Y as [-> ->]. exact (proj2 Q (conj M N) eq_refl).
    + pose proof (metric_exit (kernel_of (sv_world s1)) tid t ret now cpu) as Q. change (ks_filter (kernel_of (sv_world s1))) with (maps (w_hub (sv_world s1))) in Q. rewrite (metered_iff _ _ _ t F FR1 R) in Q. destruct (o_metric _).
      * destruct (proj1 Q ltac:(discriminate)) as [Q1 Q2]. apply tally_exit; assumption.
      * apply tally_same; [|intros ? ? [(?&?&?&?&?&?&?&?&?&Y&_) _]; discriminate Y|intros ? (?&?&?&?&?&Y&_); discriminate Y|exact T]. intros ns nr e (Y & M & N). apply exits_task in Y as [= -> -> ->]. exact (proj2 Q (conj M N) eq_refl).
    + apply tally_same; [intros ? ? ? [(?&?&?&?&?&?&?&?&?&Y&_) _]; discriminate Y|intros ? ? [(?&?&?&?&?&?&?&?&?&Y&_) _]; discriminate Y|intros ? (?&?&?&?&?&Y&_); discriminate Y|exact T].
    + apply tally_same; [intros ? ? ? [(?&?&?&?&?&?&?&?&?&Y&_) _]; discriminate Y|intros ? ? [(?&?&?&?&?&?&?&?&?&Y&_) _]; discriminate Y|intros ? (?&?&?&?&?&Y&_); discriminate Y|exact T].
    + apply tally_prune; exact T.
Qed.
End scrape.
