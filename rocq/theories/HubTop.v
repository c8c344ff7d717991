(** The hub's lemmas in the form the property theorems use. *)
From stdpp Require Import gmap strings list.
From Coq Require Import ZArith Lia.
From Verif Require Import SyscallModel SyscallSpec FilterModel FilterSpec FilterProofs HashModel HubModel HubSpec HubProofs HubKernel HubEvents HubHosts.
Open Scope Z_scope.
Local Opaque lookup_sc add_syscall add_sampled_syscall remove_syscall add_metrics remove_metrics run_nfilter.

Lemma hrun_snoc J tbl : forall os h h1 rs o h2 r, hrun J tbl h os = Ok (h1, rs) -> hstep J tbl h1 o = Ok (h2, r) ->
  hrun J tbl h (os ++ [o]) = Ok (h2, rs ++ [r])%list.
Proof.
  induction os as [|o' os IH]; intros h h1 rs o h2 r; cbn [hrun app].
  - intros [= <- <-] ->. done.
  - destruct (hstep J tbl h o') as [[h' r']| |]; [|done|done]. destruct (hrun J tbl h' os) as [[h'' rs']| |] eqn:E; [|done|done].
    intros [= <- <-] Hs. by rewrite (IH _ _ _ _ _ _ E Hs).
Qed.
Lemma hrun_length J tbl : forall os h h' rs, hrun J tbl h os = Ok (h', rs) -> length rs = length os.
Proof.
  induction os as [|o os IH]; intros h h' rs; cbn [hrun]; [by intros [= <- <-]|].
  destruct (hstep J tbl h o) as [[h1 r]| |]; [|done|done]. destruct (hrun J tbl h1 os) as [[h2 rs2]| |] eqn:E; [|done|done].
  intros [= <- <-]. cbn. by rewrite (IH _ _ _ E).
Qed.
Lemma registrations_snoc J tbl os rs o r : length rs = length os ->
  registrations J tbl (os ++ [o]) (rs ++ [r]) = reg_step J tbl (registrations J tbl os rs) (o, r).
Proof. intros Hl. unfold registrations. rewrite zip_with_app by done. rewrite fold_left_app. done. Qed.

Lemma indexes_agree J tbl h0 os : new_hub tbl = Some h0 ->
  hrun J tbl h0 os <> Fatal /\
  forall h rs, hrun J tbl h0 os = Ok (h, rs) ->
    (forall ns nr, bucket h ns nr = regs_at ns nr (registrations J tbl os rs)) /\
    (forall id, job_list h id = regs_of J id (registrations J tbl os rs)) /\
    (forall ns nr, find_list h ns nr <> Some []).
Proof.
  intros H0. split.
  - apply (run_no_fatal J tbl os h0 []); [by eapply new_hub_repr|]. intros j. rewrite (new_hub_ctrs _ _ j H0). lia.
  - intros h rs Hr. destruct (reachable _ _ _ _ _ _ H0 Hr) as (C & HC & <-). split; [|split].
    + intros. by apply (bucket_repr J).
    + intros. by apply job_list_repr.
    + intros ns nr. rewrite (find_list_repr _ _ _ _ _ HC). unfold ne. by destruct (filter _ C).
Qed.

Lemma delete_exact J tbl h0 os h rs id : new_hub tbl = Some h0 -> hrun J tbl h0 os = Ok (h, rs) ->
  exists h' b, hstep J tbl h (ODelete id) = Ok (h', RDeleted b) /\
    (b = false <-> regs_of J id (registrations J tbl os rs) = []) /\
    (b = false -> h' = h) /\
    (forall ns nr, bucket h' ns nr = filter (fun g => j_id (J (g_job g)) <> id) (bucket h ns nr)) /\
    (forall id', job_list h' id' = if decide (id' = id) then [] else job_list h id').
Proof.
  intros H0 Hr. destruct (reachable _ _ _ _ _ _ H0 Hr) as (C & HC & EC). rewrite <- EC.
  assert (regs_of J id (map reg_of C) = map reg_of (filter (fun c => j_id (J (c_job c)) = id) C)) as Ereg.
  { unfold regs_of. by rewrite filter_map_reg. }
  pose proof (delete_repr J tbl h C id HC) as H. cbn [hstep].
  assert (forall (D : list ctx), filter (fun c => j_id (J (c_job c)) = id) D = [] -> filter (fun c => j_id (J (c_job c)) <> id) D = D) as Hnone.
  { induction D as [|c D IH]; [done|]. rewrite !filter_cons. destruct (decide (j_id (J (c_job c)) = id)); [done|].
    rewrite decide_True by done. intros E. by rewrite IH. }
  assert (exists h' b, delete_trace tbl h id = Ok (h', b) /\ (b = false <-> filter (fun c => j_id (J (c_job c)) = id) C = []) /\
    (b = false -> h' = h) /\ repr J h' (filter (fun c => j_id (J (c_job c)) <> id) C)) as (h' & b & -> & Hb & Hh & HC').
  { destruct (filter (fun c => j_id (J (c_job c)) = id) C) as [|c0 todo] eqn:E.
    - exists h, false. rewrite H. split; [done|]. split; [done|]. split; [done|]. by rewrite (Hnone _ E).
    - destruct H as (h' & E1 & E2 & _). exists h', true. split; [done|]. split; [done|]. done. }
  exists h', b. split; [done|]. split.
  { rewrite Hb, Ereg. destruct (filter _ C); done. }
  split; [done|]. split.
  - intros ns nr. rewrite (bucket_repr _ _ _ _ _ HC), (bucket_repr _ _ _ _ _ HC'). unfold regs_at. rewrite !filter_map_reg.
    f_equal. rewrite !list_filter_filter. apply list_filter_iff. intros c. cbn. tauto.
  - intros id'. rewrite (job_list_repr _ _ _ _ HC), (job_list_repr _ _ _ _ HC'). unfold regs_of. rewrite !filter_map_reg.
    destruct (decide (id' = id)) as [->|Hne].
    + rewrite list_filter_filter. rewrite (list_filter_iff _ (fun _ => False)); [|intros c; cbn; tauto].
      clear. induction C as [|c C IH]; [done|]. rewrite filter_cons, decide_False by tauto. done.
    + rewrite list_filter_filter. f_equal. apply list_filter_iff. intros c. cbn. split; [tauto|]. intros <-. done.
Qed.

Lemma lowest_exact J tbl h0 os h rs ns nr : new_hub tbl = Some h0 -> hrun J tbl h0 os = Ok (h, rs) ->
  let L := regs_at ns nr (registrations J tbl os rs) in
  (L = [] /\ lowest J h ns nr = Ok None) \/
  (exists c, lowest J h ns nr = Ok (Some c) /\ lowest_reg J L (reg_of c)).
Proof.
  intros H0 Hr. destruct (reachable _ _ _ _ _ _ H0 Hr) as (C & HC & <-). cbn zeta.
  destruct (lowest_repr J h C ns nr HC) as [[E1 E2]|(c & E1 & E2)].
  - left. split; [|done]. rewrite regs_at_map, E1. done.
  - right. exists c. split; [done|]. by apply first_min_reg.
Qed.

Lemma rule_iff_registered J tbl h0 os h rs ns nr : go_table tbl -> new_hub tbl = Some h0 -> Forall kernel_op os ->
  hrun J tbl h0 os = Ok (h, rs) -> no_stops os -> no_pushes os -> updates_ok rs -> ~ (ns = 0 /\ nr = 218) ->
  (has_rule h ns nr <-> regs_at ns nr (registrations J tbl os rs) <> []).
Proof. intros. split; [intros; eapply rules_backed; done|intros; eapply rules_covered; done]. Qed.

Lemma event_exact J tbl h0 os h rs ev h' ps : new_hub tbl = Some h0 -> hrun J tbl h0 os = Ok (h, rs) ->
  hstep J tbl h (OEvent ev) = Ok (h', RPublished ps) ->
  match e_container ev, regs_at (e_ns ev) (e_nr ev) (registrations J tbl os rs) with
  | Some c, (_ :: _) as L =>
      exists qs, ps = (None, event_path (ct_namespace c) (ct_pod c) (ct_name c) (e_syscall ev)) ::
                      map (fun j => (Some j, job_path (j_id (J j)))) qs /\
        qs `sublist_of` map g_job L /\
        filter (fun j => j_rate (J j) <= 0) qs = filter (fun j => j_rate (J j) <= 0) (map g_job L)
  | _, _ => ps = []
  end.
Proof.
  intros H0 Hr He. destruct (reachable _ _ _ _ _ _ H0 Hr) as (C & HC & EC).
  assert (ctrs_ok h0) as Hc0 by (intros j; rewrite (new_hub_ctrs _ _ j H0); lia).
  pose proof (ctrs_preserved _ _ _ _ _ _ _ (new_hub_repr J _ _ H0) Hc0 Hr) as Hck.
  cbn [hstep] in He. destruct (on_event J h ev) as [[h1 ps1]| |] eqn:E; [|done|done]. injection He as <- <-.
  destruct (on_event_ok _ _ _ _ _ _ HC Hck E) as (Hps & _). rewrite EC in Hps. exact Hps.
Qed.

Lemma event_outcome J tbl h0 os h rs ev : new_hub tbl = Some h0 -> hrun J tbl h0 os = Ok (h, rs) ->
  let L := regs_at (e_ns ev) (e_nr ev) (registrations J tbl os rs) in
  let clash := e_container ev <> None /\ exists g g0, g ∈ L /\ lowest_reg J L g0 /\ 0 < j_rate (J (g_job g)) /\
                 g_job g <> g_job g0 /\ j_rate (J (g_job g)) = j_rate (J (g_job g0)) in
  (hstep J tbl h (OEvent ev) = Panic <-> clash) /\
  (~ clash -> exists h' ps, hstep J tbl h (OEvent ev) = Ok (h', RPublished ps)).
Proof.
  intros H0 Hr. destruct (reachable _ _ _ _ _ _ H0 Hr) as (C & HC & EC).
  assert (ctrs_ok h0) as Hc0 by (intros j; rewrite (new_hub_ctrs _ _ j H0); lia).
  pose proof (ctrs_preserved _ _ _ _ _ _ _ (new_hub_repr J _ _ H0) Hc0 Hr) as Hck.
  destruct (on_event_panic J h C ev HC Hck) as [HP HF]. rewrite EC in HP. cbn zeta. cbn [hstep].
  destruct (on_event J h ev) as [[h' ps]| |]; [| |done].
  - split; [|intros _; by eauto]. split; [done|]. intros Hcl. by apply HP in Hcl.
  - split; [|intros Hn; by destruct (Hn (proj1 HP eq_refl))]. split; [intros _; by apply HP|done].
Qed.

(** C16 *)
Lemma count_job_app j L L' : count_job j (L ++ L') = count_job j L + count_job j L'.
Proof. unfold count_job. rewrite filter_app, app_length. lia. Qed.
Lemma start_counts J tbl os rs j c n ns nr : length rs = length os -> selects (J j) (ct_name c) ->
  count_job j (regs_at ns nr (registrations J tbl (os ++ [OStart j c]) (rs ++ [RStarted n true]))) =
  count_job j (regs_at ns nr (registrations J tbl os rs)) +
    (if decide (ns = ct_ns c) then Z.of_nat (length (filter (fun m => m = nr) (job_nrs tbl (J j)))) else 0).
Proof.
  intros Hl Hsel. rewrite registrations_snoc by done. cbn [reg_step]. rewrite decide_True by done.
  unfold regs_at at 1. rewrite filter_app. fold (regs_at ns nr (registrations J tbl os rs)). rewrite count_job_app. f_equal.
  induction (job_nrs tbl (J j)) as [|m ms IH]; [by destruct (decide _)|]. cbn [map]. rewrite !filter_cons. cbn [g_ns g_nr].
  destruct (decide (ns = ct_ns c)) as [->|Hne].
  - destruct (decide (m = nr)) as [->|Hm].
    + rewrite decide_True by done. rewrite <- (app_nil_l (filter _ _)), app_comm_cons, count_job_app, IH.
      replace (count_job j [Reg j (ct_ns c) nr]) with 1; [cbn [length]; lia|].
      unfold count_job. rewrite filter_cons. cbn [g_job]. by rewrite decide_True.
    + rewrite decide_False by tauto. exact IH.
  - rewrite decide_False by (intros [? _]; done). exact IH.
Qed.
Lemma unsampled_total J tbl h0 os h rs j : new_hub tbl = Some h0 -> hrun J tbl h0 os = Ok (h, rs) -> j_rate (J j) <= 0 ->
  published_total j rs = offered_total J tbl j os rs.
Proof.
  intros H0 Hr Hj. assert (ctrs_ok h0) as Hc0 by (intros k; rewrite (new_hub_ctrs _ _ k H0); lia).
  apply (run_counts_unsampled J tbl j Hj os h0 [] h rs (new_hub_repr J _ _ H0) Hc0 Hr).
Qed.
Lemma sampled_total J tbl h0 os h rs j d : new_hub tbl = Some h0 -> hrun J tbl h0 os = Ok (h, rs) -> 0 < j_rate (J j) -> 0 < d ->
  at_every_offer J tbl h0 os j (fun L => stride J L j d) ->
  published_total j rs = offered_total J tbl j os rs / d.
Proof.
  intros H0 Hr Hj Hd Hst. assert (ctrs_ok h0) as Hc0 by (intros k; rewrite (new_hub_ctrs _ _ k H0); lia).
  destruct (run_counts J tbl j Hj os h0 [] h rs (new_hub_repr J _ _ H0) Hc0 Hr) as (_ & Ec & Hp).
  rewrite (Hp d Hd).
  - rewrite Ec, (new_hub_ctrs _ _ j H0). rewrite Z.div_0_l by lia. rewrite Z.add_0_l. unfold offered_total. cbn [map]. lia.
  - intros os1 ev os2 rs1 h1 Eos Hr1. cbn zeta. intros Hof. apply (Hst os1 ev os2 rs1 h1 Eos Hr1).
    + intros E. unfold offer in Hof. by rewrite E in Hof.
    + unfold offer in Hof. destruct (e_container ev); [|done]. unfold count_job in Hof. unfold registrations. cbn [map] in Hof.
      destruct (filter (fun g => g_job g = j) (regs_at (e_ns ev) (e_nr ev) (fold_left (reg_step J tbl) (zip os1 rs1) []))) as [|g l] eqn:E; [done|].
      assert (g ∈ g :: l) as Hg by left. rewrite <- E in Hg. apply elem_of_list_filter in Hg as [<- Hg].
      apply elem_of_list_In, in_map. by apply elem_of_list_In.
Qed.
(** The lowest registration exists in a non-empty bucket. *)
Lemma lowest_reg_exists J L : L <> [] -> exists g, lowest_reg J L g.
Proof.
  induction L as [|g L IH]; [done|]. intros _. destruct L as [|g1 L].
  - exists g, 0%nat. split; [done|]. split; [|intros; lia]. intros g' Hg'. apply elem_of_list_singleton in Hg' as ->. lia.
  - destruct (IH) as (m & i & Hi & Hm & Hf); [done|]. destruct (decide (j_rate (J (g_job g)) <= j_rate (J (g_job m)))) as [Hle|Hgt].
    + exists g, 0%nat. split; [done|]. split; [|intros; lia]. intros g' Hg'. apply elem_of_cons in Hg' as [->|Hg']; [lia|]. specialize (Hm _ Hg'). lia.
    + exists m, (S i). split; [done|]. split.
      * intros g' Hg'. apply elem_of_cons in Hg' as [->|Hg']; [lia|]. by apply Hm.
      * intros [|i'] g' Hlt Hg'; [by injection Hg' as <-; lia|]. apply (Hf i'); [lia|done].
Qed.
Lemma stride_alone J L j : j ∈ map g_job L -> (forall g, g ∈ L -> g_job g = j) -> stride J L j (j_rate (J j)).
Proof.
  intros Hin Hall. destruct (lowest_reg_exists J L) as (g & Hg); [by intros ->; apply elem_of_nil in Hin|].
  exists g. split; [done|]. destruct Hg as (i & Hi & _). rewrite decide_True by (apply Hall; by eapply elem_of_list_lookup_2). done.
Qed.
Lemma stride_unsampled J L j : 0 < j_rate (J j) -> j ∈ map g_job L ->
  (exists g, g ∈ L /\ j_rate (J (g_job g)) = 0) -> (forall g, g ∈ L -> 0 <= j_rate (J (g_job g))) -> stride J L j (j_rate (J j)).
Proof.
  intros Hj Hin (z & Hz & Ez) Hall. destruct (lowest_reg_exists J L) as (g & Hg); [by intros ->; apply elem_of_nil in Hin|].
  exists g. split; [done|]. destruct Hg as (i & Hi & Hm & _). specialize (Hm _ Hz). specialize (Hall g (elem_of_list_lookup_2 _ _ _ Hi)).
  rewrite decide_False; [lia|]. intros E. rewrite E in *. lia.
Qed.
Lemma stride_lowest J L j l : 0 < j_rate (J j) -> j ∈ map g_job L -> l < j_rate (J j) ->
  (exists g, g ∈ L /\ j_rate (J (g_job g)) = l) -> (forall g, g ∈ L -> l <= j_rate (J (g_job g))) -> stride J L j (j_rate (J j) - l).
Proof.
  intros Hj Hin Hlt (z & Hz & Ez) Hall. destruct (lowest_reg_exists J L) as (g & Hg); [by intros ->; apply elem_of_nil in Hin|].
  exists g. split; [done|]. destruct Hg as (i & Hi & Hm & _). specialize (Hm _ Hz). specialize (Hall g (elem_of_list_lookup_2 _ _ _ Hi)).
  rewrite decide_False; [lia|]. intros E. rewrite E in *. lia.
Qed.
Lemma at_every_offer_impl J tbl h0 os j (P Q : list reg -> Prop) : (forall L, j ∈ map g_job L -> P L -> Q L) ->
  at_every_offer J tbl h0 os j P -> at_every_offer J tbl h0 os j Q.
Proof. intros HPQ HP os1 ev os2 rs1 h1 E Hr Hc L Hin. apply HPQ; [done|]. by eapply HP. Qed.

(** C14, C20 *)
Lemma stop_exact J tbl h0 os h rs j c h' r : go_table tbl -> new_hub tbl = Some h0 -> hrun J tbl h0 os = Ok (h, rs) ->
  kernel_ns (ct_ns c) -> hstep J tbl h (OStop j c) = Ok (h', r) ->
  (forall ns nr, bucket h' ns nr = bucket h ns nr) /\
  (forall nr, nr ∈ job_nrs tbl (J j) -> ~ has_rule h' (ct_ns c) nr) /\
  (forall ns nr, ~ (ns = ct_ns c /\ nr ∈ job_nrs tbl (J j)) -> has_rule h' ns nr <-> has_rule h ns nr).
Proof.
  intros Ht H0 Hr Hns Hs. cbn [hstep] in Hs. destruct (on_stop J tbl h j c) as [h1| |] eqn:E; [|done|done]. injection Hs as <- <-.
  destruct (stop_drops _ _ _ _ _ _ Ht Hns E) as (E1 & E2 & H1 & H2). split; [|split; [done|]].
  - intros ns nr. unfold bucket, find_list. by rewrite E1.
  - intros ns nr Hne. unfold has_rule. rewrite H2; [done|]. intros nr' Hin Heq. apply syscall_rule_inj in Heq as [-> ->]. by apply Hne.
Qed.
Lemma deleted_job_returns J tbl h0 os h rs id j c h1 r1 h2 n : go_table tbl -> new_hub tbl = Some h0 -> Forall kernel_op os ->
  hrun J tbl h0 os = Ok (h, rs) -> j_id (J j) = id -> kernel_ns (ct_ns c) -> selects (J j) (ct_name c) ->
  hstep J tbl h (ODelete id) = Ok (h1, r1) -> hstep J tbl h1 (OStart j c) = Ok (h2, RStarted n true) ->
  job_list h1 id = [] /\
  forall nr, nr ∈ job_nrs tbl (J j) ->
    Reg j (ct_ns c) nr ∈ bucket h2 (ct_ns c) nr /\ Reg j (ct_ns c) nr ∈ job_list h2 id /\ has_rule h2 (ct_ns c) nr.
Proof.
  intros Ht H0 Hko Hr Hid Hns Hsel Hd Hst.
  destruct (delete_exact J tbl h0 os h rs id H0 Hr) as (h1' & b & E & _ & _ & _ & Hjl). rewrite Hd in E. injection E as <- ->.
  split; [rewrite Hjl; by rewrite decide_True|].
  pose proof (hrun_snoc _ _ _ _ _ _ _ _ _ Hr Hd) as Hr1. pose proof (hrun_snoc _ _ _ _ _ _ _ _ _ Hr1 Hst) as Hr2.
  destruct (indexes_agree J tbl h0 ((os ++ [ODelete id]) ++ [OStart j c]) H0) as [_ Hag]. destruct (Hag _ _ Hr2) as (Hbk & Hjb & _).
  rewrite registrations_snoc in Hbk, Hjb by (apply (hrun_length _ _ _ _ _ _ Hr1)). cbn [reg_step] in Hbk, Hjb.
  rewrite decide_True in Hbk, Hjb by done. intros nr Hnr. rewrite Hbk, Hjb.
  assert (Reg j (ct_ns c) nr ∈ map (Reg j (ct_ns c)) (job_nrs tbl (J j))) as Hin by (apply elem_of_list_In, in_map; by apply elem_of_list_In).
  split; [|split].
  - unfold regs_at. apply elem_of_list_filter. split; [done|]. apply elem_of_app. by right.
  - unfold regs_of. apply elem_of_list_filter. split; [done|]. apply elem_of_app. by right.
  - cbn [hstep] in Hst. destruct (on_start J tbl h1 j c) as [[h2' [n' ok]]| |] eqn:Eo; [|done|done]. injection Hst as -> -> ->.
    assert (Forall kernel_op (os ++ [ODelete id])) as Hko1 by (apply Forall_app; split; [done|repeat constructor]).
    unfold has_rule. rewrite (start_unsampled J tbl h0 (os ++ [ODelete id]) h1 _ j c h2 n Ht H0 Hko1 Hr1 Hns Hsel Eo nr Hnr). eauto.
Qed.
(** C42 *)
Lemma unknown_start J tbl h0 os h rs j c : new_hub tbl = Some h0 -> hrun J tbl h0 os = Ok (h, rs) ->
  selects (J j) (ct_name c) -> unknown_name tbl (J j) ->
  hstep J tbl h (OStart j c) = Panic \/ exists h' n, hstep J tbl h (OStart j c) = Ok (h', RStarted n false).
Proof.
  intros H0 Hr Hs Hu. destruct (reachable _ _ _ _ _ _ H0 Hr) as (C & HC & _). cbn [hstep].
  destruct (start_panic J tbl h C j c HC) as [_ H]. destruct (H Hs Hu) as [->|(h' & n & ->)]; [by left|right; eauto].
Qed.
Lemma known_start J tbl h0 os h rs j c : new_hub tbl = Some h0 -> hrun J tbl h0 os = Ok (h, rs) ->
  ~ (selects (J j) (ct_name c) /\ unknown_name tbl (J j)) ->
  exists h' n ok, hstep J tbl h (OStart j c) = Ok (h', RStarted n ok).
Proof.
  intros H0 Hr Hn. destruct (reachable _ _ _ _ _ _ H0 Hr) as (C & HC & _).
  assert (ctrs_ok h0) as Hc0 by (intros k; rewrite (new_hub_ctrs _ _ k H0); lia).
  pose proof (ctrs_preserved _ _ _ _ _ _ _ (new_hub_repr J _ _ H0) Hc0 Hr) as Hck.
  pose proof (step_no_fatal J tbl h C (OStart j c) HC Hck) as Hf. cbn [hstep] in *.
  destruct (start_panic J tbl h C j c HC) as [H _]. destruct (on_start J tbl h j c) as [[h' [n ok]]| |]; [eauto| |done].
  by destruct (Hn (H eq_refl)).
Qed.
Lemma stop_outcome J tbl h0 os h rs j c : new_hub tbl = Some h0 -> hrun J tbl h0 os = Ok (h, rs) ->
  (hstep J tbl h (OStop j c) = Panic <-> unknown_name tbl (J j)).
Proof.
  intros H0 Hr. destruct (reachable _ _ _ _ _ _ H0 Hr) as (C & HC & _). cbn [hstep].
  pose proof (stop_panic J tbl h C j c HC) as H. destruct (on_stop J tbl h j c); rewrite <- H; split; done.
Qed.
