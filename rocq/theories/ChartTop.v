(** The theorems of ChartProps.v, put together from ChartProofs.v. *)
From Coq Require Import ZArith String Ascii Bool Lia.
From stdpp Require Import base list numbers strings pretty gmap.
From Verif Require Import SyscallModel SyscallSpec SyscallProofs CodecTables CodecModel CodecSpec CodecProofs CodecNames KernelModel ChartModel ChartSpec ChartProofs.

Local Open Scope string_scope.
Local Open Scope Z_scope.

Lemma sum_perm l l' : l ≡ₚ l' -> sum l = sum l'.
Proof. induction 1; cbn; lia. Qed.
Lemma traffic_perm tbl ns order es es' a b : es ≡ₚ es' -> traffic tbl ns order es a b = traffic tbl ns order es' a b.
Proof. intros H. unfold traffic. apply sum_perm, Permutation_map, H. Qed.
Lemma sankey_perm tbl ns ord es es' ch ch' a b v v' :
  es ≡ₚ es' -> counters_ok es -> sankey tbl ns ord es = Some ch -> sankey tbl ns ord es' = Some ch' ->
  traffic tbl ns (chart_order ns ord) es a b <= 2 ^ 24 ->
  In (Link a b v) (ch_links ch) -> In (Link a b v') (ch_links ch') -> v = v'.
Proof.
  intros P C H H' T L L'. rewrite (sankey_exact _ _ _ _ _ _ _ _ C H L T).
  assert (C' : counters_ok es') by (intros en Hen; apply C, (Permutation_in en (Permutation_sym P) Hen)).
  rewrite (traffic_perm _ _ _ _ _ _ _ P) in T |- *. symmetry. exact (sankey_exact _ _ _ _ _ _ _ _ C' H' L' T).
Qed.

Lemma all_steps_app tbl ns order es es' : all_steps tbl ns order (es ++ es')%list = (all_steps tbl ns order es ++ all_steps tbl ns order es')%list.
Proof. unfold all_steps. rewrite map_app, concat_app. reflexivity. Qed.
Lemma fsum_app l l' v : fsum v (l ++ l')%list = fsum (fsum v l) l'.
Proof. apply fold_left_app. Qed.
Lemma fsum_stalls l : Forall (fun x => x = 1) l -> fsum (Some (2 ^ 24)) (map to_f32 l) = Some (2 ^ 24).
Proof. induction 1 as [|x l -> _ IH]; [reflexivity|]. exact IH. Qed.
Lemma stalls tbl ns ord es es1 ch a b : counters_ok (es ++ es1)%list ->
  (forall en, In en es1 -> mv_count en.1.2 = 1) ->
  traffic tbl ns (chart_order ns ord) es a b = 2 ^ 24 ->
  sankey tbl ns ord (es ++ es1)%list = Some ch -> In (Link a b (2 ^ 24)) (ch_links ch).
Proof.
  intros C O T H. change (Link a b (2 ^ 24)) with (Link (a, b).1 (a, b).2 (2 ^ 24)). apply val_of_some. rewrite (sankey_val _ _ _ _ _ a b H).
  rewrite all_steps_app, counts_at_app, map_app, fsum_app. rewrite <- traffic_counts in T.
  assert (N : Forall (fun x => 0 <= x) (counts_at (a, b) (all_steps tbl ns (chart_order ns ord) es))).
  { apply counts_nonneg. intros en Hen. apply C, in_app_iff. left. exact Hen. }
  assert (F : fsum None (map to_f32 (counts_at (a, b) (all_steps tbl ns (chart_order ns ord) es))) = Some (2 ^ 24)).
  { destruct (counts_at (a, b) (all_steps tbl ns (chart_order ns ord) es)) as [|x l]; [discriminate|]. apply Forall_cons in N as [N1 N2]. pose proof (sum_nonneg l N2).
    cbn [sum] in T. change (fsum None (map to_f32 (x :: l))) with (fsum (Some (to_f32 x)) (map to_f32 l)).
    rewrite (to_f32_upto x) by lia. rewrite fsum_exact by (assumption || lia). f_equal. exact T. }
  rewrite F. apply fsum_stalls. apply Forall_forall. intros x Hx. unfold counts_at in Hx. apply elem_of_list_In, in_map_iff in Hx as (y & <- & Hy).
  apply filter_In in Hy as [Hy _]. unfold all_steps in Hy. apply in_concat in Hy as (l & Hl & Hy). apply in_map_iff in Hl as (en & <- & Hen).
  unfold entry_steps in Hy. destruct (chosen ns en); [|contradiction]. apply in_map_iff in Hy as (s & <- & _). cbn. exact (O en Hen).
Qed.

Lemma means_none t : (forall k, ~ means t k) -> order_token t = None.
Proof. intros H. destruct (order_token t) as [k|] eqn:E; [|reflexivity]. apply order_token_means in E. destruct (H k E). Qed.
Lemma parse_order_unknown ts t us : Forall (fun t => has_comma t = false) (ts ++ t :: us)%list ->
  (forall k, ~ means t k) -> (ts ++ us)%list <> [] ->
  parse_order (join (ts ++ t :: us)%list) = parse_order (join (ts ++ us)%list).
Proof.
  intros H N D. unfold parse_order. rewrite !split_join.
  - rewrite !omap_app. cbn [omap list_omap]. rewrite (means_none t N). reflexivity.
  - exact D.
  - apply Forall_app in H as [H1 H2]. apply Forall_cons in H2 as [_ H2]. apply Forall_app. split; assumption.
  - destruct ts; discriminate.
  - exact H.
Qed.

Lemma sankey_panics tbl ns ord es : sankey tbl ns ord es = None <->
  exists en, In en es /\ selected ns en /\ lookup_sc tbl (ByInt (mk_nr en.1.1)) = None
    /\ (2 <= length (chart_order ns ord))%nat /\ exists k, In k (chart_order ns ord) /\ of_syscall k.
Proof. split; [exact (sankey_loop_none_inv tbl ns (chart_order ns ord) es (Chart [] []))|exact (sankey_loop_none tbl ns (chart_order ns ord) es (Chart [] []))]. Qed.

(** Gathering *)
Lemma gather_crashes tbl topo es : gather tbl topo es = Crashed <->
  topo = true /\ exists k v c, In ((k, v), Some c) es /\ lookup_sc tbl (ByInt (mk_nr k)) = None.
Proof.
  unfold gather, collect. rewrite <- collect_crashes. destruct topo.
  - destruct (collect_loop tbl es) as [l|].
    + destruct (bool_decide _); split; try discriminate; intros [_ ?]; discriminate.
    + tauto.
  - change (bool_decide (NoDup (map (fun s => (sm_desc s, sm_labels s)) []))) with true. cbv iota. split; [discriminate|]. intros [? _]; discriminate.
Qed.
Lemma gather_samples tbl es l : gather tbl true es = Samples l -> forall s,
  In s l <-> exists k v c ls, In ((k, v), Some c) es /\ label_values tbl k c ls /\
    (s = Sample DCount ls (to_f64 (mv_count v)) \/ s = Sample DTime ls (to_f64 (mv_time v))).
Proof.
  unfold gather, collect. destruct (collect_loop tbl es) as [l'|] eqn:E; [|discriminate]. destruct (bool_decide _); [|discriminate].
  intros [= <-]. exact (collect_samples tbl es l' E).
Qed.
Lemma gather_cases tbl es : (forall k v c, In ((k, v), Some c) es -> known tbl (mk_nr k)) ->
  exists l, gather tbl true es = if bool_decide (NoDup (omap (shown tbl) es)) then Samples l else Refused.
Proof.
  intros K. unfold gather, collect. destruct (collect_loop tbl es) as [l|] eqn:E.
  - exists l. change (fun s => (sm_desc s, sm_labels s)) with ident. rewrite (collect_idents _ _ _ E).
    erewrite bool_decide_ext; [reflexivity|]. apply pairs_nodup.
  - apply collect_crashes in E as (k & v & c & H & N). destruct (K k v c H) as [? ?]. congruence.
Qed.
Lemma refused_iff tbl es : go_table tbl ->
  NoDup (map (fun en : entry => en.1.1) es) -> steady es -> (forall en, In en es -> 0 <= mk_err en.1.1) ->
  (forall k v c, In ((k, v), Some c) es -> known tbl (mk_nr k)) ->
  (gather tbl true es = Refused <-> clash es).
Proof.
  intros Ht N St P K. destruct (gather_cases tbl es K) as [l ->]. case_bool_decide as D.
  - split; [discriminate|]. intros C. destruct (clash_dup tbl es St C K D).
  - split; [|reflexivity]. intros _. destruct (shown_nodup tbl es Ht N (fun en H _ => P en H)) as [C|[C _]]; [contradiction|exact C].
Qed.
Lemma named_served tbl es : go_table tbl ->
  NoDup (map (fun en : entry => en.1.1) es) ->
  (forall k v c, In ((k, v), Some c) es -> known tbl (mk_nr k) /\ 0 <= mk_err k /\ named (mk_err k)) ->
  exists l, gather tbl true es = Samples l.
Proof.
  intros Ht N K. destruct (gather_cases tbl es (fun k v c H => proj1 (K k v c H))) as [l G]. exists l. rewrite G.
  rewrite bool_decide_eq_true_2; [reflexivity|].
  destruct (shown_nodup tbl es Ht N) as [D|[_ (a & Ha & [c Hc] & U)]].
  - intros [[k v] o] H [c Hc]. cbn in Hc. subst o. exact (proj1 (proj2 (K k v c H))).
  - exact D.
  - destruct a as [[k v] o]. cbn [fst snd] in *. subst o. destruct (U (proj2 (proj2 (K k v c Ha)))).
Qed.

(** Clouds *)
Lemma clouds_hold tbl rs : counters_ok (fed rs) ->
  let w := (serve_all tbl new_clouds rs).1 in
  cloud_of errno_word (fed rs) (wc_errno w)
  /\ cloud_of (class_word tbl) (fed rs) (wc_class w)
  /\ cloud_of namespace_word (fed rs) (wc_namespace w).
Proof. intros C. exact (serve_all_clouds tbl rs [] new_clouds (clouds_start tbl) C). Qed.
Lemma fed_app rs rs' : fed (rs ++ rs')%list = (fed rs ++ fed rs')%list.
Proof. unfold fed. rewrite map_app, concat_app. reflexivity. Qed.
Lemma pages_show tbl rs ns ord es1 es2 ch e c n :
  counters_ok (fed (rs ++ [RPage ns ord es1 es2])%list) ->
  (serve tbl (serve_all tbl new_clouds rs).1 (RPage ns ord es1 es2)).2 = APage ch e c n ->
  cloud_of errno_word (fed rs ++ es1)%list e
  /\ cloud_of (class_word tbl) (fed rs ++ es1)%list c
  /\ cloud_of namespace_word (fed rs ++ es1)%list n
  /\ sankey tbl ns ord es2 = Some ch.
Proof.
  intros C H. rewrite fed_app in C.
  assert (C1 : counters_ok (fed rs)) by (intros x Hx; apply C, in_app_iff; left; exact Hx).
  assert (C2 : counters_ok (fed [RPage ns ord es1 es2])) by (intros x Hx; apply C, in_app_iff; right; exact Hx).
  pose proof (serve_clouds tbl (RPage ns ord es1 es2) _ _ (clouds_hold tbl rs C1) C2) as (H1 & H2 & H3).
  unfold fed at 2 in H1. unfold fed at 2 in H2. unfold fed at 2 in H3. cbn [map concat] in H1, H2, H3. rewrite app_nil_r in H1, H2, H3.
  cbn [serve snd fst] in *. destruct (sankey tbl ns ord es2) as [ch'|]; [|discriminate].
  injection H as -> <- <- <-. split; [exact H1|]. split; [exact H2|]. split; [exact H3|reflexivity].
Qed.
Lemma singles_show tbl rs : counters_ok (fed rs) ->
  let w := (serve_all tbl new_clouds rs).1 in
  (exists m, serve tbl w RErrno = (w, ACloud m) /\ cloud_of errno_word (fed rs) m)
  /\ (exists m, serve tbl w RClass = (w, ACloud m) /\ cloud_of (class_word tbl) (fed rs) m)
  /\ (exists m, serve tbl w RNamespace = (w, ACloud m) /\ cloud_of namespace_word (fed rs) m).
Proof.
  intros C. destruct (clouds_hold tbl rs C) as (H1 & H2 & H3). cbv zeta. split; [|split].
  - eexists. split; [reflexivity|exact H1].
  - eexists. split; [reflexivity|exact H2].
  - eexists. split; [reflexivity|exact H3].
Qed.
Lemma under_app word w es es' : under word w (es ++ es')%list = (under word w es ++ under word w es')%list.
Proof. apply List.filter_app. Qed.
Lemma under_repeat word w es n : sum (map (fun en : entry => mv_count en.1.2) (under word w (concat (repeat es n)))) = Z.of_nat n * sum (map (fun en : entry => mv_count en.1.2) (under word w es)).
Proof.
  induction n as [|n IH]; [reflexivity|]. cbn [repeat concat]. rewrite under_app, map_app, sum_app, IH. lia.
Qed.
Lemma renders_add word es w n : (0 < n)%nat -> under word w es <> [] -> forall m,
  cloud_of word (concat (repeat es n)) m ->
  m !! w = Some (Z.of_nat n * sum (map (fun en : entry => mv_count en.1.2) (under word w es)) mod 2 ^ 64).
Proof.
  intros Hn U m H. rewrite (H w), <- under_repeat. destruct (under word w (concat (repeat es n))) eqn:E; [|reflexivity].
  destruct n as [|n]; [lia|]. cbn [repeat concat] in E. rewrite under_app in E. apply app_eq_nil in E as [E _]. contradiction.
Qed.
