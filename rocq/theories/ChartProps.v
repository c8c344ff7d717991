(** Properties C51, C52, C68 and the chart and scrape halves of C42. *)
From Coq Require Import ZArith String Ascii Bool Lia.
From stdpp Require Import base list numbers strings pretty gmap.
From Verif Require Import SyscallModel SyscallSpec SyscallProofs CodecTables CodecModel KernelModel ChartModel ChartSpec ChartProofs ChartTop.

Local Open Scope string_scope.
Local Open Scope Z_scope.

(** * Examples used below: a table of three syscalls, two containers *)
Definition ex_sc (nr : Z) : syscall :=
  if nr =? 0 then Syscall 0 "sys_read" "FileSystem" "FileWrite"
  else if nr =? 1 then Syscall 1 "sys_write" "FileSystem" "FileWrite" else Syscall 2 "sys_open" "FileSystem" "FileOps".
Definition ex_tbl : syscalls := Syscalls (list_to_map (map (fun n => (n, ex_sc n)) [0; 1; 2])) ∅.
Definition ex_metric (ns nr err count : Z) : mkey * mval := (MKey ns nr err, MVal count 10 0 0 0).
Definition ex_front : owner := Owner "web" "front" "nginx".
Definition ex_store : owner := Owner "data" "store" "pg".
Definition ex_entries : list entry :=
  [ (ex_metric 10 0 0 5, Some ex_front); (ex_metric 10 1 0 7, Some ex_front); (ex_metric 10 0 2 1, Some ex_front);
    (ex_metric 20 0 0 3, Some ex_store); (ex_metric 30 99 0 8, None) ].
Definition shows (c : option chart) : option (list string * list (string * string * Z)) :=
  (fun ch => (ch_nodes ch, map (fun l => (lk_src l, lk_dst l, lk_val l)) (ch_links ch))) <$> c.

(** * C51: the sankey chart *)

(** Floats are the nearest representable values, so the model's rounding is the
    rounding of IEEE 754. *)
Theorem C51_float_is_the_nearest : forall p n, 1 <= p -> 0 <= n ->
  representable p (rnd p n) /\ forall v, representable p v -> Z.abs (rnd p n - n) <= Z.abs (v - n).
Proof. exact (fun p n Hp Hn => conj (rnd_representable p Hp n Hn) (fun v Hv => rnd_nearest p Hp n v Hn Hv)). Qed.
Print Assumptions C51_float_is_the_nearest.

(** The links are exactly the steps on the paths of the selected metrics, each once;
    the nodes are exactly their ends, each once. *)
Theorem C51_links_and_nodes : forall tbl ns ord es ch, sankey tbl ns ord es = Some ch ->
  NoDup (ch_nodes ch) /\ NoDup (map (fun l => (lk_src l, lk_dst l)) (ch_links ch))
  /\ (forall a b, (exists v, In (Link a b v) (ch_links ch)) <-> linked tbl ns (chart_order ns ord) es a b)
  /\ (forall n, In n (ch_nodes ch) <-> exists a b, linked tbl ns (chart_order ns ord) es a b /\ (n = a \/ n = b)).
Proof. exact sankey_shape. Qed.
Print Assumptions C51_links_and_nodes.

(** The value of a link is the traffic over it, as long as that is at most 2^24. *)
Theorem C51_value_is_the_traffic : forall tbl ns ord es ch a b v,
  counters_ok es -> sankey tbl ns ord es = Some ch -> In (Link a b v) (ch_links ch) ->
  traffic tbl ns (chart_order ns ord) es a b <= 2 ^ 24 -> v = traffic tbl ns (chart_order ns ord) es a b.
Proof. exact sankey_exact. Qed.
Print Assumptions C51_value_is_the_traffic.

(** If the fields of each metric have different values, the traffic is the sum of the
    counts of the metrics that step from the one to the other. *)
Theorem C51_each_metric_counts_once : forall tbl ns order es a b,
  (forall en, In en es -> selected ns en -> NoDup (path tbl order en)) ->
  traffic tbl ns order es a b =
    sum (map (fun en => mv_count en.1.2) (List.filter (fun en => chosen ns en && steps_through tbl order a b en) es)).
Proof. exact traffic_once. Qed.
Print Assumptions C51_each_metric_counts_once.

(** In general the error is at most one part in 2^24 for each count added:
    t * (1 - 2^-24)^n <= v <= t * (1 + 2^-24)^n. *)
Theorem C51_rounding_is_bounded : forall tbl ns ord es ch a b v,
  counters_ok es -> sankey tbl ns ord es = Some ch -> In (Link a b v) (ch_links ch) ->
  let t := traffic tbl ns (chart_order ns ord) es a b in
  let n := addends tbl ns (chart_order ns ord) es a b in
  t * (2 ^ 24 - 1) ^ n <= v * 2 ^ (24 * n) <= t * (2 ^ 24 + 1) ^ n.
Proof. exact sankey_bounds. Qed.
Print Assumptions C51_rounding_is_bounded.

(** The order of the metrics does not matter while the traffic is at most 2^24 ... *)
Theorem C51_metric_order_is_immaterial : forall tbl ns ord es es' ch ch' a b v v',
  es ≡ₚ es' -> counters_ok es -> sankey tbl ns ord es = Some ch -> sankey tbl ns ord es' = Some ch' ->
  traffic tbl ns (chart_order ns ord) es a b <= 2 ^ 24 ->
  In (Link a b v) (ch_links ch) -> In (Link a b v') (ch_links ch') -> v = v'.
Proof. exact sankey_perm. Qed.
Print Assumptions C51_metric_order_is_immaterial.
(** ... and does above it. *)
Definition ex_big : list entry :=
  [ (ex_metric 10 0 0 (2 ^ 24), Some ex_front); (ex_metric 10 1 0 1, Some ex_front); (ex_metric 10 2 0 1, Some ex_front) ].
Theorem C51_metric_order_matters_refuted : exists es es' ch ch' v v',
  es ≡ₚ es' /\ NoDup (map (fun en : entry => en.1.1) es) /\ counters_ok es
  /\ sankey ex_tbl "" "ns,pod" es = Some ch /\ sankey ex_tbl "" "ns,pod" es' = Some ch'
  /\ In (Link "web" "front" v) (ch_links ch) /\ In (Link "web" "front" v') (ch_links ch') /\ v <> v'.
Proof.
  exists ex_big, (rev ex_big). eexists. eexists. exists (2 ^ 24), (2 ^ 24 + 2).
  split; [apply Permutation_rev|]. split; [apply (bool_decide_eq_true_1 _); vm_compute; reflexivity|].
  split; [intros en H; cbn in H; repeat destruct H as [<-|H]; try contradiction; cbn; lia|].
  split; [vm_compute; reflexivity|]. split; [vm_compute; reflexivity|].
  split; [left; reflexivity|]. split; [left; reflexivity|]. discriminate.
Qed.
Print Assumptions C51_metric_order_matters_refuted.

(** A link that has reached 2^24 never moves again by counts of one, however many. *)
Theorem C51_small_counts_vanish : forall tbl ns ord es es1 ch a b,
  counters_ok (es ++ es1)%list ->
  (forall en, In en es1 -> mv_count en.1.2 = 1) ->
  traffic tbl ns (chart_order ns ord) es a b = 2 ^ 24 ->
  sankey tbl ns ord (es ++ es1)%list = Some ch ->
  In (Link a b (2 ^ 24)) (ch_links ch).
Proof. exact stalls. Qed.
Print Assumptions C51_small_counts_vanish.

(** Values of different fields that are spelled alike share a node: here a pod and a
    container called like their namespace, so one metric counts twice on one link. *)
Theorem C51_equal_names_count_twice_refuted : exists es ch,
  counters_ok es /\ sankey ex_tbl "" "ns,pod,container" es = Some ch
  /\ ch_links ch = [Link "web" "web" 10] /\ sum (map (fun en => mv_count en.1.2) es) = 5.
Proof.
  exists [(ex_metric 10 0 0 5, Some (Owner "web" "web" "web"))]. eexists. split; [|split; [vm_compute; reflexivity|split; reflexivity]].
  intros en [<-|[]]. cbn. lia.
Qed.
Print Assumptions C51_equal_names_count_twice_refuted.

(** The order asked for is the order used, in any of the spellings; other tokens are
    ignored wherever they stand. *)
Theorem C51_order_tokens : forall ts ks, ts <> [] -> Forall (fun t => has_comma t = false) ts ->
  Forall2 means ts ks -> parse_order (join ts) = ks.
Proof. exact parse_order_spec. Qed.
Print Assumptions C51_order_tokens.
Theorem C51_unknown_tokens_are_ignored : forall ts t us, Forall (fun t => has_comma t = false) (ts ++ t :: us)%list ->
  (forall k, ~ means t k) -> (ts ++ us)%list <> [] ->
  parse_order (join (ts ++ t :: us)%list) = parse_order (join (ts ++ us)%list).
Proof. exact parse_order_unknown. Qed.
Print Assumptions C51_unknown_tokens_are_ignored.

(** The order in effect: the documented one if none is asked for, with the pods and
    containers of the namespace asked for instead of all namespaces; else the one
    asked for. *)
Theorem C51_order_in_effect :
  chart_order "" "" = [OScClass; OScGroup; ONamespace; OPod; OScName; OErrno]
  /\ (forall ns, ns <> "" -> chart_order ns "" = [OScClass; OScGroup; OPod; OContainer; OScName; OErrno])
  /\ (forall ns ts ks, ts <> [] -> Forall (fun t => has_comma t = false) ts -> Forall2 means ts ks ->
       chart_order ns (join ts) = ks).
Proof. exact order_in_effect. Qed.
Print Assumptions C51_order_in_effect.

Example C51_nonvacuous :
  shows (sankey ex_tbl "" "class,ns,pod" ex_entries) =
    Some (["FileSystem"; "web"; "front"; "data"; "store"],
          [("FileSystem", "web", 13); ("web", "front", 13); ("FileSystem", "data", 3); ("data", "store", 3)])
  /\ shows (sankey ex_tbl "data" "" ex_entries) =
    Some (["FileSystem"; "FileWrite"; "store"; "pg"; "sys_read"; "OK"],
          [("FileSystem", "FileWrite", 3); ("FileWrite", "store", 3); ("store", "pg", 3); ("pg", "sys_read", 3); ("sys_read", "OK", 3)])
  /\ traffic ex_tbl "" (parse_order "class,ns,pod") ex_entries "FileSystem" "web" = 13
  /\ NoDup (path ex_tbl (parse_order "class,ns,pod") (ex_metric 10 0 0 5, Some ex_front))
  /\ parse_order "cl,nonsense,ns,p" = [OScClass; ONamespace; OPod].
Proof. split_and!; try (vm_compute; reflexivity). apply (bool_decide_eq_true_1 _). vm_compute. reflexivity. Qed.
Example C51_counters_met : counters_ok ex_entries.
Proof. intros en H. cbn in H. repeat destruct H as [<-|H]; try contradiction; cbn; lia. Qed.

(** * C42: unknown syscalls in charts and scrapes *)

(** The chart panics exactly if a selected metric is of an unknown syscall and its path
    has at least one step and goes through a field of the syscall. *)
Theorem C42_chart_panics_iff : forall tbl ns ord es,
  sankey tbl ns ord es = None <->
  exists en, In en es /\ selected ns en /\ lookup_sc tbl (ByInt (mk_nr en.1.1)) = None
    /\ (2 <= length (chart_order ns ord))%nat /\ exists k, In k (chart_order ns ord) /\ of_syscall k.
Proof. exact sankey_panics. Qed.
Print Assumptions C42_chart_panics_iff.
(** A scrape panics exactly if there is a metric of an unknown syscall of a known container. *)
Theorem C42_scrape_panics_iff : forall tbl topo es,
  gather tbl topo es = Crashed <->
  topo = true /\ exists k v c, In ((k, v), Some c) es /\ lookup_sc tbl (ByInt (mk_nr k)) = None.
Proof. exact gather_crashes. Qed.
Print Assumptions C42_scrape_panics_iff.
Example C42_chart_nonvacuous :
  sankey ex_tbl "" "" [(ex_metric 10 99 0 1, Some ex_front)] = None
  /\ shows (sankey ex_tbl "" "ns,pod" [(ex_metric 10 99 0 1, Some ex_front)]) = Some (["web"; "front"], [("web", "front", 1)])
  /\ gather ex_tbl true [(ex_metric 10 99 0 1, Some ex_front)] = Crashed
  /\ gather ex_tbl true [(ex_metric 10 99 0 1, None)] = Samples [].
Proof. split_and!; vm_compute; reflexivity. Qed.

(** * C52: word clouds *)

(** After any requests, each cloud holds the sums over everything the page was ever
    rendered with, and that is what every response shows. *)
Theorem C52_clouds_hold_all_renders : forall tbl rs, counters_ok (fed rs) ->
  let w := (serve_all tbl new_clouds rs).1 in
  cloud_of errno_word (fed rs) (wc_errno w)
  /\ cloud_of (class_word tbl) (fed rs) (wc_class w)
  /\ cloud_of namespace_word (fed rs) (wc_namespace w).
Proof. exact clouds_hold. Qed.
Print Assumptions C52_clouds_hold_all_renders.
Theorem C52_pages_show_all_renders : forall tbl rs ns ord es1 es2 ch e c n,
  counters_ok (fed (rs ++ [RPage ns ord es1 es2])%list) ->
  (serve tbl (serve_all tbl new_clouds rs).1 (RPage ns ord es1 es2)).2 = APage ch e c n ->
  cloud_of errno_word (fed rs ++ es1)%list e
  /\ cloud_of (class_word tbl) (fed rs ++ es1)%list c
  /\ cloud_of namespace_word (fed rs ++ es1)%list n
  /\ sankey tbl ns ord es2 = Some ch.
Proof. exact pages_show. Qed.
Print Assumptions C52_pages_show_all_renders.
(** The pages of single clouds show what the last page did; they never add to it. *)
Theorem C52_single_clouds_only_show : forall tbl rs, counters_ok (fed rs) ->
  let w := (serve_all tbl new_clouds rs).1 in
  (exists m, serve tbl w RErrno = (w, ACloud m) /\ cloud_of errno_word (fed rs) m)
  /\ (exists m, serve tbl w RClass = (w, ACloud m) /\ cloud_of (class_word tbl) (fed rs) m)
  /\ (exists m, serve tbl w RNamespace = (w, ACloud m) /\ cloud_of namespace_word (fed rs) m).
Proof. exact singles_show. Qed.
Print Assumptions C52_single_clouds_only_show.
(** Counters that stand still are shown [n] times over in the [n]th rendering. *)
Theorem C52_each_render_adds_again : forall word es w n, (0 < n)%nat -> under word w es <> [] -> forall m,
  cloud_of word (concat (repeat es n)) m ->
  m !! w = Some (Z.of_nat n * sum (map (fun en => mv_count en.1.2) (under word w es)) mod 2 ^ 64).
Proof. exact renders_add. Qed.
Print Assumptions C52_each_render_adds_again.

Example C52_nonvacuous :
  let page := RPage "" "ns,pod" ex_entries ex_entries in
  let w1 := (serve_all ex_tbl new_clouds [page]).1 in
  let w3 := (serve_all ex_tbl new_clouds [page; RErrno; page; page]).1 in
  wc_errno w1 !! "ENOENT" = Some 1 /\ wc_errno w3 !! "ENOENT" = Some 3
  /\ wc_class w1 !! "FileSystem" = Some 16 /\ wc_class w3 !! "FileSystem" = Some 48
  /\ wc_namespace w3 !! "web" = Some 39 /\ wc_errno w3 !! "OK" = None
  /\ fed [page; RErrno; page; page] = concat (repeat ex_entries 3).
Proof. cbv zeta. split_and!; vm_compute; reflexivity. Qed.

(** * C68: what a Prometheus scrape shows *)

(** The samples are the counters of the metrics whose container is known: one count and
    one time for each, under its own labels. *)
Theorem C68_samples_are_the_metrics : forall tbl es l, gather tbl true es = Samples l -> forall s,
  In s l <-> exists k v c ls, In ((k, v), Some c) es /\ label_values tbl k c ls /\
    (s = Sample DCount ls (to_f64 (mv_count v)) \/ s = Sample DTime ls (to_f64 (mv_time v))).
Proof. exact gather_samples. Qed.
Print Assumptions C68_samples_are_the_metrics.
(** Values are exact up to 2^53. *)
Theorem C68_values_are_exact : forall n, 0 <= n <= 2 ^ 53 -> to_f64 n = n.
Proof. exact (rnd_upto 53 ltac:(lia)). Qed.
Print Assumptions C68_values_are_exact.
(** Labels tell metrics apart, but for errors without a name, which all are "UNK": with
    two of these for one container and syscall the whole scrape is refused. *)
Theorem C68_scrape_refused_iff : forall tbl es, go_table tbl ->
  NoDup (map (fun en : entry => en.1.1) es) -> steady es -> (forall en, In en es -> 0 <= mk_err en.1.1) ->
  (forall k v c, In ((k, v), Some c) es -> known tbl (mk_nr k)) ->
  (gather tbl true es = Refused <-> clash es).
Proof. exact refused_iff. Qed.
Print Assumptions C68_scrape_refused_iff.
(** So a scrape of known syscalls whose errors all have names always succeeds, even if
    containers come and go while it runs. *)
Theorem C68_named_errors_are_served : forall tbl es, go_table tbl ->
  NoDup (map (fun en : entry => en.1.1) es) ->
  (forall k v c, In ((k, v), Some c) es -> known tbl (mk_nr k) /\ 0 <= mk_err k /\ named (mk_err k)) ->
  exists l, gather tbl true es = Samples l.
Proof. exact named_served. Qed.
Print Assumptions C68_named_errors_are_served.

Lemma in_existsb e l : In e l -> existsb (Z.eqb e) l = true.
Proof. intros H. apply existsb_exists. exists e. split; [exact H|apply Z.eqb_refl]. Qed.
Example C68_nonvacuous :
  let es := [(ex_metric 10 0 41 5, Some ex_front); (ex_metric 10 0 58 6, Some ex_front)] in
  gather table true es = Refused /\ clash es /\ steady es
  /\ gather table true [(ex_metric 10 0 41 5, Some ex_front); (ex_metric 10 0 2 6, Some ex_front)] <> Refused
  /\ named 2 /\ ~ named 41 /\ ~ named 58.
Proof.
  cbv zeta. assert (U : ~ named 41 /\ ~ named 58).
  { split; intros H; apply (in_existsb 41) in H || apply (in_existsb 58) in H; vm_compute in H; discriminate. }
  destruct U as [U1 U2]. split; [vm_compute; reflexivity|].
  split; [exists (ex_metric 10 0 41 5, Some ex_front), (ex_metric 10 0 58 6, Some ex_front); cbn; split_and!; eauto; lia|].
  split; [intros a b [<-|[<-|[]]] [<-|[<-|[]]] _; reflexivity|].
  split; [vm_compute; discriminate|]. split; [|split; assumption]. vm_compute. tauto.
Qed.
