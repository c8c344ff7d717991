(** Lemmas about the kernel filter. *)
From stdpp Require Import gmap strings list.
From Coq Require Import ZArith Lia.
From Verif Require Import SyscallTable SyscallModel SyscallSpec SyscallProofs FilterModel FilterSpec.
Open Scope Z_scope.

Lemma s32_small x : 0 <= x < 2^31 -> s32 x = x.
Proof.
  intros H. unfold s32. rewrite Z.mod_small by lia. destruct (Z.ltb_spec x (2^31)); lia.
Qed.
Lemma u32_small x : kernel_ns x -> u32 x = x.
Proof. intros H. unfold u32, kernel_ns in *. by apply Z.mod_small. Qed.
Lemma kernel_ns_not_any ns : kernel_ns ns -> (ns =? -1) = false.
Proof. unfold kernel_ns. intros H. apply Z.eqb_neq. lia. Qed.

Lemma map_update_some {K A} `{Countable K} cap (m m' : gmap K A) k v :
  map_update cap m k v = Some m' -> m' = <[k := v]> m.
Proof. unfold map_update. destruct (m !! k); [congruence|]. destruct (decide _); congruence. Qed.

(** The rules the helper functions build. *)
Lemma syscall_new_rule tbl nr sc ns : lookup_sc tbl nr = Some sc -> 0 <= sc_nr sc < 2^31 ->
  new_rule tbl [SetModeSyscall; SetSyscall nr; SetPidNamespace ns; SetActionAllow] =
  Some (Rule (if ns =? -1 then syscall_rule_any (sc_nr sc) else syscall_rule (u32 ns) (sc_nr sc)) fresh).
Proof.
  intros Hl Hn. unfold new_rule. cbn [apply_opts apply_opt]. rewrite Hl. cbn [apply_opts apply_opt r_key r_val].
  rewrite (s32_small _ Hn). destruct (ns =? -1); reflexivity.
Qed.
Lemma sampled_new_rule tbl nr sc ns rate : lookup_sc tbl nr = Some sc -> 0 <= sc_nr sc < 2^31 ->
  new_rule tbl [SetModeSyscall; SetSyscall nr; SetPidNamespace ns; SetSampleRate rate; SetActionAllow] =
  Some (Rule (if ns =? -1 then syscall_rule_any (sc_nr sc) else syscall_rule (u32 ns) (sc_nr sc)) (FVal (u32 rate) 0 0 0)).
Proof.
  intros Hl Hn. unfold new_rule. cbn [apply_opts apply_opt]. rewrite Hl. cbn [apply_opts apply_opt r_key r_val].
  rewrite (s32_small _ Hn). destruct (ns =? -1); reflexivity.
Qed.
Lemma metrics_new_rule tbl ns :
  new_rule tbl [SetModeMetrics; SetPidNamespace ns; SetActionAllow] =
  Some (Rule (if ns =? -1 then FKey 4 0 0 0 else FKey (4 + 2^14) (u32 ns) 0 0) fresh).
Proof. unfold new_rule. cbn [apply_opts apply_opt]. destruct (ns =? -1); reflexivity. Qed.

Lemma add_rule_puts k v m : puts_rule m (add_rule (Rule k v) m) (add_key k) v.
Proof.
  unfold puts_rule, add_rule. cbn [r_key r_val].
  destruct (map_update config_max _ _ _) as [c|] eqn:Ec; cbn [fst snd]; [|split; [done|auto]].
  apply map_update_some in Ec as ->.
  destruct (map_update nfilter_max _ _ _) as [f|] eqn:Ef; cbn [fst snd config nfilter]; split; try done; auto.
  intros _. apply map_update_some in Ef as ->. done.
Qed.
Lemma add_key_syscall ns nr : add_key (syscall_rule ns nr) = syscall_rule ns nr.
Proof. reflexivity. Qed.
Lemma add_key_syscall_any nr : add_key (syscall_rule_any nr) = syscall_rule_any nr.
Proof. reflexivity. Qed.

Lemma known_nr tbl nr : go_table tbl -> known tbl nr ->
  exists sc, lookup_sc tbl (ByInt nr) = Some sc /\ sc_nr sc = nr /\ 0 <= sc_nr sc < 2^31.
Proof.
  intros Ht Hk. destruct (known_sc _ _ Ht Hk) as (sc & H1 & H2 & H3). exists sc. split; [done|]. split; [done|]. lia.
Qed.
Lemma add_syscall_puts tbl nr ns m : go_table tbl -> known tbl nr -> kernel_ns ns ->
  puts_rule m (add_syscall tbl (ByInt nr) ns m) (syscall_rule ns nr) fresh.
Proof.
  intros Ht Hk Hns. destruct (known_nr _ _ Ht Hk) as (sc & Hl & <- & Hr).
  unfold add_syscall, with_rule. rewrite (syscall_new_rule _ _ sc), kernel_ns_not_any, u32_small by done.
  rewrite <- (add_key_syscall ns (sc_nr sc)) at 2. apply add_rule_puts.
Qed.
Lemma add_sampled_puts tbl nr ns rate m : go_table tbl -> known tbl nr -> kernel_ns ns ->
  puts_rule m (add_sampled_syscall tbl (ByInt nr) ns rate m) (syscall_rule ns nr) (FVal (u32 rate) 0 0 0).
Proof.
  intros Ht Hk Hns. destruct (known_nr _ _ Ht Hk) as (sc & Hl & <- & Hr).
  unfold add_sampled_syscall, with_rule. rewrite (sampled_new_rule _ _ sc), kernel_ns_not_any, u32_small by done.
  rewrite <- (add_key_syscall ns (sc_nr sc)) at 2. apply add_rule_puts.
Qed.
Lemma remove_syscall_eq tbl nr ns m : go_table tbl -> known tbl nr -> kernel_ns ns ->
  remove_syscall tbl (ByInt nr) ns m =
  (KMaps (config m) (delete (syscall_rule ns nr) (nfilter m)), bool_decide (is_Some (nfilter m !! syscall_rule ns nr))).
Proof.
  intros Ht Hk Hns. destruct (known_nr _ _ Ht Hk) as (sc & Hl & <- & Hr).
  unfold remove_syscall, with_rule. rewrite (syscall_new_rule _ _ sc), kernel_ns_not_any, u32_small by done.
  reflexivity.
Qed.
Lemma add_metrics_puts tbl ns m : kernel_ns ns -> puts_rule m (add_metrics tbl ns m) (metrics_rule ns) fresh.
Proof.
  intros Hns. unfold add_metrics, with_rule. rewrite metrics_new_rule, kernel_ns_not_any, u32_small by done.
  exact (add_rule_puts (FKey (4 + 2^14) ns 0 0) fresh m).
Qed.
Lemma remove_metrics_eq tbl ns m : kernel_ns ns ->
  remove_metrics tbl ns m =
  (KMaps (config m) (delete (FKey (4 + 2^14) ns 0 0) (nfilter m)), bool_decide (is_Some (nfilter m !! FKey (4 + 2^14) ns 0 0))).
Proof.
  intros Hns. unfold remove_metrics, with_rule. rewrite metrics_new_rule, kernel_ns_not_any, u32_small by done.
  reflexivity.
Qed.

Lemma syscall_rule_inj ns nr ns' nr' : syscall_rule ns nr = syscall_rule ns' nr' <-> ns = ns' /\ nr = nr'.
Proof. unfold syscall_rule. split; [intros [= -> ->]; done|intros [-> ->]; done]. Qed.
Lemma metrics_rule_inj ns ns' : metrics_rule ns = metrics_rule ns' <-> ns = ns'.
Proof. unfold metrics_rule. split; [intros [= ->]; done|intros ->; done]. Qed.
Lemma syscall_not_metrics ns nr ns' : syscall_rule ns nr <> metrics_rule ns'.
Proof. unfold syscall_rule, metrics_rule. intros [= H]. Qed.

(** Namespaces alias modulo 2^32. *)
Lemma ns_alias tbl nr ns ns' m : u32 ns = u32 ns' -> ns <> -1 -> ns' <> -1 ->
  add_syscall tbl nr ns m = add_syscall tbl nr ns' m /\
  remove_syscall tbl nr ns m = remove_syscall tbl nr ns' m /\
  add_metrics tbl ns m = add_metrics tbl ns' m.
Proof.
  intros Hu H1 H2. unfold add_syscall, remove_syscall, add_metrics, with_rule, new_rule.
  cbn [apply_opts apply_opt]. apply Z.eqb_neq in H1, H2. rewrite H1, H2, Hu.
  destruct (lookup_sc tbl nr); repeat split; rewrite ?H1, ?H2, ?Hu; cbn; rewrite ?H1, ?H2, ?Hu; reflexivity.
Qed.
Lemma ns_any tbl nr m : go_table tbl -> known tbl nr ->
  puts_rule m (add_syscall tbl (ByInt nr) (-1) m) (syscall_rule_any nr) fresh.
Proof.
  intros Ht Hk. destruct (known_nr _ _ Ht Hk) as (sc & Hl & <- & Hr).
  unfold add_syscall, with_rule. rewrite (syscall_new_rule _ _ sc) by done.
  exact (add_rule_puts (syscall_rule_any (sc_nr sc)) fresh m).
Qed.

(** The in-kernel decision. *)
Lemma filter_enabled_spec m type : filter_enabled m type = true <-> configured m type.
Proof.
  unfold filter_enabled, configured. destruct (config m !! type) as [v|].
  - rewrite negb_true_iff, Z.eqb_neq. split; [intros H; by exists v|intros (v' & [= <-] & H); done].
  - split; [done|intros (? & ? & _); done].
Qed.
Definition found (m : kmaps) (k : fkey) : bool := filter_enabled m (k_flags k) && bool_decide (is_Some (nfilter m !! k)).
Lemma found_spec m k : found m k = true <-> configured m (k_flags k) /\ is_Some (nfilter m !! k).
Proof. unfold found. rewrite andb_true_iff, filter_enabled_spec, bool_decide_eq_true. done. Qed.
Lemma eval_loop_find ks m : eval_loop ks m =
  match find (found m) ks with
  | Some k => match nfilter m !! k with
              | Some v => (KMaps (config m) (<[k := (hit v).1]> (nfilter m)), (hit v).2)
              | None => (m, action_drop)
              end
  | None => (m, action_drop)
  end.
Proof.
  induction ks as [|k ks IH]; [done|]. cbn [eval_loop find]. unfold found at 1.
  destruct (filter_enabled m (k_flags k)); cbn [andb]; [|exact IH].
  destruct (nfilter m !! k) as [v|] eqn:E; cbn [andb].
  - rewrite bool_decide_eq_true_2 by eauto. rewrite E. by destruct (hit v).
  - rewrite bool_decide_eq_false_2 by (intros [? ?]; done). exact IH.
Qed.
Lemma find_lookup {A} (f : A -> bool) l k : find f l = Some k <->
  exists i, l !! i = Some k /\ f k = true /\ forall j k', (j < i)%nat -> l !! j = Some k' -> f k' = false.
Proof.
  induction l as [|a l IH].
  - simpl. split; [done|intros (i & H & _); done].
  - cbn [find]. destruct (f a) eqn:E.
    + split.
      * intros [= <-]. exists 0%nat. split; [done|]. split; [done|]. intros; lia.
      * intros (i & H & Hk & Hj). destruct i as [|i]; [by simplify_eq/=|].
        specialize (Hj 0%nat a ltac:(lia) eq_refl). congruence.
    + rewrite IH. split.
      * intros (i & H & Hk & Hj). exists (S i). split; [done|]. split; [done|].
        intros [|j] k' Hlt Hl; [by simplify_eq/=|]. apply (Hj j); [lia|done].
      * intros (i & H & Hk & Hj). destruct i as [|i]; [simplify_eq/=; congruence|].
        exists i. split; [done|]. split; [done|]. intros j k' Hlt Hl. apply (Hj (S j)); [lia|done].
Qed.

Lemma eval_keys_subjects mode t nr : kernel_mode mode -> s32 (u32 (t_id t)) = nr -> eval_keys mode t = subjects mode t nr.
Proof. intros [->| ->] <-; reflexivity. Qed.

Lemma decides_find m mode t nr k v : kernel_mode mode -> s32 (u32 (t_id t)) = nr ->
  decides m mode t nr k v <-> find (found m) (eval_keys mode t) = Some k /\ nfilter m !! k = Some v.
Proof.
  intros Hm Hn. rewrite (eval_keys_subjects _ _ _ Hm Hn), find_lookup. unfold decides. split.
  - intros (i & H1 & H2 & H3 & H4). split; [|done]. exists i. split; [done|]. split; [apply found_spec; eauto|].
    intros j k' Hj Hk. specialize (H4 j k' Hj Hk). rewrite <- found_spec in H4. by destruct (found m k').
  - intros [(i & H1 & H2 & H3) H4]. apply found_spec in H2 as [H2 _]. exists i. split; [done|]. split; [done|]. split; [done|].
    intros j k' Hj Hk Hc. apply found_spec in Hc. rewrite (H3 j k' Hj Hk) in Hc. done.
Qed.

(** The verdict of one run, and its effect. *)
Lemma run_nfilter_decides m mode t nr k v : kernel_mode mode -> s32 (u32 (t_id t)) = nr ->
  configured m 1 -> decides m mode t nr k v ->
  run_nfilter mode t m = (KMaps (config m) (<[k := (hit v).1]> (nfilter m)), (hit v).2).
Proof.
  intros Hm Hn Hc Hd. apply decides_find in Hd as [Hf Hv]; [|done|done].
  unfold run_nfilter. apply filter_enabled_spec in Hc. unfold mode_enabled. rewrite Hc, eval_loop_find, Hf, Hv. done.
Qed.
Lemma run_nfilter_none m mode t nr : kernel_mode mode -> s32 (u32 (t_id t)) = nr ->
  (~ configured m 1 \/ forall k v, ~ decides m mode t nr k v) -> run_nfilter mode t m = (m, 1).
Proof.
  intros Hm Hn H. unfold run_nfilter, mode_enabled. destruct (filter_enabled m 1) eqn:E; [|done].
  apply filter_enabled_spec in E. destruct H as [H|H]; [done|]. rewrite eval_loop_find.
  destruct (find (found m) (eval_keys mode t)) as [k|] eqn:Ef; [|done].
  destruct (nfilter m !! k) as [v|] eqn:Ev; [|done].
  exfalso. apply (H k v). apply (decides_find m mode t nr k v Hm Hn). done.
Qed.
Lemma decides_dec m mode t nr : kernel_mode mode -> s32 (u32 (t_id t)) = nr ->
  (exists k v, decides m mode t nr k v) \/ (forall k v, ~ decides m mode t nr k v).
Proof.
  intros Hm Hn. destruct (find (found m) (eval_keys mode t)) as [k|] eqn:Ef.
  - assert (found m k = true) as Hk by (apply find_some in Ef; tauto).
    apply found_spec in Hk as [_ [v Hv]]. left. exists k, v. by apply decides_find.
  - right. intros k v Hd. apply decides_find in Hd as [? _]; [congruence|done|done].
Qed.
Lemma hit_verdict v : (hit v).2 <> 1 <-> v_action v <> 1 /\ lets_through v.
Proof.
  unfold hit, lets_through, action_drop. destruct (Z.ltb_spec 0 (v_rate v)); cbn [snd].
  - destruct (Z.ltb_spec 1 (u32 (v_count v + 1))), (Z.eqb_spec (u32 (v_count v + 1) mod v_rate v) 0); cbn [andb negb]; intuition lia.
  - intuition lia.
Qed.
Lemma verdict_exact m mode t nr : kernel_mode mode -> s32 (u32 (t_id t)) = nr ->
  (run_nfilter mode t m).2 <> 1 <->
  configured m 1 /\ exists k v, decides m mode t nr k v /\ v_action v <> 1 /\ lets_through v.
Proof.
  intros Hm Hn. split.
  - intros H. destruct (decides_dec m mode t nr Hm Hn) as [(k & v & Hd)|Hd].
    + destruct (filter_enabled m 1) eqn:E.
      * apply filter_enabled_spec in E. split; [done|]. exists k, v. split; [done|].
        rewrite (run_nfilter_decides _ _ _ _ _ _ Hm Hn E Hd) in H. by apply hit_verdict.
      * rewrite (run_nfilter_none _ _ _ _ Hm Hn) in H; [done|]. left. rewrite <- filter_enabled_spec, E. done.
    + rewrite (run_nfilter_none _ _ _ _ Hm Hn) in H; [done|]. by right.
  - intros (Hc & k & v & Hd & H1 & H2). rewrite (run_nfilter_decides _ _ _ _ _ _ Hm Hn Hc Hd). by apply hit_verdict.
Qed.
(** A run changes nothing but the counters of the rule that decided. *)
Lemma run_nfilter_frame mode t m :
  config (run_nfilter mode t m).1 = config m /\
  forall k, nfilter (run_nfilter mode t m).1 !! k = nfilter m !! k \/
    exists v, nfilter m !! k = Some v /\ nfilter (run_nfilter mode t m).1 !! k = Some (hit v).1.
Proof.
  unfold run_nfilter. destruct (filter_enabled m mode_enabled); [|split; [done|by left]].
  rewrite eval_loop_find. destruct (find _ _) as [k|]; [|split; [done|by left]].
  destruct (nfilter m !! k) as [v|] eqn:E; [|split; [done|by left]].
  cbn [fst config nfilter]. split; [done|]. intros k'. destruct (decide (k = k')) as [<-|Hne].
  - right. exists v. rewrite lookup_insert. done.
  - left. by rewrite lookup_insert_ne.
Qed.
Lemma hit_same v : v_rate (hit v).1 = v_rate v /\ v_action (hit v).1 = v_action v.
Proof. unfold hit. by destruct (0 <? v_rate v). Qed.

(** Sampling counts (C25). *)
Lemma runs_rule k : forall l m c h, 
  (forall v, nfilter m !! k = Some v -> 0 <= v_count v) ->
  nfilter m !! k = Some (FVal (v_rate h) c (v_hits h) (v_action h)) -> 0 < v_rate h -> v_action h <> 1 -> 0 <= c ->
  filter_enabled m 1 = true ->
  (c + Z.of_nat (length (List.filter (decided k) (runs l m))) < 2^32) ->
  map passed (List.filter (decided k) (runs l m)) =
  map (fun i => sample_ok (v_rate h) (c + 1 + Z.of_nat i)) (seq 0 (length (List.filter (decided k) (runs l m)))).
Proof.
  induction l as [|[mode t] l IH]; intros m c h Hv Hk Hr Ha Hc Hen Hlen; [done|].
  cbn [runs] in *. fold (found m) in *.
  change (find (λ k0, filter_enabled m (k_flags k0) && bool_decide (is_Some (nfilter m !! k0))) (eval_keys mode t))
    with (find (found m) (eval_keys mode t)) in *.
  unfold run_nfilter in *. unfold mode_enabled in *. rewrite Hen in *.
  rewrite eval_loop_find in *.
  destruct (find (found m) (eval_keys mode t)) as [k'|] eqn:Ef.
  - assert (found m k' = true) as Hf by (apply find_some in Ef; tauto).
    apply found_spec in Hf as [_ [v' Hv']]. rewrite Hv' in *. cbn [fst snd] in *.
    destruct (decide (k' = k)) as [->|Hne].
    + assert (decided k (Some k, (hit v').2) = true) as Hd by (by apply bool_decide_eq_true_2).
      cbn [List.filter] in *. rewrite Hd in *. cbn [length map seq] in *.
      rewrite Hk in Hv'. injection Hv' as <-.
      assert (u32 (c + 1) = c + 1) as Hu.
      { unfold u32. apply Z.mod_small. lia. }
      set (m' := KMaps _ _) in *.
      assert (nfilter m' !! k = Some (FVal (v_rate h) (c + 1) (u64 (v_hits h + 1)) (v_action h))) as Hk'.
      { unfold m'. cbn [nfilter]. rewrite lookup_insert. unfold hit. cbn [v_rate v_count v_hits v_action].
        destruct (Z.ltb_spec 0 (v_rate h)); [|lia]. cbn [fst]. by rewrite Hu. }
      f_equal.
      * unfold passed, hit. cbn [v_rate v_count v_hits v_action snd]. destruct (Z.ltb_spec 0 (v_rate h)); [|lia].
        cbn [snd]. rewrite Hu. unfold sample_ok. rewrite Z.add_0_r.
        destruct (Z.ltb_spec 1 (c + 1)); cbn [andb].
        -- destruct (Z.eqb_spec (c + 1) 1); [lia|]. cbn [orb].
           destruct (Z.eqb_spec ((c + 1) mod v_rate h) 0); cbn [negb]; [|done].
           by apply negb_true_iff, Z.eqb_neq.
        -- destruct (Z.eqb_spec (c + 1) 1); [|lia]. cbn [orb]. by apply negb_true_iff, Z.eqb_neq.
      * rewrite (IH m' (c + 1) (FVal (v_rate h) 0 (u64 (v_hits h + 1)) (v_action h))); cbn [v_rate v_hits v_action];
          [|rewrite Hk'; intros v [= <-]; cbn; lia|done|done|done|lia|done|lia].
        rewrite <- seq_shift, map_map. apply map_ext. intros i. f_equal. lia.
    + assert (decided k (Some k', (hit v').2) = false) as Hd by (apply bool_decide_eq_false_2; cbn; congruence).
      cbn [List.filter] in *. rewrite Hd in *. apply IH; try done.
      * intros v. cbn [nfilter]. rewrite lookup_insert_ne by done. apply Hv.
      * cbn [nfilter]. by rewrite lookup_insert_ne.
  - assert (decided k (None, action_drop) = false) as Hd by (apply bool_decide_eq_false_2; done).
    cbn [List.filter fst snd] in *. rewrite Hd in *. by apply IH.
Qed.

Lemma sample_count r n : 1 < r ->
  Z.of_nat (length (List.filter (fun i => sample_ok r (1 + Z.of_nat i)) (seq 0 n))) =
  if decide (n = 0%nat) then 0 else 1 + Z.of_nat n / r.
Proof.
  intros Hr. induction n as [|n IH]; [done|].
  rewrite seq_S, Nat.add_0_l. rewrite List.filter_app, app_length. cbn [List.filter].
  destruct (decide (S n = 0%nat)); [lia|].
  rewrite Nat2Z.inj_add, IH. unfold sample_ok.
  replace (Z.of_nat (S n)) with (1 + Z.of_nat n) by lia.
  destruct (decide (n = 0%nat)) as [->|Hn].
  - change (1 + Z.of_nat 0) with 1. cbn [Z.eqb orb length]. rewrite Z.div_small by lia. done.
  - destruct (Z.eqb_spec (1 + Z.of_nat n) 1); [lia|]. cbn [orb].
    destruct (Z.eqb_spec ((1 + Z.of_nat n) mod r) 0) as [Hm|Hm]; cbn [length].
    + assert (1 + Z.of_nat n = r * ((1 + Z.of_nat n) / r)) as Hd by (apply Z_div_exact_full_2; lia).
      set (q := (1 + Z.of_nat n) / r) in *. 
      assert (Z.of_nat n / r = q - 1) as ->; [|lia].
      symmetry. apply (Z.div_unique _ _ _ (r - 1)); nia.
    + assert (Z.of_nat n / r = (1 + Z.of_nat n) / r) as ->; [|lia].
      pose proof (Z.div_mod (1 + Z.of_nat n) r ltac:(lia)) as Hd.
      pose proof (Z.mod_pos_bound (1 + Z.of_nat n) r ltac:(lia)).
      symmetry. apply (Z.div_unique _ _ _ ((1 + Z.of_nat n) mod r - 1)); lia.
Qed.
Lemma sample_count_1 n : length (List.filter (fun i => sample_ok 1 (1 + Z.of_nat i)) (seq 0 n)) = n.
Proof.
  assert (forall l : list nat, List.filter (fun i => sample_ok 1 (1 + Z.of_nat i)) l = l) as H.
  { induction l as [|a l IH]; [done|]. cbn [List.filter].
    assert (sample_ok 1 (1 + Z.of_nat a) = true) as ->; [|by rewrite IH].
    unfold sample_ok. rewrite Z.mod_1_r. apply orb_true_r. }
  rewrite H. apply seq_length.
Qed.

Lemma filter_map_passed (f : option fkey * Z -> bool) (l : list (option fkey * Z)) :
  length (List.filter f l) = length (List.filter id (map f l)).
Proof. induction l as [|a l IH]; [done|]. cbn [List.filter map id]. destruct (f a); cbn [length]; by rewrite IH. Qed.
Lemma filter_id_map {A} (f : A -> bool) (l : list A) :
  length (List.filter id (map f l)) = length (List.filter f l).
Proof. induction l as [|a l IH]; [done|]. cbn [List.filter map id]. destruct (f a); cbn [length]; by rewrite IH. Qed.

(** Of the [n] runs decided by a fresh rule with rate [r], which pass. *)
Lemma sampled_runs k l m r : nfilter m !! k = Some (FVal r 0 0 0) -> 0 < r -> configured m 1 ->
  let ds := List.filter (decided k) (runs l m) in
  Z.of_nat (length ds) < 2^32 ->
  map passed ds = map (fun i => sample_ok r (1 + Z.of_nat i)) (seq 0 (length ds)) /\
  Z.of_nat (length (List.filter passed ds)) =
    if decide (r = 1) then Z.of_nat (length ds)
    else if decide (length ds = 0%nat) then 0 else 1 + Z.of_nat (length ds) / r.
Proof.
  intros Hk Hr Hc ds Hlen. apply filter_enabled_spec in Hc.
  pose proof (runs_rule k l m 0 (FVal r 0 0 0)) as H. cbn [v_rate v_hits v_action] in H.
  assert (map passed ds = map (fun i => sample_ok r (1 + Z.of_nat i)) (seq 0 (length ds))) as Hmap.
  { unfold ds. rewrite H; try done; try lia. rewrite Hk. intros v [= <-]. done. }
  split; [done|]. rewrite filter_map_passed, Hmap, filter_id_map.
  destruct (decide (r = 1)) as [->|Hne]; [by rewrite sample_count_1|]. apply sample_count. lia.
Qed.
Lemma unsampled_runs k : forall l m c h, configured m 1 -> nfilter m !! k = Some (FVal 0 c h 0) ->
  Forall (fun r => passed r = true) (List.filter (decided k) (runs l m)).
Proof.
  induction l as [|[mode t] l IH]; intros m c h Hc Hk; [constructor|].
  cbn [runs].
  change (find (λ k0, filter_enabled m (k_flags k0) && bool_decide (is_Some (nfilter m !! k0))) (eval_keys mode t))
    with (find (found m) (eval_keys mode t)).
  destruct (run_nfilter_frame mode t m) as [Hcfg Hf].
  assert (exists h', nfilter (run_nfilter mode t m).1 !! k = Some (FVal 0 c h' 0)) as [h' Hk'].
  { destruct (Hf k) as [->|(v & Hv & ->)]; [eauto|].
    rewrite Hk in Hv. injection Hv as <-. unfold hit. cbn. eauto. }
  assert (configured (run_nfilter mode t m).1 1) as Hc' by (unfold configured; by rewrite Hcfg).
  cbn [List.filter]. destruct (decided k _) eqn:E; [|by eapply IH]. constructor; [|by eapply IH].
  apply bool_decide_eq_true_1 in E. cbn [fst] in E. unfold passed. cbn [snd].
  unfold run_nfilter, mode_enabled. apply filter_enabled_spec in Hc. rewrite Hc, eval_loop_find, E, Hk. done.
Qed.

(** Metrics rules stay for ever (C23). *)
Lemma fstep_config tbl o m type : configured m type -> configured (fstep tbl o m) type.
Proof.
  assert (forall c, (config m = c \/ exists k, c = <[k := 1]> (config m)) -> configured m type ->
    exists v, c !! type = Some v /\ v <> 0) as Haux.
  { intros c [<-|[k ->]] Hc; [done|]. destruct (decide (k = type)) as [->|Hne].
    - rewrite lookup_insert. eauto.
    - rewrite lookup_insert_ne by done. exact Hc. }
  assert (forall os f, (forall r, config (f r m).1 = config m \/ exists k, config (f r m).1 = <[k := 1]> (config m)) ->
    configured m type -> configured (with_rule tbl os f m).1 type) as Hw.
  { intros os f Hf Hc. unfold with_rule. destruct (new_rule tbl os); [|done].
    apply (Haux _); [|done]. destruct (Hf r) as [<-|[k ->]]; eauto. }
  assert (forall r, config (add_rule r m).1 = config m \/ exists k, config (add_rule r m).1 = <[k := 1]> (config m)) as Hadd.
  { intros [k v]. destruct (add_rule_puts k v m) as [H1 H2]. destruct ((add_rule (Rule k v) m).2).
    - right. destruct (H1 eq_refl) as [_ ->]. eauto.
    - destruct (H2 eq_refl) as [_ [->| ->]]; eauto. }
  assert (forall r, config (del_rule r m).1 = config m \/ exists k, config (del_rule r m).1 = <[k := 1]> (config m)) as Hdel
    by (intros; by left).
  intros Hc. destruct o as [nr ns|nr ns rate|nr ns|ns|ns| |mode t]; cbn [fstep]; try by apply Hw.
  - unfold enable. destruct (map_update config_max (config m) mode_enabled 1) eqn:E; [|done]. cbn.
    apply map_update_some in E as ->. apply (Haux _); eauto.
  - unfold configured. rewrite (proj1 (run_nfilter_frame mode t m)). exact Hc.
Qed.
Lemma remove_keys tbl o k m : (o = FRemoveSyscall k.1 k.2 \/ o = FRemoveMetrics k.2) -> go_table tbl ->
  forall ns, nfilter (fstep tbl o m) !! metrics_rule ns = nfilter m !! metrics_rule ns.
Proof.
  intros Ho Ht ns. destruct Ho as [->| ->]; cbn [fstep].
  - unfold remove_syscall, with_rule, new_rule. cbn [apply_opts apply_opt].
    destruct (lookup_sc tbl k.1) as [sc|] eqn:El; [|done]. cbn [apply_opts apply_opt].
    destruct (k.2 =? -1); cbn [apply_opts]; unfold del_rule; cbn [fst nfilter r_key]; rewrite lookup_delete_ne; try done;
      unfold with_flag, metrics_rule; cbn; intros [= H].
  - unfold remove_metrics, with_rule. rewrite metrics_new_rule.
    destruct (k.2 =? -1); unfold del_rule; cbn [fst nfilter r_key]; rewrite lookup_delete_ne; done.
Qed.
Definition allows (m : kmaps) (k : fkey) : Prop := exists c h, nfilter m !! k = Some (FVal 0 c h 0).
Lemma add_keeps tbl os k v m : (forall r, new_rule tbl os = Some r -> add_key (r_key r) = k -> v_rate (r_val r) = 0 /\ v_action (r_val r) = 0) ->
  v = k -> allows m k -> allows (with_rule tbl os add_rule m).1 k.
Proof.
  intros Hr _ Ha. unfold with_rule. destruct (new_rule tbl os) as [[k' v']|]; [|done].
  specialize (Hr _ eq_refl). cbn [r_key r_val] in Hr.
  destruct (add_rule_puts k' v' m) as [H1 H2]. unfold allows. destruct ((add_rule (Rule k' v') m).2).
  - destruct (H1 eq_refl) as [-> _]. destruct (decide (add_key k' = k)) as [<-|Hne].
    + rewrite lookup_insert. destruct (Hr eq_refl) as [H3 H4]. destruct v' as [a b c d]. cbn in *. subst. eauto.
    + rewrite lookup_insert_ne by done. exact Ha.
  - destruct (H2 eq_refl) as [-> _]. exact Ha.
Qed.
Lemma fstep_metrics tbl o m ns : go_table tbl -> allows m (metrics_rule ns) -> allows (fstep tbl o m) (metrics_rule ns).
Proof.
  intros Ht Ha. destruct o as [nr ns'|nr ns' rate|nr ns'|ns'|ns'| |mode t]; cbn [fstep].
  - eapply add_keeps; [|done|done]. intros r Hr Hk. exfalso. revert Hr Hk. unfold new_rule. cbn [apply_opts apply_opt].
    destruct (lookup_sc tbl nr); [|done]. cbn [apply_opts apply_opt].
    destruct (ns' =? -1); cbn [apply_opts]; intros [= <-]; unfold add_key, metrics_rule, with_flag; cbn; intros [= H].
  - eapply add_keeps; [|done|done]. intros r Hr Hk. exfalso. revert Hr Hk. unfold new_rule. cbn [apply_opts apply_opt].
    destruct (lookup_sc tbl nr); [|done]. cbn [apply_opts apply_opt].
    destruct (ns' =? -1); cbn [apply_opts]; intros [= <-]; unfold add_key, metrics_rule, with_flag; cbn; intros [= H].
  - unfold allows. pose proof (remove_keys tbl _ (nr, ns') m (or_introl eq_refl) Ht ns) as H. cbn [fstep fst snd] in H. rewrite H. exact Ha.
  - eapply add_keeps; [|done|done]. intros r Hr _. rewrite metrics_new_rule in Hr. injection Hr as <-. done.
  - unfold allows. pose proof (remove_keys tbl _ (ByInt 0, ns') m (or_intror eq_refl) Ht ns) as H. cbn [fstep fst snd] in H. rewrite H. exact Ha.
  - unfold enable. destruct (map_update _ _ _ _); done.
  - destruct (run_nfilter_frame mode t m) as [_ Hf]. destruct Ha as (c & h & Hk). unfold allows.
    destruct (Hf (metrics_rule ns)) as [->|(v & Hv & ->)]; [eauto|]. rewrite Hk in Hv. injection Hv as <-. unfold hit. cbn. eauto.
Qed.
Lemma fsteps_ind tbl (P : kmaps -> Prop) os m : (forall o m, P m -> P (fstep tbl o m)) -> P m -> P (fsteps tbl os m).
Proof. intros Hs. revert m. induction os as [|o os IH]; intros m Hm; [done|]. cbn. apply IH, Hs, Hm. Qed.

Lemma metrics_forever tbl ns m m' os t : go_table tbl -> kernel_ns ns -> configured m 1 ->
  add_metrics tbl ns m = (m', true) -> t_pidns t = ns ->
  (run_nfilter 4 t (fsteps tbl os m')).2 <> 1.
Proof.
  intros Ht Hns Hc Hadd Htask.
  destruct (add_metrics_puts tbl ns m Hns) as [H1 _]. rewrite Hadd in H1. destruct (H1 eq_refl) as [Hf Hcf]. cbn [fst] in Hf, Hcf.
  assert (configured m' 1 /\ configured m' (k_flags (metrics_rule ns)) /\ allows m' (metrics_rule ns)) as Hinv.
  { split; [|split].
    - unfold configured. rewrite Hcf. destruct Hc as (v & Hv & Hne). rewrite lookup_insert_ne by done. eauto.
    - unfold configured. rewrite Hcf, lookup_insert. eauto.
    - unfold allows. rewrite Hf, lookup_insert. unfold fresh. eauto. }
  assert (configured (fsteps tbl os m') 1 /\ configured (fsteps tbl os m') (k_flags (metrics_rule ns)) /\
          allows (fsteps tbl os m') (metrics_rule ns)) as (C1 & C2 & c & h & C3).
  { apply (fsteps_ind tbl (fun m => configured m 1 /\ configured m (k_flags (metrics_rule ns)) /\ allows m (metrics_rule ns))); [|done].
    intros o x (A & B & C). split; [by apply fstep_config|]. split; [by apply fstep_config|by apply fstep_metrics]. }
  apply (verdict_exact _ 4 t (s32 (u32 (t_id t)))); [by right|done|]. split; [done|].
  exists (metrics_rule ns), (FVal 0 c h 0). split; [|split; [done|left; done]].
  exists 0%nat. split; [|split; [done|split; [done|intros; lia]]]. rewrite <- Htask. done.
Qed.

(** Rules the kernel never consults (C55). *)
Lemma flags_of_opts tbl os r r' : apply_opts tbl os r = Some r' ->
  Z.testbit (k_flags (r_key r')) 15 = true -> 
  Z.testbit (k_flags (r_key r)) 15 = true \/ exists sc, SetSyscall sc ∈ os.
Proof.
  revert r. induction os as [|o os IH]; intros r Ha Hb; cbn [apply_opts] in Ha; [left; by simplify_eq|].
  destruct (apply_opt tbl o r) as [r1|] eqn:E; [|done]. destruct (IH _ Ha Hb) as [H|[sc H]]; [|right; exists sc; by right].
  assert (forall f k, Z.testbit f 15 = false -> Z.testbit (k_flags (with_flag f k)) 15 = true -> Z.testbit (k_flags k) 15 = true) as Hw.
  { intros f k Hf H'. unfold with_flag in H'. cbn [k_flags] in H'. rewrite Z.lor_spec, Hf, orb_false_r in H'. exact H'. }
  destruct o as [sc|rate|ns|pid| | | |]; cbn [apply_opt] in E.
  - right. exists sc. left.
  - injection E as <-. by left.
  - left. destruct (ns =? -1); injection E as <-; [done|]. cbn [r_key] in H. apply Hw in H; done.
  - left. injection E as <-. cbn [r_key] in H. apply Hw in H; done.
  - injection E as <-. by left.
  - injection E as <-. by left.
  - left. injection E as <-. cbn [r_key] in H. apply Hw in H; done.
  - left. injection E as <-. cbn [r_key] in H. apply Hw in H; done.
Qed.
Lemma syscall_of_opts tbl os r r' : apply_opts tbl os r = Some r' -> (forall sc, SetSyscall sc ∉ os) ->
  k_syscall (r_key r') = k_syscall (r_key r).
Proof.
  revert r. induction os as [|o os IH]; intros r Ha Hn; cbn [apply_opts] in Ha; [by simplify_eq|].
  destruct (apply_opt tbl o r) as [r1|] eqn:E; [|done].
  rewrite (IH _ Ha) by (intros sc Hin; apply (Hn sc); by right).
  destruct o as [sc|rate|ns|pid| | | |]; cbn [apply_opt] in E; try (by simplify_eq/=).
  - exfalso. apply (Hn sc). left.
  - destruct (ns =? -1); by simplify_eq/=.
Qed.
Lemma dead_syscall_rule tbl os r t : new_rule tbl os = Some r -> (forall sc, SetSyscall sc ∉ os) ->
  add_key (r_key r) ∉ eval_keys 2 t.
Proof.
  intros Hr Hn Hin. pose proof (syscall_of_opts _ _ _ _ Hr Hn) as Hs. cbn in Hs.
  assert (Z.testbit (k_flags (r_key r)) 15 = false) as Hb.
  { destruct (Z.testbit (k_flags (r_key r)) 15) eqn:E; [|done].
    destruct (flags_of_opts _ _ _ _ Hr E) as [H|[sc H]]; [done|]. by destruct (Hn sc). }
  assert (k_flags (add_key (r_key r)) = k_flags (r_key r)) as Hf by (unfold add_key; by destruct (_ && _)).
  assert (Z.land (k_flags (r_key r)) 4 <> 0 -> k_syscall (add_key (r_key r)) = -1) as Hm.
  { intros H. unfold add_key, mode_metrics. rewrite Hs. apply Z.eqb_neq in H. by rewrite H. }
  unfold eval_keys in Hin. repeat (apply elem_of_cons in Hin as [Hin|Hin]); [..|by apply elem_of_nil in Hin].
  - assert (k_flags (r_key r) = 2 + 2^14) as E by (rewrite <- Hf, Hin; done).
    assert (k_syscall (add_key (r_key r)) = -1) as E' by (rewrite Hin; done).
    unfold add_key, mode_metrics in E'. rewrite E in E'. change (Z.land (2 + 2^14) 4) with 0 in E'. cbn [Z.eqb negb andb] in E'. congruence.
  - rewrite <- Hf, Hin in Hb. by vm_compute in Hb.
  - rewrite <- Hf, Hin in Hb. by vm_compute in Hb.
  - rewrite <- Hf, Hin in Hb. by vm_compute in Hb.
  - rewrite <- Hf, Hin in Hb. by vm_compute in Hb.
Qed.
Lemma dead_rule tbl os r m t :
  new_rule tbl os = Some r -> (forall sc, SetSyscall sc ∉ os) ->
  (run_nfilter 2 t (add_rule r m).1).2 <> 1 ->
  exists k v, k <> add_key (r_key r) /\ decides (add_rule r m).1 2 t (s32 (u32 (t_id t))) k v /\ nfilter m !! k = Some v.
Proof.
  intros Hr Hn Hp. apply (verdict_exact _ 2 t _ (or_introl eq_refl) eq_refl) in Hp as (Hc & k & v & Hd & _).
  pose proof Hd as Hd'. destruct Hd' as (i & Hi & _ & Hv & _).
  assert (k ∈ eval_keys 2 t) as Hin.
  { rewrite (eval_keys_subjects 2 t _ (or_introl eq_refl) eq_refl). by eapply elem_of_list_lookup_2. }
  assert (k <> add_key (r_key r)) as Hne by (intros ->; by eapply dead_syscall_rule).
  exists k, v. split; [done|]. split; [done|].
  destruct r as [k' v']. destruct (add_rule_puts k' v' m) as [H1 H2]. destruct ((add_rule (Rule k' v') m).2).
  - destruct (H1 eq_refl) as [E _]. rewrite E, lookup_insert_ne in Hv by done. done.
  - destruct (H2 eq_refl) as [E _]. by rewrite E in Hv.
Qed.
Lemma dead_read_metrics tbl ns : go_table tbl -> kernel_ns ns ->
  exists r, new_rule tbl [SetModeMetrics; SetSyscall (ByString "sys_read"); SetPidNamespace ns; SetActionAllow] = Some r /\
  forall t, t_id t = 0 -> add_key (r_key r) ∉ eval_keys 4 t.
Proof.
  intros Ht Hns.
  assert (exists sc, lookup_sc tbl (ByString "sys_read") = Some sc /\ sc_nr sc = 0) as (sc & Hl & Hnr).
  { rewrite (go_table_eq _ Ht). eexists. split; vm_compute; reflexivity. }
  unfold new_rule. cbn [apply_opts apply_opt]. rewrite Hl. cbn [apply_opts apply_opt].
  rewrite (kernel_ns_not_any _ Hns). cbn [apply_opts]. eexists. split; [reflexivity|].
  intros t Hid. cbn [r_key]. rewrite Hnr. unfold eval_keys. rewrite Hid. unfold add_key, with_flag. cbn.
  rewrite !elem_of_cons, elem_of_nil. intros [[=]|[[=]|[[=]|[[=]|[[=]|[]]]]]].
Qed.
