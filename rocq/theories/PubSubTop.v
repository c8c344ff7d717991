(** The property statements as lemmas, assembled from the invariants. *)
From stdpp Require Import gmap strings list sorting.
From Coq Require Import ZArith Lia.
From Verif Require Import PubSubModel PubSubSpec PubSubProofs PubSubPublish.
Open Scope Z_scope.

Lemma some_sort_contract : sort_contract some_sort.
Proof.
  intros l. split; [apply merge_sort_Permutation|].
  assert (Total env_le) as Htot.
  { intros a b. unfold env_le, name_le. apply String.leb_total. }
  pose proof (Sorted_merge_sort env_le l) as Hs. fold (some_sort l) in Hs.
  induction Hs as [|a l' Hs IH Hd]; simpl; constructor; [done|].
  destruct Hd; simpl; by constructor.
Qed.

Lemma reach_inv srt os s :
  sort_contract srt -> unsubscribes_once os -> run srt new_pubsub os = Ok s ->
  exists n L, Inv s n (live os) L.
Proof.
  intros Hs Ho Hr. destruct (run_inv srt os Hs _ _ _ _ Inv_new Ho) as [Hi _]. by apply Hi.
Qed.

Lemma filter_erase (P : sub -> Prop) `{forall x, Decision (P x)} L :
  filter P (map erase L) = map erase (filter (fun g => P (erase g)) L).
Proof.
  induction L as [|g L IH]; [done|]. simpl. rewrite !filter_cons.
  destruct (decide (P (erase g))); simpl; by rewrite IH.
Qed.
Lemma group_erase os q sh L :
  map erase L = live os -> group os q sh = map erase (grp q sh L).
Proof. intros He. unfold group. rewrite <- He. rewrite filter_erase. done. Qed.
Lemma handles_erase L : map s_handle (map erase L) = map g_handle L.
Proof. rewrite map_map. done. Qed.
Lemma dnames_erase L : map s_dname (map erase L) = map g_dname L.
Proof. rewrite map_map. done. Qed.

Lemma publish_calls srt os s a h r :
  sort_contract srt -> unsubscribes_once os -> run srt new_pubsub os = Ok s ->
  publish s a h r ->
  exists L cs, r = Some cs /\ map erase L = live os /\ NoDup (map g_handle L) /\ calls_ok h a L cs.
Proof.
  intros Hs Ho Hr Hp. destruct (reach_inv _ _ _ Hs Ho Hr) as (n & L & [HR He Hcl Hlen Hnd]).
  destruct (traverse_ok h _ _ HR Hnd _ _ Hp) as (cs & -> & Hok).
  exists L, cs. done.
Qed.

Lemma cmem_pos ms cs x : x ∈ cs -> x ∈ ms -> cmem ms cs <> 0%nat.
Proof.
  intros Hc Hm H0. unfold cmem in H0.
  assert (x ∈ filter (fun m => m ∈ ms) cs) as Hx by by apply elem_of_list_filter.
  destruct (filter (fun m => m ∈ ms) cs); [by apply elem_of_nil in Hx|done].
Qed.

Lemma traversal_calls srt os s a h r :
  sort_contract srt -> unsubscribes_once os -> run srt new_pubsub os = Ok s ->
  publish s a h r ->
  exists cs, r = Some cs /\
    (forall x, x ∈ cs -> exists sb, sb ∈ live os /\ s_handle sb = x /\ visits a (s_path sb) <> 0%nat) /\
    (forall sb, sb ∈ live os -> s_shard sb = ""%string ->
       times (s_handle sb) cs = visits a (s_path sb)).
Proof.
  intros Hs Ho Hr Hp.
  destruct (publish_calls _ _ _ _ _ _ Hs Ho Hr Hp) as (L & cs & -> & He & Hnd & [C1 C2 C3 C4]).
  exists cs. split; [done|]. rewrite <- He. split.
  - intros x Hx. pose proof (C1 _ Hx) as Hm. apply elem_of_list_fmap in Hm as (g & -> & Hg).
    exists (erase g). split; [apply elem_of_list_fmap; eauto|]. split; [done|]. simpl.
    destruct (decide (g_shard g = ""%string)) as [Hsh|Hsh].
    + rewrite <- (C2 g Hg Hsh). apply (cmem_pos _ _ (g_handle g)); [done|by left].
    + assert (g_handle g ∈ map g_handle (grp (g_path g) (g_shard g) L)) as Hin.
      { apply grp_handle_path. eauto. }
      specialize (C3 (g_path g) (g_shard g) Hsh).
      destruct (decide (grp (g_path g) (g_shard g) L = [])) as [Hn|Hn].
      { rewrite Hn in Hin. by apply elem_of_nil in Hin. }
      rewrite <- C3. by apply (cmem_pos _ _ (g_handle g)).
  - intros sb Hsb Hsh. apply elem_of_list_fmap in Hsb as (g & -> & Hg).
    rewrite times_cmem. by apply C2.
Qed.

Lemma prefix_delivery srt os s path h r :
  sort_contract srt -> unsubscribes_once os -> run srt new_pubsub os = Ok s ->
  publish s (linear path) h r ->
  exists cs, r = Some cs /\
    (forall x, x ∈ cs -> exists sb, sb ∈ live os /\ s_handle sb = x /\ s_path sb `prefix_of` path) /\
    (forall sb, sb ∈ live os -> s_shard sb = ""%string -> s_path sb `prefix_of` path ->
       times (s_handle sb) cs = 1%nat) /\
    (forall sb, sb ∈ live os -> s_shard sb = ""%string -> ~ s_path sb `prefix_of` path ->
       times (s_handle sb) cs = 0%nat).
Proof.
  intros Hs Ho Hr Hp.
  destruct (traversal_calls _ _ _ _ _ _ Hs Ho Hr Hp) as (cs & -> & H1 & H2).
  exists cs. split; [done|]. split; [|split].
  - intros x Hx. destruct (H1 x Hx) as (sb & Hsb & Hh & Hv). exists sb. split; [done|]. split; [done|].
    rewrite visits_linear in Hv. by destruct (decide _).
  - intros sb Hsb Hsh Hpre. rewrite H2, visits_linear by done. by rewrite decide_True.
  - intros sb Hsb Hsh Hpre. rewrite H2, visits_linear by done. by rewrite decide_False.
Qed.

Lemma group_calls_visits srt os s a h r q sh :
  sort_contract srt -> unsubscribes_once os -> run srt new_pubsub os = Ok s ->
  publish s a h r -> sh <> ""%string ->
  exists cs, r = Some cs /\
    calls_to (group os q sh) cs = match group os q sh with [] => 0%nat | _ => visits a q end.
Proof.
  intros Hs Ho Hr Hp Hsh.
  destruct (publish_calls _ _ _ _ _ _ Hs Ho Hr Hp) as (L & cs & -> & He & Hnd & [C1 C2 C3 C4]).
  exists cs. split; [done|].
  rewrite (group_erase _ _ _ _ He). unfold calls_to. rewrite handles_erase.
  specialize (C3 q sh Hsh). unfold cmem in C3. rewrite C3.
  by destruct (grp q sh L).
Qed.
Lemma group_calls_once srt os s path h r q sh :
  sort_contract srt -> unsubscribes_once os -> run srt new_pubsub os = Ok s ->
  publish s (linear path) h r -> sh <> ""%string ->
  exists cs, r = Some cs /\
    (group os q sh <> [] -> q `prefix_of` path -> calls_to (group os q sh) cs = 1%nat) /\
    (~ (group os q sh <> [] /\ q `prefix_of` path) -> calls_to (group os q sh) cs = 0%nat).
Proof.
  intros Hs Ho Hr Hp Hsh.
  destruct (group_calls_visits _ _ _ _ _ _ q sh Hs Ho Hr Hp Hsh) as (cs & -> & Hc).
  exists cs. split; [done|]. rewrite Hc, visits_linear. destruct (group os q sh) as [|m ms].
  - split; [done|done].
  - split.
    + intros _ Hpre. by rewrite decide_True.
    + intros Hn. rewrite decide_False; [done|]. intros Hpre. apply Hn. done.
Qed.

Lemma routing_rule srt os s a h cs q sh x ns :
  sort_contract srt -> unsubscribes_once os -> run srt new_pubsub os = Ok s ->
  publish s a h (Some cs) -> sh <> ""%string ->
  (exists m, m ∈ group os q sh /\ s_dname m <> ""%string) ->
  Sorted name_le ns -> ns ≡ₚ map s_dname (group os q sh) ->
  x ∈ cs -> x ∈ map s_handle (group os q sh) ->
  exists m, m ∈ group os q sh /\ s_handle m = x /\
    ns !! Z.to_nat (h mod Z.of_nat (length ns)) = Some (s_dname m).
Proof.
  intros Hs Ho Hr Hp Hsh (m & Hm & Hmn) Hso Hpe Hx Hxm.
  destruct (publish_calls _ _ _ _ _ _ Hs Ho Hr Hp) as (L & cs' & Hcs & He & Hnd & [C1 C2 C3 C4]).
  inversion Hcs; subst cs'; clear Hcs.
  rewrite (group_erase _ _ _ _ He) in *. rewrite handles_erase in Hxm. rewrite dnames_erase in Hpe.
  apply elem_of_list_fmap in Hm as (g & -> & Hg). simpl in Hmn.
  destruct (C4 q sh x Hsh) as (ns' & g' & Hso' & Hpe' & Hg' & Hh' & Hl'); [|done|done|].
  { apply Exists_exists. exists (g_dname g). split; [|done]. apply elem_of_list_fmap. eauto. }
  assert (ns = ns') as <-.
  { eapply Sorted_unique; [apply name_le_trans|apply name_le_antisymm|done|done|].
    by rewrite Hpe. }
  apply grp_handle_path in Hxm as (g'' & Hg'' & Hh'' & Hp'' & Hs'').
  assert (g' = g'') as -> by (eapply handle_inj; [exact Hnd|done|done|congruence]).
  exists (erase g''). split; [|done].
  apply elem_of_list_fmap. exists g''. split; [done|]. by apply elem_of_list_filter.
Qed.

Lemma sorted_names_exist (l : list string) : exists ns, Sorted name_le ns /\ ns ≡ₚ l.
Proof.
  exists (map e_dname (some_sort (map (Env 0 0) l))). split.
  - apply (some_sort_contract (map (Env 0 0) l)).
  - rewrite (proj1 (some_sort_contract _)).
    rewrite map_map. simpl. by rewrite map_id.
Qed.

Lemma routing_deterministic srt1 srt2 os1 os2 s1 s2 a1 a2 h cs1 cs2 q1 q2 sh1 sh2 m1 m2 :
  sort_contract srt1 -> unsubscribes_once os1 -> run srt1 new_pubsub os1 = Ok s1 ->
  sort_contract srt2 -> unsubscribes_once os2 -> run srt2 new_pubsub os2 = Ok s2 ->
  publish s1 a1 h (Some cs1) -> publish s2 a2 h (Some cs2) ->
  sh1 <> ""%string -> sh2 <> ""%string ->
  map s_dname (group os1 q1 sh1) ≡ₚ map s_dname (group os2 q2 sh2) ->
  (exists m, m ∈ group os1 q1 sh1 /\ s_dname m <> ""%string) ->
  m1 ∈ group os1 q1 sh1 -> s_handle m1 ∈ cs1 ->
  m2 ∈ group os2 q2 sh2 -> s_handle m2 ∈ cs2 ->
  s_dname m1 = s_dname m2.
Proof.
  intros Hs1 Ho1 Hr1 Hs2 Ho2 Hr2 Hp1 Hp2 Hsh1 Hsh2 Hperm Hex Hm1 Hc1 Hm2 Hc2.
  destruct (sorted_names_exist (map s_dname (group os1 q1 sh1))) as (ns & Hso & Hpe).
  assert (forall os m m' q sh, (exists srt s, sort_contract srt /\ run srt new_pubsub os = Ok s) ->
     unsubscribes_once os ->
     m ∈ group os q sh -> m' ∈ group os q sh -> s_handle m = s_handle m' -> m = m') as Hinj.
  { intros os m m' q sh (srt & s & Hs & Hr) Ho Hm Hm' Hh.
    destruct (reach_inv _ _ _ Hs Ho Hr) as (n & L & [HR He Hcl Hlen Hnd]).
    rewrite (group_erase _ _ _ _ He) in *.
    apply elem_of_list_fmap in Hm as (g & -> & Hg). apply elem_of_list_fmap in Hm' as (g' & -> & Hg').
    f_equal. apply elem_of_list_filter in Hg as [_ Hg]. apply elem_of_list_filter in Hg' as [_ Hg'].
    by eapply handle_inj. }
  destruct (routing_rule _ _ _ _ _ _ _ _ (s_handle m1) ns Hs1 Ho1 Hr1 Hp1 Hsh1 Hex Hso Hpe Hc1)
    as (m1' & Hm1' & Hh1 & Hl1). { apply elem_of_list_fmap. eauto. }
  destruct (routing_rule _ _ _ _ _ _ q2 sh2 (s_handle m2) ns Hs2 Ho2 Hr2 Hp2 Hsh2)
    as (m2' & Hm2' & Hh2 & Hl2); [|done|by rewrite Hpe|done| |].
  { destruct Hex as (m & Hm & Hmn).
    assert (s_dname m ∈ map s_dname (group os1 q1 sh1)) as Hin by (apply elem_of_list_fmap; eauto).
    rewrite Hperm in Hin. apply elem_of_list_fmap in Hin as (m' & Heq & Hm'). exists m'.
    split; [done|congruence]. }
  { apply elem_of_list_fmap. eauto. }
  assert (m1' = m1) as -> by (eapply (Hinj os1); eauto).
  assert (m2' = m2) as -> by (eapply (Hinj os2); eauto).
  congruence.
Qed.

Lemma node_at_Rep q : forall n L m, Rep n L -> node_at n q = Some m ->
  exists M, Rep m M /\ forall sh, map env_of (grp [] sh M) = map env_of (grp q sh L).
Proof.
  induction q as [|k q IH]; intros n L m HR Hn; simpl in Hn.
  - inversion Hn; subst. exists L. done.
  - destruct (fetch_child n k) as [c|] eqn:Hf; [|done].
    apply Rep_inv in HR as (HL & Hc1 & Hc2 & Hc3).
    destruct (IH c (below k L) m (Hc1 _ _ Hf) Hn) as (M & HM & Hg).
    exists M. split; [done|]. intros sh. rewrite Hg. clear.
    induction L as [|g L IH]; [done|].
    change (g :: L) with ([g] ++ L). rewrite below_app. unfold grp in *.
    rewrite !filter_app, !map_app, IH. f_equal.
    unfold below. cbn. destruct (desc k g) as [g'|] eqn:Hd.
    + apply desc_some in Hd as (Hp & Hi & Hh & Hs & Hdn). cbn.
      destruct (decide (g_path g' = q /\ g_shard g' = sh)) as [[Ha Hb]|Hn'].
      * rewrite decide_True by (split; congruence). simpl. unfold env_of. by rewrite Hh, Hdn, Hi.
      * rewrite decide_False; [done|]. intros [Ha Hb]. apply Hn'. split; congruence.
    + destruct (decide (g_path g = k :: q /\ g_shard g = sh)) as [[Ha Hb]|Hn']; [|done].
      exfalso. unfold desc in Hd. rewrite Ha in Hd. by rewrite decide_True in Hd.
Qed.

Lemma Rep_holds s L : Rep (root s) L -> holds s (map erase L).
Proof.
  intros HR q. split.
  - rewrite (node_at_iff q _ _ HR). split; (intros [->|(g & Hg & Hp)]; [by left|right]).
    + exists (erase g). split; [|done]. apply elem_of_list_fmap. eauto.
    + apply elem_of_list_fmap in Hg as (g' & -> & Hg'). eauto.
  - intros n sh Hn. destruct (node_at_Rep _ _ _ _ HR Hn) as (M & HM & Hg). specialize (Hg sh).
    rewrite filter_erase. rewrite grp_nil in Hg.
    assert (map (fun sb => (s_handle sb, s_dname sb)) (map erase (grp q sh L)) =
            map (fun e => (e_sub e, e_dname e)) (map env_of (grp q sh L))) as Heq.
    { by rewrite !map_map. }
    unfold grp in Heq. change (fun g => s_path (erase g) = q /\ s_shard (erase g) = sh) with
      (fun g => g_path g = q /\ g_shard g = sh) in *. simpl.
    fold (grp q sh L) in *.
    etrans; [|by rewrite Heq]. unfold envs_at.
    apply Rep_inv in HM as (HL & _).
    destruct (subscriptions n !! sh) as [si|] eqn:Hsi.
    + destruct (lo_some _ _ _ HL _ _ Hsi) as (Hp & _).
      change ((fun e => (e_sub e, e_dname e)) <$> si_envs si ≡ₚ
              (fun e => (e_sub e, e_dname e)) <$> (env_of <$> grp q sh L)).
      rewrite Hp. change (env_of <$> grp q sh L) with (map env_of (grp q sh L)). by rewrite <- Hg.
    + rewrite <- Hg, (lo_none _ _ _ HL _ Hsi). done.
Qed.

Lemma tree_exact srt os s :
  sort_contract srt -> unsubscribes_once os -> run srt new_pubsub os = Ok s ->
  holds s (live os).
Proof.
  intros Hs Ho Hr. destruct (reach_inv _ _ _ Hs Ho Hr) as (n & L & [HR He Hcl Hlen Hnd]).
  rewrite <- He. by apply Rep_holds.
Qed.
Lemma tree_empty srt os s :
  sort_contract srt -> unsubscribes_once os -> run srt new_pubsub os = Ok s ->
  live os = [] -> root s = new_node.
Proof.
  intros Hs Ho Hr Hl. destruct (reach_inv _ _ _ Hs Ho Hr) as (n & L & [HR He Hcl Hlen Hnd]).
  rewrite Hl in He. apply map_eq_nil in He. subst L. by apply Rep_nil_new.
Qed.
Lemma histories_run srt os :
  sort_contract srt -> unsubscribes_once os -> draws_ok os -> Z.of_nat (length os) < 2^64 ->
  exists s, run srt new_pubsub os = Ok s.
Proof. intros. eapply run_ok; [done|apply Inv_new|done|done|simpl; lia]. Qed.

Lemma publish_returns srt os s a h :
  sort_contract srt -> unsubscribes_once os -> run srt new_pubsub os = Ok s ->
  exists r, publish s a h r.
Proof.
  intros Hs Ho Hr. destruct (reach_inv _ _ _ Hs Ho Hr) as (n & L & [HR He Hcl Hlen Hnd]).
  by eapply traverse_exists.
Qed.

(** * A second call of an unsubscriber *)
Lemma second_call srt os s h i p :
  sort_contract srt -> unsubscribes_once os -> run srt new_pubsub os = Ok s ->
  closures s !! h = Some (i, p) -> h ∉ map s_handle (live os) ->
  (step srt s (Unsubscribe h) = Panic <->
     p <> [] /\ forall sb, sb ∈ live os -> ~ p `prefix_of` s_path sb) /\
  (forall s', step srt s (Unsubscribe h) = Ok s' ->
     holds s' (filter (fun sb => closures s !! s_handle sb <> Some (i, p)) (live os))).
Proof.
  intros Hs Ho Hr Hcl Hdead.
  destruct (reach_inv _ _ _ Hs Ho Hr) as (n & L & [HR He HC Hlen Hnd]).
  simpl. rewrite Hcl. pose proof (cleanup_ok p _ _ i HR) as Hc.
  pose proof (cleanup_none_iff (root s) i p) as Hn.
  pose proof (node_at_iff p _ _ HR) as Hnode.
  destruct (cleanup (root s) i p) as [r|] eqn:Hcc.
  - split.
    + split; [done|]. intros [Hpne Hno]. exfalso.
      assert (is_Some (node_at (root s) p)) as His.
      { destruct (node_at (root s) p) eqn:Hna; [eauto|]. by destruct Hn as [_ Hn]; specialize (Hn eq_refl). }
      apply Hnode in His as [?|(g & Hg & Hpre)]; [done|].
      apply (Hno (erase g)); [|done]. rewrite <- He. apply elem_of_list_fmap. eauto.
    + intros s' Hst. inversion Hst; subst s'; clear Hst.
      assert (filter (fun sb => closures s !! s_handle sb <> Some (i, p)) (live os) =
              map erase (rm_at p i L)) as ->.
      { rewrite <- He, filter_erase. f_equal. unfold rm_at.
        assert (forall g, g ∈ L -> (closures s !! s_handle (erase g) <> Some (i, p) <->
                  ~ (g_path g = p /\ g_id g = i))) as Heqv.
        { intros g Hg. simpl. rewrite (HC _ Hg). split.
          - intros Hne [Hp Hi]. apply Hne. congruence.
          - intros Hne Heq. apply Hne. split; congruence. }
        clear -Heqv. induction L as [|g L IH]; [done|]. rewrite !filter_cons.
        rewrite IH by (intros g' Hg'; apply Heqv; by right).
        specialize (Heqv g ltac:(by left)).
        destruct (decide (closures s !! s_handle (erase g) <> Some (i, p)));
        destruct (decide (~ (g_path g = p /\ g_id g = i))); tauto. }
      exact (Rep_holds (PubSub r (closures s)) _ Hc).
  - split; [|done]. split; [|done]. intros _.
    assert (~ is_Some (node_at (root s) p)) as Hnot by (rewrite Hc; by intros [? ?]).
    rewrite Hnode in Hnot. split.
    + intros ->. apply Hnot. by left.
    + intros sb Hsb Hpre. apply Hnot. right. rewrite <- He in Hsb.
      apply elem_of_list_fmap in Hsb as (g & -> & Hg). eauto.
Qed.
