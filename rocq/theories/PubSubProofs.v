(** Invariants and lemmas for the pub/sub model. *)
From stdpp Require Import gmap strings list sorting.
From Coq Require Import ZArith Lia.
From Verif Require Import PubSubModel PubSubSpec.
Open Scope Z_scope.

(** * Association lists *)
Lemma aget_adel_eq {A} k (l : list (Z * A)) : aget k (adel k l) = None.
Proof.
  induction l as [|[k' v] l IH]; simpl; [done|].
  destruct (decide (k = k')); simpl; [done|]. by rewrite decide_False.
Qed.
Lemma aget_adel_ne {A} k k0 (l : list (Z * A)) : k <> k0 -> aget k (adel k0 l) = aget k l.
Proof.
  intros Hne. induction l as [|[k' v] l IH]; simpl; [done|].
  destruct (decide (k0 = k')) as [->|]; simpl.
  - rewrite decide_False by done. done.
  - destruct (decide (k = k')); [done|]. done.
Qed.
Lemma aget_aset_eq {A} k (v : A) l : aget k (aset k v l) = Some v.
Proof. simpl. by rewrite decide_True. Qed.
Lemma aget_aset_ne {A} k k0 (v : A) l : k <> k0 -> aget k (aset k0 v l) = aget k l.
Proof. intros. simpl. rewrite decide_False by done. by apply aget_adel_ne. Qed.
Lemma aget_nil_all {A} (l : list (Z * A)) : (forall k, aget k l = None) -> l = [].
Proof.
  destruct l as [|[k v] l]; [done|]. intros H. specialize (H k). simpl in H.
  by rewrite decide_True in H.
Qed.

(** * Annotated live subscriptions: a [sub] plus its internal id, path relative
    to some node. *)
Record gsub := GSub { g_handle : nat; g_path : list Z; g_shard : string;
                      g_dname : string; g_id : Z }.
Definition erase (g : gsub) : sub := Sub (g_handle g) (g_path g) (g_shard g) (g_dname g).
Definition env_of (g : gsub) : env := Env (g_handle g) (g_id g) (g_dname g).

Definition here (L : list gsub) : list gsub := filter (fun g => g_path g = []) L.
Definition desc (k : Z) (g : gsub) : option gsub :=
  match g_path g with
  | [] => None
  | k' :: p => if decide (k = k')
               then Some (GSub (g_handle g) p (g_shard g) (g_dname g) (g_id g)) else None
  end.
Definition below (k : Z) (L : list gsub) : list gsub := omap (desc k) L.
Definition in_shard (sh : string) (L : list gsub) : list gsub :=
  filter (fun g => g_shard g = sh) L.
Definition named (g : gsub) : bool := negb (bool_decide (g_dname g = ""%string)).

Lemma here_app L1 L2 : here (L1 ++ L2) = here L1 ++ here L2.
Proof. apply filter_app. Qed.
Lemma below_app k L1 L2 : below k (L1 ++ L2) = below k L1 ++ below k L2.
Proof. unfold below. by rewrite omap_app. Qed.
Lemma below_length k L : (length (below k L) <= length L)%nat.
Proof.
  induction L as [|g L IH]; [done|]. change (g :: L) with ([g] ++ L).
  rewrite below_app, !app_length. unfold below at 1. simpl.
  destruct (desc k g); simpl; lia.
Qed.
Lemma in_shard_app k L1 L2 : in_shard k (L1 ++ L2) = in_shard k L1 ++ in_shard k L2.
Proof. apply filter_app. Qed.
Lemma in_here g L : g ∈ here L <-> g ∈ L /\ g_path g = [].
Proof. unfold here. rewrite elem_of_list_filter. tauto. Qed.
Lemma in_below k g L :
  g ∈ below k L <-> GSub (g_handle g) (k :: g_path g) (g_shard g) (g_dname g) (g_id g) ∈ L.
Proof.
  unfold below. rewrite elem_of_list_omap. split.
  - intros (x & Hx & Hd). unfold desc in Hd. destruct x as [h p s d i]; simpl in *.
    destruct p as [|k' p]; [done|]. destruct (decide (k = k')) as [<-|]; [|done].
    by inversion Hd; subst; simpl.
  - intros Hx. eexists. split; [exact Hx|]. unfold desc; simpl.
    rewrite decide_True by done. by destruct g.
Qed.

Definition count_named (L : list gsub) : Z := Z.of_nat (length (filter (fun g => named g) L)).

(** * What it means for one node's tables to hold the subscriptions [H]. *)
Record LocalOK (su : gmap string sinfo) (shs : gmap Z string) (H : list gsub) : Prop := {
  lo_ids : NoDup (map g_id H);
  lo_shards : forall i sh, shs !! i = Some sh <-> exists g, g ∈ H /\ g_id g = i /\ g_shard g = sh;
  lo_some : forall sh si, su !! sh = Some si ->
    si_envs si ≡ₚ map env_of (in_shard sh H) /\ in_shard sh H <> [] /\
    si_cnt si = count_named (in_shard sh H) /\
    Sorted name_le (map e_dname (si_envs si));
  lo_none : forall sh, su !! sh = None -> in_shard sh H = [] }.

Inductive Rep : node -> list gsub -> Prop :=
| Rep_intro n L :
    LocalOK (subscriptions n) (shards n) (here L) ->
    (forall k c, fetch_child n k = Some c -> Rep c (below k L)) ->
    (forall k c, fetch_child n k = Some c -> below k L <> []) ->
    (forall k, fetch_child n k = None -> below k L = []) ->
    Rep n L.

Lemma Rep_inv n L : Rep n L ->
    LocalOK (subscriptions n) (shards n) (here L) /\
    (forall k c, fetch_child n k = Some c -> Rep c (below k L)) /\
    (forall k c, fetch_child n k = Some c -> below k L <> []) /\
    (forall k, fetch_child n k = None -> below k L = []).
Proof. by inversion 1. Qed.

Lemma LocalOK_empty : LocalOK ∅ ∅ [].
Proof.
  split; simpl.
  - constructor.
  - intros i sh. rewrite lookup_empty. split; [done|]. intros (g & Hg & _). by apply elem_of_nil in Hg.
  - intros sh si. by rewrite lookup_empty.
  - done.
Qed.
Lemma Rep_new : Rep new_node [].
Proof.
  constructor; simpl; try done. apply LocalOK_empty.
Qed.

Lemma size_shards su shs H : LocalOK su shs H -> size shs = length H.
Proof.
  intros HL.
  assert (dom shs = list_to_set (C:=gset Z) (map g_id H)) as Hd.
  { apply set_eq. intros i. rewrite elem_of_dom, elem_of_list_to_set, elem_of_list_fmap.
    split.
    - intros [sh Hsh]. apply (lo_shards _ _ _ HL) in Hsh as (g & Hg & Hi & _). eauto.
    - intros (g & -> & Hg). exists (g_shard g). apply (lo_shards _ _ _ HL). eauto. }
  rewrite <- size_dom, Hd, size_list_to_set by apply HL. apply map_length.
Qed.

(** * createAndSetID *)
Lemma wrap_range z : - 2^63 <= wrap_int64 z < 2^63.
Proof. unfold wrap_int64. pose proof (Z.mod_pos_bound (z + 2^63) (2^64)). lia. Qed.
Lemma wrap_id z : - 2^63 <= z < 2^63 -> wrap_int64 z = z.
Proof. intros. unfold wrap_int64. rewrite Z.mod_small; lia. Qed.
Lemma wrap_wrap z k : wrap_int64 (wrap_int64 z + k) = wrap_int64 (z + k).
Proof.
  unfold wrap_int64. f_equal.
  replace ((z + 2^63) mod 2^64 - 2^63 + k + 2^63) with ((z + 2^63) mod 2^64 + k) by lia.
  rewrite Zplus_mod_idemp_l. f_equal. lia.
Qed.
Lemma pick_id_fresh fuel taken id i :
  pick_id fuel taken id = Some i -> taken !! i = None.
Proof.
  revert id. induction fuel as [|fuel IH]; simpl; intros id H; [done|].
  destruct (taken !! id) eqn:E; [by eapply IH|]. by inversion H; subst.
Qed.
Lemma pick_id_none fuel taken id :
  wrap_int64 id = id ->
  pick_id fuel taken id = None ->
  forall j, (j < fuel)%nat -> wrap_int64 (id + Z.of_nat j) ∈ dom taken.
Proof.
  revert id. induction fuel as [|fuel IH]; simpl; intros id Hid H j Hj; [lia|].
  destruct (taken !! id) eqn:E; [|done].
  destruct j as [|j].
  - rewrite Z.add_0_r, Hid. by apply elem_of_dom.
  - specialize (IH (wrap_int64 (id + 1)) (wrap_id _ (wrap_range _)) H j ltac:(lia)).
    rewrite wrap_wrap in IH. by replace (id + Z.of_nat (S j)) with (id + 1 + Z.of_nat j) by lia.
Qed.
Lemma create_id_some taken draw :
  - 2^63 <= draw < 2^63 -> Z.of_nat (size taken) < 2^64 ->
  exists i, create_id taken draw = Some i.
Proof.
  intros Hd Hs. unfold create_id. destruct (pick_id _ _ _) eqn:E; [eauto|exfalso].
  pose proof (pick_id_none _ _ _ (wrap_id _ Hd) E) as Hall.
  set (l := map (fun j => wrap_int64 (draw + Z.of_nat j)) (seq 0 (S (size taken)))).
  assert (NoDup l) as Hnd.
  { unfold l. apply NoDup_fmap_2_strong; [|apply NoDup_seq].
    intros x y Hx Hy. rewrite elem_of_seq in *.
    unfold wrap_int64. intros Heq.
    assert ((draw + Z.of_nat x + 2^63) mod 2^64 = (draw + Z.of_nat y + 2^63) mod 2^64) as Hm by lia.
    clear Heq Hall E.
    pose proof (Z.div_mod (draw + Z.of_nat x + 2^63) (2^64) ltac:(lia)).
    pose proof (Z.div_mod (draw + Z.of_nat y + 2^63) (2^64) ltac:(lia)).
    assert (Z.of_nat x - Z.of_nat y = 2^64 * ((draw + Z.of_nat x + 2^63) / 2^64 - (draw + Z.of_nat y + 2^63) / 2^64)) by lia.
    assert ((draw + Z.of_nat x + 2^63) / 2^64 - (draw + Z.of_nat y + 2^63) / 2^64 = 0) by nia.
    lia. }
  assert (l ⊆ elements (dom taken)) as Hsub.
  { intros z Hz. apply elem_of_elements. unfold l in Hz.
    apply elem_of_list_fmap in Hz as (j & -> & Hj). apply Hall. apply elem_of_seq in Hj. lia. }
  pose proof (submseteq_length _ _ (NoDup_submseteq _ _ Hnd Hsub)) as Hlen.
  unfold l in Hlen. rewrite map_length, seq_length in Hlen.
  change (length (elements (dom taken))) with (size (dom taken)) in Hlen.
  rewrite size_dom in Hlen. lia.
Qed.
Lemma create_id_fresh taken draw i : create_id taken draw = Some i -> taken !! i = None.
Proof. apply pick_id_fresh. Qed.

(** * AddSubscription *)
Lemma count_named_app L1 L2 : count_named (L1 ++ L2) = count_named L1 + count_named L2.
Proof. unfold count_named. rewrite filter_app, app_length. lia. Qed.
Lemma count_named_one g :
  count_named [g] = if decide (g_dname g = ""%string) then 0 else 1.
Proof.
  unfold count_named, named. rewrite filter_cons, filter_nil.
  destruct (decide (g_dname g = ""%string)).
  - rewrite bool_decide_true by done. rewrite decide_False by (simpl; tauto). done.
  - rewrite bool_decide_false by done. rewrite decide_True by (simpl; tauto). done.
Qed.

Lemma add_subscription_ok srt n h sh dn draw n' i H :
  sort_contract srt ->
  LocalOK (subscriptions n) (shards n) H ->
  add_subscription srt n h sh dn draw = Some (n', i) ->
  LocalOK (subscriptions n') (shards n') (H ++ [GSub h [] sh dn i]) /\
  children n' = children n.
Proof.
  intros Hsrt HL Hadd. unfold add_subscription in Hadd.
  destruct (create_id (shards n) draw) as [i'|] eqn:Hc; [|done].
  inversion Hadd; subst n' i'; clear Hadd; simpl. split; [|done].
  pose proof (create_id_fresh _ _ _ Hc) as Hfresh.
  assert (forall g, g ∈ H -> g_id g <> i) as Hne.
  { intros g Hg Hi. assert (shards n !! i = Some (g_shard g)) as Hs
      by (apply (lo_shards _ _ _ HL); eauto). by rewrite Hfresh in Hs. }
  split.
  - rewrite map_app. apply NoDup_app. split; [apply HL|]. split.
    + intros x Hx. apply elem_of_list_fmap in Hx as (g & -> & Hg).
      simpl. rewrite elem_of_list_singleton. by apply Hne.
    + simpl. apply NoDup_singleton.
  - intros j sh'. destruct (decide (i = j)) as [<-|Hij].
    + rewrite lookup_insert. split.
      * inversion 1; subst. eexists. split; [apply elem_of_app; right; by apply elem_of_list_singleton|done].
      * intros (g & Hg & Hgi & Hgs). apply elem_of_app in Hg as [Hg|Hg].
        -- by apply Hne in Hg.
        -- apply elem_of_list_singleton in Hg. subst g. simpl in *. by subst.
    + rewrite lookup_insert_ne by done. rewrite (lo_shards _ _ _ HL).
      split; intros (g & Hg & Hgi & Hgs); exists g; (split; [|done]).
      * apply elem_of_app. by left.
      * apply elem_of_app in Hg as [Hg|Hg]; [done|].
        apply elem_of_list_singleton in Hg. subst g. by simpl in *.
  - intros sh' si Hsi. destruct (decide (sh = sh')) as [<-|Hshne].
    + rewrite lookup_insert in Hsi. inversion Hsi; subst si; clear Hsi; simpl.
      destruct (Hsrt (si_envs (default (SInfo 0 []) (subscriptions n !! sh)) ++ [Env h i dn])) as [Hp Hs].
      rewrite in_shard_app.
      assert (in_shard sh [GSub h [] sh dn i] = [GSub h [] sh dn i]) as Hone.
      { unfold in_shard. rewrite filter_cons_True by done. done. }
      rewrite Hone. split; [|split; [|split]].
      * rewrite Hp, map_app. simpl. apply Permutation_app; [|done].
        destruct (subscriptions n !! sh) as [si|] eqn:Hsi; simpl.
        -- apply (lo_some _ _ _ HL) in Hsi. by destruct Hsi.
        -- apply (lo_none _ _ _ HL) in Hsi. by rewrite Hsi.
      * destruct (in_shard sh H); done.
      * rewrite count_named_app, count_named_one. simpl.
        destruct (subscriptions n !! sh) as [si|] eqn:Hsi; simpl.
        -- apply (lo_some _ _ _ HL) in Hsi as (_ & _ & -> & _).
           destruct (decide (dn = ""%string)); lia.
        -- apply (lo_none _ _ _ HL) in Hsi. rewrite Hsi. unfold count_named. simpl.
           destruct (decide (dn = ""%string)); lia.
      * exact Hs.
    + rewrite lookup_insert_ne in Hsi by done.
      rewrite in_shard_app. assert (in_shard sh' [GSub h [] sh dn i] = []) as ->.
      { unfold in_shard. rewrite filter_cons_False by done. done. }
      rewrite app_nil_r. by apply (lo_some _ _ _ HL).
  - intros sh' Hsi. destruct (decide (sh = sh')) as [<-|Hshne].
    + by rewrite lookup_insert in Hsi.
    + rewrite lookup_insert_ne in Hsi by done.
      rewrite in_shard_app, (lo_none _ _ _ HL) by done.
      unfold in_shard. by rewrite filter_cons_False.
Qed.

(** * Subscribe *)
Lemma subscribe_ok srt p : forall n L h sh dn draw n' i,
  sort_contract srt ->
  Rep n L ->
  subscribe_at srt n p h sh dn draw = Some (n', i) ->
  Rep n' (L ++ [GSub h p sh dn i]).
Proof.
  induction p as [|k p IH]; intros n L h sh dn draw n' i Hsrt HR Hs; simpl in Hs.
  - apply Rep_inv in HR as (HL & Hc1 & Hc2 & Hc3).
    destruct (add_subscription_ok _ _ _ _ _ _ _ _ _ Hsrt HL Hs) as [HL' Hch].
    assert (forall k, below k (L ++ [GSub h [] sh dn i]) = below k L) as Hb.
    { intros k. rewrite below_app. simpl. by rewrite app_nil_r. }
    assert (forall k, fetch_child n' k = fetch_child n k) as Hf.
    { intros k. unfold fetch_child. by rewrite Hch. }
    constructor.
    + rewrite here_app. unfold here at 2. rewrite filter_cons_True by done. done.
    + intros k c. rewrite Hb, Hf. apply Hc1.
    + intros k c. rewrite Hb, Hf. apply Hc2.
    + intros k. rewrite Hb, Hf. apply Hc3.
  - destruct (subscribe_at srt (add_child n k) p h sh dn draw) as [[c i']|] eqn:Hrec; [|done].
    inversion Hs; subst n' i'; clear Hs.
    apply Rep_inv in HR as (HL & Hc1 & Hc2 & Hc3).
    assert (Rep c (below k L ++ [GSub h p sh dn i])) as Hc.
    { eapply IH; [exact Hsrt| |exact Hrec]. unfold add_child.
      destruct (fetch_child n k) eqn:Hf; [by apply Hc1|].
      rewrite (Hc3 _ Hf). apply Rep_new. }
    assert (forall k', below k' (L ++ [GSub h (k :: p) sh dn i]) =
              below k' L ++ if decide (k' = k) then [GSub h p sh dn i] else []) as Hb.
    { intros k'. rewrite below_app. f_equal. unfold below. simpl. unfold desc. simpl.
      by destruct (decide (k' = k)). }
    constructor; simpl.
    + rewrite here_app. unfold here at 2. rewrite filter_cons_False by done.
      by rewrite filter_nil, app_nil_r.
    + intros k' c' Hf. rewrite Hb. unfold fetch_child, set_child in Hf. cbn [children] in Hf.
      destruct (decide (k' = k)) as [->|Hne].
      * rewrite aget_aset_eq in Hf. by inversion Hf; subst.
      * rewrite aget_aset_ne in Hf by done. rewrite app_nil_r. by apply Hc1.
    + intros k' c' Hf. rewrite Hb. unfold fetch_child, set_child in Hf. cbn [children] in Hf.
      destruct (decide (k' = k)) as [->|Hne].
      * by destruct (below k L).
      * rewrite aget_aset_ne in Hf by done. rewrite app_nil_r. by eapply Hc2.
    + intros k' Hf. rewrite Hb. unfold fetch_child, set_child in Hf. cbn [children] in Hf.
      destruct (decide (k' = k)) as [->|Hne].
      * by rewrite aget_aset_eq in Hf.
      * rewrite aget_aset_ne in Hf by done. rewrite app_nil_r. by apply Hc3.
Qed.

Lemma subscribe_some srt p : forall n L h sh dn draw,
  - 2^63 <= draw < 2^63 -> Z.of_nat (length L) < 2^64 ->
  Rep n L -> exists n' i, subscribe_at srt n p h sh dn draw = Some (n', i).
Proof.
  induction p as [|k p IH]; intros n L h sh dn draw Hd Hlen HR; simpl.
  - apply Rep_inv in HR as (HL & _). unfold add_subscription.
    pose proof (size_shards _ _ _ HL) as Hsz.
    assert (length (here L) <= length L)%nat as Hle by apply filter_length.
    destruct (create_id_some (shards n) draw Hd) as [i ->]; [lia|]. eauto.
  - apply Rep_inv in HR as (HL & Hc1 & Hc2 & Hc3).
    assert (exists L', Rep (add_child n k) L' /\ (length L' <= length L)%nat) as (L' & HL' & Hle).
    { unfold add_child. destruct (fetch_child n k) eqn:Hf.
      - exists (below k L). split; [by apply Hc1|].
        apply below_length.
      - exists []. split; [apply Rep_new|simpl; lia]. }
    destruct (IH (add_child n k) L' h sh dn draw Hd) as (n' & i & ->); [lia|done|]. eauto.
Qed.

(** * Unsubscribe *)
Definition rm_id (i : Z) (L : list gsub) : list gsub := filter (fun g => g_id g <> i) L.
Definition rm_at (p : list Z) (i : Z) (L : list gsub) : list gsub :=
  filter (fun g => ~ (g_path g = p /\ g_id g = i)) L.

Lemma name_le_trans : Transitive name_le.
Proof.
  assert (Htr : forall a b c r, String.compare a b = r -> String.compare b c = r -> r = Lt ->
            String.compare a c = Lt).
  { induction a as [|x a IH]; intros [|y b] [|z c] r; simpl; try congruence.
    unfold Ascii.compare.
    destruct (N.compare_spec (Ascii.N_of_ascii x) (Ascii.N_of_ascii y)) as [Hxy|Hxy|Hxy];
    destruct (N.compare_spec (Ascii.N_of_ascii y) (Ascii.N_of_ascii z)) as [Hyz|Hyz|Hyz];
    intros H1 H2 Hr; try congruence;
    destruct (N.compare_spec (Ascii.N_of_ascii x) (Ascii.N_of_ascii z)) as [Hxz|Hxz|Hxz];
      try done; try lia.
    eapply IH; eauto. }
  intros a b c. unfold name_le, String.leb.
  destruct (String.compare a b) eqn:Hab; intros H1; try done;
  destruct (String.compare b c) eqn:Hbc; intros H2; try done.
  - apply String.compare_eq_iff in Hab. subst. by rewrite Hbc.
  - apply String.compare_eq_iff in Hab. subst. by rewrite Hbc.
  - apply String.compare_eq_iff in Hbc. subst. by rewrite Hab.
  - by rewrite (Htr a b c Lt).
Qed.
Lemma name_le_antisymm : AntiSymm (=) name_le.
Proof. intros a b H1 H2. by apply String.leb_antisym. Qed.

(** Dropping from the envelope list. *)
Lemma drop_env_notin i cnt es :
  i ∉ map e_id es -> drop_env i cnt es = (cnt, es).
Proof.
  induction es as [|e es IH]; simpl; intros Hn; [done|].
  rewrite decide_False by (intros <-; apply Hn; by left).
  rewrite IH; [done|]. intros Hin. apply Hn. by right.
Qed.
Lemma drop_env_in i cnt e0 es :
  NoDup (map e_id es) -> e0 ∈ es -> e_id e0 = i ->
  exists es', drop_env i cnt es =
    (if decide (e_dname e0 = ""%string) then cnt else cnt - 1, es') /\
    es ≡ₚ e0 :: es' /\ sublist es' es.
Proof.
  induction es as [|e es IH]; simpl; intros Hnd Hin Hi; [by apply elem_of_nil in Hin|].
  apply NoDup_cons in Hnd as [Hnin Hnd].
  destruct (decide (e_id e = i)) as [He|He].
  - assert (e0 = e) as ->.
    { apply elem_of_cons in Hin as [->|Hin]; [done|]. exfalso. apply Hnin.
      apply elem_of_list_fmap. exists e0. split; [congruence|done]. }
    exists es. split; [done|]. split; [done|]. by constructor.
  - apply elem_of_cons in Hin as [->|Hin]; [done|].
    destruct (IH Hnd Hin Hi) as (es' & -> & Hp & Hsub).
    exists (e :: es'). split; [done|]. split.
    + rewrite Hp. by constructor.
    + by constructor.
Qed.
Lemma sorted_sublist (l' l : list string) : sublist l' l -> Sorted name_le l -> Sorted name_le l'.
Proof.
  intros Hs Hl. apply Sorted_StronglySorted in Hl; [|apply name_le_trans].
  apply StronglySorted_Sorted. induction Hs as [|x l1 l2 Hs IH|x l1 l2 Hs IH].
  - constructor.
  - inversion Hl as [|? ? Hl2 Hall]; subst. constructor; [by apply IH|].
    rewrite Forall_forall in *. intros y Hy. apply Hall.
    eapply elem_of_submseteq; [exact Hy|by apply sublist_submseteq].
  - inversion Hl; subst. by apply IH.
Qed.
Lemma fmap_sublist {A B} (f : A -> B) l' l : sublist l' l -> sublist (map f l') (map f l).
Proof. induction 1; simpl; by constructor. Qed.

Lemma delete_subscription_ok n i H :
  LocalOK (subscriptions n) (shards n) H ->
  LocalOK (subscriptions (delete_subscription n i)) (shards (delete_subscription n i)) (rm_id i H) /\
  children (delete_subscription n i) = children n.
Proof.
  intros HL. unfold delete_subscription.
  destruct (shards n !! i) as [sh|] eqn:Hsh.
  2:{ split; [|done]. assert (rm_id i H = H) as ->; [|done].
      unfold rm_id.
      assert (forall g, g ∈ H -> g_id g <> i) as Hne.
      { intros g Hg Hi. assert (shards n !! i = Some (g_shard g)) as Hs
          by (apply (lo_shards _ _ _ HL); eauto). by rewrite Hsh in Hs. }
      clear HL. induction H as [|g H IH]; [done|].
      rewrite filter_cons_True by (apply Hne; by left). f_equal. apply IH.
      intros g' Hg'. apply Hne. by right. }
  apply (lo_shards _ _ _ HL) in Hsh as (g0 & Hg0 & Hi0 & Hs0).
  destruct (subscriptions n !! sh) as [si|] eqn:Hsi; simpl.
  2:{ apply (lo_none _ _ _ HL) in Hsi. exfalso.
      assert (g0 ∈ in_shard sh H) as Hin by (apply elem_of_list_filter; done).
      rewrite Hsi in Hin. by apply elem_of_nil in Hin. }
  destruct (lo_some _ _ _ HL _ _ Hsi) as (Hp & Hne & Hcnt & Hsorted).
  assert (NoDup (map e_id (si_envs si))) as Hnd.
  { rewrite Hp. change (map e_id (map env_of (in_shard sh H))) with
      (e_id <$> (env_of <$> in_shard sh H)). rewrite <- list_fmap_compose.
    change (NoDup (g_id <$> in_shard sh H)).
    assert (sublist (g_id <$> in_shard sh H) (g_id <$> H)) as Hsub.
    { apply fmap_sublist. unfold in_shard. clear. induction H as [|g H IH]; [constructor|].
      rewrite filter_cons. destruct (decide (g_shard g = sh)); by constructor. }
    pose proof (lo_ids _ _ _ HL) as Hids.
    apply sublist_submseteq in Hsub. apply submseteq_Permutation in Hsub as [k Hk].
    change (NoDup (g_id <$> H)) in Hids. rewrite Hk in Hids. apply NoDup_app in Hids. tauto. }
  assert (env_of g0 ∈ si_envs si) as Hin.
  { rewrite Hp. apply elem_of_list_fmap. exists g0. split; [done|]. by apply elem_of_list_filter. }
  destruct (drop_env_in i (si_cnt si) (env_of g0) (si_envs si) Hnd Hin Hi0)
    as (es' & -> & Hpes & Hsubl).
  assert (forall g, g ∈ H -> g_id g = i -> g = g0) as Huniq.
  { intros g Hg Hgi. pose proof (lo_ids _ _ _ HL) as Hids.
    apply elem_of_list_lookup in Hg as [x Hx]. apply elem_of_list_lookup in Hg0 as [y Hy].
    assert (x = y) as ->.
    { eapply (NoDup_lookup (map g_id H) x y i); [done| |];
      change (map g_id H) with (g_id <$> H); rewrite list_lookup_fmap;
        [rewrite Hx|rewrite Hy]; simpl; congruence. }
    congruence. }
  assert (H ≡ₚ g0 :: rm_id i H) as HpH.
  { clear -Hg0 Hi0 Huniq HL. pose proof (lo_ids _ _ _ HL) as Hids. clear HL.
    induction H as [|g H IH]; [by apply elem_of_nil in Hg0|].
    unfold rm_id. rewrite filter_cons. simpl in Hids. apply NoDup_cons in Hids as [Hni Hids].
    destruct (decide (g_id g <> i)) as [Hgi|Hgi].
    - apply elem_of_cons in Hg0 as [->|Hg0]; [done|].
      rewrite Permutation_swap. constructor. apply IH; [done| |done].
      intros g' Hg'. apply Huniq. by right.
    - assert (g = g0) as -> by (apply Huniq; [by left|]; destruct (decide (g_id g = i)); tauto).
      constructor. clear IH.
      assert (filter (fun g => g_id g <> i) H = H) as ->; [|done].
      assert (forall g, g ∈ H -> g_id g <> i) as Hall.
      { intros g' Hg' Hi'. apply Hni. apply elem_of_list_fmap. exists g'. split; [congruence|done]. }
      clear -Hall. induction H as [|g' H IH]; [done|].
      rewrite filter_cons_True by (apply Hall; by left). f_equal. apply IH.
      intros g'' Hg''. apply Hall. by right. }
  assert (in_shard sh H ≡ₚ g0 :: in_shard sh (rm_id i H)) as HpS.
  { unfold in_shard at 1. rewrite HpH at 1. rewrite filter_cons_True by done. done. }
  assert (forall sh', sh' <> sh -> in_shard sh' (rm_id i H) = in_shard sh' H) as HoS.
  { intros sh' Hne'. unfold in_shard, rm_id. clear -Huniq Hs0 Hne'.
    induction H as [|g H IH]; [done|].
    assert (forall g', g' ∈ H -> g_id g' = i -> g' = g0) as Hu by (intros; apply Huniq; [by right|done]).
    rewrite (filter_cons (fun g => g_id g <> i)).
    destruct (decide (g_id g <> i)) as [Hgi|Hgi].
    - rewrite !filter_cons, IH by done. done.
    - rewrite IH by done. rewrite filter_cons_False; [done|].
      rewrite (Huniq g); [congruence|by left|]. destruct (decide (g_id g = i)); tauto. }
  assert (es' ≡ₚ map env_of (in_shard sh (rm_id i H))) as Hpes'.
  { apply (Permutation_cons_inv (a := env_of g0)). rewrite <- Hpes, Hp, HpS. done. }
  assert (count_named (in_shard sh H) = count_named [g0] + count_named (in_shard sh (rm_id i H))) as Hcn.
  { rewrite <- count_named_app. simpl. unfold count_named. by rewrite HpS. }
  split; [|done]. cbn [subscriptions shards]. split.
  - pose proof (lo_ids _ _ _ HL) as Hids. change (NoDup (g_id <$> H)) in Hids.
    rewrite HpH in Hids. simpl in Hids. apply NoDup_cons in Hids. by destruct Hids.
  - intros j sh'. rewrite lookup_delete_Some, (lo_shards _ _ _ HL).
    split.
    + intros (Hij & g & Hg & Hgj & Hgs). exists g. split; [|done].
      apply elem_of_list_filter. split; [congruence|done].
    + intros (g & Hg & Hgj & Hgs). apply elem_of_list_filter in Hg as [Hgi Hg].
      split; [congruence|]. eauto.
  - intros sh' si' Hsi'. destruct (decide (sh' = sh)) as [->|Hne'].
    + destruct es' as [|e es'].
      * by rewrite lookup_delete in Hsi'.
      * rewrite lookup_insert in Hsi'. inversion Hsi'; subst si'; clear Hsi'; simpl.
        split; [done|]. split.
        { intros Hnil. rewrite Hnil in Hpes'. simpl in Hpes'.
          symmetry in Hpes'. by apply Permutation_nil_cons in Hpes'. }
        split.
        { rewrite Hcnt, Hcn, count_named_one. simpl.
          destruct (decide (g_dname g0 = ""%string)); lia. }
        apply (sorted_sublist _ (map e_dname (si_envs si))); [|done].
        by apply (fmap_sublist e_dname) in Hsubl.
    + rewrite HoS by done. apply (lo_some _ _ _ HL).
      destruct es' as [|e es']; [by rewrite lookup_delete_ne in Hsi'|by rewrite lookup_insert_ne in Hsi'].
  - intros sh' Hsi'. destruct (decide (sh' = sh)) as [->|Hne'].
    + destruct es' as [|e es']; [|by rewrite lookup_insert in Hsi'].
      apply Permutation_nil in Hpes'. by apply fmap_nil_inv in Hpes'.
    + rewrite HoS by done. apply (lo_none _ _ _ HL).
      destruct es' as [|e es']; [by rewrite lookup_delete_ne in Hsi'|by rewrite lookup_insert_ne in Hsi'].
Qed.

Lemma here_rm_nil i L : here (rm_at [] i L) = rm_id i (here L).
Proof.
  unfold here, rm_at, rm_id. rewrite !list_filter_filter. apply list_filter_iff.
  intros g. tauto.
Qed.
Lemma here_rm_cons k p i L : here (rm_at (k :: p) i L) = here L.
Proof.
  unfold here, rm_at. rewrite list_filter_filter. apply list_filter_iff.
  intros g. split; [tauto|]. intros Hg. rewrite Hg. split; [done|]. by intros [? _].
Qed.
Lemma omap_filter_comm {A B} (f : A -> option B) (P : A -> Prop) (Q : B -> Prop)
    `{forall x, Decision (P x)} `{forall x, Decision (Q x)} (l : list A) :
  (forall x y, f x = Some y -> (P x <-> Q y)) -> omap f (filter P l) = filter Q (omap f l).
Proof.
  intros HPQ. induction l as [|x l IH]; [done|]. rewrite filter_cons. cbn.
  destruct (f x) as [y|] eqn:Hf.
  - rewrite filter_cons. destruct (decide (P x)) as [Hp|Hp]; destruct (decide (Q y)) as [Hq|Hq].
    + cbn. rewrite Hf. by f_equal.
    + exfalso. apply Hq. by apply (HPQ _ _ Hf).
    + exfalso. apply Hp. by apply (HPQ _ _ Hf).
    + exact IH.
  - destruct (decide (P x)); [|exact IH]. cbn. by rewrite Hf.
Qed.
Lemma omap_filter_irrel {A B} (f : A -> option B) (P : A -> Prop)
    `{forall x, Decision (P x)} (l : list A) :
  (forall x y, f x = Some y -> P x) -> omap f (filter P l) = omap f l.
Proof.
  intros HP. induction l as [|x l IH]; [done|]. rewrite filter_cons. cbn.
  destruct (decide (P x)) as [Hp|Hp].
  - cbn. by destruct (f x); rewrite IH.
  - destruct (f x) as [y|] eqn:Hf; [|exact IH]. exfalso. apply Hp. by eapply HP.
Qed.
Lemma desc_some k g g' : desc k g = Some g' ->
  g_path g = k :: g_path g' /\ g_id g = g_id g' /\ g_handle g = g_handle g' /\
  g_shard g = g_shard g' /\ g_dname g = g_dname g'.
Proof.
  unfold desc. destruct g as [h p s d i]. simpl. destruct p as [|k' p]; [done|].
  destruct (decide (k = k')) as [<-|]; [|done]. by inversion 1.
Qed.
Lemma below_rm_cons k p i L k' :
  below k' (rm_at (k :: p) i L) = if decide (k' = k) then rm_at p i (below k' L) else below k' L.
Proof.
  unfold below, rm_at. destruct (decide (k' = k)) as [->|Hne].
  - apply omap_filter_comm. intros x y Hd. apply desc_some in Hd as (-> & -> & _).
    split; intros Hn [H1 H2]; apply Hn; (split; [congruence|done]).
  - apply omap_filter_irrel. intros x y Hd. apply desc_some in Hd as (-> & _).
    intros [H1 _]. congruence.
Qed.
Lemma below_rm_nil i L k' : below k' (rm_at [] i L) = below k' L.
Proof.
  unfold below, rm_at. apply omap_filter_irrel. intros x y Hd.
  apply desc_some in Hd as (-> & _). by intros [? _].
Qed.

Lemma Rep_empty_iff n L :
  Rep n L -> (child_len0 n && subscription_len0 n = true <-> L = []).
Proof.
  intros HR. apply Rep_inv in HR as (HL & Hc1 & Hc2 & Hc3).
  rewrite andb_true_iff. unfold subscription_len0. rewrite bool_decide_eq_true.
  unfold child_len0. split.
  - intros [Hch Hsh]. destruct L as [|g L]; [done|exfalso].
    destruct g as [h q s d i]. destruct q as [|k q].
    + assert (shards n !! i = Some s) as Hs.
      { apply (lo_shards _ _ _ HL). exists (GSub h [] s d i). split; [|done].
        apply in_here. split; [by left|done]. }
      rewrite Hsh in Hs. done.
    + assert (fetch_child n k = None) as Hf.
      { unfold fetch_child. by destruct (children n). }
      apply Hc3 in Hf.
      assert (GSub h q s d i ∈ below k (GSub h (k :: q) s d i :: L)) as Hin.
      { apply in_below. simpl. by left. }
      rewrite Hf in Hin. by apply elem_of_nil in Hin.
  - intros ->. split.
    + rewrite (aget_nil_all (children n)); [done|]. intros k.
      destruct (aget k (children n)) eqn:Hg; [|done].
      by apply Hc2 in Hg.
    + apply map_empty. intros i. destruct (shards n !! i) eqn:Hs; [|done].
      apply (lo_shards _ _ _ HL) in Hs as (g & Hg & _). by apply elem_of_nil in Hg.
Qed.

Lemma cleanup_ok p : forall n L i,
  Rep n L ->
  match cleanup n i p with
  | Some n' => Rep n' (rm_at p i L)
  | None => node_at n p = None
  end.
Proof.
  induction p as [|k p IH]; intros n L i HR; simpl.
  - apply Rep_inv in HR as (HL & Hc1 & Hc2 & Hc3).
    destruct (delete_subscription_ok _ i _ HL) as [HL' Hch].
    assert (forall k, fetch_child (delete_subscription n i) k = fetch_child n k) as Hf.
    { intros k. unfold fetch_child. by rewrite Hch. }
    constructor.
    + by rewrite here_rm_nil.
    + intros k c. rewrite Hf, below_rm_nil. apply Hc1.
    + intros k c. rewrite Hf, below_rm_nil. apply Hc2.
    + intros k. rewrite Hf, below_rm_nil. apply Hc3.
  - destruct (fetch_child n k) as [child|] eqn:Hf; [|done].
    pose proof HR as HR0.
    apply Rep_inv in HR as (HL & Hc1 & Hc2 & Hc3).
    specialize (IH child (below k L) i (Hc1 _ _ Hf)).
    destruct (cleanup child i p) as [child'|] eqn:Hcl; [|done].
    pose proof (Rep_empty_iff _ _ IH) as Hemp.
    destruct (child_len0 child' && subscription_len0 child') eqn:He.
    + assert (rm_at p i (below k L) = []) as Hnil by by apply Hemp.
      constructor; cbn [subscriptions shards].
      * by rewrite here_rm_cons.
      * intros k' c. unfold fetch_child. cbn [children delete_child]. rewrite below_rm_cons.
        destruct (decide (k' = k)) as [->|Hne]; [by rewrite aget_adel_eq|].
        rewrite aget_adel_ne by done. apply Hc1.
      * intros k' c. unfold fetch_child. cbn [children delete_child]. rewrite below_rm_cons.
        destruct (decide (k' = k)) as [->|Hne]; [by rewrite aget_adel_eq|].
        rewrite aget_adel_ne by done. apply Hc2.
      * intros k'. unfold fetch_child. cbn [children delete_child]. rewrite below_rm_cons.
        destruct (decide (k' = k)) as [->|Hne]; [done|].
        rewrite aget_adel_ne by done. apply Hc3.
    + assert (rm_at p i (below k L) <> []) as Hnil.
      { intros Hn. apply Hemp in Hn. congruence. }
      constructor; cbn [subscriptions shards set_child].
      * by rewrite here_rm_cons.
      * intros k' c. unfold fetch_child. cbn [children set_child]. rewrite below_rm_cons.
        destruct (decide (k' = k)) as [->|Hne].
        { rewrite aget_aset_eq. by inversion 1; subst. }
        rewrite aget_aset_ne by done. apply Hc1.
      * intros k' c. unfold fetch_child. cbn [children set_child]. rewrite below_rm_cons.
        destruct (decide (k' = k)) as [->|Hne]; [done|].
        rewrite aget_aset_ne by done. apply Hc2.
      * intros k'. unfold fetch_child. cbn [children set_child]. rewrite below_rm_cons.
        destruct (decide (k' = k)) as [->|Hne]; [by rewrite aget_aset_eq|].
        rewrite aget_aset_ne by done. apply Hc3.
Qed.
Lemma cleanup_none_iff n i p : cleanup n i p = None <-> node_at n p = None.
Proof.
  revert n. induction p as [|k p IH]; intros n; simpl; [done|].
  destruct (fetch_child n k) as [c|]; [|done]. rewrite <- IH.
  destruct (cleanup c i p); [|done]. by destruct (_ && _).
Qed.

(** Nodes are exactly the prefixes of live paths. *)
Lemma node_at_iff q : forall n L,
  Rep n L -> (is_Some (node_at n q) <-> q = [] \/ exists g, g ∈ L /\ q `prefix_of` g_path g).
Proof.
  induction q as [|k q IH]; intros n L HR; simpl.
  - split; [by left|eauto].
  - apply Rep_inv in HR as (HL & Hc1 & Hc2 & Hc3).
    destruct (fetch_child n k) as [c|] eqn:Hf.
    + rewrite (IH c (below k L)) by by apply Hc1.
      split.
      * intros [->|(g & Hg & Hpre)]; right.
        -- specialize (Hc2 _ _ Hf). destruct (below k L) as [|g l] eqn:Hb; [done|].
           assert (g ∈ below k L) as Hg by (rewrite Hb; by left).
           apply in_below in Hg. eexists; split; [exact Hg|]. simpl. by apply prefix_cons, prefix_nil.
        -- apply in_below in Hg. eexists; split; [exact Hg|]. simpl. by apply prefix_cons.
      * intros [?|(g & Hg & Hpre)]; [done|]. right.
        destruct g as [h p s d i]; simpl in *. destruct p as [|k' p].
        { by apply prefix_nil_not in Hpre. }
        pose proof (prefix_cons_inv_1 _ _ _ _ Hpre) as <-. apply prefix_cons_inv_2 in Hpre.
        exists (GSub h p s d i). split; [by apply in_below|done].
    + split; [by intros [? ?]|]. intros [?|(g & Hg & Hpre)]; [done|].
      apply Hc3 in Hf. destruct g as [h p s d i]; simpl in *. destruct p as [|k' p].
      { by apply prefix_nil_not in Hpre. }
      pose proof (prefix_cons_inv_1 _ _ _ _ Hpre) as <-.
      assert (GSub h p s d i ∈ below k L) as Hin by by apply in_below.
      rewrite Hf in Hin. by apply elem_of_nil in Hin.
Qed.

Lemma Rep_nil_new n : Rep n [] -> n = new_node.
Proof.
  intros HR. pose proof (proj2 (Rep_empty_iff _ _ HR) eq_refl) as He.
  apply andb_true_iff in He as [Hc Hs].
  unfold subscription_len0 in Hs. rewrite bool_decide_eq_true in Hs.
  apply Rep_inv in HR as (HL & _).
  destruct n as [ch su sh]. unfold child_len0 in Hc. simpl in *.
  destruct ch; [|done]. subst sh. unfold new_node. f_equal.
  apply map_empty. intros i. destruct (su !! i) eqn:Hsu; [|done].
  apply (lo_some _ _ _ HL) in Hsu as (_ & Hn & _). done.
Qed.

(** * Histories *)
Record Inv (s : pubsub) (n : nat) (l : list sub) (L : list gsub) : Prop := {
  inv_rep : Rep (root s) L;
  inv_erase : map erase L = l;
  inv_closures : forall g, g ∈ L -> closures s !! g_handle g = Some (g_id g, g_path g);
  inv_len : length (closures s) = n;
  inv_nodup : NoDup (map g_handle L) }.

Lemma Inv_new : Inv new_pubsub 0 [] [].
Proof.
  split; simpl; [apply Rep_new|done| |done|constructor].
  intros g Hg. by apply elem_of_nil in Hg.
Qed.

Lemma rm_at_handle L h i p :
  (forall g, g ∈ L -> g_handle g = h -> g_id g = i /\ g_path g = p) ->
  (forall g, g ∈ L -> g_id g = i /\ g_path g = p -> g_handle g = h) ->
  rm_at p i L = filter (fun g => g_handle g <> h) L.
Proof.
  intros H1 H2. unfold rm_at. induction L as [|g L IH]; [done|].
  rewrite !filter_cons.
  rewrite IH; [|intros g' Hg'; apply H1; by right|intros g' Hg'; apply H2; by right].
  specialize (H1 g ltac:(by left)). specialize (H2 g ltac:(by left)).
  destruct (decide (~ (g_path g = p /\ g_id g = i))) as [Ha|Ha];
  destruct (decide (g_handle g <> h)) as [Hb|Hb]; try done.
  - exfalso. apply Ha. destruct (decide (g_handle g = h)) as [Hh|]; [|done].
    destruct (H1 Hh). done.
  - exfalso. apply Ha. intros [? ?]. apply Hb. by apply H2.
Qed.
Lemma map_erase_rm h L :
  map erase (filter (fun g => g_handle g <> h) L) = filter (fun s => s_handle s <> h) (map erase L).
Proof.
  induction L as [|g L IH]; [done|]. simpl. rewrite !filter_cons. simpl.
  destruct (decide (g_handle g <> h)); simpl; by rewrite IH.
Qed.
Lemma path_id_inj n L : Rep n L -> forall g1 g2, g1 ∈ L -> g2 ∈ L ->
  g_path g1 = g_path g2 -> g_id g1 = g_id g2 -> g_handle g1 = g_handle g2.
Proof.
  induction 1 as [n L HL Hc1 IH Hc2 Hc3]. intros g1 g2 H1 H2 Hp Hi.
  destruct g1 as [h1 p1 s1 d1 i1], g2 as [h2 p2 s2 d2 i2]; simpl in *. subst p2 i2.
  destruct p1 as [|k p].
  - pose proof (lo_ids _ _ _ HL) as Hids.
    assert (GSub h1 [] s1 d1 i1 ∈ here L) as Ha by by apply in_here.
    assert (GSub h2 [] s2 d2 i1 ∈ here L) as Hb by by apply in_here.
    apply elem_of_list_lookup in Ha as [x Hx]. apply elem_of_list_lookup in Hb as [y Hy].
    assert (x = y) as ->.
    { eapply (NoDup_lookup (map g_id (here L)) x y i1); [done| |];
      change (map g_id (here L)) with (g_id <$> (here L)); rewrite list_lookup_fmap;
        [rewrite Hx|rewrite Hy]; done. }
    congruence.
  - destruct (fetch_child n k) as [c|] eqn:Hf.
    + apply (IH _ _ Hf (GSub h1 p s1 d1 i1) (GSub h2 p s2 d2 i1)); try done; by apply in_below.
    + apply Hc3 in Hf. assert (GSub h1 p s1 d1 i1 ∈ below k L) as Ha by by apply in_below.
      rewrite Hf in Ha. by apply elem_of_nil in Ha.
Qed.

Lemma Inv_unsub s n l L h :
  Inv s n l L -> h ∈ map s_handle l ->
  exists s', step (fun x => x) s (Unsubscribe h) = Ok s' /\
    Inv s' n (filter (fun s => s_handle s <> h) l) (filter (fun g => g_handle g <> h) L).
Proof.
  intros HI Hh. destruct HI as [HR He Hcl Hlen Hnd]. subst l.
  rewrite <- list_fmap_compose in Hh || (change (map s_handle (map erase L)) with (s_handle <$> (erase <$> L)) in Hh; rewrite <- list_fmap_compose in Hh).
  apply elem_of_list_fmap in Hh as (g & -> & Hg). simpl.
  rewrite (Hcl _ Hg).
  pose proof (cleanup_ok (g_path g) (root s) L (g_id g) HR) as Hc.
  destruct (cleanup (root s) (g_id g) (g_path g)) as [r|] eqn:Hcl'.
  2:{ exfalso. assert (is_Some (node_at (root s) (g_path g))) as Hs.
      { apply (node_at_iff _ _ _ HR). right. exists g. done. }
      rewrite Hc in Hs. by destruct Hs. }
  eexists. split; [reflexivity|].
  rewrite (rm_at_handle _ (g_handle g)) in Hc.
  - split; simpl; try done.
    + apply map_erase_rm.
    + intros g' Hg'. apply elem_of_list_filter in Hg' as [_ Hg']. by apply Hcl.
    + assert (sublist (g_handle <$> filter (fun g' => g_handle g' <> g_handle g) L) (g_handle <$> L)) as Hsub.
      { apply fmap_sublist. clear. induction L as [|x L IH]; [constructor|].
        rewrite filter_cons. destruct (decide _); by constructor. }
      apply sublist_submseteq, submseteq_Permutation in Hsub as [k Hk].
      change (NoDup (g_handle <$> L)) in Hnd. rewrite Hk in Hnd. apply NoDup_app in Hnd. tauto.
  - intros g' Hg' Hh. pose proof (Hcl _ Hg') as Ha. pose proof (Hcl _ Hg) as Hb.
    rewrite Hh, Hb in Ha. by inversion Ha.
  - intros g' Hg' [Hi Hp]. exact (path_id_inj _ _ HR _ _ Hg' Hg Hp Hi).
Qed.

Lemma Inv_sub srt s n l L p sh dn draw s' :
  sort_contract srt -> Inv s n l L ->
  step srt s (Subscribe p sh dn draw) = Ok s' ->
  exists L', Inv s' (S n) (l ++ [Sub n p sh dn]) L'.
Proof.
  intros Hsrt [HR He Hcl Hlen Hnd] Hst. simpl in Hst.
  destruct (subscribe_at _ _ _ _ _ _ _) as [[r i]|] eqn:Hs; [|done].
  inversion Hst; subst s'; clear Hst.
  apply (subscribe_ok _ _ _ _ _ _ _ _ _ _ Hsrt HR) in Hs.
  exists (L ++ [GSub (length (closures s)) p sh dn i]). split; simpl; try done.
  - rewrite map_app, He. simpl. unfold erase. simpl. by rewrite Hlen.
  - intros g Hg. apply elem_of_app in Hg as [Hg|Hg].
    + apply lookup_app_l_Some. by apply Hcl.
    + apply elem_of_list_singleton in Hg. subst g. simpl.
      rewrite lookup_app_r by lia. by rewrite Nat.sub_diag.
  - rewrite app_length. simpl. lia.
  - rewrite map_app. apply NoDup_app. split; [done|]. split.
    + intros x Hx. apply elem_of_list_fmap in Hx as (g & -> & Hg). simpl.
      rewrite elem_of_list_singleton. pose proof (Hcl _ Hg) as Hl.
      apply lookup_lt_Some in Hl. lia.
    + simpl. apply NoDup_singleton.
Qed.

Lemma step_unsub_srt srt1 srt2 s h : step srt1 s (Unsubscribe h) = step srt2 s (Unsubscribe h).
Proof. done. Qed.

Lemma run_inv srt os : sort_contract srt -> forall s n l L,
  Inv s n l L -> once_from n l os ->
  (forall s', run srt s os = Ok s' -> exists n' L', Inv s' n' (live_from n l os) L') /\
  run srt s os <> Panic.
Proof.
  intros Hsrt. induction os as [|o os IH]; intros s n l L HI Ho; simpl in *.
  - split; [|done]. intros s' Hs. inversion Hs; subst. eauto.
  - destruct o as [p sh dn draw|h].
    + destruct (step srt s (Subscribe p sh dn draw)) as [s1| |] eqn:Hst.
      * destruct (Inv_sub _ _ _ _ _ _ _ _ _ _ Hsrt HI Hst) as [L1 HI1].
        by apply (IH _ _ _ _ HI1).
      * exfalso. simpl in Hst. by destruct (subscribe_at _ _ _ _ _ _ _) as [[]|].
      * split; [done|]. done.
    + destruct Ho as [Hh Ho].
      destruct (Inv_unsub _ _ _ _ _ HI Hh) as (s1 & Hst & HI1).
      rewrite (step_unsub_srt srt (fun x => x)), Hst. by apply (IH _ _ _ _ HI1).
Qed.

Lemma run_ok srt os : sort_contract srt -> forall s n l L,
  Inv s n l L -> once_from n l os -> draws_ok os ->
  Z.of_nat (length l) + Z.of_nat (length os) < 2^64 ->
  exists s', run srt s os = Ok s'.
Proof.
  intros Hsrt. induction os as [|o os IH]; intros s n l L HI Ho Hd Hb; simpl in *; [eauto|].
  assert (draws_ok os) as Hd' by (intros p' sh' dn' d' Hin; eapply Hd; right; exact Hin).
  destruct o as [p sh dn draw|h].
  - specialize (Hd p sh dn draw ltac:(by left)).
    assert (length L = length l) as HLl.
    { rewrite <- (inv_erase _ _ _ _ HI). symmetry. apply map_length. }
    destruct (subscribe_some srt p (root s) L (length (closures s)) sh dn draw)
      as (r & i & Hs); [lia|lia|apply HI|].
    assert (step srt s (Subscribe p sh dn draw) = Ok (PubSub r (closures s ++ [(i, p)]))) as Hst
      by (simpl; by rewrite Hs).
    destruct (Inv_sub _ _ _ _ _ _ _ _ _ _ Hsrt HI Hst) as [L1 HI1].
    rewrite Hst. eapply IH; [exact HI1|done|done|].
    rewrite app_length. simpl. lia.
  - destruct Ho as [Hh Ho].
    destruct (Inv_unsub _ _ _ _ _ HI Hh) as (s1 & Hst & HI1). rewrite (step_unsub_srt srt (fun x => x)), Hst.
    eapply IH; [exact HI1|done|done|].
    pose proof (filter_length (fun s => s_handle s <> h) l). lia.
Qed.
