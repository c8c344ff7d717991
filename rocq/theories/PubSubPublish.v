(** Lemmas about Publish. *)
From stdpp Require Import gmap strings list sorting.
From Coq Require Import ZArith Lia.
From Verif Require Import PubSubModel PubSubSpec PubSubProofs.
Open Scope Z_scope.

Definition cmem (ms : list nat) (calls : list nat) : nat :=
  length (filter (fun m => m ∈ ms) calls).

Lemma cmem_app ms a b : cmem ms (a ++ b) = (cmem ms a + cmem ms b)%nat.
Proof. unfold cmem. by rewrite filter_app, app_length. Qed.
Lemma cmem_none ms a : (forall x, x ∈ a -> x ∉ ms) -> cmem ms a = 0%nat.
Proof.
  intros H. unfold cmem. induction a as [|x a IH]; [done|].
  rewrite filter_cons_False by (apply H; by left). apply IH. intros y Hy. apply H. by right.
Qed.
Lemma cmem_nil a : cmem [] a = 0%nat.
Proof. apply cmem_none. intros x _ Hx. by apply elem_of_nil in Hx. Qed.
Lemma cmem_all_singleton ms x : x ∈ ms -> cmem ms [x] = 1%nat.
Proof. intros. unfold cmem. by rewrite filter_cons_True. Qed.
Lemma times_cmem n calls : times n calls = cmem [n] calls.
Proof.
  unfold times, cmem. f_equal. apply list_filter_iff. intros x. by rewrite elem_of_list_singleton.
Qed.

Definition names_rule (h : Z) (G : list gsub) (x : nat) : Prop :=
  exists ns g, Sorted name_le ns /\ ns ≡ₚ map g_dname G /\ g ∈ G /\ g_handle g = x /\
    ns !! Z.to_nat (h mod Z.of_nat (length G)) = Some (g_dname g).

(** The calls made at one node, for a list of groups. *)
Lemma groups_ok h su shs H : LocalOK su shs H -> NoDup (map g_handle H) ->
  forall order r, groups_calls h order r ->
  NoDup order.*1 -> (forall sh si, (sh, si) ∈ order -> su !! sh = Some si) ->
  exists calls, r = Some calls /\
    (forall x, x ∈ calls -> exists g, g ∈ H /\ g_handle g = x /\ g_shard g ∈ order.*1) /\
    (forall g, g ∈ H -> g_shard g = ""%string ->
       cmem [g_handle g] calls = if decide (""%string ∈ order.*1) then 1%nat else 0%nat) /\
    (forall sh, sh <> ""%string ->
       cmem (map g_handle (in_shard sh H)) calls = if decide (sh ∈ order.*1) then 1%nat else 0%nat) /\
    (forall sh x, sh <> ""%string -> Exists (fun g => named g) (in_shard sh H) -> x ∈ calls ->
       x ∈ map g_handle (in_shard sh H) -> names_rule h (in_shard sh H) x).
Proof.
  intros HL Hnd order r Hg. induction Hg as [|sh si l r1 r2 Hgc Hgs IH]; intros Hno Hsu.
  - exists []. split; [done|]. split; [|split; [|split]].
    + intros x Hx. by apply elem_of_nil in Hx.
    + done.
    + done.
    + intros sh x _ _ Hx. by apply elem_of_nil in Hx.
  - rewrite fmap_cons in Hno. simpl in Hno. apply NoDup_cons in Hno as [Hnin Hno].
    destruct IH as (c2 & -> & I1 & I2 & I3 & I4); [done|intros sh' si' Hin; apply Hsu; by right|].
    assert (su !! sh = Some si) as Hsi by (apply Hsu; by left).
    destruct (lo_some _ _ _ HL _ _ Hsi) as (Hp & Hne & Hcnt & Hsorted).
    assert (forall g g', g ∈ H -> g' ∈ H -> g_handle g = g_handle g' -> g = g') as Hinj.
    { intros g g' Ha Hb Hh.
      apply elem_of_list_lookup in Ha as [x Hx]. apply elem_of_list_lookup in Hb as [y Hy].
      assert (x = y) as ->; [|congruence].
      eapply (NoDup_lookup (map g_handle H) x y (g_handle g)); [done| |];
      change (map g_handle H) with (g_handle <$> H); rewrite list_lookup_fmap;
        [rewrite Hx|rewrite Hy]; simpl; congruence. }
    assert (exists c1, r1 = Some c1 /\
      (forall x, x ∈ c1 -> x ∈ map g_handle (in_shard sh H)) /\
      (sh = ""%string -> c1 ≡ₚ map g_handle (in_shard sh H)) /\
      (sh <> ""%string -> exists x, c1 = [x]) /\
      (sh <> ""%string -> Exists (fun g => named g) (in_shard sh H) ->
         forall x, x ∈ c1 -> names_rule h (in_shard sh H) x)) as (c1 & -> & J1 & J2 & J3 & J4).
    { assert (forall e, e ∈ si_envs si -> exists g, g ∈ in_shard sh H /\ e = env_of g) as Hin.
      { intros e He. rewrite Hp in He. apply elem_of_list_fmap in He as (g & -> & Hgg). eauto. }
      destruct Hgc as [si'|sh' si' Hsh Hnil|sh' si' e Hsh Hnn Hc He|sh' si' i e Hsh Hnn Hc He].
      - assert (map e_sub (si_envs si') ≡ₚ map g_handle (in_shard "" H)) as Hpp.
        { change (e_sub <$> si_envs si' ≡ₚ g_handle <$> in_shard "" H).
          rewrite Hp. change (e_sub <$> (env_of <$> in_shard "" H) ≡ₚ g_handle <$> in_shard "" H).
          by rewrite <- list_fmap_compose. }
        eexists. split; [reflexivity|]. split; [|split; [|split]]; try done.
        intros x Hx. by rewrite Hpp in Hx.
      - exfalso. rewrite Hnil in Hp. apply Permutation_nil in Hp. by apply fmap_nil_inv in Hp.
      - eexists. split; [reflexivity|]. split; [|split; [|split]]; try done.
        + intros x Hx. apply elem_of_list_singleton in Hx. subst x.
          apply elem_of_list_lookup_2 in He. apply Hin in He as (g & Hgg & ->).
          apply elem_of_list_fmap. eauto.
        + intros _. eauto.
        + intros _ _ x Hx. apply elem_of_list_singleton in Hx. subst x.
          exists (map e_dname (si_envs si')).
          pose proof (elem_of_list_lookup_2 _ _ _ He) as He'. apply Hin in He' as (g & Hgg & ->).
          exists g. split; [done|]. split; [|split; [done|split; [done|]]].
          * change (e_dname <$> si_envs si' ≡ₚ g_dname <$> in_shard sh' H). rewrite Hp.
            change (e_dname <$> (env_of <$> in_shard sh' H) ≡ₚ g_dname <$> in_shard sh' H).
            by rewrite <- list_fmap_compose.
          * change (map e_dname (si_envs si')) with (e_dname <$> si_envs si').
            rewrite list_lookup_fmap.
            assert (length (in_shard sh' H) = length (si_envs si')) as ->.
            { rewrite Hp. by rewrite map_length. }
            rewrite He. done.
      - eexists. split; [reflexivity|]. split; [|split; [|split]]; try done.
        + intros x Hx. apply elem_of_list_singleton in Hx. subst x.
          apply elem_of_list_lookup_2 in He. apply Hin in He as (g & Hgg & ->).
          apply elem_of_list_fmap. eauto.
        + intros _. eauto.
        + intros _ Hex. exfalso. apply Hc. rewrite Hcnt. unfold count_named.
          apply Exists_exists in Hex as (g & Hgg & Hgn).
          assert (g ∈ filter (fun g => named g) (in_shard sh' H)) as Hgf
            by by apply elem_of_list_filter.
          destruct (filter (fun g => named g) (in_shard sh' H)); [by apply elem_of_nil in Hgf|].
          simpl. lia. }
    exists (c1 ++ c2). split; [done|]. split; [|split; [|split]].
    + intros x Hx. apply elem_of_app in Hx as [Hx|Hx].
      * apply J1 in Hx. apply elem_of_list_fmap in Hx as (g & -> & Hgg).
        apply elem_of_list_filter in Hgg as [Hgs' Hgg]. exists g. split; [done|]. split; [done|].
        rewrite fmap_cons. simpl. rewrite Hgs'. by left.
      * destruct (I1 _ Hx) as (g & Hg & Hgh & Hgs'). exists g. split; [done|]. split; [done|].
        rewrite fmap_cons. by right.
    + intros g Hg Hgs'. rewrite cmem_app, (I2 g) by done. rewrite fmap_cons. simpl.
      destruct (decide (sh = ""%string)) as [->|Hsne].
      * rewrite decide_False by done. rewrite decide_True by by left.
        specialize (J2 eq_refl).
        assert (cmem [g_handle g] c1 = 1%nat) as ->; [|done].
        unfold cmem. rewrite J2.
        assert (g ∈ in_shard "" H) as Hgi by by apply elem_of_list_filter.
        assert (NoDup (map g_handle (in_shard "" H))) as Hndi.
        { assert (sublist (g_handle <$> in_shard "" H) (g_handle <$> H)) as Hsub.
          { apply fmap_sublist. unfold in_shard. clear. induction H as [|x H IH]; [constructor|].
            rewrite filter_cons. destruct (decide _); by constructor. }
          apply sublist_submseteq, submseteq_Permutation in Hsub as [k Hk].
          change (NoDup (g_handle <$> H)) in Hnd. rewrite Hk in Hnd. apply NoDup_app in Hnd. tauto. }
        clear -Hgi Hndi. induction (in_shard "" H) as [|g' l IH]; [by apply elem_of_nil in Hgi|].
        simpl in Hndi. apply NoDup_cons in Hndi as [Hni Hndi].
        simpl. rewrite filter_cons. apply elem_of_cons in Hgi as [->|Hgi].
        -- rewrite decide_True by by left. simpl. f_equal.
           assert (filter (fun m => m ∈ [g_handle g']) (map g_handle l) = []) as ->; [|done].
           clear -Hni. induction (map g_handle l) as [|y ys IH]; [done|].
           rewrite filter_cons_False.
           ++ apply IH. intros Hin. apply Hni. by right.
           ++ rewrite elem_of_list_singleton. intros ->. apply Hni. by left.
        -- rewrite decide_False.
           ++ by apply IH.
           ++ rewrite elem_of_list_singleton. intros Heq. apply Hni. rewrite Heq.
              apply elem_of_list_fmap. eauto.
      * rewrite (cmem_none _ c1).
        -- destruct (decide (""%string ∈ l.*1)) as [Hi|Hi].
           ++ rewrite decide_True by by right. done.
           ++ rewrite decide_False; [done|]. intros Hin. apply elem_of_cons in Hin as [?|?]; congruence.
        -- intros x Hx. apply J1 in Hx. rewrite elem_of_list_singleton. intros ->.
           apply elem_of_list_fmap in Hx as (g' & Hh & Hg').
           apply elem_of_list_filter in Hg' as [Hs' Hg'].
           apply (Hinj g g') in Hh; [|done|done]. subst. congruence.
    + intros sh' Hsh'. rewrite cmem_app, (I3 sh') by done. rewrite fmap_cons. simpl.
      destruct (decide (sh = sh')) as [<-|Hsne].
      * rewrite decide_False by done. rewrite decide_True by by left.
        destruct (J3 Hsh') as [x ->]. rewrite cmem_all_singleton; [done|].
        apply J1. by left.
      * rewrite (cmem_none _ c1).
        -- destruct (decide (sh' ∈ l.*1)) as [Hi|Hi].
           ++ rewrite decide_True by by right. done.
           ++ rewrite decide_False; [done|]. intros Hin. apply elem_of_cons in Hin as [?|?]; congruence.
        -- intros x Hx Hx'. apply J1 in Hx.
           apply elem_of_list_fmap in Hx as (g & -> & Hg).
           apply elem_of_list_fmap in Hx' as (g' & Hh & Hg').
           apply elem_of_list_filter in Hg as [Hs Hg].
           apply elem_of_list_filter in Hg' as [Hs' Hg'].
           apply (Hinj g g') in Hh; [|done|done]. subst. congruence.
    + intros sh' x Hsh' Hex Hx Hm. apply elem_of_app in Hx as [Hx|Hx].
      * destruct (decide (sh = sh')) as [<-|Hsne]; [by apply J4|]. exfalso.
        apply J1 in Hx.
        apply elem_of_list_fmap in Hx as (g & -> & Hg).
        apply elem_of_list_fmap in Hm as (g' & Hh & Hg').
        apply elem_of_list_filter in Hg as [Hs Hg].
        apply elem_of_list_filter in Hg' as [Hs' Hg'].
        apply (Hinj g g') in Hh; [|done|done]. subst. congruence.
      * by apply I4.
Qed.

(** All groups of a node. *)
Lemma node_calls_ok h su shs H order r :
  LocalOK su shs H -> NoDup (map g_handle H) ->
  order ≡ₚ map_to_list su -> groups_calls h order r ->
  exists calls, r = Some calls /\
    (forall x, x ∈ calls -> x ∈ map g_handle H) /\
    (forall g, g ∈ H -> g_shard g = ""%string -> cmem [g_handle g] calls = 1%nat) /\
    (forall sh, sh <> ""%string ->
       cmem (map g_handle (in_shard sh H)) calls = if decide (in_shard sh H = []) then 0%nat else 1%nat) /\
    (forall sh x, sh <> ""%string -> Exists (fun g => named g) (in_shard sh H) -> x ∈ calls ->
       x ∈ map g_handle (in_shard sh H) -> names_rule h (in_shard sh H) x).
Proof.
  intros HL Hnd Hord Hg.
  destruct (groups_ok h su shs H HL Hnd order r Hg) as (calls & -> & I1 & I2 & I3 & I4).
  { rewrite Hord. apply NoDup_fst_map_to_list. }
  { intros sh si Hin. rewrite Hord in Hin. by apply elem_of_map_to_list in Hin. }
  assert (forall sh, sh ∈ order.*1 <-> in_shard sh H <> []) as Hdom.
  { intros sh. rewrite Hord. rewrite elem_of_list_fmap. split.
    - intros ([sh' si] & -> & Hin). apply elem_of_map_to_list in Hin. simpl.
      apply (lo_some _ _ _ HL) in Hin. tauto.
    - intros Hne. destruct (su !! sh) as [si|] eqn:Hsi.
      + exists (sh, si). split; [done|]. by apply elem_of_map_to_list.
      + by apply (lo_none _ _ _ HL) in Hsi. }
  exists calls. split; [done|]. split; [|split; [|split]].
  - intros x Hx. destruct (I1 x Hx) as (g & Hg' & <- & _). apply elem_of_list_fmap. eauto.
  - intros g Hg' Hs. rewrite I2 by done. rewrite decide_True; [done|].
    apply Hdom. intros Hn. assert (g ∈ in_shard "" H) as Hgi by by apply elem_of_list_filter.
    rewrite Hn in Hgi. by apply elem_of_nil in Hgi.
  - intros sh Hsh. rewrite I3 by done.
    destruct (decide (in_shard sh H = [])) as [Hn|Hn].
    + rewrite decide_False; [done|]. rewrite Hdom. tauto.
    + rewrite decide_True; [done|]. by apply Hdom.
  - done.
Qed.

(** * Traversal *)
Definition vis_entries (a : traverser) (k : Z) (q : list Z) :=
  fix go (es : list (Z * option traverser)) : nat :=
    match es with
    | [] => 0%nat
    | (k', next) :: es' =>
        ((if decide (k = k') then visits (default a next) q else 0%nat) + go es')%nat
    end.
Lemma visits_cons a k q : visits a (k :: q) = vis_entries a k q (entries a).
Proof. done. Qed.

Definition grp (q : list Z) (sh : string) (L : list gsub) : list gsub :=
  filter (fun g => g_path g = q /\ g_shard g = sh) L.

Lemma grp_nil sh L : grp [] sh L = in_shard sh (here L).
Proof.
  unfold grp, in_shard, here. rewrite list_filter_filter. apply list_filter_iff. intros g. tauto.
Qed.
Lemma grp_below k q sh L :
  map g_handle (grp q sh (below k L)) = map g_handle (grp (k :: q) sh L) /\
  map g_dname (grp q sh (below k L)) = map g_dname (grp (k :: q) sh L).
Proof.
  induction L as [|g L IH]; [done|]. destruct IH as [IH1 IH2].
  change (g :: L) with ([g] ++ L). rewrite below_app.
  unfold grp. rewrite !filter_app, !map_app. unfold grp in IH1, IH2. rewrite IH1, IH2.
  assert (map g_handle (filter (fun g => g_path g = q /\ g_shard g = sh) (below k [g])) =
          map g_handle (filter (fun g => g_path g = k :: q /\ g_shard g = sh) [g]) /\
          map g_dname (filter (fun g => g_path g = q /\ g_shard g = sh) (below k [g])) =
          map g_dname (filter (fun g => g_path g = k :: q /\ g_shard g = sh) [g])) as [-> ->]; [|done].
  unfold below. cbn. destruct (desc k g) as [g'|] eqn:Hd.
  - apply desc_some in Hd as (Hp & Hi & Hh & Hs & Hdn). cbn.
    destruct (decide (g_path g' = q /\ g_shard g' = sh)) as [[Ha Hb]|Hn].
    + rewrite decide_True by (split; congruence). simpl. by rewrite Hh, Hdn.
    + rewrite decide_False; [done|]. intros [Ha Hb]. apply Hn. split; congruence.
  - destruct (decide (g_path g = k :: q /\ g_shard g = sh)) as [[Ha Hb]|Hn]; [|done].
    exfalso. unfold desc in Hd. rewrite Ha in Hd. by rewrite decide_True in Hd.
Qed.

Record calls_ok (h : Z) (a : traverser) (L : list gsub) (calls : list nat) : Prop := {
  co_in : forall x, x ∈ calls -> x ∈ map g_handle L;
  co_all : forall g, g ∈ L -> g_shard g = ""%string ->
    cmem [g_handle g] calls = visits a (g_path g);
  co_grp : forall q sh, sh <> ""%string ->
    cmem (map g_handle (grp q sh L)) calls = if decide (grp q sh L = []) then 0%nat else visits a q;
  co_det : forall q sh x, sh <> ""%string ->
    Exists (fun nm => nm <> ""%string) (map g_dname (grp q sh L)) ->
    x ∈ calls -> x ∈ map g_handle (grp q sh L) ->
    exists ns g, Sorted name_le ns /\ ns ≡ₚ map g_dname (grp q sh L) /\
      g ∈ L /\ g_handle g = x /\
      ns !! Z.to_nat (h mod Z.of_nat (length ns)) = Some (g_dname g) }.

Lemma NoDup_map_sublist {A B} (f : A -> B) l' l : sublist l' l -> NoDup (map f l) -> NoDup (map f l').
Proof.
  intros Hs Hnd. apply (fmap_sublist f) in Hs.
  apply sublist_submseteq, submseteq_Permutation in Hs as [k Hk].
  rewrite Hk in Hnd. apply NoDup_app in Hnd. tauto.
Qed.
Lemma sublist_filter' {A} (P : A -> Prop) `{forall x, Decision (P x)} (l : list A) : sublist (filter P l) l.
Proof.
  induction l as [|x l IH]; [constructor|]. rewrite filter_cons. destruct (decide _); by constructor.
Qed.
Lemma NoDup_below k L : NoDup (map g_handle L) -> NoDup (map g_handle (below k L)).
Proof.
  intros Hnd.
  assert (map g_handle (below k L) =
          map g_handle (filter (fun g => is_Some (desc k g)) L)) as ->.
  { clear. induction L as [|g L IH]; [done|]. rewrite filter_cons.
    change (g :: L) with ([g] ++ L). rewrite below_app, map_app, IH. unfold below. cbn.
    destruct (desc k g) as [g'|] eqn:Hd.
    - apply desc_some in Hd as (_ & _ & Hh & _). rewrite decide_True by eauto. simpl. by rewrite Hh.
    - rewrite decide_False by (intros [? ?]; congruence). done. }
  eapply NoDup_map_sublist; [|exact Hnd]. apply sublist_filter'.
Qed.

Lemma handle_inj L g g' :
  NoDup (map g_handle L) -> g ∈ L -> g' ∈ L -> g_handle g = g_handle g' -> g = g'.
Proof.
  intros Hnd Ha Hb Hh.
  apply elem_of_list_lookup in Ha as [x Hx]. apply elem_of_list_lookup in Hb as [y Hy].
  assert (x = y) as ->; [|congruence].
  eapply (NoDup_lookup (map g_handle L) x y (g_handle g)); [done| |];
  change (map g_handle L) with (g_handle <$> L); rewrite list_lookup_fmap;
    [rewrite Hx|rewrite Hy]; simpl; congruence.
Qed.

(** The calls made below a node for a list of traverser entries. *)
Record below_ok (h : Z) (a : traverser) (es : list (Z * option traverser))
    (L : list gsub) (calls : list nat) : Prop := {
  bo_in : forall x, x ∈ calls -> exists g k p, g ∈ L /\ g_handle g = x /\ g_path g = k :: p;
  bo_all : forall g k p, g ∈ L -> g_shard g = ""%string -> g_path g = k :: p ->
    cmem [g_handle g] calls = vis_entries a k p es;
  bo_grp : forall k q sh, sh <> ""%string ->
    cmem (map g_handle (grp (k :: q) sh L)) calls =
      if decide (grp (k :: q) sh L = []) then 0%nat else vis_entries a k q es;
  bo_det : forall k q sh x, sh <> ""%string ->
    Exists (fun nm => nm <> ""%string) (map g_dname (grp (k :: q) sh L)) ->
    x ∈ calls -> x ∈ map g_handle (grp (k :: q) sh L) ->
    exists ns g, Sorted name_le ns /\ ns ≡ₚ map g_dname (grp (k :: q) sh L) /\
      g ∈ L /\ g_handle g = x /\
      ns !! Z.to_nat (h mod Z.of_nat (length ns)) = Some (g_dname g) }.

Lemma grp_handle_path L q sh x :
  x ∈ map g_handle (grp q sh L) <-> exists g, g ∈ L /\ g_handle g = x /\ g_path g = q /\ g_shard g = sh.
Proof.
  split.
  - intros Hx. apply elem_of_list_fmap in Hx as (g & -> & Hg).
    apply elem_of_list_filter in Hg as [[? ?] ?]. exists g. tauto.
  - intros (g & Hg & <- & Hp & Hs). apply elem_of_list_fmap. exists g. split; [done|].
    by apply elem_of_list_filter.
Qed.

Lemma traverse_ok h n L : Rep n L -> NoDup (map g_handle L) ->
  forall a r, traverse h a (Some n) r -> exists calls, r = Some calls /\ calls_ok h a L calls.
Proof.
  induction 1 as [n L HL Hc1 IH Hc2 Hc3]. intros Hnd a r Htr.
  inversion Htr as [|a' n' order r1 r2 Hord Hgs Hte]; subst; clear Htr.
  assert (NoDup (map g_handle (here L))) as Hndh.
  { eapply NoDup_map_sublist; [|exact Hnd]. apply sublist_filter'. }
  destruct (node_calls_ok _ _ _ _ _ _ HL Hndh Hord Hgs) as (c1 & -> & N1 & N2 & N3 & N4).
  (* the entries *)
  assert (exists c2, r2 = Some c2 /\ below_ok h a (entries a) L c2) as (c2 & -> & HB).
  { remember n as n0 eqn:Hn0 in Hte. revert Hn0.
    induction Hte as [a n0|a k next es n0 r1' r2' Htr Hte IHe]; intros ->.
    - exists []. split; [done|]. split.
      + intros x Hx. by apply elem_of_nil in Hx.
      + done.
      + intros. by destruct (decide _).
      + intros k q sh x _ _ Hx. by apply elem_of_nil in Hx.
    - destruct IHe as (c2 & -> & [B1 B2 B3 B4]); [done|].
      destruct (fetch_child n k) as [c|] eqn:Hf.
      + destruct (IH _ _ Hf (NoDup_below _ _ Hnd) _ _ Htr) as (c3 & -> & [K1 K2 K3 K4]).
        assert (forall x, x ∈ c3 -> exists g p, g ∈ L /\ g_handle g = x /\ g_path g = k :: p) as K1'.
        { intros x Hx. apply K1 in Hx. apply elem_of_list_fmap in Hx as (g & -> & Hg).
          apply in_below in Hg. eexists _, (g_path g). split; [exact Hg|done]. }
        exists (c3 ++ c2). split; [done|]. split.
        * intros x Hx. apply elem_of_app in Hx as [Hx|Hx]; [|by apply B1].
          destruct (K1' _ Hx) as (g & p & ?). eauto.
        * intros g k' p Hg Hs Hp. rewrite cmem_app, (B2 g k' p) by done. simpl. f_equal.
          destruct (decide (k' = k)) as [->|Hne].
          -- destruct g as [hh pp ss dd ii]; simpl in *. subst pp ss.
             apply (K2 (GSub hh p "" dd ii)); [|done]. by apply in_below.
          -- apply cmem_none. intros x Hx. rewrite elem_of_list_singleton. intros ->.
             destruct (K1' _ Hx) as (g' & p' & Hg' & Hh & Hp').
             apply (handle_inj L) in Hh; [|done|done|done]. subst g'. congruence.
        * intros k' q sh Hsh. rewrite cmem_app, (B3 k' q sh) by done. simpl.
          destruct (decide (k' = k)) as [->|Hne].
          -- destruct (grp_below k q sh L) as [Hgb _]. rewrite <- Hgb, K3 by done.
             destruct (decide (grp (k :: q) sh L = [])) as [He|He].
             ++ rewrite decide_True; [done|]. rewrite He in Hgb. by apply fmap_nil_inv in Hgb.
             ++ rewrite decide_False; [done|]. intros He'. apply He. rewrite He' in Hgb. symmetry in Hgb. by apply fmap_nil_inv in Hgb.
          -- rewrite (cmem_none _ c3).
             ++ by destruct (decide _).
             ++ intros x Hx Hx'. destruct (K1' _ Hx) as (g' & p' & Hg' & Hh & Hp').
                apply grp_handle_path in Hx' as (g'' & Hg'' & Hh'' & Hp'' & _).
                rewrite <- Hh'' in Hh. apply (handle_inj L) in Hh; [|done|done|done]. subst. congruence.
        * intros k' q sh x Hsh Hex Hx Hm. apply elem_of_app in Hx as [Hx|Hx]; [|by apply B4].
          destruct (decide (k' = k)) as [->|Hne].
          -- destruct (grp_below k q sh L) as [Hgb Hgd]. rewrite <- Hgb in Hm. rewrite <- Hgd in Hex |- *.
             destruct (K4 q sh x Hsh Hex Hx Hm) as (ns & g & Hso & Hpe & Hg & Hh & Hl).
             apply in_below in Hg. exists ns. eexists. split; [done|]. split; [done|].
             split; [exact Hg|]. done.
          -- exfalso. destruct (K1' _ Hx) as (g' & p' & Hg' & Hh & Hp').
             apply grp_handle_path in Hm as (g'' & Hg'' & Hh'' & Hp'' & _).
             rewrite <- Hh'' in Hh. apply (handle_inj L) in Hh; [|done|done|done]. subst. congruence.
      + inversion Htr; subst. exists c2. split; [done|].
        assert (below k L = []) as Hbn by by apply Hc3.
        assert (forall g p, g ∈ L -> g_path g <> k :: p) as Hno.
        { intros g p Hg Hp. destruct g as [hh pp ss dd ii]; simpl in *. subst pp.
          assert (GSub hh p ss dd ii ∈ below k L) as Hi by by apply in_below.
          rewrite Hbn in Hi. by apply elem_of_nil in Hi. }
        split; [done| | |done].
        * intros g k' p Hg Hs Hp. rewrite (B2 g k' p) by done. simpl.
          rewrite decide_False; [done|]. intros ->. by apply (Hno g p).
        * intros k' q sh Hsh. rewrite (B3 k' q sh) by done. simpl.
          destruct (decide (grp (k' :: q) sh L = [])) as [He|He]; [done|].
          rewrite decide_False; [done|]. intros ->. apply He.
          destruct (grp (k :: q) sh L) as [|g l] eqn:Hg; [done|].
          assert (g ∈ grp (k :: q) sh L) as Hgi by (rewrite Hg; by left).
          apply elem_of_list_filter in Hgi as [[Hp _] Hgi]. by apply Hno in Hp. }
  destruct HB as [B1 B2 B3 B4].
  exists (c1 ++ c2). split; [done|]. split.
  - intros x Hx. apply elem_of_app in Hx as [Hx|Hx].
    + apply N1 in Hx. apply elem_of_list_fmap in Hx as (g & -> & Hg).
      apply in_here in Hg as [Hg _]. apply elem_of_list_fmap. eauto.
    + destruct (B1 _ Hx) as (g & _ & _ & Hg & <- & _). apply elem_of_list_fmap. eauto.
  - intros g Hg Hs. rewrite cmem_app. destruct (g_path g) as [|k p] eqn:Hp.
    + rewrite N2; [|by apply in_here|done]. rewrite (cmem_none _ c2); [done|].
      intros x Hx. rewrite elem_of_list_singleton. intros ->.
      destruct (B1 _ Hx) as (g' & k' & p' & Hg' & Hh & Hp').
      apply (handle_inj L) in Hh; [|done|done|done]. subst g'. congruence.
    + rewrite visits_cons, (B2 g k p) by done. rewrite (cmem_none _ c1); [done|].
      intros x Hx. rewrite elem_of_list_singleton. intros ->.
      apply N1 in Hx. apply elem_of_list_fmap in Hx as (g' & Hh & Hg').
      apply in_here in Hg' as [Hg' Hp'].
      apply (handle_inj L) in Hh; [|done|done|done]. subst g'. congruence.
  - intros q sh Hsh. rewrite cmem_app. destruct q as [|k q].
    + rewrite grp_nil, N3 by done. rewrite (cmem_none _ c2).
      * destruct (decide _); done.
      * intros x Hx Hm. rewrite <- grp_nil in Hm.
        apply grp_handle_path in Hm as (g & Hg & Hh & Hp & _).
        destruct (B1 _ Hx) as (g' & k' & p' & Hg' & Hh' & Hp').
        rewrite <- Hh' in Hh. apply (handle_inj L) in Hh; [|done|done|done]. subst g'. congruence.
    + rewrite (B3 k q sh) by done. rewrite (cmem_none _ c1); [done|].
      intros x Hx Hm. apply grp_handle_path in Hm as (g & Hg & Hh & Hp & _).
      apply N1 in Hx. apply elem_of_list_fmap in Hx as (g' & Hh' & Hg').
      apply in_here in Hg' as [Hg' Hp']. rewrite Hh' in Hh.
      apply (handle_inj L) in Hh; [|done|done|done]. subst g'. congruence.
  - intros q sh x Hsh Hex Hx Hm. apply elem_of_app in Hx as [Hx|Hx]; destruct q as [|k q].
    + rewrite grp_nil in *.
      assert (Exists (fun g => named g) (in_shard sh (here L))) as Hex'.
      { apply Exists_exists in Hex as (nm & Hnm & Hne). apply elem_of_list_fmap in Hnm as (g & -> & Hg).
        apply Exists_exists. exists g. split; [done|]. unfold named. by rewrite bool_decide_false. }
      destruct (N4 sh x Hsh Hex' Hx Hm) as (ns & g & Hso & Hpe & Hg & Hh & Hl).
      exists ns, g. split; [done|]. split; [done|]. split.
      { apply elem_of_list_filter in Hg as [_ Hg]. by apply in_here in Hg as [? _]. }
      split; [done|]. rewrite Hpe at 1. by rewrite map_length.
    + exfalso. apply grp_handle_path in Hm as (g & Hg & Hh & Hp & _).
      apply N1 in Hx. apply elem_of_list_fmap in Hx as (g' & Hh' & Hg').
      apply in_here in Hg' as [Hg' Hp']. rewrite Hh' in Hh.
      apply (handle_inj L) in Hh; [|done|done|done]. subst g'. congruence.
    + exfalso. apply grp_handle_path in Hm as (g & Hg & Hh & Hp & _).
      destruct (B1 _ Hx) as (g' & k' & p' & Hg' & Hh' & Hp').
      rewrite <- Hh' in Hh. apply (handle_inj L) in Hh; [|done|done|done]. subst g'. congruence.
    + by apply B4.
Qed.

(** Publish always returns. *)
Lemma groups_exist h su shs H : LocalOK su shs H ->
  forall order, (forall sh si, (sh, si) ∈ order -> su !! sh = Some si) ->
  exists r, groups_calls h order r.
Proof.
  intros HL. induction order as [|[sh si] l IH]; intros Hsu.
  - eexists. constructor.
  - destruct IH as [r2 Hr2]; [intros sh' si' Hin; apply Hsu; by right|].
    assert (su !! sh = Some si) as Hsi by (apply Hsu; by left).
    destruct (lo_some _ _ _ HL _ _ Hsi) as (Hp & Hne & _).
    assert (si_envs si <> []) as Hnn.
    { intros Hn. rewrite Hn in Hp. apply Permutation_nil in Hp. by apply fmap_nil_inv in Hp. }
    assert (exists r1, group_calls h sh si r1) as [r1 Hr1].
    { destruct (decide (sh = ""%string)) as [->|Hsh]; [eexists; constructor|].
      destruct (decide (0 < si_cnt si)) as [Hc|Hc].
      - assert (length (si_envs si) <> 0)%nat as Hl by by destruct (si_envs si).
        destruct (lookup_lt_is_Some_2 (si_envs si)
          (Z.to_nat (h mod Z.of_nat (length (si_envs si))))) as [e He].
        { pose proof (Z.mod_pos_bound h (Z.of_nat (length (si_envs si)))). lia. }
        eexists. by eapply gc_det.
      - destruct (si_envs si) as [|e es] eqn:He; [done|].
        eexists. eapply (gc_rand _ _ _ 0%nat e); try done; by rewrite He. }
    eexists. by constructor.
Qed.
Lemma traverse_exists h n L : Rep n L -> forall a, exists r, traverse h a (Some n) r.
Proof.
  induction 1 as [n L HL Hc1 IH Hc2 Hc3]. intros a.
  destruct (groups_exist h _ _ _ HL (map_to_list (subscriptions n))) as [r1 Hr1].
  { intros sh si Hin. by apply elem_of_map_to_list in Hin. }
  assert (exists r2, traverse_entries h a (entries a) n r2) as [r2 Hr2].
  { induction (entries a) as [|[k next] es IHe]; [eexists; constructor|].
    destruct IHe as [r2 Hr2].
    assert (exists r, traverse h (default a next) (fetch_child n k) r) as [r Hr].
    { destruct (fetch_child n k) as [c|] eqn:Hf; [by eapply IH|]. eexists; constructor. }
    eexists. by econstructor. }
  eexists. by econstructor.
Qed.

(** Linear traversers visit exactly the prefixes. *)
Lemma visits_linear path q :
  visits (linear path) q = if decide (q `prefix_of` path) then 1%nat else 0%nat.
Proof.
  revert path. induction q as [|k q IH]; intros path.
  - destruct (decide _) as [|Hn]; [done|]. destruct Hn. apply prefix_nil.
  - rewrite visits_cons. destruct (decide (k :: q `prefix_of` path)) as [Hp|Hp].
    + destruct path as [|k' path]; [by apply prefix_nil_not in Hp|].
      pose proof (prefix_cons_inv_1 _ _ _ _ Hp) as <-. apply prefix_cons_inv_2 in Hp.
      cbn [linear entries vis_entries default]. rewrite decide_True by done.
      cbn. rewrite IH. by rewrite decide_True.
    + destruct path as [|k' path]; [done|].
      cbn [linear entries vis_entries default].
      destruct (decide (k = k')) as [->|Hne]; [|done].
      cbn. rewrite IH. rewrite decide_False; [done|]. intros Hpre. apply Hp. by apply prefix_cons.
Qed.

(** * CombinePaths *)
Lemma combine_loop_skip ls idx :
  forall start, 0 <= start <= idx ->
  combine_loop (map paths_of ls) (Combine start (map paths_of ls)) idx =
  match ls with
  | [] => (None, Combine start [])
  | l :: ls' =>
      match paths_of l (idx - start) with
      | Some r => (Some r, Combine start (map paths_of ls))
      | None => combine_loop (map paths_of ls') (Combine idx (map paths_of ls')) idx
      end
  end.
Proof. intros start Hs. destruct ls; done. Qed.

(** From index [idx], with current list [l] whose entries from [idx-start] remain. *)
Lemma drive_ok ls : forall l start idx,
  0 <= start <= idx ->
  exists fuel st, drive fuel (Combine start (map paths_of (l :: ls))) idx =
    Some (drop (Z.to_nat (idx - start)) l ++ concat ls, st) /\ c_rest st = [].
Proof.
  induction ls as [|l' ls IH]; intros l start idx Hs.
  - remember (length l - Z.to_nat (idx - start))%nat as m eqn:Hm. revert idx Hs Hm.
    induction m as [|m IHm]; intros idx Hs Hm.
    + exists 1%nat. simpl. unfold combine_call. simpl. unfold paths_of at 1.
      rewrite decide_False by lia. rewrite (lookup_ge_None_2 l) by lia. simpl.
      exists (Combine idx []). rewrite drop_ge by lia. done.
    + assert (Z.to_nat (idx - start) < length l)%nat as Hlt by lia.
      destruct (lookup_lt_is_Some_2 l _ Hlt) as [e He].
      destruct (IHm (idx + 1)) as (fuel & st & Hd & Hst); [lia|lia|].
      exists (S fuel), st. cbn [drive]. unfold combine_call. cbn [c_rest map combine_loop c_start].
      unfold paths_of at 1. rewrite decide_False by lia. rewrite He.
      cbn [map] in Hd. rewrite Hd. split; [|done]. f_equal. f_equal.
      rewrite (drop_S _ _ _ He). simpl. f_equal. f_equal. f_equal. lia.
  - remember (length l - Z.to_nat (idx - start))%nat as m eqn:Hm. revert idx Hs Hm.
    induction m as [|m IHm]; intros idx Hs Hm.
    + destruct (IH l' idx idx) as (fuel & st & Hd & Hst); [lia|].
      exists fuel, st. split; [|done].
      rewrite Z.sub_diag in Hd. simpl in Hd.
      rewrite drop_ge by lia. simpl.
      destruct fuel as [|fuel]; [done|]. cbn [drive] in *.
      unfold combine_call in *. cbn [c_rest map] in *.
      change (combine_loop (paths_of l :: paths_of l' :: map paths_of ls)
               (Combine start (paths_of l :: paths_of l' :: map paths_of ls)) idx) with
        (match paths_of l (idx - start) with
         | Some r => (Some r, Combine start (paths_of l :: paths_of l' :: map paths_of ls))
         | None => combine_loop (paths_of l' :: map paths_of ls)
                     (Combine idx (paths_of l' :: map paths_of ls)) idx end).
      assert (paths_of l (idx - start) = None) as ->.
      { unfold paths_of. rewrite decide_False by lia. apply lookup_ge_None_2. lia. }
      done.
    + assert (Z.to_nat (idx - start) < length l)%nat as Hlt by lia.
      destruct (lookup_lt_is_Some_2 l _ Hlt) as [e He].
      destruct (IHm (idx + 1)) as (fuel & st & Hd & Hst); [lia|lia|].
      exists (S fuel), st. cbn [drive]. unfold combine_call. cbn [c_rest map combine_loop c_start].
      unfold paths_of at 1. rewrite decide_False by lia. rewrite He.
      cbn [map] in Hd. rewrite Hd. split; [|done]. f_equal. f_equal.
      rewrite (drop_S _ _ _ He). simpl. f_equal. f_equal. f_equal. lia.
Qed.
Lemma combine_ok ls :
  exists fuel st, drive fuel (combine_paths (map paths_of ls)) 0 = Some (concat ls, st) /\
    forall idx, combine_call st idx = (None, st).
Proof.
  destruct ls as [|l ls].
  - exists 1%nat. eexists. split; [reflexivity|]. done.
  - destruct (drive_ok ls l 0 0) as (fuel & st & Hd & Hst); [lia|].
    exists fuel, st. split; [exact Hd|]. intros idx. unfold combine_call. by rewrite Hst.
Qed.
