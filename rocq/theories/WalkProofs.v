(** Proofs about the walks. *)
From stdpp Require Import gmap strings list.
From Coq Require Import ZArith Lia.
From Verif Require Import SyscallModel FilterModel FilterSpec FilterProofs KernelModel KernelSpec WalkModel.
Open Scope Z_scope.

Section walk.
Context {K V : Type} `{EqDecision K}.
Implicit Types m : hmap K V.

Lemma after_None (k : K) m : k ∉ map fst m -> after k m = None.
Proof.
  induction m as [|[k' v] m IH]; [done|]. cbn. rewrite not_elem_of_cons. intros [H1 H2]. rewrite decide_False by done. by apply IH.
Qed.
Lemma after_split (k : K) v m1 m2 : k ∉ map fst m1 -> after k (m1 ++ (k, v) :: m2) = Some m2.
Proof.
  induction m1 as [|[k' v'] m1 IH]; cbn; [by rewrite decide_True|]. rewrite not_elem_of_cons. intros [H1 H2]. rewrite decide_False by done. by apply IH.
Qed.
Lemma walk_rest m : NoDup (map fst m) -> forall m2 m1 k v fuel i, m = (m1 ++ (k, v) :: m2)%list -> (length m2 < fuel)%nat ->
  walk (fun _ => m) fuel i k = Some m2.
Proof.
  intros Hnd. induction m2 as [|[k2 v2] m2 IH]; intros m1 k v fuel i E Hf; (destruct fuel as [|fuel]; [cbn in Hf; lia|]); cbn [walk].
  - unfold lookup_next. rewrite E, after_split; [done|]. rewrite E, map_app in Hnd. apply NoDup_app in Hnd as (_ & H & _).
    intros Hin. apply (H k Hin). cbn. left.
  - unfold lookup_next. rewrite E at 1. rewrite after_split.
    + cbn [head fst]. rewrite (IH (m1 ++ [(k, v)])%list k2 v2 fuel (S i)); [done| |cbn in Hf; lia]. rewrite <- app_assoc. exact E.
    + rewrite E, map_app in Hnd. apply NoDup_app in Hnd as (_ & H & _). intros Hin. apply (H k Hin). cbn. left.
Qed.
Lemma walk_all m k fuel i : NoDup (map fst m) -> k ∉ map fst m -> (length m < fuel)%nat -> walk (fun _ => m) fuel i k = Some m.
Proof.
  intros Hnd Hk Hf. destruct fuel as [|fuel]; [lia|]. cbn [walk]. unfold lookup_next. rewrite after_None by done.
  destruct m as [|[k2 v2] m]; [done|]. cbn [head fst]. by rewrite (walk_rest _ Hnd m [] k2 v2 fuel (S i)) by (cbn in *; first [done|lia]).
Qed.
(** Whatever happens to the map meanwhile, what is reported was in it. *)
Lemma walk_present (snap : nat -> hmap K V) : forall fuel i k r, walk snap fuel i k = Some r -> forall j e, r !! j = Some e -> e ∈ snap (i + j)%nat.
Proof.
  assert (forall m k e, lookup_next m k = Some e -> e ∈ m) as Hn.
  { intros m k e. unfold lookup_next. destruct (after k m) as [m'|] eqn:Ea; [|destruct m; [done|intros [= ->]; left]].
    revert m' Ea. induction m as [|[k' v'] m IH]; [done|]. intros m'. cbn. destruct (decide (k' = k)).
    - intros [= <-] H. right. destruct m; [done|]. injection H as ->. left.
    - intros Ea H. right. by eapply IH. }
  induction fuel as [|fuel IH]; intros i k r; cbn [walk]; [done|]. destruct (lookup_next (snap i) k) as [e|] eqn:El; [|by intros [= <-]].
  destruct (walk snap fuel (S i) e.1) as [r'|] eqn:Ew; [|done]. intros [= <-] [|j] e'; cbn.
  - intros [= <-]. rewrite Nat.add_0_r. by eapply Hn.
  - intros Hj. replace (i + S j)%nat with (S i + j)%nat by lia. by eapply IH.
Qed.
Lemma delete_keys_lookup m ks e : e ∈ fold_left (fun m k => delete_key k m) ks m <-> e ∈ m /\ e.1 ∉ ks.
Proof.
  revert m. induction ks as [|k ks IH]; intros m; cbn [fold_left]; [split; [split; [done|apply not_elem_of_nil]|tauto]|].
  rewrite IH. unfold delete_key. rewrite !elem_of_list_In, filter_In, bool_decide_eq_true, <- !elem_of_list_In, not_elem_of_cons. tauto.
Qed.
Lemma delete_keys_filter m ks : fold_left (fun m k => delete_key k m) ks m = List.filter (fun e => bool_decide (e.1 ∉ ks)) m.
Proof.
  revert m. induction ks as [|k ks IH]; intros m; cbn [fold_left].
  - induction m as [|e m IHm]; [done|]. cbn [List.filter]. rewrite bool_decide_true by apply not_elem_of_nil. by rewrite <- IHm.
  - rewrite IH. unfold delete_key. induction m as [|e m IHm]; [done|]. cbn [List.filter].
    destruct (bool_decide (e.1 <> k)) eqn:E1; [apply bool_decide_eq_true in E1|apply bool_decide_eq_false in E1]; cbn [List.filter].
    + rewrite IHm. rewrite (bool_decide_ext (e.1 ∉ k :: ks) (e.1 ∉ ks)); [done|]. rewrite not_elem_of_cons. tauto.
    + rewrite IHm. rewrite (bool_decide_false (e.1 ∉ k :: ks)); [done|]. rewrite not_elem_of_cons. tauto.
Qed.
End walk.

Lemma query_all_exact m fuel : NoDup (map fst m) -> zero_mkey ∉ map fst m -> (length m < fuel)%nat -> query_all (fun _ => m) fuel = Some m.
Proof. intros. by apply walk_all. Qed.
Lemma query_all_zero m1 v m2 fuel : NoDup (map fst (m1 ++ (zero_mkey, v) :: m2)) -> (length m2 < fuel)%nat ->
  query_all (fun _ => m1 ++ (zero_mkey, v) :: m2)%list fuel = Some m2.
Proof. intros Hnd Hf. by apply (walk_rest (m1 ++ (zero_mkey, v) :: m2)%list Hnd m2 m1 zero_mkey v). Qed.
Lemma filter_keys_filter ns (r m : hmap mkey mval) : NoDup (map fst m) -> (forall e, e ∈ r -> e ∈ m) -> (forall e, e ∈ m -> mk_ns e.1 = ns -> e ∈ r) ->
  List.filter (fun e => bool_decide (e.1 ∉ map fst (List.filter (fun e => mk_ns e.1 =? ns) r))) m = List.filter (fun e => negb (mk_ns e.1 =? ns)) m.
Proof.
  intros Hnd H1 H2. apply filter_ext_in. intros e Hin. apply elem_of_list_In in Hin. destruct (Z.eqb_spec (mk_ns e.1) ns) as [E|E]; cbn [negb].
  - apply bool_decide_eq_false_2. intros H. apply H. apply elem_of_list_In, in_map_iff. exists e. split; [done|]. apply filter_In. split; [|by apply Z.eqb_eq].
    apply elem_of_list_In. by apply H2.
  - apply bool_decide_eq_true_2. intros H. apply elem_of_list_In, in_map_iff in H as (e' & Ee & H). apply filter_In in H as [_ H]. apply Z.eqb_eq in H. congruence.
Qed.
Lemma prune_exact m fuel ns : NoDup (map fst m) -> zero_mkey ∉ map fst m -> (length m < fuel)%nat ->
  prune_namespace m fuel ns = Some (List.filter (fun e => negb (mk_ns e.1 =? u32 ns)) m, Z.of_nat (length (List.filter (fun e => mk_ns e.1 =? u32 ns) m))).
Proof.
  intros Hnd Hz Hf. unfold prune_namespace, to_delete. rewrite walk_all by done. rewrite delete_keys_filter, filter_keys_filter by done. by rewrite map_length.
Qed.
Lemma prune_zero m1 v m2 fuel ns : NoDup (map fst (m1 ++ (zero_mkey, v) :: m2)) -> (length m2 < fuel)%nat ->
  prune_namespace (m1 ++ (zero_mkey, v) :: m2) fuel ns =
  Some ((m1 ++ (zero_mkey, v) :: List.filter (fun e => negb (mk_ns e.1 =? u32 ns)) m2)%list, Z.of_nat (length (List.filter (fun e => mk_ns e.1 =? u32 ns) m2))).
Proof.
  intros Hnd Hf. unfold prune_namespace, to_delete. rewrite (walk_rest _ Hnd m2 m1 zero_mkey v) by done. rewrite map_length, delete_keys_filter. do 2 f_equal.
  rewrite List.filter_app. cbn [List.filter].
  assert (NoDup (map fst (m1 ++ (zero_mkey, v) :: m2))) as Hnd2 by done. rewrite map_app in Hnd. apply NoDup_app in Hnd as (Hn1 & Hd & Hn2).
  cbn [map] in Hn2. apply NoDup_cons in Hn2 as [Hz Hn2].
  set (ks := map fst (List.filter (fun e => mk_ns e.1 =? u32 ns) m2)).
  assert (forall k, k ∈ ks -> k ∈ map fst m2) as Hks.
  { intros k Hk. apply elem_of_list_In, in_map_iff in Hk as (e & <- & Hk). apply filter_In in Hk as [Hk _]. apply elem_of_list_In, in_map_iff. by exists e. }
  assert (List.filter (fun e => bool_decide (e.1 ∉ ks)) m1 = m1) as E1.
  { assert (forall e, e ∈ m1 -> bool_decide (e.1 ∉ ks) = true) as H.
    { intros e He. apply bool_decide_eq_true_2. intros Hk. apply (Hd e.1).
      - apply elem_of_list_In, in_map_iff. exists e. split; [done|]. by apply elem_of_list_In.
      - cbn. right. by apply Hks. }
    clear -H. induction m1 as [|e m1 IH]; [done|]. cbn [List.filter]. rewrite H by left. f_equal. apply IH. intros e' He'. apply H. by right. }
  assert (bool_decide ((zero_mkey, v).1 ∉ ks) = true) as -> by (apply bool_decide_eq_true_2; intros Hk; by apply Hz, Hks).
  assert (List.filter (fun e => bool_decide (e.1 ∉ ks)) m2 = List.filter (fun e => negb (mk_ns e.1 =? u32 ns)) m2) as E2 by (unfold ks; by apply filter_keys_filter).
  etrans; [apply f_equal2; [exact E1|apply f_equal; exact E2]|done].
Qed.
(** The same as a change of the finite map of KernelModel.v. *)
Lemma prune_walk_refines m fuel ns m' n : NoDup (map fst m) -> zero_mkey ∉ map fst m -> (length m < fuel)%nat ->
  prune_namespace m fuel ns = Some (m', n) -> (list_to_map m' : gmap mkey mval) = prune ns (list_to_map m).
Proof.
  intros Hnd Hz Hf E. rewrite prune_exact in E by done. injection E as <- _. clear Hz Hf.
  induction m as [|[k v] m IH]; cbn [List.filter list_to_map foldr]; [unfold prune; by rewrite map_filter_empty|].
  cbn [map fst] in Hnd. apply NoDup_cons in Hnd as [Hk Hnd]. unfold prune in *. cbn [fst snd uncurry].
  change (foldr (fun p => <[p.1:=p.2]>) ∅ m) with (list_to_map m : gmap mkey mval).
  destruct (Z.eqb_spec (mk_ns k) (u32 ns)) as [Ens|Ens]; cbn [negb].
  - rewrite IH by done. rewrite map_filter_insert_False by (cbn; tauto). rewrite delete_notin; [done|]. by apply not_elem_of_list_to_map_1.
  - cbn [list_to_map foldr uncurry fst snd]. change (foldr (fun p => <[p.1:=p.2]>) ∅ (List.filter (fun e => negb (mk_ns e.1 =? u32 ns)) m)) with (list_to_map (List.filter (fun e => negb (mk_ns e.1 =? u32 ns)) m) : gmap mkey mval).
    rewrite IH by done. by rewrite map_filter_insert_True.
Qed.
Lemma deletes_only_its_own snap fuel ns ks k : to_delete snap fuel ns = Some ks -> k ∈ ks -> mk_ns k = u32 ns.
Proof.
  unfold to_delete. destruct (walk _ _ _ _) as [r|]; [|done]. intros [= <-] Hk. apply elem_of_list_In, in_map_iff in Hk as (e & <- & Hk).
  apply filter_In in Hk as [_ Hk]. by apply Z.eqb_eq.
Qed.

(** GetRunning: no rule this package can install has the zero key. *)
Lemma new_rule_flags tbl os r : new_rule tbl os = Some r -> SetModeSyscall ∈ os \/ SetModeMetrics ∈ os -> k_flags (r_key r) <> 0.
Proof.
  unfold new_rule. intros E Hm.
  assert (forall os r0 r, apply_opts tbl os r0 = Some r -> k_flags (r_key r0) <> 0 \/ SetModeSyscall ∈ os \/ SetModeMetrics ∈ os -> k_flags (r_key r) <> 0) as H.
  { clear. induction os as [|o os IH]; intros r0 r; cbn [apply_opts].
    - intros [= <-] [H|[H|H]]; [done|by apply elem_of_nil in H..].
    - destruct (apply_opt tbl o r0) as [r1|] eqn:E1; [|done]. intros E H. apply (IH r1 r E).
      assert (forall a b, a <> 0 -> Z.lor a b <> 0) as Hlor by (intros a b Ha Hab; apply Z.lor_eq_0_iff in Hab as [? _]; done).
      rewrite !elem_of_cons in H. destruct o; cbn [apply_opt] in E1.
      + destruct (lookup_sc tbl sc); [|discriminate E1]. injection E1 as <-. destruct H as [H|[[[=]|H]|[[=]|H]]]; [left|by right; left|by right; right]. by apply Hlor.
      + injection E1 as <-. destruct H as [H|[[[=]|H]|[[=]|H]]]; [by left|by right; left|by right; right].
      + destruct (ns =? -1); injection E1 as <-; (destruct H as [H|[[[=]|H]|[[=]|H]]]; [left|by right; left|by right; right]); [done|by apply Hlor].
      + injection E1 as <-. destruct H as [H|[[[=]|H]|[[=]|H]]]; [left|by right; left|by right; right]. by apply Hlor.
      + injection E1 as <-. destruct H as [H|[[[=]|H]|[[=]|H]]]; [by left|by right; left|by right; right].
      + injection E1 as <-. destruct H as [H|[[[=]|H]|[[=]|H]]]; [by left|by right; left|by right; right].
      + injection E1 as <-. left. cbn. intros Hab. apply Z.lor_eq_0_iff in Hab as [_ Hab]. discriminate Hab.
      + injection E1 as <-. left. cbn. intros Hab. apply Z.lor_eq_0_iff in Hab as [_ Hab]. discriminate Hab. }
  eapply H; [exact E|]. by right.
Qed.
Lemma add_rule_nozero r m : k_flags (r_key r) <> 0 -> nfilter m !! zero_fkey = None -> nfilter (add_rule r m).1 !! zero_fkey = None.
Proof.
  intros Hf Hz. unfold add_rule. destruct (map_update config_max _ _ _); [|done].
  destruct (map_update nfilter_max _ _ _) as [f|] eqn:E; [|done]. cbn. rewrite (map_update_some _ _ _ _ _ E). rewrite lookup_insert_ne; [done|].
  unfold add_key, zero_fkey. destruct (_ && _); [intros [= H _ _]; done|]. destruct (r_key r). cbn in Hf. congruence.
Qed.
Lemma fstep_nozero tbl o m : nfilter m !! zero_fkey = None -> nfilter (fstep tbl o m) !! zero_fkey = None.
Proof.
  intros Hz. assert (forall os, SetModeSyscall ∈ os \/ SetModeMetrics ∈ os -> nfilter (with_rule tbl os add_rule m).1 !! zero_fkey = None) as Hadd.
  { intros os Hos. unfold with_rule. destruct (new_rule tbl os) as [r|] eqn:E; [|done]. apply add_rule_nozero; [|done]. by eapply new_rule_flags. }
  assert (forall os, nfilter (with_rule tbl os del_rule m).1 !! zero_fkey = None) as Hdel.
  { intros os. unfold with_rule. destruct (new_rule tbl os) as [r|]; [|done]. unfold del_rule. cbn. apply lookup_delete_None. by right. }
  destruct o; cbn [fstep].
  - apply Hadd. left. left.
  - apply Hadd. left. left.
  - apply Hdel.
  - apply Hadd. right. left.
  - apply Hdel.
  - unfold enable. by destruct (map_update _ _ _ _).
  - destruct (run_nfilter_frame mode t m) as [_ H]. destruct (H zero_fkey) as [E|(v & Hv & _)]; [by rewrite E|congruence].
Qed.
Lemma fsteps_nozero tbl os m : nfilter m !! zero_fkey = None -> nfilter (fsteps tbl os m) !! zero_fkey = None.
Proof. unfold fsteps. revert m. induction os as [|o os IH]; intros m Hz; cbn [fold_left]; [done|]. by apply IH, fstep_nozero. Qed.
Lemma get_running_exact tbl os m fuel : NoDup (map fst m) -> (list_to_map m : gmap fkey fval) = nfilter (fsteps tbl os (KMaps ∅ ∅)) ->
  (length m < fuel)%nat -> get_running (fun _ => m) fuel = Some m.
Proof.
  intros Hnd E Hf. apply walk_all; [done| |done]. apply (not_elem_of_list_to_map_2 (M := gmap fkey)). rewrite E. apply fsteps_nozero. done.
Qed.
