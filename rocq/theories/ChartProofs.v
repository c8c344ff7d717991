(** Proofs about the charts and the scrape. *)
From Coq Require Import ZArith String Ascii Bool Lia.
From stdpp Require Import base list numbers strings pretty gmap.
From Verif Require Import SyscallModel SyscallSpec SyscallProofs CodecTables CodecModel CodecSpec CodecProofs CodecNames KernelModel ChartModel ChartSpec.

Local Open Scope string_scope.
Local Open Scope Z_scope.

(** * Rounding *)

Section rounding.
Context (p : Z) (Hp : 1 <= p).

Lemma rnd_shape n : 2 ^ p <= n -> exists e q r, 1 <= e /\ n = q * 2 ^ e + r /\ 0 <= r < 2 ^ e /\ 2 ^ (p - 1) <= q < 2 ^ p
  /\ rnd p n = (if (2 * r <? 2 ^ e) || ((2 * r =? 2 ^ e) && Z.even q) then q * 2 ^ e else (q + 1) * 2 ^ e).
Proof.
  intros Hn. assert (0 < 2 ^ p) by (apply Z.pow_pos_nonneg; lia).
  assert (Hl : p <= Z.log2 n) by (apply Z.log2_le_pow2; lia).
  set (e := Z.log2 n - (p - 1)). exists e, (n / 2 ^ e), (n mod 2 ^ e).
  assert (Hu : 0 < 2 ^ e) by (apply Z.pow_pos_nonneg; lia).
  pose proof (Z.div_mod n (2 ^ e) ltac:(lia)). pose proof (Z.mod_pos_bound n (2 ^ e) Hu).
  destruct (Z.log2_spec n ltac:(lia)) as [Hlo Hhi].
  split; [lia|]. split; [lia|]. split; [lia|]. split.
  - split.
    + apply Z.div_le_lower_bound; [lia|]. rewrite <- Z.pow_add_r by lia. replace (e + (p - 1)) with (Z.log2 n) by lia. exact Hlo.
    + apply Z.div_lt_upper_bound; [lia|]. rewrite <- Z.pow_add_r by lia. replace (e + p) with (Z.succ (Z.log2 n)) by lia. exact Hhi.
  - unfold rnd. destruct (n <? 2 ^ p) eqn:E; [apply Z.ltb_lt in E; lia|]. reflexivity.
Qed.

Lemma rnd_small n : n < 2 ^ p -> rnd p n = n.
Proof. intros H. unfold rnd. apply Z.ltb_lt in H. rewrite H. reflexivity. Qed.

Lemma rnd_nonneg n : 0 <= n -> 0 <= rnd p n.
Proof.
  intros Hn. destruct (Z.lt_ge_cases n (2 ^ p)) as [H|H]; [rewrite rnd_small; lia|].
  destruct (rnd_shape n H) as (e & q & r & He & E & Hr & Hq & ->).
  assert (0 < 2 ^ e) by (apply Z.pow_pos_nonneg; lia). assert (0 < 2 ^ (p - 1)) by (apply Z.pow_pos_nonneg; lia).
  destruct (_ || _); apply Z.mul_nonneg_nonneg; lia.
Qed.

Lemma rnd_representable n : 0 <= n -> representable p (rnd p n).
Proof.
  intros Hn. destruct (Z.lt_ge_cases n (2 ^ p)) as [H|H].
  { rewrite rnd_small by lia. exists n, 0. rewrite Z.pow_0_r. lia. }
  destruct (rnd_shape n H) as (e & q & r & He & E & Hr & Hq & ->).
  assert (0 < 2 ^ (p - 1)) by (apply Z.pow_pos_nonneg; lia).
  destruct (_ || _); [exists q, e; lia|].
  destruct (Z.eq_dec (q + 1) (2 ^ p)) as [Ed|Ed].
  - exists 1, (p + e). rewrite Ed, Z.pow_add_r by lia. assert (2 ^ 1 <= 2 ^ p) by (apply Z.pow_le_mono_r; lia). lia.
  - exists (q + 1), e. lia.
Qed.

Lemma rnd_nearest n v : 0 <= n -> representable p v -> Z.abs (rnd p n - n) <= Z.abs (v - n).
Proof.
  intros Hn (m & e' & Hm & He' & ->). destruct (Z.lt_ge_cases n (2 ^ p)) as [H|H]; [rewrite rnd_small by lia; lia|].
  destruct (rnd_shape n H) as (e & q & r & He & E & Hr & Hq & ->).
  assert (Hu : 0 < 2 ^ e) by (apply Z.pow_pos_nonneg; lia).
  assert (Hv : m * 2 ^ e' <= q * 2 ^ e \/ (q + 1) * 2 ^ e <= m * 2 ^ e').
  { destruct (Z.le_gt_cases e e') as [L|L].
    - replace e' with (e + (e' - e)) by lia. rewrite Z.pow_add_r by lia.
      set (k := m * 2 ^ (e' - e)). replace (m * (2 ^ e * 2 ^ (e' - e))) with (k * 2 ^ e) by (unfold k; lia).
      destruct (Z.le_gt_cases k q); [left|right]; apply Z.mul_le_mono_nonneg_r; lia.
    - left. transitivity (2 ^ p * 2 ^ (e - 1)).
      + apply Z.mul_le_mono_nonneg; try lia. apply Z.pow_le_mono_r; lia.
      + rewrite <- Z.pow_add_r by lia. replace (p + (e - 1)) with ((p - 1) + e) by lia. rewrite Z.pow_add_r by lia.
        apply Z.mul_le_mono_nonneg_r; lia. }
  destruct (_ || _) eqn:B.
  - assert (2 * r <= 2 ^ e).
    { apply orb_true_iff in B as [B|B]; [apply Z.ltb_lt in B; lia|]. apply andb_true_iff in B as [B _]. apply Z.eqb_eq in B. lia. }
    destruct Hv; lia.
  - assert (2 ^ e <= 2 * r) by (apply orb_false_iff in B as [B _]; apply Z.ltb_ge in B; lia).
    destruct Hv; lia.
Qed.

Lemma rnd_exact n : 0 <= n -> representable p n -> rnd p n = n.
Proof. intros Hn Hr. pose proof (rnd_nearest n n Hn Hr). lia. Qed.

Lemma rnd_upto n : 0 <= n <= 2 ^ p -> rnd p n = n.
Proof.
  intros H. destruct (Z.eq_dec n (2 ^ p)) as [->|]; [|apply rnd_small; lia].
  apply rnd_exact; [lia|]. exists 1, p. assert (2 ^ 1 <= 2 ^ p) by (apply Z.pow_le_mono_r; lia). lia.
Qed.

Lemma rnd_relative n : 0 <= n -> 2 ^ p * Z.abs (rnd p n - n) <= n.
Proof.
  intros Hn. destruct (Z.lt_ge_cases n (2 ^ p)) as [H|H]; [rewrite rnd_small by lia; rewrite Z.sub_diag; lia|].
  destruct (rnd_shape n H) as (e & q & r & He & E & Hr & Hq & R).
  assert (Hu : 0 < 2 ^ e) by (apply Z.pow_pos_nonneg; lia).
  assert (Hd : 2 * Z.abs (rnd p n - n) <= 2 ^ e).
  { rewrite R. destruct (_ || _) eqn:B.
    - assert (2 * r <= 2 ^ e); [|lia].
      apply orb_true_iff in B as [B|B]; [apply Z.ltb_lt in B; lia|]. apply andb_true_iff in B as [B _]. apply Z.eqb_eq in B. lia.
    - assert (2 ^ e <= 2 * r) by (apply orb_false_iff in B as [B _]; apply Z.ltb_ge in B; lia). lia. }
  replace (2 ^ p) with (2 ^ (p - 1) * 2) by (rewrite Z.mul_comm, <- Z.pow_succ_r by lia; f_equal; lia).
  assert (2 ^ (p - 1) * 2 ^ e <= q * 2 ^ e) by (apply Z.mul_le_mono_nonneg_r; lia).
  assert (2 ^ (p - 1) * (2 * Z.abs (rnd p n - n)) <= 2 ^ (p - 1) * 2 ^ e).
  { apply Z.mul_le_mono_nonneg_l; [apply Z.pow_nonneg; lia|exact Hd]. }
  lia.
Qed.
End rounding.

(** * Orders *)

Lemma split_no_comma s : has_comma s = false -> split_comma s = [s].
Proof.
  induction s as [|c s IH]; cbn [has_comma split_comma]; [reflexivity|]. intros H. apply orb_false_iff in H as [H1 H2].
  rewrite H1, (IH H2). reflexivity.
Qed.
Lemma split_app t s : has_comma t = false -> split_comma (t +:+ "," +:+ s) = t :: split_comma s.
Proof.
  induction t as [|c t IH]; cbn [has_comma]; intros H.
  - reflexivity.
  - apply orb_false_iff in H as [H1 H2].
    change ((String c t +:+ "," +:+ s)) with (String c (t +:+ "," +:+ s)). cbn [split_comma]. rewrite H1, (IH H2). reflexivity.
Qed.
Lemma split_join ts : ts <> [] -> Forall (fun t => has_comma t = false) ts -> split_comma (join ts) = ts.
Proof.
  induction ts as [|t ts IH]; [easy|]. intros _ H. apply Forall_cons in H as [H1 H2].
  destruct ts as [|t' ts]; [exact (split_no_comma t H1)|].
  change (join (t :: t' :: ts)) with (t +:+ "," +:+ join (t' :: ts)). rewrite split_app by exact H1. f_equal. apply IH; [easy|exact H2].
Qed.

Lemma order_token_means t k : order_token t = Some k <-> means t k.
Proof.
  split.
  - unfold order_token, existsb. intros H.
    repeat match type of H with context [String.eqb t ?x] => destruct (String.eqb_spec t x) as [->|_]; [cbn in H; injection H as <-; cbn; tauto|] end.
    cbn in H. discriminate.
  - destruct k; cbn [means]; intros H; repeat destruct H as [H|H]; subst; reflexivity.
Qed.

Lemma parse_order_spec ts ks : ts <> [] -> Forall (fun t => has_comma t = false) ts -> Forall2 means ts ks -> parse_order (join ts) = ks.
Proof.
  intros H1 H2 H3. unfold parse_order. rewrite split_join by assumption. clear H1 H2.
  induction H3 as [|t k ts ks Hk H3 IH]; [reflexivity|]. apply order_token_means in Hk. cbn. rewrite Hk, IH. reflexivity.
Qed.
Lemma order_in_effect :
  chart_order "" "" = [OScClass; OScGroup; ONamespace; OPod; OScName; OErrno]
  /\ (forall ns, ns <> "" -> chart_order ns "" = [OScClass; OScGroup; OPod; OContainer; OScName; OErrno])
  /\ (forall ns ts ks, ts <> [] -> Forall (fun t => has_comma t = false) ts -> Forall2 means ts ks ->
       chart_order ns (join ts) = ks).
Proof.
  split; [reflexivity|]. split.
  - intros ns N. unfold chart_order. apply String.eqb_neq in N. rewrite String.eqb_refl, N. reflexivity.
  - intros ns ts ks N F M. unfold chart_order. destruct (String.eqb_spec (join ts) "") as [E|_].
    + exfalso. destruct M as [|t k ts ks M _]; [contradiction|]. assert (T : t <> "") by (destruct k; cbn [means] in M; intros ->; intuition discriminate).
      destruct t as [|c t]; [contradiction|]. destruct ts; discriminate.
    + apply parse_order_spec; assumption.
Qed.
Lemma parse_order_drops ts us : Forall (fun t => has_comma t = false) (ts ++ us) -> us <> [] -> ts <> [] ->
  parse_order (join (ts ++ us)) = (parse_order (join ts) ++ parse_order (join us))%list.
Proof.
  intros H Hu Ht. pose proof H as [H1 H2]%Forall_app. unfold parse_order.
  rewrite !split_join; [apply omap_app|assumption..|destruct ts; easy|assumption].
Qed.

(** * Links *)

Definition key (l : link) : string * string := (lk_src l, lk_dst l).
Fixpoint val_of (ab : string * string) (ls : list link) : option Z :=
  match ls with [] => None | l :: ls' => if bool_decide (key l = ab) then Some (lk_val l) else val_of ab ls' end.

Lemma key_test l a b : (String.eqb (lk_src l) a && String.eqb (lk_dst l) b) = bool_decide (key l = (a, b)).
Proof.
  unfold key. destruct (String.eqb_spec (lk_src l) a), (String.eqb_spec (lk_dst l) b); symmetry; cbn;
    (apply bool_decide_eq_true_2; congruence) || (apply bool_decide_eq_false_2; congruence).
Qed.

Lemma bump_none a b c ls : bump a b c ls = None <-> ~ In (a, b) (map key ls).
Proof.
  induction ls as [|l ls IH]; cbn [bump map In]; [tauto|]. rewrite key_test. case_bool_decide as E.
  - split; [discriminate|tauto].
  - destruct (bump a b c ls); [|tauto]. split; [discriminate|]. intros H. exfalso. assert (~ In (a, b) (map key ls)) as X by tauto.
    apply IH in X. discriminate.
Qed.
Lemma bump_keys a b c ls ls' : bump a b c ls = Some ls' -> map key ls' = map key ls.
Proof.
  revert ls'. induction ls as [|l ls IH]; cbn [bump]; [discriminate|]. intros ls'.
  destruct (_ && _); [intros [= <-]; reflexivity|]. destruct (bump a b c ls); [|discriminate].
  intros [= <-]. cbn. f_equal. exact (IH _ eq_refl).
Qed.
Lemma bump_val a b c ls ls' xy : bump a b c ls = Some ls' ->
  val_of xy ls' = if bool_decide (xy = (a, b)) then (fun v => f32_add v c) <$> val_of xy ls else val_of xy ls.
Proof.
  revert ls'. induction ls as [|l ls IH]; cbn [bump]; [discriminate|]. intros ls'. rewrite key_test.
  destruct (bool_decide (key l = (a, b))) eqn:E.
  - apply bool_decide_eq_true_1 in E. intros [= <-]. cbn [val_of].
    change (key (Link (lk_src l) (lk_dst l) (f32_add (lk_val l) c))) with (key l). rewrite E.
    destruct (decide ((a, b) = xy)) as [<-|N].
    + rewrite !bool_decide_eq_true_2 by reflexivity. reflexivity.
    + rewrite (bool_decide_eq_false_2 ((a, b) = xy)) by exact N. rewrite bool_decide_eq_false_2 by congruence. reflexivity.
  - apply bool_decide_eq_false_1 in E. destruct (bump a b c ls) as [r|]; [|discriminate]. intros [= <-]. cbn [val_of].
    destruct (decide (key l = xy)) as [K|K].
    + rewrite (bool_decide_eq_true_2 (key l = xy)) by exact K. rewrite bool_decide_eq_false_2 by congruence. reflexivity.
    + rewrite (bool_decide_eq_false_2 (key l = xy)) by exact K. exact (IH _ eq_refl).
Qed.
Lemma val_of_none ab ls : val_of ab ls = None <-> ~ In ab (map key ls).
Proof.
  induction ls as [|l ls IH]; cbn [val_of map In]; [tauto|]. case_bool_decide; [|tauto]. split; [discriminate|tauto].
Qed.
Lemma val_of_app ab ls l : val_of ab (ls ++ [l])%list = match val_of ab ls with Some v => Some v | None => if bool_decide (key l = ab) then Some (lk_val l) else None end.
Proof. induction ls as [|x ls IH]; [reflexivity|]. cbn [app val_of]. destruct (bool_decide (key x = ab)); [reflexivity|exact IH]. Qed.
Lemma val_of_in l ls : NoDup (map key ls) -> In l ls -> val_of (key l) ls = Some (lk_val l).
Proof.
  induction ls as [|x ls IH]; cbn [map In val_of]; [easy|]. intros N. apply NoDup_cons in N as [N1 N2]. intros [->|H].
  - rewrite bool_decide_eq_true_2 by reflexivity. reflexivity.
  - rewrite bool_decide_eq_false_2; [exact (IH N2 H)|]. intros E. apply N1. rewrite E. apply elem_of_list_In. exact (in_map key ls l H).
Qed.
Lemma val_of_some ab ls v : val_of ab ls = Some v -> In (Link ab.1 ab.2 v) ls.
Proof.
  induction ls as [|x ls IH]; cbn [val_of In]; [discriminate|]. case_bool_decide as E.
  - intros [= <-]. left. destruct x as [s d w]. unfold key in E. cbn in E. subst ab. reflexivity.
  - intros H. right. exact (IH H).
Qed.

Definition add_to (v : option Z) (c : Z) : option Z := match v with Some v => Some (f32_add v c) | None => Some c end.
Lemma add_link_val a b c ch xy :
  val_of xy (ch_links (add_link a b c ch)) = if bool_decide (xy = (a, b)) then add_to (val_of xy (ch_links ch)) c else val_of xy (ch_links ch).
Proof.
  unfold add_link. cbn [ch_links]. destruct (bump a b c (ch_links ch)) as [ls|] eqn:E.
  - rewrite (bump_val _ _ _ _ _ xy E). case_bool_decide as K; [|reflexivity]. subst xy.
    destruct (val_of (a, b) (ch_links ch)) eqn:V; [reflexivity|]. apply val_of_none in V. apply (bump_none a b c) in V. congruence.
  - apply bump_none in E. rewrite val_of_app. change (key (Link a b c)) with (a, b). destruct (decide (xy = (a, b))) as [->|N].
    + rewrite (proj2 (val_of_none _ _) E). rewrite !bool_decide_eq_true_2 by reflexivity. reflexivity.
    + rewrite (bool_decide_eq_false_2 (xy = (a, b))) by exact N. rewrite bool_decide_eq_false_2 by congruence. destruct (val_of xy (ch_links ch)); reflexivity.
Qed.

Lemma add_node_in n ns x : In x (add_node n ns) <-> In x ns \/ x = n.
Proof.
  unfold add_node. destruct (existsb (String.eqb n) ns) eqn:E.
  - apply existsb_exists in E as (y & Hy & E). apply String.eqb_eq in E. subst y. split; [tauto|]. intros [H| ->]; assumption.
  - rewrite in_app_iff. cbn. split; intros [H|H]; try tauto; [destruct H as [->|[]]; tauto|subst; tauto].
Qed.
Lemma add_node_nodup n ns : NoDup ns -> NoDup (add_node n ns).
Proof.
  intros H. unfold add_node. destruct (existsb (String.eqb n) ns) eqn:E; [exact H|].
  apply NoDup_app. split; [exact H|]. split.
  - intros x Hx Hx'. apply elem_of_list_singleton in Hx'. subst x. apply elem_of_list_In in Hx.
    assert (existsb (String.eqb n) ns = true) by (apply existsb_exists; exists n; split; [exact Hx|apply String.eqb_refl]). congruence.
  - apply NoDup_singleton.
Qed.

(** The steps taken, in the order they are taken. *)
Definition takes (ch : chart) (l : list ((string * string) * Z)) : chart :=
  fold_left (fun ch x => add_link x.1.1 x.1.2 x.2 ch) l ch.
Definition entry_steps (tbl : syscalls) (ns : string) (order : list okey) (en : entry) : list ((string * string) * Z) :=
  if chosen ns en then map (fun s => (s, mv_count en.1.2)) (steps (path tbl order en)) else [].
Definition all_steps tbl ns order es := concat (map (entry_steps tbl ns order) es).
Definition rounded (l : list ((string * string) * Z)) := map (fun x => (x.1, to_f32 x.2)) l.

Lemma ord_val_field tbl (en : entry) c k : en.2 = Some c -> (is_Some (lookup_sc tbl (ByInt (mk_nr en.1.1))) \/ ~ of_syscall k) ->
  ord_val k (lookup_sc tbl (ByInt (mk_nr en.1.1))) c (mk_err en.1.1) = Some (field tbl en k).
Proof.
  intros Hc H. unfold field. rewrite Hc. cbn [default].
  destruct (lookup_sc tbl (ByInt (mk_nr en.1.1))) as [sc|]; destruct k; cbn; try reflexivity;
    exfalso; destruct H as [[? H]|H]; try discriminate; apply H; unfold of_syscall; tauto.
Qed.
Lemma ord_val_none tbl (en : entry) c k : lookup_sc tbl (ByInt (mk_nr en.1.1)) = None -> of_syscall k ->
  ord_val k (lookup_sc tbl (ByInt (mk_nr en.1.1))) c (mk_err en.1.1) = None.
Proof. intros -> [->|[->| ->]]; reflexivity. Qed.

Lemma hop_cons a b order sc c e n ch : hop (a :: b :: order) sc c e n ch =
  match ord_val a sc c e, ord_val b sc c e with
  | Some src, Some dst => hop (b :: order) sc c e n (add_link src dst n ch)
  | _, _ => None
  end.
Proof. reflexivity. Qed.
Lemma hop_ok tbl (en : entry) c order : forall ch, en.2 = Some c ->
  ((length order < 2)%nat \/ forall k, In k order -> is_Some (lookup_sc tbl (ByInt (mk_nr en.1.1))) \/ ~ of_syscall k) ->
  hop order (lookup_sc tbl (ByInt (mk_nr en.1.1))) c (mk_err en.1.1) (to_f32 (mv_count en.1.2)) ch
  = Some (takes ch (rounded (map (fun s => (s, mv_count en.1.2)) (steps (path tbl order en))))).
Proof.
  induction order as [|a order IH]; intros ch Hc H; [reflexivity|]. destruct order as [|b order]; [reflexivity|].
  destruct H as [H|H]; [cbn in H; lia|].
  rewrite hop_cons, (ord_val_field tbl en c a), (ord_val_field tbl en c b); [|exact Hc|apply H; right; left; reflexivity|exact Hc|apply H; left; reflexivity].
  rewrite IH; [reflexivity|exact Hc|]. right. intros k Hk. apply H. right. exact Hk.
Qed.
Lemma of_syscall_dec k : {of_syscall k} + {~ of_syscall k}.
Proof. destruct k; (left; unfold of_syscall; tauto) || (right; unfold of_syscall; intros [?|[?|?]]; discriminate). Qed.

Lemma hop_panics tbl (en : entry) c order k : forall ch, en.2 = Some c -> lookup_sc tbl (ByInt (mk_nr en.1.1)) = None -> In k order -> of_syscall k -> (2 <= length order)%nat ->
  hop order (lookup_sc tbl (ByInt (mk_nr en.1.1))) c (mk_err en.1.1) (to_f32 (mv_count en.1.2)) ch = None.
Proof.
  induction order as [|a order IH]; intros ch Hc Hn Hk Hs Hl; [contradiction|]. destruct order as [|b order]; [cbn in Hl; lia|].
  rewrite hop_cons.
  destruct (of_syscall_dec a) as [Ha|Ha]; [rewrite (ord_val_none tbl en c a Hn Ha); reflexivity|].
  destruct (of_syscall_dec b) as [Hb|Hb]; [rewrite (ord_val_none tbl en c b Hn Hb); destruct (ord_val a _ _ _); reflexivity|].
  rewrite (ord_val_field tbl en c a Hc (or_intror Ha)), (ord_val_field tbl en c b Hc (or_intror Hb)).
  destruct Hk as [->|[->|Hk]]; [contradiction|contradiction|].
  destruct order as [|d order]; [contradiction|]. apply IH; [exact Hc|exact Hn|right; exact Hk|exact Hs|cbn; lia].
Qed.

Definition crashes (tbl : syscalls) (ns : string) (order : list okey) (en : entry) : Prop :=
  selected ns en /\ lookup_sc tbl (ByInt (mk_nr en.1.1)) = None /\ (2 <= length order)%nat /\ exists k, In k order /\ of_syscall k.

Lemma chosen_selected ns (en : entry) : chosen ns en = true <-> selected ns en.
Proof.
  unfold chosen, selected. destruct en as [kv [c|]]; cbn.
  - rewrite orb_true_iff, !String.eqb_eq. split; [intros H; exists c; tauto|]. intros (c' & [= <-] & H). tauto.
  - split; [discriminate|]. intros (c' & H & _). discriminate.
Qed.

Lemma sankey_one_cases tbl ns order en ch :
  (crashes tbl ns order en /\ sankey_one tbl ns order en ch = None)
  \/ (~ crashes tbl ns order en /\ sankey_one tbl ns order en ch = Some (takes ch (rounded (entry_steps tbl ns order en)))).
Proof.
  unfold sankey_one, entry_steps. destruct (chosen ns en) eqn:C.
  - pose proof (proj1 (chosen_selected ns en) C) as S. destruct en as [kv [c|]]; [|discriminate].
    assert (T : negb (String.eqb ns "") && negb (String.eqb (ow_namespace c) ns) = false).
    { unfold chosen in C. cbn in C. destruct (String.eqb ns ""), (String.eqb (ow_namespace c) ns); cbn in *; congruence. }
    rewrite T.
    destruct (lookup_sc tbl (ByInt (mk_nr kv.1))) as [sc|] eqn:L.
    + right. split; [intros (_ & X & _); cbn [fst snd] in X; congruence|].
      pose proof (hop_ok tbl (kv, Some c) c order ch eq_refl) as X. cbn [fst snd] in X. rewrite L in X. apply X. right. intros k _. left. eauto.
    + destruct (decide (2 <= length order)%nat) as [Hl|Hl].
      * destruct (List.Exists_dec of_syscall order of_syscall_dec) as [E|E].
        -- apply Exists_exists in E as (k & Hk & Hs). left. split; [split; [exact S|split; [exact L|split; [exact Hl|exists k; split; [apply elem_of_list_In; exact Hk|exact Hs]]]]|].
           pose proof (hop_panics tbl (kv, Some c) c order k ch eq_refl) as X. cbn [fst snd] in X. rewrite L in X. apply X; auto. apply elem_of_list_In; exact Hk.
        -- right. split; [intros (_ & _ & _ & k & Hk & Hs); apply E; apply Exists_exists; exists k; split; [apply elem_of_list_In; exact Hk|exact Hs]|].
           pose proof (hop_ok tbl (kv, Some c) c order ch eq_refl) as X. cbn [fst snd] in X. rewrite L in X. apply X. right. intros k Hk. right. intros Hs.
           apply E, Exists_exists. exists k. split; [apply elem_of_list_In; exact Hk|exact Hs].
      * right. split; [intros (_ & _ & Hl' & _); contradiction|].
        pose proof (hop_ok tbl (kv, Some c) c order ch eq_refl) as X. cbn [fst snd] in X. rewrite L in X. apply X. left. lia.
  - right. split.
    + intros (S & _). apply chosen_selected in S. congruence.
    + destruct en as [kv [c|]]; [|reflexivity].
      assert (T : negb (String.eqb ns "") && negb (String.eqb (ow_namespace c) ns) = true).
      { unfold chosen in C. cbn in C. destruct (String.eqb ns ""), (String.eqb (ow_namespace c) ns); cbn in *; congruence. }
      rewrite T. reflexivity.
Qed.

Lemma takes_app ch l1 l2 : takes ch (l1 ++ l2)%list = takes (takes ch l1) l2.
Proof. unfold takes. apply fold_left_app. Qed.
Lemma rounded_app l1 l2 : rounded (l1 ++ l2)%list = (rounded l1 ++ rounded l2)%list.
Proof. apply map_app. Qed.

Lemma sankey_loop_some tbl ns order es : forall ch, (forall en, In en es -> ~ crashes tbl ns order en) ->
  sankey_loop tbl ns order es ch = Some (takes ch (rounded (all_steps tbl ns order es))).
Proof.
  induction es as [|en es IH]; intros ch H; [reflexivity|]. cbn [sankey_loop].
  destruct (sankey_one_cases tbl ns order en ch) as [[C _]|[_ ->]]; [exfalso; apply (H en); [left; reflexivity|exact C]|].
  rewrite IH; [|intros x Hx; apply H; right; exact Hx]. unfold all_steps. cbn [map concat]. rewrite rounded_app, takes_app. reflexivity.
Qed.
Lemma sankey_loop_none tbl ns order es : forall ch, (exists en, In en es /\ crashes tbl ns order en) ->
  sankey_loop tbl ns order es ch = None.
Proof.
  induction es as [|en es IH]; intros ch (x & Hx & C); [contradiction|]. cbn [sankey_loop].
  destruct (sankey_one_cases tbl ns order en ch) as [[_ ->]|[N ->]]; [reflexivity|].
  apply IH. destruct Hx as [->|Hx]; [contradiction|]. exists x. split; assumption.
Qed.
Lemma sankey_loop_none_inv tbl ns order es : forall ch, sankey_loop tbl ns order es ch = None -> exists en, In en es /\ crashes tbl ns order en.
Proof.
  induction es as [|en es IH]; intros ch; cbn [sankey_loop]; [discriminate|].
  destruct (sankey_one_cases tbl ns order en ch) as [[C _]|[_ ->]]; [intros _; exists en; split; [left; reflexivity|exact C]|].
  intros H. destruct (IH _ H) as (x & Hx & C). exists x. split; [right; exact Hx|exact C].
Qed.
Lemma sankey_some tbl ns ord es ch : sankey tbl ns ord es = Some ch ->
  ch = takes (Chart [] []) (rounded (all_steps tbl ns (chart_order ns ord) es)).
Proof.
  unfold sankey. intros H. rewrite sankey_loop_some in H; [injection H as <-; reflexivity|].
  intros en Hen C. rewrite sankey_loop_none in H; [discriminate|]. exists en. split; assumption.
Qed.

(** ** What a run of steps leaves behind *)

Definition counts_at (ab : string * string) (l : list ((string * string) * Z)) : list Z :=
  map snd (List.filter (fun x => bool_decide (x.1 = ab)) l).
Definition fsum (v : option Z) (l : list Z) : option Z := fold_left add_to l v.

Lemma takes_val l : forall ch ab, val_of ab (ch_links (takes ch l)) = fsum (val_of ab (ch_links ch)) (counts_at ab l).
Proof.
  induction l as [|[[a b] c] l IH]; intros ch ab; [reflexivity|].
  change (takes ch (((a, b), c) :: l)) with (takes (add_link a b c ch) l). rewrite IH, add_link_val.
  unfold counts_at. cbn [List.filter fst snd]. destruct (decide (ab = (a, b))) as [->|N].
  - rewrite !(bool_decide_eq_true_2 ((a, b) = (a, b))) by reflexivity. reflexivity.
  - rewrite (bool_decide_eq_false_2 (ab = (a, b))) by exact N. rewrite (bool_decide_eq_false_2 ((a, b) = ab)) by congruence. reflexivity.
Qed.

Record good (ch : chart) : Prop := Good {
  g_nodes : NoDup (ch_nodes ch);
  g_keys : NoDup (map key (ch_links ch));
  g_ends : forall n, In n (ch_nodes ch) <-> exists l, In l (ch_links ch) /\ (lk_src l = n \/ lk_dst l = n) }.

Lemma good_empty : good (Chart [] []).
Proof. split; [constructor|constructor|]. intros n. split; [contradiction|]. intros (l & [] & _). Qed.

Lemma ends_of_keys (ls : list link) n : (exists l, In l ls /\ (lk_src l = n \/ lk_dst l = n)) <-> exists ab, In ab (map key ls) /\ (ab.1 = n \/ ab.2 = n).
Proof.
  split.
  - intros (l & Hl & H). exists (key l). split; [exact (in_map key ls l Hl)|exact H].
  - intros (ab & Hab & H). apply in_map_iff in Hab as (l & <- & Hl). exists l. split; [exact Hl|exact H].
Qed.

Lemma add_link_keys a b c ch : map key (ch_links (add_link a b c ch)) =
  if bool_decide ((a, b) ∈ map key (ch_links ch)) then map key (ch_links ch) else (map key (ch_links ch) ++ [(a, b)])%list.
Proof.
  unfold add_link. cbn [ch_links]. destruct (bump a b c (ch_links ch)) as [ls|] eqn:E.
  - rewrite (bump_keys _ _ _ _ _ E). rewrite bool_decide_eq_true_2; [reflexivity|].
    destruct (decide ((a, b) ∈ map key (ch_links ch))) as [H|H]; [exact H|]. exfalso. rewrite elem_of_list_In in H. apply (bump_none a b c) in H. congruence.
  - apply bump_none in E. rewrite <- elem_of_list_In in E. rewrite bool_decide_eq_false_2 by exact E. rewrite map_app. reflexivity.
Qed.

Lemma add_link_good a b c ch : good ch -> good (add_link a b c ch).
Proof.
  intros [Hn Hk He]. split.
  - cbn. apply add_node_nodup, add_node_nodup, Hn.
  - rewrite add_link_keys. case_bool_decide as E; [exact Hk|]. apply NoDup_app. split; [exact Hk|]. split; [|apply NoDup_singleton].
    intros x Hx Hx'. apply elem_of_list_singleton in Hx'. subst x. exact (E Hx).
  - intros n. rewrite ends_of_keys, add_link_keys. cbn [ch_nodes add_link]. rewrite !add_node_in, He, ends_of_keys.
    case_bool_decide as E.
    + apply elem_of_list_In in E. split; [|intros H; left; left; exact H]. intros [[H| ->]| ->]; [exact H|exists (a, b); tauto|exists (a, b); tauto].
    + setoid_rewrite in_app_iff. split.
      * intros [[(ab & H1 & H2)| ->]| ->]; [exists ab; tauto|exists (a, b); cbn; tauto|exists (a, b); cbn; tauto].
      * intros (ab & [H1|[<-|[]]] & H2); [left; left; exists ab; tauto|]. cbn in H2. destruct H2 as [<-|<-]; tauto.
Qed.
Lemma takes_good l : forall ch, good ch -> good (takes ch l).
Proof. induction l as [|x l IH]; intros ch H; [exact H|]. apply IH, add_link_good, H. Qed.

(** ** Sums *)

Lemma fsum_some l : forall v, exists w, fsum (Some v) l = Some w.
Proof. induction l as [|x l IH]; intros v; [exists v; reflexivity|]. apply IH. Qed.
Lemma fsum_none l : fsum None l = None <-> l = [].
Proof. destruct l as [|x l]; [split; reflexivity|]. cbn. destruct (fsum_some l x) as [w H]. unfold fsum in H. rewrite H. split; discriminate. Qed.

Lemma sum_app l1 l2 : sum (l1 ++ l2)%list = sum l1 + sum l2.
Proof. induction l1 as [|x l1 IH]; cbn; [reflexivity|lia]. Qed.
Lemma sum_nonneg l : Forall (fun x => 0 <= x) l -> 0 <= sum l.
Proof. induction 1; cbn; lia. Qed.

Lemma to_f32_upto n : 0 <= n <= 2 ^ 24 -> to_f32 n = n.
Proof. apply rnd_upto. lia. Qed.

Lemma fsum_exact l : forall v, 0 <= v -> Forall (fun x => 0 <= x) l -> v + sum l <= 2 ^ 24 -> fsum (Some v) (map to_f32 l) = Some (v + sum l).
Proof.
  induction l as [|x l IH]; intros v Hv Hl H; cbn [map sum] in *.
  - cbn. f_equal. lia.
  - apply Forall_cons in Hl as [Hx Hl]. pose proof (sum_nonneg l Hl).
    change (fsum (Some v) (to_f32 x :: map to_f32 l)) with (fsum (Some (f32_add v (to_f32 x))) (map to_f32 l)).
    rewrite (to_f32_upto x) by lia. unfold f32_add. rewrite rnd_upto by lia. rewrite IH; [f_equal; lia|lia|exact Hl|lia].
Qed.

Lemma counts_at_app ab l1 l2 : counts_at ab (l1 ++ l2)%list = (counts_at ab l1 ++ counts_at ab l2)%list.
Proof. unfold counts_at. rewrite List.filter_app, map_app. reflexivity. Qed.
Lemma counts_at_rounded ab l : counts_at ab (rounded l) = map to_f32 (counts_at ab l).
Proof.
  induction l as [|x l IH]; [reflexivity|]. unfold counts_at, rounded in *. cbn [map List.filter fst snd].
  destruct (bool_decide (x.1 = ab)); cbn [map snd]; rewrite IH; reflexivity.
Qed.
Lemma counts_at_steps ab n st : counts_at ab (map (fun s => (s, n)) st) = repeat n (Z.to_nat (occurrences ab st)).
Proof.
  unfold occurrences. rewrite Nat2Z.id. induction st as [|s st IH]; [reflexivity|]. unfold counts_at in *. cbn [map List.filter fst].
  destruct (bool_decide (s = ab)); cbn [map snd length repeat]; rewrite IH; reflexivity.
Qed.
Lemma sum_repeat n k : sum (repeat n k) = n * Z.of_nat k.
Proof. induction k as [|k IH]; cbn [repeat sum]; lia. Qed.
Lemma occurrences_nonneg ab st : 0 <= occurrences ab st.
Proof. unfold occurrences. lia. Qed.

Lemma traffic_counts tbl ns order es a b : sum (counts_at (a, b) (all_steps tbl ns order es)) = traffic tbl ns order es a b.
Proof.
  induction es as [|en es IH]; [reflexivity|]. unfold all_steps, traffic in *. cbn [map concat sum].
  rewrite counts_at_app, sum_app, IH. f_equal. unfold entry_steps. destruct (chosen ns en); [|reflexivity].
  rewrite counts_at_steps, sum_repeat, Z2Nat.id by apply occurrences_nonneg. reflexivity.
Qed.
Lemma addends_counts tbl ns order es a b : Z.of_nat (length (counts_at (a, b) (all_steps tbl ns order es))) = addends tbl ns order es a b.
Proof.
  induction es as [|en es IH]; [reflexivity|]. unfold all_steps, addends in *. cbn [map concat sum].
  rewrite counts_at_app, app_length, Nat2Z.inj_add, IH. f_equal. unfold entry_steps. destruct (chosen ns en); [|reflexivity].
  rewrite counts_at_steps, repeat_length, Z2Nat.id by apply occurrences_nonneg. reflexivity.
Qed.
Lemma counts_nonneg tbl ns order es ab : counters_ok es -> Forall (fun x => 0 <= x) (counts_at ab (all_steps tbl ns order es)).
Proof.
  intros H. apply Forall_forall. intros x Hx. unfold counts_at in Hx. apply elem_of_list_In, in_map_iff in Hx as (y & <- & Hy).
  apply filter_In in Hy as [Hy _]. unfold all_steps in Hy. apply in_concat in Hy as (l & Hl & Hy). apply in_map_iff in Hl as (en & <- & Hen).
  unfold entry_steps in Hy. destruct (chosen ns en); [|contradiction]. apply in_map_iff in Hy as (s & <- & _). cbn. apply (H en Hen).
Qed.

Lemma in_steps_linked tbl ns order es ab : counts_at ab (all_steps tbl ns order es) <> [] <-> linked tbl ns order es ab.1 ab.2.
Proof.
  split.
  - intros H. destruct (counts_at ab (all_steps tbl ns order es)) as [|x l] eqn:E; [congruence|].
    assert (Hx : In x (counts_at ab (all_steps tbl ns order es))) by (rewrite E; left; reflexivity).
    unfold counts_at in Hx. apply in_map_iff in Hx as (y & <- & Hy). apply filter_In in Hy as [Hy Hd]. apply bool_decide_eq_true_1 in Hd.
    unfold all_steps in Hy. apply in_concat in Hy as (l' & Hl & Hy). apply in_map_iff in Hl as (en & <- & Hen).
    unfold entry_steps in Hy. destruct (chosen ns en) eqn:C; [|contradiction]. apply in_map_iff in Hy as (s & <- & Hs). cbn in Hd. subst s.
    exists en. split; [exact Hen|]. split; [apply chosen_selected, C|]. destruct ab; exact Hs.
  - intros (en & Hen & Hs & Hab). intros E.
    assert (In (mv_count en.1.2) (counts_at ab (all_steps tbl ns order es))); [|rewrite E in *; contradiction].
    unfold counts_at. apply in_map_iff. exists (ab, mv_count en.1.2). split; [reflexivity|]. apply filter_In. split; [|apply bool_decide_eq_true_2; reflexivity].
    unfold all_steps. apply in_concat. exists (entry_steps tbl ns order en). split; [apply (in_map (entry_steps tbl ns order)); exact Hen|].
    unfold entry_steps. rewrite (proj2 (chosen_selected ns en) Hs). apply in_map_iff. exists ab. split; [reflexivity|]. destruct ab; exact Hab.
Qed.

Lemma sankey_val tbl ns ord es ch a b : sankey tbl ns ord es = Some ch ->
  val_of (a, b) (ch_links ch) = fsum None (map to_f32 (counts_at (a, b) (all_steps tbl ns (chart_order ns ord) es))).
Proof. intros H. rewrite (sankey_some _ _ _ _ _ H), takes_val, counts_at_rounded. reflexivity. Qed.
Lemma sankey_good tbl ns ord es ch : sankey tbl ns ord es = Some ch -> good ch.
Proof. intros H. rewrite (sankey_some _ _ _ _ _ H). apply takes_good, good_empty. Qed.

Lemma sankey_shape tbl ns ord es ch : sankey tbl ns ord es = Some ch ->
  NoDup (ch_nodes ch) /\ NoDup (map (fun l => (lk_src l, lk_dst l)) (ch_links ch))
  /\ (forall a b, (exists v, In (Link a b v) (ch_links ch)) <-> linked tbl ns (chart_order ns ord) es a b)
  /\ (forall n, In n (ch_nodes ch) <-> exists a b, linked tbl ns (chart_order ns ord) es a b /\ (n = a \/ n = b)).
Proof.
  intros H. pose proof (sankey_good _ _ _ _ _ H) as [G1 G2 G3].
  assert (L : forall a b, (exists v, In (Link a b v) (ch_links ch)) <-> linked tbl ns (chart_order ns ord) es a b).
  { intros a b. rewrite <- (in_steps_linked tbl ns (chart_order ns ord) es (a, b)). pose proof (sankey_val _ _ _ _ _ a b H) as V. split.
    - intros (v & Hv). intros E. rewrite E in V. change (fsum None (map to_f32 [])) with (@None Z) in V.
      apply val_of_none in V. apply V. exact (in_map key _ _ Hv).
    - intros E. destruct (val_of (a, b) (ch_links ch)) as [v|] eqn:W.
      + exists v. exact (val_of_some _ _ _ W).
      + symmetry in V. apply fsum_none in V. destruct (counts_at _ _); [congruence|discriminate]. }
  split; [exact G1|]. split; [exact G2|]. split; [exact L|].
  intros n. rewrite G3. split.
  - intros ([s d v] & Hl & E). exists s, d. split; [apply L; exists v; exact Hl|]. cbn in E. destruct E; subst; tauto.
  - intros (a & b & Hab & E). apply L in Hab as [v Hv]. exists (Link a b v). split; [exact Hv|]. cbn. destruct E; subst; tauto.
Qed.

Lemma sankey_exact tbl ns ord es ch a b v : counters_ok es -> sankey tbl ns ord es = Some ch -> In (Link a b v) (ch_links ch) ->
  traffic tbl ns (chart_order ns ord) es a b <= 2 ^ 24 -> v = traffic tbl ns (chart_order ns ord) es a b.
Proof.
  intros C H Hl T. pose proof (sankey_good _ _ _ _ _ H) as [_ G2 _].
  pose proof (val_of_in _ _ G2 Hl) as V. cbn in V. pose proof (sankey_val _ _ _ _ _ a b H) as W.
  unfold key in V. cbn in V. rewrite V in W.
  pose proof (counts_nonneg tbl ns (chart_order ns ord) es (a, b) C) as N. rewrite <- traffic_counts in T |- *.
  destruct (counts_at (a, b) (all_steps tbl ns (chart_order ns ord) es)) as [|x l]; [discriminate|].
  apply Forall_cons in N as [N1 N2]. pose proof (sum_nonneg l N2). cbn [sum] in *.
  change (fsum None (map to_f32 (x :: l))) with (fsum (Some (to_f32 x)) (map to_f32 l)) in W.
  rewrite (to_f32_upto x) in W by lia. rewrite fsum_exact in W by (assumption || lia). congruence.
Qed.

(** Rounding errors: each of [n] additions may change the value by one part in 2^24. *)
Lemma fsum_bounds l : forall v t k, 0 <= v -> 0 <= t -> (1 <= k)%nat -> Forall (fun x => 0 <= x) l ->
  t * (2 ^ 24 - 1) ^ Z.of_nat k <= v * 2 ^ (24 * Z.of_nat k) -> v * 2 ^ (24 * Z.of_nat k) <= t * (2 ^ 24 + 1) ^ Z.of_nat k ->
  exists w, fsum (Some v) (map to_f32 l) = Some w /\
    (t + sum l) * (2 ^ 24 - 1) ^ Z.of_nat (k + length l) <= w * 2 ^ (24 * Z.of_nat (k + length l)) /\
    w * 2 ^ (24 * Z.of_nat (k + length l)) <= (t + sum l) * (2 ^ 24 + 1) ^ Z.of_nat (k + length l).
Proof.
  induction l as [|x l IH]; intros v t k Hv Ht Hk Hl B1 B2.
  - exists v. cbn [sum length map]. rewrite Nat.add_0_r, Z.add_0_r. split; [reflexivity|]. split; assumption.
  - apply Forall_cons in Hl as [Hx Hl].
    change (fsum (Some v) (map to_f32 (x :: l))) with (fsum (Some (f32_add v (to_f32 x))) (map to_f32 l)).
    pose proof (rnd_nonneg 24 ltac:(lia) x Hx) as Hx'. fold (to_f32 x) in Hx'.
    pose proof (rnd_nonneg 24 ltac:(lia) (v + to_f32 x) ltac:(lia)) as Hw. fold (f32_add v (to_f32 x)) in Hw.
    pose proof (rnd_relative 24 ltac:(lia) x Hx) as R1. fold (to_f32 x) in R1.
    pose proof (rnd_relative 24 ltac:(lia) (v + to_f32 x) ltac:(lia)) as R2. fold (f32_add v (to_f32 x)) in R2.
    replace (k + length (x :: l))%nat with (S k + length l)%nat by (cbn; lia).
    replace (t + sum (x :: l)) with ((t + x) + sum l) by (cbn; lia).
    apply IH; try lia; try assumption.
    + rewrite Nat2Z.inj_succ, Z.pow_succ_r by lia. replace (24 * Z.succ (Z.of_nat k)) with (24 + 24 * Z.of_nat k) by lia. rewrite Z.pow_add_r by lia.
      set (P := 2 ^ (24 * Z.of_nat k)) in *. set (Q := (2 ^ 24 - 1) ^ Z.of_nat k) in *. set (E := 2 ^ 24) in *.
      assert (EE : E = 16777216) by reflexivity. clearbody E. subst E.
      set (w := f32_add v (to_f32 x)) in *. set (y := to_f32 x) in *.
      assert (Hw1 : (16777216 - 1) * (v + y) <= 16777216 * w) by lia.
      assert (Hy1 : (16777216 - 1) * x <= 16777216 * y) by lia.
      assert (HQ : 16777216 * Q <= (16777216 - 1) * P).
      { unfold Q, P. destruct k as [|k]; [lia|]. rewrite Nat2Z.inj_succ, Z.pow_succ_r by lia.
        replace (24 * Z.succ (Z.of_nat k)) with (24 + 24 * Z.of_nat k) by lia. rewrite Z.pow_add_r by lia. change (2 ^ 24) with 16777216.
        assert ((16777216 - 1) ^ Z.of_nat k <= 2 ^ (24 * Z.of_nat k)); [|nia].
        rewrite Z.pow_mul_r by lia. apply Z.pow_le_mono_l. change (2 ^ 24) with 16777216. lia. }
      assert (HP : 0 < P) by (apply Z.pow_pos_nonneg; lia).
      assert (x * Q <= y * P) by nia. nia.
    + rewrite Nat2Z.inj_succ, Z.pow_succ_r by lia. replace (24 * Z.succ (Z.of_nat k)) with (24 + 24 * Z.of_nat k) by lia. rewrite Z.pow_add_r by lia.
      set (P := 2 ^ (24 * Z.of_nat k)) in *. set (Q := (2 ^ 24 + 1) ^ Z.of_nat k) in *. set (E := 2 ^ 24) in *.
      assert (EE : E = 16777216) by reflexivity. clearbody E. subst E.
      set (w := f32_add v (to_f32 x)) in *. set (y := to_f32 x) in *.
      assert (Hw1 : 16777216 * w <= (16777216 + 1) * (v + y)) by lia.
      assert (Hy1 : 16777216 * y <= (16777216 + 1) * x) by lia.
      assert (HQ : (16777216 + 1) * P <= 16777216 * Q).
      { unfold Q, P. destruct k as [|k]; [lia|]. rewrite Nat2Z.inj_succ, Z.pow_succ_r by lia.
        replace (24 * Z.succ (Z.of_nat k)) with (24 + 24 * Z.of_nat k) by lia. rewrite Z.pow_add_r by lia. change (2 ^ 24) with 16777216.
        assert (2 ^ (24 * Z.of_nat k) <= (16777216 + 1) ^ Z.of_nat k); [|nia].
        rewrite Z.pow_mul_r by lia. apply Z.pow_le_mono_l. change (2 ^ 24) with 16777216. lia. }
      assert (HP : 0 < P) by (apply Z.pow_pos_nonneg; lia).
      assert (y * P <= x * Q) by nia. nia.
Qed.

Lemma sankey_bounds tbl ns ord es ch a b v : counters_ok es -> sankey tbl ns ord es = Some ch -> In (Link a b v) (ch_links ch) ->
  let t := traffic tbl ns (chart_order ns ord) es a b in
  let n := addends tbl ns (chart_order ns ord) es a b in
  t * (2 ^ 24 - 1) ^ n <= v * 2 ^ (24 * n) <= t * (2 ^ 24 + 1) ^ n.
Proof.
  intros C H Hl. cbv zeta. pose proof (sankey_good _ _ _ _ _ H) as [_ G2 _].
  pose proof (val_of_in _ _ G2 Hl) as V. cbn in V. pose proof (sankey_val _ _ _ _ _ a b H) as W.
  unfold key in V. cbn in V. rewrite V in W.
  pose proof (counts_nonneg tbl ns (chart_order ns ord) es (a, b) C) as N. rewrite <- traffic_counts, <- addends_counts.
  destruct (counts_at (a, b) (all_steps tbl ns (chart_order ns ord) es)) as [|x l]; [discriminate|].
  apply Forall_cons in N as [N1 N2].
  change (fsum None (map to_f32 (x :: l))) with (fsum (Some (to_f32 x)) (map to_f32 l)) in W.
  pose proof (rnd_relative 24 ltac:(lia) x N1) as R1. fold (to_f32 x) in R1.
  assert (R0 : 0 <= to_f32 x) by (apply rnd_nonneg; lia).
  destruct (fsum_bounds l (to_f32 x) x 1) as (w & Hw & B1 & B2); [exact R0|exact N1|lia|exact N2|lia|lia|].
  rewrite Hw in W. injection W as ->. cbn [sum length]. change (1 + length l)%nat with (S (length l)) in *. split; assumption.
Qed.

(** ** Each metric once *)

Lemma occurrences_nodup ab st : NoDup st -> occurrences ab st = if bool_decide (ab ∈ st) then 1 else 0.
Proof.
  unfold occurrences. induction st as [|s st IH]; intros N; [reflexivity|]. apply NoDup_cons in N as [N1 N2]. specialize (IH N2).
  cbn [List.filter]. destruct (decide (s = ab)) as [->|D].
  - rewrite (bool_decide_eq_true_2 (ab = ab)) by reflexivity. rewrite (bool_decide_eq_false_2 (ab ∈ st)) in IH by exact N1.
    rewrite bool_decide_eq_true_2 by left. cbn [length]. lia.
  - rewrite (bool_decide_eq_false_2 (s = ab)) by exact D. rewrite IH.
    destruct (decide (ab ∈ st)) as [I|I].
    + rewrite !bool_decide_eq_true_2; [reflexivity|right; exact I|exact I].
    + rewrite !bool_decide_eq_false_2; [reflexivity| |exact I]. intros X. apply elem_of_cons in X as [X|X]; [congruence|contradiction].
Qed.
Lemma steps_fst p ab : In ab (steps p) -> In ab.1 p.
Proof. destruct ab as [a b]. unfold steps. intros H. exact (in_combine_l _ _ _ _ H). Qed.
Lemma steps_nodup p : NoDup p -> NoDup (steps p).
Proof.
  unfold steps. induction p as [|x p IH]; intros N; [constructor|]. apply NoDup_cons in N as [N1 N2].
  destruct p as [|y p]; [constructor|]. cbn [tl combine]. constructor; [|exact (IH N2)].
  intros H. apply N1. apply elem_of_list_In in H. apply elem_of_list_In. exact (in_combine_l (y :: p) p x y H).
Qed.

Lemma traffic_once tbl ns order es a b : (forall en, In en es -> selected ns en -> NoDup (path tbl order en)) ->
  traffic tbl ns order es a b = sum (map (fun en => mv_count en.1.2) (List.filter (fun en => chosen ns en && steps_through tbl order a b en) es)).
Proof.
  induction es as [|en es IH]; intros H; [reflexivity|]. unfold traffic in *. cbn [map sum List.filter].
  rewrite IH by (intros x Hx; apply H; right; exact Hx).
  destruct (chosen ns en) eqn:C; cbn [andb]; [|reflexivity].
  rewrite occurrences_nodup by (apply steps_nodup, H; [left; reflexivity|apply chosen_selected, C]).
  unfold steps_through at 2. destruct (bool_decide ((a, b) ∈ steps (path tbl order en))); cbn [map sum]; lia.
Qed.

(** * Word clouds *)

Lemma tally_cloud word es m w en : cloud_of word es m -> word en = Some w -> 0 <= mv_count en.1.2 < 2 ^ 64 -> cloud_of word (es ++ [en])%list (tally w (mv_count en.1.2) m).
Proof.
  intros H Hw B x. unfold under. rewrite List.filter_app. cbn [List.filter]. rewrite Hw.
  assert (T : tally w (mv_count en.1.2) m !! x = if bool_decide (w = x) then Some (match m !! x with Some v => (mv_count en.1.2 + v) mod 2 ^ 64 | None => mv_count en.1.2 end) else m !! x).
  { unfold tally. destruct (decide (w = x)) as [->|N].
    - rewrite bool_decide_eq_true_2 by reflexivity. destruct (m !! x) eqn:E; rewrite lookup_insert; reflexivity.
    - rewrite bool_decide_eq_false_2 by exact N. destruct (m !! w); rewrite lookup_insert_ne by exact N; reflexivity. }
  rewrite T. destruct (decide (w = x)) as [->|N].
  - rewrite !bool_decide_eq_true_2 by reflexivity. rewrite (H x). unfold under.
    destruct (List.filter _ es) as [|y l].
    + cbn. rewrite Z.add_0_r, Z.mod_small by lia. reflexivity.
    + cbn [app]. f_equal. rewrite Zplus_mod_idemp_r.
      change (y :: (l ++ [en])%list) with ((y :: l) ++ [en])%list. rewrite map_app, sum_app. cbn [map sum]. f_equal. lia.
  - rewrite (bool_decide_eq_false_2 (w = x)) by exact N. rewrite (bool_decide_eq_false_2 (Some w = Some x)) by congruence. rewrite app_nil_r. apply H.
Qed.
Lemma skip_cloud word es m en : cloud_of word es m -> word en = None -> cloud_of word (es ++ [en])%list m.
Proof.
  intros H Hw x. unfold under. rewrite List.filter_app. cbn [List.filter]. rewrite Hw. rewrite bool_decide_eq_false_2 by discriminate.
  rewrite app_nil_r. apply H.
Qed.

Definition clouds_of tbl (es : list entry) (w : clouds) : Prop :=
  cloud_of errno_word es (wc_errno w) /\ cloud_of (class_word tbl) es (wc_class w) /\ cloud_of namespace_word es (wc_namespace w).

Lemma clouds_start tbl : clouds_of tbl [] new_clouds.
Proof. repeat split; intros w; reflexivity. Qed.
Lemma clouds_step tbl es w (en : entry) : clouds_of tbl es w -> 0 <= mv_count en.1.2 < 2 ^ 64 -> clouds_of tbl (es ++ [en])%list (update_metric tbl w en).
Proof.
  intros (H1 & H2 & H3) B. unfold update_metric. split; [|split]; cbn [wc_errno wc_class wc_namespace].
  - destruct (mk_err en.1.1 =? 0) eqn:E.
    + apply skip_cloud; [exact H1|]. unfold errno_word. rewrite E. reflexivity.
    + apply tally_cloud; [exact H1| |exact B]. unfold errno_word. rewrite E. reflexivity.
  - change (lookup_sc tbl (ByUint32 (mk_nr en.1.1))) with (lookup_sc tbl (ByInt (mk_nr en.1.1))).
    destruct (lookup_sc tbl (ByInt (mk_nr en.1.1))) as [sc|] eqn:E.
    + apply tally_cloud; [exact H2| |exact B]. unfold class_word. rewrite E. reflexivity.
    + apply skip_cloud; [exact H2|]. unfold class_word. rewrite E. reflexivity.
  - destruct (en.2) as [c|] eqn:E.
    + apply tally_cloud; [exact H3| |exact B]. unfold namespace_word. rewrite E. reflexivity.
    + apply skip_cloud; [exact H3|]. unfold namespace_word. rewrite E. reflexivity.
Qed.
Lemma clouds_update tbl es : forall fedto w, clouds_of tbl fedto w -> counters_ok es -> clouds_of tbl (fedto ++ es)%list (update_clouds tbl es w).
Proof.
  induction es as [|en es IH]; intros fedto w H C; [rewrite app_nil_r; exact H|].
  change (update_clouds tbl (en :: es) w) with (update_clouds tbl es (update_metric tbl w en)).
  replace (fedto ++ en :: es)%list with ((fedto ++ [en]) ++ es)%list by (rewrite <- app_assoc; reflexivity).
  apply IH; [|intros x Hx; apply C; right; exact Hx]. apply clouds_step; [exact H|]. apply C. left. reflexivity.
Qed.
Lemma serve_clouds tbl r : forall fedto w, clouds_of tbl fedto w -> counters_ok (fed [r]) -> clouds_of tbl (fedto ++ fed [r])%list (serve tbl w r).1.
Proof.
  intros fedto w H C. destruct r; unfold fed in *; cbn [map concat serve fst] in *; rewrite ?app_nil_r in *; try exact H.
  apply clouds_update; assumption.
Qed.
Lemma fed_cons r rs : fed (r :: rs) = (fed [r] ++ fed rs)%list.
Proof. unfold fed. cbn [map concat]. rewrite app_nil_r. reflexivity. Qed.
Lemma serve_all_clouds tbl rs : forall fedto w, clouds_of tbl fedto w -> counters_ok (fed rs) -> clouds_of tbl (fedto ++ fed rs)%list (serve_all tbl w rs).1.
Proof.
  induction rs as [|r rs IH]; intros fedto w H C; [unfold fed; cbn; rewrite app_nil_r; exact H|].
  rewrite fed_cons in C |- *. cbn [serve_all].
  pose proof (serve_clouds tbl r fedto w H ltac:(intros x Hx; apply C, in_app_iff; left; exact Hx)) as H1.
  destruct (serve tbl w r) as [w1 a]. cbn [fst] in H1.
  specialize (IH _ _ H1 ltac:(intros x Hx; apply C, in_app_iff; right; exact Hx)).
  destruct (serve_all tbl w1 rs) as [w2 l]. cbn [fst] in *. rewrite <- app_assoc in IH. exact IH.
Qed.

(** * Prometheus *)

Lemma collect_crashes tbl es : collect_loop tbl es = None <-> exists k v c, In ((k, v), Some c) es /\ lookup_sc tbl (ByInt (mk_nr k)) = None.
Proof.
  induction es as [|[[k v] [c|]] es IH]; cbn [collect_loop].
  - split; [discriminate|]. intros (? & ? & ? & [] & _).
  - destruct (lookup_sc tbl (ByInt (mk_nr k))) as [sc|] eqn:L.
    + destruct (collect_loop tbl es).
      * split; [discriminate|]. intros (k' & v' & c' & [H|H] & N); [injection H as -> -> ->; congruence|].
        assert (X : Some l = None) by (apply IH; eauto 10). discriminate.
      * split; [|reflexivity]. intros _. destruct (proj1 IH eq_refl) as (k' & v' & c' & H & N). exists k', v', c'. split; [right; exact H|exact N].
    + split; [|reflexivity]. intros _. exists k, v, c. split; [left; reflexivity|exact L].
  - rewrite IH. split; intros (k' & v' & c' & H & N); exists k', v', c'; (split; [|exact N]).
    + right; exact H.
    + destruct H as [H|H]; [discriminate|exact H].
Qed.

Lemma collect_samples tbl es : forall l, collect_loop tbl es = Some l -> forall s,
  In s l <-> exists k v c ls, In ((k, v), Some c) es /\ label_values tbl k c ls /\
    (s = Sample DCount ls (to_f64 (mv_count v)) \/ s = Sample DTime ls (to_f64 (mv_time v))).
Proof.
  induction es as [|[[k v] [c|]] es IH]; intros l; cbn [collect_loop].
  - intros [= <-] s. split; [contradiction|]. intros (? & ? & ? & ? & [] & _).
  - destruct (lookup_sc tbl (ByInt (mk_nr k))) as [sc|] eqn:L; [|discriminate]. destruct (collect_loop tbl es) as [l'|]; [|discriminate].
    intros [= <-] s. cbn [In]. rewrite (IH _ eq_refl s). split.
    + intros [<-|[<-|(k' & v' & c' & ls & H & H2 & H3)]].
      * exists k, v, c, (labels sc c k). split; [left; reflexivity|]. split; [exists sc; split; [exact L|reflexivity]|left; reflexivity].
      * exists k, v, c, (labels sc c k). split; [left; reflexivity|]. split; [exists sc; split; [exact L|reflexivity]|right; reflexivity].
      * exists k', v', c', ls. split; [right; exact H|]. split; assumption.
    + intros (k' & v' & c' & ls & [H|H] & H2 & H3).
      * injection H as -> -> ->. destruct H2 as (sc' & L' & ->). rewrite L in L'. injection L' as <-. destruct H3 as [->| ->]; [left; reflexivity|right; left; reflexivity].
      * right. right. exists k', v', c', ls. split; [exact H|]. split; assumption.
  - intros H s. rewrite (IH _ H s). split; intros (k' & v' & c' & ls & H1 & H2); exists k', v', c', ls; (split; [|exact H2]).
    + right; exact H1.
    + destruct H1 as [H1|H1]; [discriminate|exact H1].
Qed.

(** The labels of the entries that are shown, in order. *)
Definition shown (tbl : syscalls) (en : entry) : option (list string) :=
  match en.2 with
  | Some c => match lookup_sc tbl (ByInt (mk_nr en.1.1)) with Some sc => Some (labels sc c en.1.1) | None => None end
  | None => None
  end.
Definition ident (s : sample) : desc * list string := (sm_desc s, sm_labels s).
Lemma collect_idents tbl es : forall l, collect_loop tbl es = Some l -> map ident l = concat (map (fun ls => [(DCount, ls); (DTime, ls)]) (omap (shown tbl) es)).
Proof.
  induction es as [|[[k v] [c|]] es IH]; intros l; cbn [collect_loop].
  - intros [= <-]. reflexivity.
  - destruct (lookup_sc tbl (ByInt (mk_nr k))) as [sc|] eqn:L; [|discriminate]. destruct (collect_loop tbl es) as [l'|]; [|discriminate].
    intros [= <-]. cbn [map omap list_omap]. unfold shown at 1. cbn [fst snd]. rewrite L. cbn [map concat]. rewrite (IH _ eq_refl). reflexivity.
  - intros H. exact (IH _ H).
Qed.
Lemma pairs_in ls (x : list (list string)) d : In (d, ls) (concat (map (fun ls => [(DCount, ls); (DTime, ls)]) x)) <-> In ls x.
Proof.
  rewrite in_concat. split.
  - intros (y & Hy & H). apply in_map_iff in Hy as (z & <- & Hz). cbn in H. destruct H as [H|[H|[]]]; injection H as _ <-; exact Hz.
  - intros H. exists [(DCount, ls); (DTime, ls)]. split; [apply (in_map (fun ls => [(DCount, ls); (DTime, ls)])); exact H|]. destruct d; cbn; tauto.
Qed.
Lemma pairs_nodup (x : list (list string)) : NoDup (concat (map (fun ls => [(DCount, ls); (DTime, ls)]) x)) <-> NoDup x.
Proof.
  induction x as [|ls x IH]; [split; constructor|]. cbn [map concat app]. rewrite !NoDup_cons, IH, not_elem_of_cons, !elem_of_list_In, !pairs_in.
  split; [tauto|]. intros [H1 H2]. split; [|split]; try tauto. split; [discriminate|exact H1].
Qed.

Lemma name_inj tbl n1 n2 sc1 sc2 : go_table tbl -> lookup_sc tbl (ByInt n1) = Some sc1 -> lookup_sc tbl (ByInt n2) = Some sc2 -> sc_name sc1 = sc_name sc2 -> n1 = n2.
Proof.
  intros Ht H1 H2 E. destruct Ht as (walk & Hw & Hs).
  destruct (known_sc tbl n1) as (x1 & X1 & E1 & _); [exists walk; split; assumption|exists sc1; exact H1|].
  destruct (known_sc tbl n2) as (x2 & X2 & E2 & _); [exists walk; split; assumption|exists sc2; exact H2|].
  rewrite H1 in X1. injection X1 as <-. rewrite H2 in X2. injection X2 as <-.
  rewrite <- E1 in H1. rewrite <- E2 in H2.
  apply (lookups_inverse _ _ Hw Hs) in H1. apply (lookups_inverse _ _ Hw Hs) in H2. rewrite E in H1. congruence.
Qed.
Lemma errno_inj e1 e2 : 0 <= e1 -> 0 <= e2 -> errno_to_string e1 = errno_to_string e2 -> e1 = e2 \/ (~ named e1 /\ ~ named e2).
Proof.
  intros P1 P2 E. pose proof (errno_trip errno_names e1 (Permutation_refl _)) as T1. pose proof (errno_trip errno_names e2 (Permutation_refl _)) as T2.
  rewrite E in T1. rewrite T1 in T2. clear T1 E.
  assert (N : forall e, named e <-> existsb (Z.eqb e) (map fst errno_names) = true).
  { intros e. rewrite existsb_exists. split; [intros H; exists e; split; [exact H|apply Z.eqb_refl]|]. intros (x & Hx & H). apply Z.eqb_eq in H. subst x. exact Hx. }
  rewrite !N. destruct (existsb (Z.eqb e1) (map fst errno_names)), (existsb (Z.eqb e2) (map fst errno_names)); [left; exact T2|lia|lia|right].
  split; discriminate.
Qed.
Lemma unnamed_unk e : ~ named e -> errno_to_string e = "UNK".
Proof. intros H. unfold errno_to_string. apply assoc_z_none in H. rewrite H. reflexivity. Qed.

Lemma shown_inj tbl (a b : entry) ls : go_table tbl -> 0 <= mk_err a.1.1 -> 0 <= mk_err b.1.1 -> shown tbl a = Some ls -> shown tbl b = Some ls ->
  a.1.1 = b.1.1 \/ (mk_ns a.1.1 = mk_ns b.1.1 /\ mk_nr a.1.1 = mk_nr b.1.1 /\ ~ named (mk_err a.1.1) /\ ~ named (mk_err b.1.1)).
Proof.
  intros Ht P1 P2 H1 H2. unfold shown in *. destruct a as [[k1 v1] [c1|]], b as [[k2 v2] [c2|]]; try discriminate. cbn [fst snd] in *.
  destruct (lookup_sc tbl (ByInt (mk_nr k1))) as [sc1|] eqn:L1; [|discriminate]. destruct (lookup_sc tbl (ByInt (mk_nr k2))) as [sc2|] eqn:L2; [|discriminate].
  injection H1 as <-. injection H2 as E1 _ _ _ _ _ E2 E3. symmetry in E1, E2. apply (inj pretty) in E3.
  pose proof (name_inj tbl _ _ _ _ Ht L1 L2 E1) as En. destruct (errno_inj _ _ P1 P2 E2) as [E|[N1 N2]].
  - left. destruct k1, k2. cbn in *. congruence.
  - right. split; [congruence|]. split; [exact En|]. split; assumption.
Qed.

Lemma shown_some tbl (en : entry) ls : shown tbl en = Some ls -> is_Some en.2.
Proof. unfold shown. destruct (en.2); [eauto|discriminate]. Qed.
Lemma shown_nodup tbl (es : list entry) : go_table tbl -> NoDup (map (fun en : entry => en.1.1) es) -> (forall en, In en es -> is_Some en.2 -> 0 <= mk_err en.1.1) ->
  NoDup (omap (shown tbl) es) \/ (clash es /\ exists a, In a es /\ is_Some a.2 /\ ~ named (mk_err a.1.1)).
Proof.
  intros Ht. induction es as [|en es IH]; intros N P; [left; constructor|]. cbn [map] in N. apply NoDup_cons in N as [N1 N2].
  destruct IH as [R|[(a & b & Ha & Hb & H) (x & Hx & U)]]; [exact N2|intros x Hx; apply P; right; exact Hx| |].
  2: { right. split; [exists a, b; split; [right; exact Ha|split; [right; exact Hb|exact H]]|exists x; split; [right; exact Hx|exact U]]. }
  cbn [omap list_omap]. destruct (shown tbl en) as [ls|] eqn:S; [|left; exact R].
  destruct (decide (ls ∈ omap (shown tbl) es)) as [H|H]; [|left; constructor; assumption]. right.
  apply elem_of_list_omap in H as (b & Hb & S'). apply elem_of_list_In in Hb.
  pose proof (shown_some _ _ _ S) as I1. pose proof (shown_some _ _ _ S') as I2.
  destruct (shown_inj tbl en b ls Ht (P en (or_introl eq_refl) I1) (P b (or_intror Hb) I2) S S') as [E|(E1 & E2 & U1 & U2)].
  - exfalso. apply N1. rewrite E. apply elem_of_list_In. exact (in_map (fun en : entry => en.1.1) es b Hb).
  - split; [|exists en; split; [left; reflexivity|split; assumption]].
    exists en, b. split; [left; reflexivity|]. split; [right; exact Hb|]. split; [exact I1|].
    split; [exact E1|]. split; [exact E2|]. split; [|split; assumption]. intros E3.
    apply N1. assert (E : en.1.1 = b.1.1) by (destruct (en.1.1), (b.1.1); cbn in *; congruence). rewrite E. apply elem_of_list_In. exact (in_map (fun en : entry => en.1.1) es b Hb).
Qed.
Lemma clash_dup tbl (es : list entry) : steady es -> clash es -> (forall k v c, In ((k, v), Some c) es -> is_Some (lookup_sc tbl (ByInt (mk_nr k)))) ->
  ~ NoDup (omap (shown tbl) es).
Proof.
  intros St (a & b & Ha & Hb & [c Hc] & E1 & E2 & D & U1 & U2) K.
  assert (Hc' : b.2 = Some c) by (rewrite <- Hc; symmetry; apply St; assumption).
  assert (Sa : exists ls, shown tbl a = Some ls /\ shown tbl b = Some ls).
  { destruct a as [[k1 v1] c1], b as [[k2 v2] c2]. cbn [fst snd] in *. subst c1 c2. destruct (K k1 v1 c Ha) as [sc L].
    exists (labels sc c k1). unfold shown. cbn [fst snd]. rewrite <- E2, L. split; [reflexivity|]. unfold labels. rewrite <- E1, (unnamed_unk _ U1), (unnamed_unk _ U2). reflexivity. }
  destruct Sa as (ls & Sa & Sb). intros N.
  assert (Nab : a <> b) by congruence. clear -Ha Hb Sa Sb N Nab.
  induction es as [|x es IH]; [contradiction|]. cbn [omap list_omap] in N.
  assert (G : forall y, In y es -> shown tbl y = Some ls -> ls ∈ omap (shown tbl) es).
  { intros y Hy Sy. apply elem_of_list_omap. exists y. split; [apply elem_of_list_In; exact Hy|exact Sy]. }
  destruct Ha as [->|Ha], Hb as [->|Hb].
  - congruence.
  - rewrite Sa in N. apply NoDup_cons in N as [N _]. exact (N (G b Hb Sb)).
  - rewrite Sb in N. apply NoDup_cons in N as [N _]. exact (N (G a Ha Sa)).
  - apply IH; [exact Ha|exact Hb|]. destruct (shown tbl x); [apply NoDup_cons in N as [_ N]|]; exact N.
Qed.
