(** Proofs about the top command. *)
From Coq Require Import ZArith String Ascii Bool Lia.
From stdpp Require Import base list numbers strings pretty gmap.
From Verif Require Import SyscallModel SyscallSpec CodecModel CodecProofs KernelModel ChartModel ChartSpec ChartProofs TopModel TopSpec.

Local Open Scope string_scope.
Local Open Scope Z_scope.
Local Open Scope list_scope.

(** * Floats *)

Lemma f64_exact x : Z.abs x <= 2 ^ 53 -> f64 x = x.
Proof. intros H. unfold f64. rewrite rnd_upto by lia. lia. Qed.
Lemma to_f64_exact n : 0 <= n <= 2 ^ 53 -> to_f64 n = n.
Proof. intros H. unfold to_f64. apply rnd_upto; lia. Qed.

(** * The counters *)

Definition small (b : Z) (m : gmap tkey Z) : Prop := forall k c, m !! k = Some c -> 0 <= c <= b.
Lemma default_small b m k : 0 <= b -> small b m -> 0 <= default 0 (m !! k) <= b.
Proof. intros B S. destruct (m !! k) as [c|] eqn:E; [exact (S k c E)|cbn; lia]. Qed.
Lemma seen_eq tbl en : seen tbl en = match en.2 with Some o => Some (top_key tbl en.1.1 o, mv_count en.1.2) | None => None end.
Proof. reflexivity. Qed.
(** One turn of the loop, when nothing is rounded. *)
Lemma unit_table tbl b t en : b <= 2 ^ 53 -> small b (t_table t) -> 0 <= mv_count en.1.2 <= b ->
  t_table (top_unit tbl t en) = match seen tbl en with Some (k, c) => <[k := c]> (t_table t) | None => t_table t end.
Proof.
  intros B S C. unfold top_unit, seen. destruct (en.2) as [o|]; [|reflexivity]. cbn [t_table].
  pose proof (default_small b (t_table t) (top_key tbl en.1.1 o) ltac:(lia) S) as D. rewrite to_f64_exact by lia.
  rewrite (f64_exact (mv_count en.1.2 - _)) by lia. f_equal. rewrite f64_exact by lia. lia.
Qed.
Lemma unit_small tbl b t en : b <= 2 ^ 53 -> small b (t_table t) -> 0 <= mv_count en.1.2 <= b -> small b (t_table (top_unit tbl t en)).
Proof.
  intros B S C. rewrite (unit_table tbl b t en B S C). unfold seen. destruct (en.2) as [o|]; [|exact S].
  intros k c. destruct (decide (top_key tbl en.1.1 o = k)) as [<-|N]; [rewrite lookup_insert; intros [= <-]; exact C|rewrite lookup_insert_ne by exact N; apply S].
Qed.
Definition note (tbl : syscalls) (m : gmap tkey Z) (en : entry) : gmap tkey Z := match seen tbl en with Some (k, c) => <[k := c]> m | None => m end.
Lemma tick_table tbl b es : forall t, b <= 2 ^ 53 -> small b (t_table t) -> Forall (fun en : entry => 0 <= mv_count en.1.2 <= b) es ->
  t_table (fold_left (top_unit tbl) es t) = fold_left (note tbl) es (t_table t) /\ small b (t_table (fold_left (top_unit tbl) es t)).
Proof.
  induction es as [|en es IH]; intros t B S F; [auto|]. inversion F as [|? ? C F']; subst. cbn [fold_left].
  destruct (IH (top_unit tbl t en) B (unit_small tbl b t en B S C) F') as [E S']. split; [|exact S']. rewrite E. f_equal. apply (unit_table tbl b t en B S C).
Qed.
Lemma run_table tbl b h : forall m, b <= 2 ^ 53 -> small b m -> Forall (fun en : entry => 0 <= mv_count en.1.2 <= b) (concat h) ->
  (top_run tbl m h).1 = fold_left (note tbl) (concat h) m /\ small b (top_run tbl m h).1.
Proof.
  induction h as [|es h IH]; intros m B S F; [auto|]. cbn [concat] in F. apply Forall_app in F as [F1 F2].
  destruct (tick_table tbl b es (Tick m 0 0) B S F1) as [E S']. cbn [top_run concat]. fold (top_tick tbl m es) in E, S'.
  destruct (IH (t_table (top_tick tbl m es)) B S' F2) as [E2 S2]. destruct (top_run tbl (t_table (top_tick tbl m es)) h) as [m' gs]. cbn [fst] in *.
  split; [|exact S2]. rewrite E2, E, fold_left_app. reflexivity.
Qed.
Lemma note_lookup tbl k es : forall m, fold_left (note tbl) es m !! k = match List.last (map Some (counts_of tbl k es)) None with Some c => Some c | None => m !! k end.
Proof.
  induction es as [|en es IH] using rev_ind; intros m; [reflexivity|]. rewrite fold_left_app. cbn [fold_left].
  unfold counts_of in *. rewrite omap_app. cbn [omap list_omap]. unfold note at 1. destruct (seen tbl en) as [[k' c]|].
  - destruct (decide (k' = k)) as [->|N].
    + rewrite lookup_insert, map_app. cbn [map]. rewrite List.last_last. reflexivity.
    + rewrite lookup_insert_ne by exact N. rewrite app_nil_r. apply IH.
  - rewrite app_nil_r. apply IH.
Qed.
Lemma last_some_map (l : list Z) : List.last (map Some l) None = last l.
Proof. induction l as [|a l IH]; [reflexivity|]. destruct l as [|b l]; [reflexivity|]. exact IH. Qed.
Lemma shown_last tbl h k : exact_counts (concat h) -> (top_run tbl ∅ h).1 !! k = last (counts_of tbl k (concat h)).
Proof.
  intros F. destruct (run_table tbl (2 ^ 53) h ∅ ltac:(lia) ltac:(intros ? ?; rewrite lookup_empty; discriminate) F) as [-> _].
  rewrite note_lookup, last_some_map, lookup_empty. destruct (last _); reflexivity.
Qed.

Lemma counts_app tbl k a b : counts_of tbl k (a ++ b) = counts_of tbl k a ++ counts_of tbl k b.
Proof. unfold counts_of. apply omap_app. Qed.
Lemma counts_none tbl k es : (forall en c, In en es -> seen tbl en = Some (k, c) -> False) -> counts_of tbl k es = [].
Proof.
  induction es as [|en es IH]; intros H; [reflexivity|]. unfold counts_of. cbn [omap list_omap]. destruct (seen tbl en) as [[k' c]|] eqn:S.
  - destruct (decide (k' = k)) as [->|N]; [destruct (H en c (or_introl eq_refl) S)|]. apply IH. intros e x I. apply H. right. exact I.
  - apply IH. intros e x I. apply H. right. exact I.
Qed.
Lemma last_shown tbl h pre en post k c : exact_counts (concat h) -> exact_counts (pre ++ en :: post) -> seen tbl en = Some (k, c) ->
  (forall en' c', In en' post -> seen tbl en' <> Some (k, c')) -> (top_run tbl ∅ (h ++ [pre ++ en :: post])).1 !! k = Some c.
Proof.
  intros F G S N. rewrite shown_last by (unfold exact_counts; rewrite concat_app; cbn [concat]; rewrite app_nil_r; apply Forall_app; split; assumption).
  rewrite concat_app. cbn [concat]. rewrite app_nil_r, !counts_app. change (en :: post) with ([en] ++ post). rewrite counts_app, (counts_none tbl k post), app_nil_r.
  - unfold counts_of at 3. cbn [omap list_omap]. rewrite S. rewrite decide_True by reflexivity. rewrite app_assoc. apply last_snoc.
  - intros e x I E. exact (N e x I E).
Qed.

(** Entries with known names have the same key only if they are of the same metric of the
    same container. *)
Lemma seen_inj tbl a b k ca cb : go_table tbl -> seen tbl a = Some (k, ca) -> seen tbl b = Some (k, cb) ->
  known tbl (mk_nr a.1.1) -> known tbl (mk_nr b.1.1) -> named (mk_err a.1.1) -> 0 <= mk_err a.1.1 -> 0 <= mk_err b.1.1 ->
  a.2 = b.2 /\ mk_nr a.1.1 = mk_nr b.1.1 /\ mk_err a.1.1 = mk_err b.1.1.
Proof.
  intros T Sa Sb [sa La] [sb Lb] Na Pa Pb. unfold seen in *. destruct a as [[k1 v1] [o1|]], b as [[k2 v2] [o2|]]; try discriminate. cbn [fst snd] in *.
  rewrite La in Sa. rewrite Lb in Sb. apply Some_inj in Sa, Sb. apply pair_equal_spec in Sa as [Ea _]. apply pair_equal_spec in Sb as [Eb _]. rewrite <- Ea in Eb. injection Eb as P N C S E. split; [|split].
  - destruct o1, o2. cbn in *. congruence.
  - exact (name_inj tbl _ _ _ _ T La Lb (eq_sym S)).
  - destruct (errno_inj _ _ Pa Pb (eq_sym E)) as [H|[H _]]; [exact H|contradiction].
Qed.
Lemma known_exact tbl h es : go_table tbl -> exact_counts (concat h) -> exact_counts es -> List.NoDup (map (fun en : entry => en.1.1) es) ->
  (forall a b : entry, In a es -> In b es -> is_Some a.2 -> a.2 = b.2 -> mk_ns a.1.1 = mk_ns b.1.1) ->
  (forall a : entry, In a es -> is_Some a.2 -> known tbl (mk_nr a.1.1) /\ named (mk_err a.1.1) /\ 0 <= mk_err a.1.1) ->
  forall en k c, In en es -> seen tbl en = Some (k, c) -> (top_run tbl ∅ (h ++ [es])).1 !! k = Some c.
Proof.
  intros T F G N O K en k c I S. apply in_split in I as (pre & post & ->). apply (last_shown tbl h pre en post k c F G S). intros en' c' I' S'.
  assert (Is : forall x y z, seen tbl x = Some (y, z) -> is_Some x.2) by (intros x y z H; unfold seen in H; destruct (x.2); [eauto|discriminate]).
  assert (I1 : In en (pre ++ en :: post)) by (apply in_app_iff; right; left; reflexivity).
  assert (I2 : In en' (pre ++ en :: post)) by (apply in_app_iff; right; right; exact I').
  destruct (K en I1 (Is _ _ _ S)) as (K1 & M1 & P1). destruct (K en' I2 (Is _ _ _ S')) as (K2 & M2 & P2).
  destruct (seen_inj tbl en en' k c c' T S S' K1 K2 M1 P1 P2) as (E1 & E2 & E3). pose proof (O en en' I1 I2 (Is _ _ _ S) E1) as E4.
  rewrite map_app in N. cbn [map] in N. apply NoDup_remove_2 in N. apply N. apply in_app_iff. right. apply in_map_iff. exists en'. split; [|exact I'].
  destruct (en.1.1), (en'.1.1). cbn in *. congruence.
Qed.

(** * The graphs *)

Definition lsum (e : bool) (l : list (tkey * Z)) : Z := foldr Z.add 0 (map snd (List.filter (fun kc : tkey * Z => Bool.eqb (is_error kc.1) e) l)).
Lemma lsum_cons e kc l : lsum e (kc :: l) = (if Bool.eqb (is_error kc.1) e then kc.2 else 0) + lsum e l.
Proof. unfold lsum. cbn [List.filter]. destruct (Bool.eqb (is_error kc.1) e); reflexivity. Qed.
Lemma lsum_perm e l l' : l ≡ₚ l' -> lsum e l = lsum e l'.
Proof. induction 1 as [|x l l' P IH|x y l|l l1 l2 P1 IH1 P2 IH2]; [reflexivity|rewrite !lsum_cons, IH; reflexivity|rewrite !lsum_cons; rewrite !Z.add_assoc; f_equal; apply Z.add_comm|congruence]. Qed.
Lemma sum_insert e m k v : sum_shown e (<[k := v]> m) = sum_shown e m + (if Bool.eqb (is_error k) e then v - default 0 (m !! k) else 0).
Proof.
  change (sum_shown e (<[k := v]> m)) with (lsum e (map_to_list (<[k := v]> m))). change (sum_shown e m) with (lsum e (map_to_list m)).
  destruct (m !! k) as [c|] eqn:L.
  - assert (E : lsum e (map_to_list m) = (if Bool.eqb (is_error k) e then c else 0) + lsum e (map_to_list (delete k m))).
    { rewrite <- (lsum_perm e _ _ (map_to_list_delete m k c L)). apply (lsum_cons e (k, c)). }
    assert (E' : lsum e (map_to_list (<[k := v]> m)) = (if Bool.eqb (is_error k) e then v else 0) + lsum e (map_to_list (delete k m))).
    { rewrite <- insert_delete_insert. rewrite (lsum_perm e _ _ (map_to_list_insert (delete k m) k v (lookup_delete m k))). apply (lsum_cons e (k, v)). }
    rewrite E, E'. change (default 0 (Some c)) with c. destruct (Bool.eqb (is_error k) e); lia.
  - rewrite (lsum_perm e _ _ (map_to_list_insert m k v L)), (lsum_cons e (k, v)). change (default 0 (@None Z)) with 0. cbn [fst snd]. destruct (Bool.eqb (is_error k) e); lia.
Qed.
Lemma ok_iff e : 0 <= e -> String.eqb (errno_to_string e) "OK" = (e =? 0).
Proof.
  intros P. destruct (Z.eqb_spec e 0) as [->|N]; [reflexivity|]. apply String.eqb_neq. intros E.
  destruct (errno_inj e 0 P ltac:(lia) E) as [H|[_ H]]; [contradiction|]. apply H. unfold named. vm_compute. auto.
Qed.
Lemma unit_sums tbl b t en i : 0 <= i -> (i + 1) * b <= 2 ^ 53 -> 0 <= b -> small b (t_table t) -> 0 <= mv_count en.1.2 <= b /\ 0 <= mk_err en.1.1 ->
  Z.abs (t_total t) <= i * b -> Z.abs (t_error t) <= i * b->
  let t' := top_unit tbl t en in
  small b (t_table t') /\ Z.abs (t_total t') <= (i + 1) * b /\ Z.abs (t_error t') <= (i + 1) * b
  /\ t_total t' - t_total t = sum_shown false (t_table t') - sum_shown false (t_table t)
  /\ t_error t' - t_error t = sum_shown true (t_table t') - sum_shown true (t_table t).
Proof.
  intros I B B0 S [C P] T1 T2. cbv zeta. assert (B' : b <= 2 ^ 53) by nia.
  split; [apply unit_small; assumption|]. rewrite (unit_table tbl b t en B' S C), seen_eq. unfold top_unit. destruct (en.2) as [o|]; [|cbn [t_total t_error]; split; [nia|split; [nia|split; lia]]].
  cbn [t_total t_error]. pose proof (default_small b (t_table t) (top_key tbl en.1.1 o) B0 S) as D. rewrite to_f64_exact by lia.
  rewrite (f64_exact (mv_count en.1.2 - _)) by lia. rewrite !sum_insert. set (k := top_key tbl en.1.1 o) in *.
  assert (K : is_error k = negb (mk_err en.1.1 =? 0)) by (unfold is_error, k, top_key; cbn [snd]; rewrite ok_iff by exact P; reflexivity).
  rewrite K. destruct (mk_err en.1.1 =? 0); cbn [negb Bool.eqb].
  - rewrite f64_exact by nia. split; [nia|split; [nia|split; lia]].
  - rewrite f64_exact by nia. split; [nia|split; [nia|split; lia]].
Qed.
Lemma tick_sums tbl b es : forall t i, 0 <= i -> 0 <= b -> (i + Z.of_nat (length es)) * b <= 2 ^ 53 -> small b (t_table t) ->
  Forall (fun en : entry => 0 <= mv_count en.1.2 <= b /\ 0 <= mk_err en.1.1) es -> Z.abs (t_total t) <= i * b -> Z.abs (t_error t) <= i * b ->
  let t' := fold_left (top_unit tbl) es t in
  small b (t_table t')
  /\ t_total t' - t_total t = sum_shown false (t_table t') - sum_shown false (t_table t)
  /\ t_error t' - t_error t = sum_shown true (t_table t') - sum_shown true (t_table t).
Proof.
  induction es as [|en es IH]; intros t i I B0 B S F T1 T2; [cbn; split; [exact S|split; lia]|]. inversion F as [|? ? C F']; subst.
  cbn [length] in B. rewrite Nat2Z.inj_succ in B.
  destruct (unit_sums tbl b t en i I ltac:(nia) B0 S C T1 T2) as (S' & A1 & A2 & D1 & D2). cbn [fold_left].
  destruct (IH (top_unit tbl t en) (i + 1) ltac:(lia) B0 ltac:(nia) S' F' A1 A2) as (S2 & E1 & E2). split; [exact S2|split; lia].
Qed.
Lemma run_sums tbl n b h : forall m, 0 <= b -> n * b <= 2 ^ 53 -> small b m -> Forall (exact_sums n b) h ->
  let '(m', gs) := top_run tbl m h in
  sum (map fst gs) = sum_shown false m' - sum_shown false m /\ sum (map snd gs) = sum_shown true m' - sum_shown true m.
Proof.
  induction h as [|es h IH]; intros m B0 B S F; [cbn [top_run map sum foldr]; split; cbn; lia|]. inversion F as [|? ? [N C] F']; subst. cbn [top_run].
  destruct (tick_sums tbl b es (Tick m 0 0) 0 ltac:(lia) B0 ltac:(nia) S C ltac:(cbn; lia) ltac:(cbn; lia)) as (S' & E1 & E2).
  fold (top_tick tbl m es) in S', E1, E2. cbn [t_total t_error t_table] in E1, E2. specialize (IH (t_table (top_tick tbl m es)) B0 B S' F').
  destruct (top_run tbl (t_table (top_tick tbl m es)) h) as [m' gs]. destruct IH as [I1 I2].
  split; cbn [map sum foldr fst snd]; unfold sum in *; lia.
Qed.
Lemma graph_sums tbl n b h : 0 <= b -> n * b <= 2 ^ 53 -> Forall (exact_sums n b) h ->
  sum (map fst (top_run tbl ∅ h).2) = sum_shown false (top_run tbl ∅ h).1 /\ sum (map snd (top_run tbl ∅ h).2) = sum_shown true (top_run tbl ∅ h).1.
Proof.
  intros B0 B F. pose proof (run_sums tbl n b h ∅ B0 B ltac:(intros ? ?; rewrite lookup_empty; discriminate) F) as H.
  destruct (top_run tbl ∅ h) as [m' gs]. destruct H as [H1 H2]. cbn [fst snd]. rewrite H1, H2.
  assert (Z0 : forall e, sum_shown e ∅ = 0) by (intros e; unfold sum_shown; rewrite map_to_list_empty; reflexivity). rewrite !Z0. split; lia.
Qed.
Lemma run_app tbl h : forall m g, (top_run tbl m (h ++ g)).1 = (top_run tbl (top_run tbl m h).1 g).1 /\ (top_run tbl m (h ++ g)).2 = (top_run tbl m h).2 ++ (top_run tbl (top_run tbl m h).1 g).2.
Proof.
  induction h as [|es h IH]; intros m g; [split; reflexivity|]. cbn [app top_run]. destruct (IH (t_table (top_tick tbl m es)) g) as [A B].
  destruct (top_run tbl (t_table (top_tick tbl m es)) (h ++ g)), (top_run tbl (t_table (top_tick tbl m es)) h). cbn [fst snd] in *. split; [exact A|cbn [app]; f_equal; exact B].
Qed.
Lemma negative_tick tbl h en k c c' : exact_counts (concat h) -> (top_run tbl ∅ h).1 !! k = Some c -> seen tbl en = Some (k, c') -> 0 <= c' < c -> c <= 2 ^ 53 -> mk_err en.1.1 = 0 ->
  last (top_run tbl ∅ (h ++ [[en]])).2 = Some (c' - c, 0) /\ c' - c < 0.
Proof.
  intros F L S C B E. split; [|lia]. destruct (run_app tbl h ∅ [[en]]) as [_ ->]. cbn [top_run snd]. rewrite last_snoc. f_equal.
  unfold top_tick. cbn [fold_left]. rewrite seen_eq in S. unfold top_unit in *. destruct (en.2) as [o|]; [|discriminate]. apply Some_inj, pair_equal_spec in S as [<- <-]. rewrite E. cbn [Z.eqb negb t_total t_error t_table]. rewrite L. change (default 0 (Some c)) with c.
  rewrite to_f64_exact by lia. rewrite (f64_exact (_ - _)) by lia. rewrite f64_exact by lia. reflexivity.
Qed.
Lemma stays tbl h g k c : exact_counts (concat h) -> exact_counts (concat g) -> (top_run tbl ∅ h).1 !! k = Some c ->
  (forall en c', In en (concat g) -> seen tbl en <> Some (k, c')) -> (top_run tbl ∅ (h ++ g)).1 !! k = Some c.
Proof.
  intros F G L N. rewrite shown_last in L by exact F. rewrite shown_last by (unfold exact_counts; rewrite concat_app; apply Forall_app; split; assumption).
  rewrite concat_app, counts_app, (counts_none tbl k (concat g)), app_nil_r; [exact L|]. intros e x I E. exact (N e x I E).
Qed.

(** * The rows *)

Lemma str_assoc a b c : ((a +:+ b) +:+ c = a +:+ (b +:+ c))%string.
Proof. induction a as [|x a IH]; [reflexivity|]. change ((String x a +:+ b) +:+ c)%string with (String x ((a +:+ b) +:+ c)). change (String x a +:+ (b +:+ c))%string with (String x (a +:+ (b +:+ c))). rewrite IH. reflexivity. Qed.
Lemma first_dot a b r s : no_dot a -> no_dot b -> (a +:+ "." +:+ r = b +:+ "." +:+ s)%string -> a = b /\ r = s.
Proof.
  revert b. induction a as [|x a IH]; intros [|y b] Na Nb E.
  - injection E as E. auto.
  - exfalso. injection E as E1 E2. apply (Nb "" b). rewrite <- E1. reflexivity.
  - exfalso. injection E as E1 E2. apply (Na "" a). rewrite E1. reflexivity.
  - injection E as -> E. destruct (IH b) as [-> ->]; [| |exact E|auto].
    + intros p q H. apply (Na (String y p) q). rewrite H. reflexivity.
    + intros p q H. apply (Nb (String y p) q). rewrite H. reflexivity.
Qed.
Fixpoint srev (s : string) : string := match s with EmptyString => "" | String x s => (srev s +:+ String x "")%string end.
Lemma app_nil_str a : (a +:+ "" = a)%string.
Proof. induction a as [|x a IH]; [reflexivity|]. change (String x a +:+ "")%string with (String x (a +:+ "")). rewrite IH. reflexivity. Qed.
Lemma srev_app a b : srev (a +:+ b)%string = (srev b +:+ srev a)%string.
Proof. induction a as [|x a IH]; [cbn [srev]; rewrite app_nil_str; reflexivity|]. change (String x a +:+ b)%string with (String x (a +:+ b)). cbn [srev]. rewrite IH, str_assoc. reflexivity. Qed.
Lemma srev_srev a : srev (srev a) = a.
Proof. induction a as [|x a IH]; [reflexivity|]. cbn [srev]. rewrite srev_app, IH. reflexivity. Qed.
Lemma no_dot_rev a : no_dot a -> no_dot (srev a).
Proof.
  intros N p q E. apply (N (srev q) (srev p)). rewrite <- (srev_srev a), E, !srev_app. change (srev ".") with "."%string. rewrite str_assoc. reflexivity.
Qed.
Lemma host_inj ctr pod ns ctr' pod' ns' : no_dot ctr -> no_dot ctr' -> no_dot ns -> no_dot ns' ->
  (ctr +:+ "." +:+ pod +:+ "." +:+ ns = ctr' +:+ "." +:+ pod' +:+ "." +:+ ns')%string -> ctr = ctr' /\ pod = pod' /\ ns = ns'.
Proof.
  intros A B C D E. apply first_dot in E as [-> E]; [|assumption|assumption]. split; [reflexivity|].
  apply (f_equal srev) in E. rewrite !srev_app in E. change (srev ".") with "."%string in E. rewrite !str_assoc in E.
  apply (first_dot (srev ns) (srev ns') (srev pod) (srev pod')) in E as [E1 E2]; [|apply no_dot_rev; assumption|apply no_dot_rev; assumption].
  apply (f_equal srev) in E1, E2. rewrite !srev_srev in E1, E2. auto.
Qed.
Lemma rows_of m sorted rate row : sorted ≡ₚ map_to_list m -> (In row (tail (top_rows false rate sorted)) <-> exists pod ns ctr sc err c, m !! (pod, ns, ctr, sc, err) = Some c /\ row = [sc; err; ns; pod; ctr; pretty c; rate (pod, ns, ctr, sc, err)]).
Proof.
  intros P. unfold top_rows. cbn [tail]. rewrite in_map_iff. split.
  - intros ([[[[[pod ns] ctr] sc] err] c] & <- & I). exists pod, ns, ctr, sc, err, c. split; [|reflexivity]. apply elem_of_map_to_list. rewrite <- P. apply elem_of_list_In, I.
  - intros (pod & ns & ctr & sc & err & c & L & ->). exists ((pod, ns, ctr, sc, err), c). split; [reflexivity|]. apply elem_of_list_In. rewrite P. apply elem_of_map_to_list, L.
Qed.
Lemma rows_distinct m sorted rate : sorted ≡ₚ map_to_list m -> NoDup (map (take 5) (tail (top_rows false rate sorted))) /\ length (top_rows false rate sorted) = S (size m).
Proof.
  intros P. split; [|unfold top_rows; cbn [length]; rewrite map_length; rewrite (Permutation_length P); reflexivity].
  unfold top_rows. cbn [tail]. rewrite map_map. assert (N : NoDup (sorted.*1)) by (rewrite P; apply NoDup_fst_map_to_list). clear P m.
  induction sorted as [|[[[[[pod ns] ctr] sc] err] c] sorted IH]; [constructor|]. cbn [fmap list_fmap fst] in N. apply NoDup_cons in N as [N1 N2]. cbn [map]. apply NoDup_cons. split; [|exact (IH N2)].
  intros I. apply N1. apply elem_of_list_In in I. apply in_map_iff in I as ([[[[[pod' ns'] ctr'] sc'] err'] c'] & E & J). cbn [top_row take] in E. injection E as -> -> -> -> ->.
  apply elem_of_list_fmap. eexists (_, c'). split; [|apply elem_of_list_In; exact J]. reflexivity.
Qed.
Lemma host_rows_distinct m sorted rate : sorted ≡ₚ map_to_list m -> (forall pod ns ctr sc err c, m !! (pod, ns, ctr, sc, err) = Some c -> no_dot ns /\ no_dot ctr) ->
  NoDup (map (take 3) (tail (top_rows true rate sorted))).
Proof.
  intros P D. unfold top_rows. cbn [tail]. rewrite map_map. assert (N : NoDup (sorted.*1)) by (rewrite P; apply NoDup_fst_map_to_list).
  assert (D' : forall pod ns ctr sc err c, In ((pod, ns, ctr, sc, err), c) sorted -> no_dot ns /\ no_dot ctr).
  { intros pod ns ctr sc err c I. apply (D pod ns ctr sc err c). apply elem_of_map_to_list. rewrite <- P. apply elem_of_list_In, I. }
  clear P D m. induction sorted as [|[[[[[pod ns] ctr] sc] err] c] sorted IH]; [constructor|]. cbn [fmap list_fmap fst] in N. apply NoDup_cons in N as [N1 N2]. cbn [map]. apply NoDup_cons.
  split; [|apply (IH N2); intros p n x s e z I; apply (D' p n x s e z); right; exact I].
  intros I. apply N1. apply elem_of_list_In in I. apply in_map_iff in I as ([[[[[pod' ns'] ctr'] sc'] err'] c'] & E & J). cbn [top_row take] in E. injection E as E1 E2 E3. subst.
  destruct (D' pod ns ctr sc err c (or_introl eq_refl)) as [A B]. destruct (D' pod' ns' ctr' sc err c' (or_intror J)) as [A' B'].
  apply host_inj in E3 as (-> & -> & ->); [|assumption..]. apply elem_of_list_fmap. eexists (_, c'). split; [|apply elem_of_list_In; exact J]. reflexivity.
Qed.

(** * The lock *)

Definition linv (s : locks) : Prop :=
  match l_main s, l_widget s, l_graph s with
  | MHolds, (W1 | WWait2 | W2 | W3), _ => False
  | MHolds, _, G1 => False
  | MOut, (WWait1 | WWait2), _ => False
  | MOut, _, GWait => False
  | _, _, _ => True
  end.
Lemma linv_step s a : linv s -> linv (lock_step s a).
Proof. destruct s as [[] [] []], a; cbn; auto. Qed.
Lemma linv_run sched s : linv s -> linv (lock_run s sched).
Proof. revert s. induction sched as [|a sched IH]; intros s I; [exact I|]. cbn. apply IH, linv_step, I. Qed.
Lemma exclusive sched : let s := lock_run locks_start sched in l_main s = MHolds -> w_reads (l_widget s) = false /\ g_reads (l_graph s) = false.
Proof. cbv zeta. pose proof (linv_run sched locks_start I) as H. destruct (lock_run locks_start sched) as [[] [] []]; cbn in *; intros E; try discriminate; auto; contradiction. Qed.
Definition caught (s : locks) : Prop := l_main s = MWaits /\ (l_widget s = W1 \/ l_widget s = WWait2).
Lemma stuck_forever sched s : caught s -> caught (lock_run s sched).
Proof.
  revert s. induction sched as [|a sched IH]; intros s C; [exact C|]. cbn. apply IH. destruct s as [m w g]. destruct C as [M W]; cbn in M, W. subst m. destruct W as [->| ->]; destruct a, g; cbn; unfold caught; cbn; auto.
Qed.
Lemma run_app_lock s a b : lock_run s (a ++ b) = lock_run (lock_run s a) b.
Proof. unfold lock_run. apply fold_left_app. Qed.
Lemma frozen_iff sched : let s := lock_run locks_start sched in
  (forall more, l_main (lock_run s more) <> MHolds) <-> caught s.
Proof.
  cbv zeta. split.
  - intros N. pose proof (linv_run sched locks_start I) as H. destruct (lock_run locks_start sched) as [m w g]. unfold caught. cbn [l_widget l_main].
    assert (C : (m = MWaits /\ (w = W1 \/ w = WWait2)) \/ exists more, l_main (lock_run (Locks m w g) more) = MHolds).
    { destruct m, w, g; cbn in H; try contradiction; try (left; split; [reflexivity|auto]; fail); right.
      all: first
        [ exists []; reflexivity
        | exists [Main]; reflexivity
        | exists [Main; Main]; reflexivity
        | exists [Widget; Main]; reflexivity
        | exists [Widget; Main; Main]; reflexivity
        | exists [Graph; Main]; reflexivity
        | exists [Graph; Main; Main]; reflexivity
        | exists [Widget; Graph; Main]; reflexivity
        | exists [Widget; Graph; Main; Main]; reflexivity
        | exists [Widget; Widget; Main]; reflexivity
        | exists [Widget; Widget; Graph; Main]; reflexivity
        | exists [Widget; Widget; Main; Main]; reflexivity
        | exists [Widget; Widget; Graph; Main; Main]; reflexivity
        | exists [Widget; Widget; Widget; Main; Main]; reflexivity
        | exists [Widget; Widget; Widget; Graph; Main; Main]; reflexivity ]. }
    destruct C as [C|(more & C)]; [exact C|destruct (N more C)].
  - intros C more E. destruct (stuck_forever more _ C) as [A _]. congruence.
Qed.
