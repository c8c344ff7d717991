(** Proofs about `swoll trace`: room for the rules, what is read, when it ends. *)
From Coq Require Import ZArith String Lia.
From stdpp Require Import base list numbers strings pretty gmap.
From Verif Require Import SyscallTable SyscallModel SyscallSpec SyscallProofs FilterModel FilterSpec FilterProofs PubSubModel PubSubSpec HashModel HashTop HubModel HubSpec HubProofs HubKernel HubTop HubDeliver
  KernelModel KernelSpec KernelProofs RawModel RawSpec RawProofs DecodeModel DecodeProofs CaptureModel CaptureSpec CaptureProofs LineModel LineSpec LineProofs LineTop
  PlainModel PlainSpec PlainProofs LiveModel LiveSpec LiveProofs.

Local Open Scope string_scope.
Local Open Scope list_scope.
Local Open Scope Z_scope.
Local Opaque gSyscallMap gClassMap table emit.
Local Notation u32 := FilterModel.u32.
Local Notation s32 := FilterModel.s32.

(** * Room for the rules *)

Definition rule_types : list Z := [1; 2 + 2 ^ 14 + 2 ^ 15; 4 + 2 ^ 14; 4].
Definition held (ks : list fkey) (m : kmaps) : Prop :=
  (forall k, is_Some (nfilter m !! k) -> k ∈ ks) /\ (forall ty, is_Some (config m !! ty) -> ty ∈ rule_types).
Definition call_keys (ns : Z) : list fkey := map (fun i => syscall_rule ns (Z.of_nat i)) (seq 0 333).
Definition all_keys (mns kns : list Z) : list fkey :=
  [syscall_rule 0 218; metrics_rule 31337; FKey 4 0 0 (-1)] ++ map metrics_rule kns ++ concat (map call_keys mns).

Lemma all_keys_length mns kns : length (all_keys mns kns) = (3 + length kns + 333 * length mns)%nat.
Proof.
  unfold all_keys. rewrite !app_length, map_length. cbn [length]. assert (E : length (concat (map call_keys mns)) = (333 * length mns)%nat).
  { induction mns as [|ns mns IH]; [reflexivity|]. cbn [map concat]. rewrite app_length, IH. unfold call_keys at 1. rewrite map_length, seq_length. cbn [length]. lia. }
  rewrite E. lia.
Qed.
Lemma call_key_in mns kns ns nr : ns ∈ mns -> 0 <= nr <= 332 -> syscall_rule ns nr ∈ all_keys mns kns.
Proof.
  intros H1 H2. apply elem_of_app. right. apply elem_of_app. right. apply elem_of_list_In, in_concat. exists (call_keys ns). split; [apply in_map, elem_of_list_In, H1|].
  apply in_map_iff. exists (Z.to_nat nr). rewrite Z2Nat.id by lia. split; [reflexivity|]. apply in_seq. lia.
Qed.
Lemma meter_key_in mns kns ns : ns ∈ kns -> metrics_rule ns ∈ all_keys mns kns.
Proof. intros H. apply elem_of_app. right. apply elem_of_app. left. apply elem_of_list_In, in_map, elem_of_list_In, H. Qed.

Lemma held_run ks mode t m : held ks m -> held ks (run_nfilter mode t m).1.
Proof.
  intros [H1 H2]. destruct (run_nfilter_frame mode t m) as [C F]. split.
  - intros k K. apply H1. destruct (F k) as [<-|(v & E & _)]; [exact K|]. exists v. exact E.
  - intros ty K. apply H2. rewrite <- C. exact K.
Qed.
Lemma held_consult ks J tbl : forall os h h' hrs, Forall consult os -> hrun J tbl h os = Ok (h', hrs) -> held ks (maps h) -> held ks (maps h').
Proof.
  induction os as [|o os IH]; intros h h' hrs F R H; cbn [hrun] in R; [injection R as <- <-; exact H|].
  inversion F as [|? ? (mode & t & -> & _) F']; subst. cbn [hstep] in R. pose proof (held_run ks mode t _ H) as H'. destruct (run_nfilter mode t (maps h)) as [m v].
  destruct (hrun J tbl (set_maps h m) os) as [[h2 rs2]| |] eqn:E; [|discriminate..]. injection R as <- <-. exact (IH _ _ _ F' E H').
Qed.
Lemma held_delete ks m m' : config m' = config m -> (nfilter m' = nfilter m \/ exists k, nfilter m' = delete k (nfilter m)) -> held ks m -> held ks m'.
Proof.
  intros C F [H1 H2]. split; [|intros ty K; apply H2; rewrite <- C; exact K]. intros k K. apply H1. destruct F as [<-|(k' & E)]; [exact K|]. rewrite E in K. destruct K as [v K].
  apply lookup_delete_Some in K as [_ K]. exists v. exact K.
Qed.
Lemma held_put ks m r k v : k ∈ ks -> k_flags k ∈ rule_types -> puts_rule m r k v -> held ks m -> held ks r.1.
Proof.
  intros Hk Ht [P1 P2] [H1 H2].
  assert (A : forall k', is_Some (<[k := v]> (nfilter m) !! k') -> k' ∈ ks).
  { intros k' [v' K]. apply lookup_insert_Some in K as [[<- _]|[_ K]]; [exact Hk|]. apply H1. exists v'. exact K. }
  assert (B : forall ty, is_Some (<[k_flags k := 1]> (config m) !! ty) -> ty ∈ rule_types).
  { intros ty [v' K]. apply lookup_insert_Some in K as [[<- _]|[_ K]]; [exact Ht|]. apply H2. exists v'. exact K. }
  destruct (r.2) eqn:E.
  - destruct (P1 eq_refl) as [E1 E2]. unfold held. rewrite E1, E2. split; assumption.
  - destruct (P2 eq_refl) as [N C]. unfold held. rewrite N. split; [exact H1|]. destruct C as [-> | ->]; [exact H2|exact B].
Qed.
Lemma held_room ks m : held ks m -> (length ks < Z.to_nat 65535)%nat -> (size (config m) < config_max)%nat /\ (size (nfilter m) < nfilter_max)%nat.
Proof.
  intros [H1 H2] L. split.
  - pose proof (size_keys (config m) rule_types H2) as S. cbn [rule_types length] in S. assert (N : (4 < N.to_nat 1024)%nat) by lia. exact (Nat.le_lt_trans _ _ _ S N).
  - pose proof (size_keys (nfilter m) ks H1) as S. unfold nfilter_max. eapply Nat.le_lt_trans; [exact S|]. eapply Nat.lt_le_trans; [exact L|]. lia.
Qed.

Lemma held_add_syscall tbl ks nr ns m : go_table tbl -> FilterSpec.kernel_ns ns -> SyscallSpec.known tbl nr -> held ks m -> syscall_rule ns nr ∈ ks -> (length ks < Z.to_nat 65535)%nat ->
  held ks (add_syscall tbl (ByInt nr) ns m).1 /\ (add_syscall tbl (ByInt nr) ns m).2 = true.
Proof.
  intros G P K H Hk L. split.
  - eapply held_put; [exact Hk| |exact (add_syscall_puts tbl nr ns m G K P)|exact H]. right. left.
  - destruct (known_nr tbl nr G K) as (sc & Hl & Hn & R). destruct (held_room ks m H L) as [R1 R2].
    Local Transparent add_syscall. unfold add_syscall, with_rule. rewrite (syscall_new_rule tbl (ByInt nr) sc ns Hl R). unfold add_rule. rewrite (update_room config_max) by exact R1. rewrite (update_room nfilter_max) by exact R2. reflexivity.
    Local Opaque add_syscall.
Qed.
Lemma held_starts tbl id flag ks ns : go_table tbl -> FilterSpec.kernel_ns ns -> (length ks < Z.to_nat 65535)%nat -> (forall nr, 0 <= nr <= 332 -> syscall_rule ns nr ∈ ks) ->
  forall cs h n h' n' ok, (forall nr, Some nr ∈ cs -> SyscallSpec.known tbl nr /\ 0 <= nr <= 332) -> held ks (maps h) ->
  start_calls (the_trace id flag) tbl cs 0 ns h n = Ok (h', (n', ok)) -> held ks (maps h') /\ ok = true.
Proof.
  intros G P L A. induction cs as [|[nr|] cs IH]; intros h n h' n' ok K H S; cbn [start_calls] in S; [injection S as <- <- <-; split; [exact H|reflexivity]| |discriminate].
  destruct (K nr) as [K1 K2]; [left|]. destruct (held_add_syscall tbl ks nr ns (maps h) G P K1 H (A nr K2) L) as [H1 H2].
  assert (E : HubModel.install (the_trace id flag) tbl (push_job (the_trace id flag) h 0 ns nr) 0 ns nr = Ok (add_syscall tbl (ByInt nr) ns (maps h))) by reflexivity.
  rewrite E in S. destruct (add_syscall tbl (ByInt nr) ns (maps h)) as [m b]. cbn [fst snd] in H1, H2. subst b.
  refine (IH _ _ _ _ _ _ _ S); [intros nr' Hn; apply K; right; exact Hn|exact H1].
Qed.

Section trace.
Context (tbl : syscalls) (G : go_table tbl) (id : string) (flag : list string) (p : nat -> trace_event -> printer) (tty : bool) (h0 : hub) (H0 : new_hub tbl = Some h0).
Local Notation J := (the_trace id flag).
Local Notation w0 := (World h0 ∅ ∅ ∅ [] 0).

Lemma start_held ks : syscall_rule 0 218 ∈ ks -> metrics_rule 31337 ∈ ks -> held ks (maps h0).
Proof.
  intros K1 K2. unfold new_hub in H0. destruct (new_hub_maps tbl) as [m|] eqn:E; [|discriminate]. injection H0 as <-. cbn [maps].
  unfold new_hub_maps in E. cbn [filter_self negb] in E.
  assert (H : held ks (KMaps ∅ ∅)) by (split; [intros k|intros ty]; cbn [nfilter config]; rewrite lookup_empty; intros [? ?]; discriminate).
  assert (P1 : puts_rule (KMaps ∅ ∅) (add_syscall tbl (ByString stub_syscall) 0 (KMaps ∅ ∅)) (syscall_rule 0 218) FilterSpec.fresh).
  { Local Transparent add_syscall. unfold add_syscall, with_rule.
    rewrite (syscall_new_rule _ _ (Syscall 218 "sys_set_tid_address" "ProcessManagement" "Threading")); [|rewrite (go_table_eq _ G); exact stub_lookup|cbn; lia].
    apply (add_rule_puts (syscall_rule 0 218) FilterSpec.fresh). Local Opaque add_syscall. }
  pose proof (held_put ks _ _ _ _ K1 ltac:(right; left) P1 H) as H1.
  destruct (add_syscall tbl (ByString stub_syscall) 0 (KMaps ∅ ∅)) as [m2 b2]. destruct b2; [|discriminate E]. cbn [negb fst] in E, H1.
  assert (P2 : puts_rule m2 (add_metrics tbl stub_metrics_ns m2) (metrics_rule 31337) FilterSpec.fresh) by (apply add_metrics_puts; unfold FilterSpec.kernel_ns; lia).
  pose proof (held_put ks _ _ _ _ K2 ltac:(do 2 right; left) P2 H1) as H2.
  destruct (add_metrics tbl stub_metrics_ns m2) as [m3 b3]. destruct b3; [|discriminate E]. cbn [negb fst] in E, H2.
  unfold enable in E. destruct (map_update config_max (config m3) mode_enabled 1) as [c|] eqn:Em; [|discriminate E]. apply map_update_some in Em as ->. cbn [negb] in E. injection E as <-.
  destruct H2 as [A B]. split; [exact A|]. cbn [config]. intros ty [v K]. apply lookup_insert_Some in K as [[<- _]|[_ K]]; [left|]. apply B. exists v. exact K.
Qed.

Lemma metrics_held ks ns m : FKey 4 0 0 (-1) ∈ ks -> metrics_rule (u32 ns) ∈ ks -> held ks m -> held ks (add_metrics tbl ns m).1.
Proof.
  intros K1 K2 H. Local Transparent add_metrics. unfold add_metrics, with_rule. rewrite metrics_new_rule. Local Opaque add_metrics. destruct (ns =? -1).
  - eapply held_put; [exact K1| |apply (add_rule_puts (FKey 4 0 0 0) FilterSpec.fresh)|exact H]. do 3 right. left.
  - eapply held_put; [exact K2| |apply (add_rule_puts (FKey (4 + 2 ^ 14) (u32 ns) 0 0) FilterSpec.fresh)|exact H]. do 2 right. left.
Qed.
Lemma stops_held ks ns : forall cs h h', stop_calls tbl cs ns h = Ok h' -> held ks (maps h) -> held ks (maps h').
Proof.
  induction cs as [|[nr|] cs IH]; intros h h' S H; cbn [stop_calls] in S; [injection S as <-; exact H| |discriminate].
  apply (IH _ _ S). cbn [set_maps maps]. destruct (remove_any tbl (ByInt nr) ns (maps h)) as [C F]. exact (held_delete ks _ _ C F H).
Qed.
Lemma calls_range jb nr : Some nr ∈ calls_of tbl jb -> SyscallSpec.known tbl nr /\ 0 <= nr <= 332.
Proof.
  intros H. split; [exact (calls_known tbl jb nr G H)|]. unfold calls_of in H. rewrite (go_table_eq _ G) in H. apply elem_of_list_In, in_map_iff in H as (s & E & _).
  destruct (lookup_sc table (ByString s)) as [sc|] eqn:L; [|discriminate]. injection E as <-. destruct (lookup_names _ _ L) as (c & g & full & _ & N & _). exact (nr_range _ _ N).
Qed.

Lemma step_held ks w o w' r : (length ks < Z.to_nat 65535)%nat -> real o -> FKey 4 0 0 (-1) ∈ ks ->
  (forall c nr, o = WMatch true c -> 0 <= nr <= 332 -> syscall_rule (ct_ns c) nr ∈ ks) -> (forall ns, o = WMeter true ns -> metrics_rule (u32 ns) ∈ ks) ->
  wstep tbl J p tty w o = Some (w', r) -> held ks (maps (w_hub w)) -> held ks (maps (w_hub w')) /\ forall n, r <> UMatched n false.
Proof.
  intros L Re Ka Km Kk S H. destruct o as [o su sc tr lost|start c|start ns|start c|i]; cbn [wstep] in S.
  - apply Some_inj in S. unfold task_step in S. destruct Re as [Re _]. assert (NU : forall u, o <> KUser u) by (intros u ->; exact Re).
    destruct (task_hub J tbl (w_hub w) (w_metrics w) (w_calls w) o NU) as (os & hrs & R & F). pose proof (held_consult ks J tbl _ _ _ _ F R H) as H'.
    destruct (kstep tbl _ o) as [s ro]. apply pair_equal_spec in S as [<- <-]. cbn [w_hub]. split; [exact H'|discriminate].
  - apply Some_inj, pair_equal_spec in S as [<- <-]. split; [exact H|discriminate].
  - unfold meter_step in S. destruct start; cbn [hstep] in S; apply Some_inj, pair_equal_spec in S as [<- <-]; (split; [|discriminate]); cbn [with_hub w_hub set_maps maps].
    + exact (metrics_held ks ns _ Ka (Kk ns eq_refl) H).
    + destruct (remove_metrics_any tbl ns (maps (w_hub w))) as [C (k & _ & F)]. refine (held_delete ks _ _ C _ H). right. exists k. exact F.
  - unfold match_step in S. destruct (Z.ltb_spec 0 (ct_ns c)) as [P|P]; [|apply Some_inj, pair_equal_spec in S as [<- <-]; split; [exact H|discriminate]].
    cbn [real] in Re. destruct start; cbn [hstep] in S.
    + destruct (on_start J tbl (w_hub w) 0 c) as [[h2 [n ok]]| |] eqn:E; [|discriminate..]. apply Some_inj, pair_equal_spec in S as [<- <-]. unfold on_start in E. cbn [host_selected the_trace j_hosts] in E.
      assert (X : held ks (maps h2) /\ ok = true).
      { eapply held_starts; [exact G|..|exact E]; [unfold FilterSpec.kernel_ns; lia|exact L|intros nr; exact (Km c nr eq_refl)|exact (calls_range (J 0%nat))|exact H]. }
      destruct X as [H1 H2].
      split; [exact H1|]. subst ok. intros n' X. discriminate.
    + destruct (on_stop J tbl (w_hub w) 0 c) as [h2| |] eqn:E; [|discriminate..]. apply Some_inj, pair_equal_spec in S as [<- <-]. unfold on_stop in E. split; [|discriminate].
      refine (stops_held ks _ _ _ _ E _). exact H.
  - unfold read_step in S. destruct (w_ring w !! i) as [[k bs]|]; [|apply Some_inj, pair_equal_spec in S as [<- <-]; split; [exact H|discriminate]].
    destruct (ingest (InBytes bs)) as [t| |]; [| |discriminate].
    + destruct (ingest_bytes bs) as [rw|]; [|discriminate]. destruct (nil_syscall tbl w t); [discriminate|].
      destruct (on_event J (w_hub w) (event_of tbl w t)) as [[h2 ps]| |] eqn:O; [|discriminate..]. apply Some_inj, pair_equal_spec in S as [<- <-]. split; [|discriminate]. cbn [w_hub].
      destruct (on_event_frame _ _ _ _ _ O) as (_ & _ & -> & _). exact H.
    + assert (X : w_hub w' = w_hub w /\ forall n, r <> UMatched n false) by (destruct (ingest_bytes bs); apply Some_inj, pair_equal_spec in S as [<- <-]; split; [reflexivity|discriminate|reflexivity|discriminate]).
      destruct X as [-> X]. split; [exact H|exact X].
Qed.

Lemma rules_fit l w rs : Forall real l -> few_rules l -> wrun tbl J p tty w0 l = Some (w, rs) -> all_installed rs.
Proof.
  intros F FR R. set (mns := elements (list_to_set (matched l) : gset Z)). set (kns := elements (list_to_set (metered l) : gset Z)). set (ks := all_keys mns kns).
  assert (L : (length ks < Z.to_nat 65535)%nat).
  { unfold ks. rewrite all_keys_length. unfold few_rules in FR. change (size (list_to_set (matched l) : gset Z)) with (length mns) in FR. change (size (list_to_set (metered l) : gset Z)) with (length kns) in FR. lia. }
  assert (X : forall l' w' rs', Forall real l' -> (forall ns, ns ∈ matched l' -> ns ∈ mns) -> (forall ns, ns ∈ metered l' -> ns ∈ kns) -> wrun tbl J p tty w0 l' = Some (w', rs') -> held ks (maps (w_hub w')) /\ all_installed rs').
  { intros l'. induction l' as [|o l' IH] using rev_ind; intros w' rs' F' M K R'.
    - cbn [wrun] in R'. injection R' as <- <-. split; [apply start_held; [left|right; left]|]. intros n H. apply not_elem_of_nil in H. exact H.
    - apply wrun_snoc in R' as (w1 & rs1 & r & R' & S & ->). apply Forall_app in F' as [F1 F2]. inversion F2 as [|? ? Ro _]; subst.
      destruct (IH w1 rs1 F1) as [H A]; [intros ns Hn; apply M; unfold matched; rewrite omap_app; apply elem_of_app; left; exact Hn|intros ns Hn; apply K; unfold metered; rewrite omap_app; apply elem_of_app; left; exact Hn|exact R'|].
      destruct (step_held ks w1 o w' r L Ro) as [H' N]; [do 2 right; left| | |exact S|exact H|split; [exact H'|]].
      + intros c nr -> Hn. apply call_key_in; [|exact Hn]. apply M. unfold matched. rewrite omap_app. apply elem_of_app. right. left.
      + intros ns ->. apply meter_key_in, K. unfold metered. rewrite omap_app. apply elem_of_app. right. left.
      + intros n Hn. apply elem_of_app in Hn as [Hn|Hn]; [exact (A n Hn)|]. apply elem_of_list_singleton in Hn. exact (N n (eq_sym Hn)). }
  destruct (X l w rs F) as [_ A]; [intros ns H; apply elem_of_elements, elem_of_list_to_set; exact H..|exact R|exact A].
Qed.

(** * What is on its way *)

Lemma sent_ok l w rs k bs : Forall real l -> wrun tbl J p tty w0 l = Some (w, rs) -> sent_record l rs k bs ->
  exists e su, sends l rs k e su /\ record_of (e, su) bs /\ some_ns (ev_pidns e) /\ asked flag (ev_nr e).
Proof.
  intros F R (o & su & scratch & trailing & r & e & Hl & Hr & He & ->). exists e, su. split; [exists o, scratch, trailing, r; split; [exact Hl|]; split; [exact Hr|exact He]|].
  assert (D : did l k o) by (exists su, scratch, trailing, false; exact Hl).
  pose proof F as F'. rewrite Forall_forall in F'. destruct (F' _ (elem_of_list_lookup_2 _ _ _ Hl)) as (Fo & [_ _ _ _ _ _ S1 S2 S3 S4 S5 S6 S7 S8] & Ls).
  destruct (task_at _ _ _ _ _ _ _ _ _ _ R D) as (wk & Rk & E). rewrite Hr in E. apply Some_inj, utask_inj in E.
  assert (X : surroundings_ok e su /\ some_ns (ev_pidns e) /\ asked flag (ev_nr e)).
  { destruct (sent_from tbl (kernel_of wk) o e) as [(tid & t & ret & now & cpu & ->)|(tid & t & args & ugid & now & cpu & ->)]; [rewrite <- E; exact He| |].
    - destruct (proj1 (exit_iff _ _ _ _ _ _ _ _ _ _ _ _ _ _ _ _ (w0_fresh h0) R D Hr) He) as (Hc & i & t0 & args & ugid & now0 & Hik & Hi & Hs & Hj & Hid & ->).
      destruct (kept_sound tbl G id flag p tty h0 H0 _ _ _ _ _ _ _ _ _ F R Hi Hs) as (N1 & N2 & N3). rewrite Hid in N3.
      destruct (real_did _ _ _ F Hi) as (A1 & A2 & A3 & A4). destruct Fo as (B1 & B2 & B3). unfold word, some_ns in *.
      assert (U : 0 <= u32 (t_id t) < 2 ^ 32) by (apply Z.mod_pos_bound; lia).
      split; [|split; [exact B3|exact N3]]. split; cbn [ev_tid ev_ugid ev_nr ev_entr ev_exit ev_pidns]; try assumption; lia.
    - destruct (sent_execve_sound tbl G id flag p tty h0 H0 _ _ _ _ _ _ _ _ _ _ _ _ F R D Hr He) as (Hc & A & N & ->).
      destruct Fo as (B1 & B2 & B3 & B4 & B5). unfold word, some_ns in *. split; [|split; [exact B4|exact A]].
      split; cbn [ev_tid ev_ugid ev_nr ev_entr ev_exit ev_pidns]; try assumption; lia. }
  destruct X as (X1 & X2 & X3). split; [|split; [exact X2|exact X3]]. split; [exact X1|]. exists scratch, trailing. split; [exact Ls|reflexivity].
Qed.

Lemma ingest_sent e su bs : record_of (e, su) bs ->
  exists r, ingest_bytes bs = Some r /\ length (r_args r) = 640%nat /\
  match decoder (ev_nr e) with
  | None => ingest (InBytes bs) = IngestPanic
  | Some fs => exists t, ingest (InBytes bs) = Ingested t /\ t_syscall t = ev_nr e /\ t_pid_ns t = ev_pidns e /\ t_comm t = until_nul (su_comm su)
      /\ decode_fields (r_args r) fs = Some (t_argv t)
  end.
Proof.
  intros Hr. destruct (ingest_record e su bs Hr) as (r & H1 & _ & H2 & H3). exists r. split; [exact H1|]. split; [exact H2|]. destruct (decoder (ev_nr e)) as [fs|] eqn:D; [|exact H3].
  destruct H3 as (t & Hi & A1 & _ & A3 & A4). exists t. split; [exact Hi|]. split; [exact A1|]. split; [|split; [exact A3|exact A4]].
  destruct Hr as (S & scratch & trailing & L & ->). destruct (end_to_end e su scratch trailing fs S L D) as (t' & Hi' & _ & _ & _ & _ & _ & B & _).
  change (ingest (InKernelEvent (emit e su scratch ++ trailing))) with (ingest (InBytes (emit e su scratch ++ trailing))) in Hi. rewrite Hi in Hi'. injection Hi' as <-. exact B.
Qed.

Lemma read_at l w rs q k ps line : wrun tbl J p tty w0 l = Some (w, rs) -> rs !! q = Some (URead k ps line) ->
  exists i wq wq', l !! q = Some (WRead i) /\ wrun tbl J p tty w0 (take q l) = Some (wq, take q rs) /\ read_step tbl J p tty wq i = Some (wq', URead k ps line).
Proof.
  intros R Hq. pose proof (wrun_length _ _ _ _ _ _ _ _ R) as Len. destruct (l !! q) as [o|] eqn:Hl; [|apply lookup_ge_None in Hl; apply lookup_lt_Some in Hq; lia].
  destruct (wrun_at _ _ _ _ _ _ _ _ _ _ R Hl) as (wq & wq' & r & Rq & S & Hr & _). rewrite Hq in Hr. apply Some_inj in Hr. subst r.
  pose proof (step_ring _ _ _ _ _ _ _ _ S) as E. destruct o as [o su sc tr lost|start c|start ns|start c|i].
  - destruct E as (r' & E & _). discriminate.
  - destruct E as [_ E]. destruct (E k ps line eq_refl).
  - destruct E as [_ E]. destruct (E k ps line eq_refl).
  - destruct E as [_ E]. destruct (E k ps line eq_refl).
  - exists i, wq, wq'. split; [reflexivity|]. split; [exact Rq|exact S].
Qed.

(** * How often *)

Fixpoint places {A} (f : A -> bool) (n : nat) (l : list A) : list nat :=
  match l with [] => [] | x :: l => if f x then n :: places f (S n) l else places f (S n) l end.
Lemma places_elem {A} (f : A -> bool) l : forall n k, k ∈ places f n l <-> (n <= k)%nat /\ exists x, l !! (k - n)%nat = Some x /\ f x = true.
Proof.
  induction l as [|x l IH]; intros n k; cbn [places].
  - split; [intros H; apply not_elem_of_nil in H; contradiction|intros (_ & x & H & _); rewrite lookup_nil in H; discriminate].
  - assert (X : (k ∈ places f (S n) l) <-> (n < k)%nat /\ exists y, (x :: l) !! (k - n)%nat = Some y /\ f y = true).
    { rewrite IH. split; intros (H1 & y & H2 & H3); (split; [lia|]); exists y; (split; [|exact H3]).
      - replace (k - n)%nat with (S (k - S n)) by lia. exact H2.
      - replace (k - n)%nat with (S (k - S n)) in H2 by lia. exact H2. }
    destruct (f x) eqn:E.
    + rewrite elem_of_cons, X. split.
      * intros [->|(H1 & H2)]; [split; [lia|]; exists x; rewrite Nat.sub_diag; split; [reflexivity|exact E]|split; [lia|exact H2]].
      * intros (H1 & y & H2 & H3). destruct (decide (k = n)) as [->|Hne]; [left; reflexivity|right]. split; [lia|]. exists y. split; assumption.
    + rewrite X. split; intros (H1 & y & H2 & H3); (split; [|exists y; split; assumption]); [lia|].
      destruct (decide (k = n)) as [->|Hne]; [|lia]. rewrite Nat.sub_diag in H2. injection H2 as <-. congruence.
Qed.
Lemma places_nodup {A} (f : A -> bool) l : forall n, NoDup (places f n l).
Proof.
  induction l as [|x l IH]; intros n; cbn [places]; [constructor|]. destruct (f x); [|apply IH]. constructor; [|apply IH]. intros H. apply places_elem in H as [H _]. lia.
Qed.
Lemma places_length {A} (f : A -> bool) l : forall n, length (places f n l) = length (List.filter f l).
Proof. induction l as [|x l IH]; intros n; cbn [places List.filter]; [reflexivity|]. destruct (f x); cbn [length]; rewrite IH; reflexivity. Qed.
Lemma counted {A} (f : A -> bool) (P : A -> Prop) l ks : (forall x, f x = true <-> P x) -> NoDup ks -> (forall k, k ∈ ks <-> exists x, l !! k = Some x /\ P x) ->
  length ks = length (List.filter f l).
Proof.
  intros E N M. rewrite <- (places_length f l 0). apply Permutation_length, NoDup_Permutation; [exact N|apply places_nodup|]. intros k. rewrite M, places_elem. rewrite Nat.sub_0_r. split.
  - intros (x & H1 & H2). split; [lia|]. exists x. split; [exact H1|]. apply E, H2.
  - intros (_ & x & H1 & H2). exists x. split; [exact H1|]. apply E, H2.
Qed.

Definition is_match (ns : Z) (o : wop) : bool := match o with WMatch true c => ct_ns c =? ns | _ => false end.
Lemma reports_length l ns n : reports l ns n -> n = length (List.filter (is_match ns) l).
Proof.
  intros (ks & N & <- & M). apply (counted (is_match ns) (fun o => exists c, o = WMatch true c /\ ct_ns c = ns)); [|exact N|].
  - intros [? ? ? ? ?|? ?|? ?|[] c|?]; cbn [is_match]; (split; [try discriminate|intros (c' & E & H); try discriminate E]).
    + intros H. exists c. split; [reflexivity|lia].
    + injection E as <-. lia.
  - intros k. rewrite M. split; [intros (c & H1 & H2); exists (WMatch true c); split; [exact H1|]; exists c; split; [reflexivity|exact H2]|intros (x & H1 & c & -> & H2); exists c; split; assumption].
Qed.
Definition is_nr (nr : Z) (name : string) : bool := match lookup_sc table (ByString name) with Some sc => sc_nr sc =? nr | None => false end.
Lemma is_nr_names nr name : is_nr nr name = true <-> names_call name nr.
Proof.
  unfold is_nr. split.
  - destruct (lookup_sc table (ByString name)) as [sc|] eqn:L; [|discriminate]. intros H. apply Z.eqb_eq in H. subst nr. exact (lookup_names _ _ L).
  - intros H. destruct (names_lookup _ _ H) as (sc & -> & <-). apply Z.eqb_refl.
Qed.
Lemma mentions_length nr m : mentions flag nr m -> m = length (filter (fun n => n = nr) (job_nrs tbl (J 0%nat))).
Proof.
  intros (js & N & <- & M). transitivity (length (List.filter (is_nr nr) (flag_calls flag))).
  - apply (counted (is_nr nr) (fun name => names_call name nr)); [apply is_nr_names|exact N|exact M].
  - unfold job_nrs. cbn [the_trace j_calls]. rewrite (go_table_eq _ G). generalize (flag_calls flag). intros names. induction names as [|name names IH]; [reflexivity|].
    cbn [List.filter omap list_omap]. unfold is_nr at 1. destruct (lookup_sc table (ByString name)) as [sc|]; [|exact IH]. rewrite filter_cons. destruct (Z.eqb_spec (sc_nr sc) nr) as [E|E].
    + rewrite decide_True by exact E. cbn [length]. f_equal. exact IH.
    + rewrite decide_False by exact E. exact IH.
Qed.
Lemma regs_at_made ns nr ns' nrs : length (regs_at ns nr (map (HubSpec.Reg 0 ns') nrs)) = if decide (ns' = ns) then length (filter (fun n => n = nr) nrs) else 0%nat.
Proof.
  induction nrs as [|n nrs IH]; [destruct (decide _); reflexivity|]. cbn [map]. unfold regs_at in *. rewrite !filter_cons. cbn [g_ns g_nr].
  destruct (decide (ns' = ns)) as [E|E].
  - destruct (decide (n = nr)) as [E'|E'].
    + rewrite decide_True by (split; assumption). cbn [length]. f_equal. exact IH.
    + rewrite decide_False by (intros [_ X]; contradiction). exact IH.
  - rewrite decide_False by (intros [X _]; contradiction). exact IH.
Qed.
Lemma regs_count l w rs ns nr : 0 < ns -> wrun tbl J p tty w0 l = Some (w, rs) -> all_installed rs ->
  length (regs_at ns nr (all_regs tbl J l rs)) = (length (List.filter (is_match ns) l) * length (filter (fun n => n = nr) (job_nrs tbl (J 0%nat))))%nat.
Proof.
  intros P. revert w rs. induction l as [|o l IH] using rev_ind; intros w rs R A.
  - cbn [wrun] in R. injection R as <- <-. reflexivity.
  - pose proof R as R'. apply wrun_snoc in R as (w1 & rs1 & r & R & S & ->). rewrite all_regs_snoc by exact (wrun_length _ _ _ _ _ _ _ _ R).
    unfold regs_at in *. rewrite filter_app, app_length. rewrite (IH w1 rs1 R) by (intros n Hn; apply (A n), elem_of_app; left; exact Hn).
    rewrite List.filter_app, app_length. cbn [List.filter]. fold (regs_at ns nr (regs_made tbl J (o, r))).
    destruct o as [? ? ? ? ?|? ?|? ?|[] c|?]; cbn [is_match regs_made]; try (cbn; lia).
    destruct (Z.eqb_spec (ct_ns c) ns) as [E|E].
    + destruct (match_out _ _ _ _ _ _ _ _ (length l) c R') as (n & ok & Hr); [rewrite lookup_app_r, Nat.sub_diag by lia; reflexivity|lia|].
      rewrite lookup_app_r, <- (wrun_length _ _ _ _ _ _ _ _ R), Nat.sub_diag in Hr by (rewrite (wrun_length _ _ _ _ _ _ _ _ R); lia). injection Hr as ->.
      assert (ok = true) as -> by (destruct ok; [reflexivity|destruct (A n); apply elem_of_app; right; left]).
      rewrite regs_at_made, decide_True by exact E. cbn [length]. lia.
    + destruct r as [|?|n ok|? ? ?]; try (cbn; lia). rewrite regs_at_made, decide_False by exact E. cbn [length]. lia.
Qed.

(** * What is read *)

Lemma take_all_installed l w rs q : wrun tbl J p tty w0 l = Some (w, rs) -> all_installed rs -> all_installed (take q rs).
Proof. intros _ A. apply installed_take. exact A. Qed.

Lemma line_shape_c (a ms b n1 name sep n2 comm c res d call e args f nl : list Z) :
  (a ++ ms ++ b ++ ((n1 ++ name) ++ sep ++ (n2 ++ comm) ++ c) ++ res ++ d ++ call ++ e) ++ args ++ f ++ nl
  = a ++ ms ++ b ++ n1 ++ name ++ sep ++ n2 ++ comm ++ c ++ res ++ d ++ call ++ e ++ args ++ f ++ nl.
Proof. rewrite <- !app_assoc. reflexivity. Qed.

Lemma container_line pr c e su t raw out : t_syscall t = ev_nr e -> t_comm t = until_nul (su_comm su) -> decoder (ev_nr e) <> None ->
  cli_output pr tty false (shown_container (Some c)) t raw = Some out -> names_container tty c e su out.
Proof.
  intros Ht Hc D. destruct (decoder (ev_nr e)) as [fs|] eqn:E; [|contradiction]. destruct (prototype_of _ _ E) as (name & params & shs & Pn & Cn).
  unfold cli_output. rewrite Ht, Cn. destruct (arguments pr (ev_nr e) raw (t_argv t)) as [args|]; [|discriminate]. intros H. apply Some_inj in H. subst out.
  unfold names_container.
  exists name, params, (latency_text pr tty (latency (t_start t) (t_finish t))), (35 - runes (paint tty Green (fqdn (shown_container (Some c)))))%nat, (9 - runes (t_comm t))%nat,
    (right_align 11 (error_text tty (t_error t))), (join (txt ", ") (map (one_arg tty) args)).
  split; [exact Pn|]. rewrite <- Hc, <- !txt_bytes. unfold header. cbv iota. unfold right_align at 1 2, blanks at 1 2. rewrite line_shape_c. reflexivity.
Qed.

Lemma List_filter_map_some {A} (f : nat -> A) (l : list nat) : List.filter (fun x : option nat * A => match fst x with Some _ => true | None => false end) (map (fun j => (Some j, f j)) l) = map (fun j => (Some j, f j)) l.
Proof. induction l as [|x l IH]; [reflexivity|]. cbn [map List.filter fst]. f_equal. exact IH. Qed.

Lemma line_read l w rs q k ps line : Forall real l -> wrun tbl J p tty w0 l = Some (w, rs) -> rs !! q = Some (URead k ps line) ->
  exists e su bs t rw n, sends l rs k e su /\ record_of (e, su) bs /\ ingest (InBytes bs) = Ingested t /\ ingest_bytes bs = Some rw
    /\ forall c, LiveSpec.known (take q l) (ev_pidns e) c -> cli_output (p n t) tty false (shown_container (Some c)) t (r_args rw) = line.
Proof.
  intros F R Hq. destruct (read_at _ _ _ _ _ _ _ R Hq) as (i & wq & wq' & Hl & Rq & S).
  destruct (ring_spec _ _ _ _ _ (w0_fresh h0) _ _ _ Rq) as [[_ M] _].
  destruct (read_cases _ _ _ _ _ _ _ _ S) as (_ & _ & _ & [(_ & X & _)|(k' & bs & Hi & _ & Hx)]); [discriminate|].
  assert (k' = k) as -> by (destruct Hx as [[X _]|(t & rw & ps' & _ & _ & _ & X)]; injection X; congruence).
  destruct (proj1 (M k bs) (elem_of_list_lookup_2 _ _ _ Hi)) as [Sr _].
  destruct (sent_ok _ _ _ _ _ (real_take l q F) Rq Sr) as (e & su & Se & Rec & P & As).
  assert (Se' : sends l rs k e su).
  { destruct Se as (o & sc & tr & r & H1 & H2 & H3). exists o, sc, tr, r. apply lookup_take_Some in H1 as [H1 _]. apply lookup_take_Some in H2 as [H2 _]. split; [exact H1|]. split; [exact H2|exact H3]. }
  destruct (ingest_sent e su bs Rec) as (rw & Hb & Len & Hd).
  destruct Hx as [[_ X]|(t & rw' & ps' & Ht & Hb' & O & X)]; [destruct (decoder (ev_nr e)); [destruct Hd as (t & Hd & _); rewrite X in Hd; discriminate|rewrite X in Hd; discriminate]|].
  rewrite Hb in Hb'. apply Some_inj in Hb'. subst rw'.
  destruct (decoder (ev_nr e)) as [fs|] eqn:D; [|rewrite Ht in Hd; discriminate]. destruct Hd as (t' & Ht' & T1 & T2 & T3 & T4). rewrite Ht in Ht'. injection Ht' as <-.
  exists e, su, bs, t, rw, (w_now wq). split; [exact Se'|]. split; [exact Rec|]. split; [exact Ht|]. split; [exact Hb|]. intros c Kc.
  destruct (cache_known _ _ _ _ _ (w0_fresh h0) _ _ _ Rq) as [_ Ck]. unfold some_ns in P. apply Ck in Kc; [|lia].
  injection X. intros Li _. rewrite Li, T2, Kc. reflexivity.
Qed.

Lemma what_is_read l w rs q k ps line : Forall real l -> wrun tbl J p tty w0 l = Some (w, rs) -> rs !! q = Some (URead k ps line) ->
  exists e su, (k < q)%nat /\ sends l rs k e su /\ decoder (ev_nr e) <> None
    /\ (forall c, LiveSpec.known (take q l) (ev_pidns e) c -> exists out, line = Some out /\ names_container tty c e su out)
    /\ ((forall c, ~ LiveSpec.known (take q l) (ev_pidns e) c) -> ps = [])
    /\ forall c n m, LiveSpec.known (take q l) (ev_pidns e) c -> all_installed rs -> reports (take q l) (ev_pidns e) n -> mentions flag (ev_nr e) m ->
         for_trace ps = (n * m)%nat /\ forall srt sb cs, sort_contract srt -> s_shard sb = "" -> s_path sb = attach_trace id -> cli_job_id id -> deliver (subscribed srt sb) ps cs -> times (s_handle sb) cs = (n * m)%nat.
Proof.
  intros F R Hq. destruct (read_at _ _ _ _ _ _ _ R Hq) as (i & wq & wq' & Hl & Rq & S).
  destruct (ring_spec _ _ _ _ _ (w0_fresh h0) _ _ _ Rq) as [[_ M] _]. destruct (ring_spec _ _ _ _ _ (w0_fresh h0) _ _ _ R) as [_ Old].
  pose proof (Old q k ltac:(exists ps, line; exact Hq)) as Lt.
  destruct (read_cases _ _ _ _ _ _ _ _ S) as (_ & _ & _ & [(_ & X & _)|(k' & bs & Hi & _ & Hx)]); [discriminate|].
  assert (k' = k) as -> by (destruct Hx as [[X _]|(t & rw & ps' & _ & _ & _ & X)]; injection X; congruence).
  destruct (proj1 (M k bs) (elem_of_list_lookup_2 _ _ _ Hi)) as [Sr _].
  destruct (sent_ok _ _ _ _ _ (real_take l q F) Rq Sr) as (e & su & Se & Rec & P & As). exists e, su. split; [exact Lt|].
  assert (Se' : sends l rs k e su).
  { destruct Se as (o & sc & tr & r & H1 & H2 & H3). exists o, sc, tr, r. apply lookup_take_Some in H1 as [H1 _]. apply lookup_take_Some in H2 as [H2 _]. split; [exact H1|]. split; [exact H2|exact H3]. }
  split; [exact Se'|]. destruct (ingest_sent e su bs Rec) as (rw & Hb & Len & Hd).
  destruct Hx as [[_ X]|(t & rw' & ps' & Ht & Hb' & O & X)]; [destruct (decoder (ev_nr e)); [destruct Hd as (t & Hd & _); rewrite X in Hd; discriminate|rewrite X in Hd; discriminate]|].
  rewrite Hb in Hb'. apply Some_inj in Hb'. subst rw'.
  destruct (decoder (ev_nr e)) as [fs|] eqn:D; [|rewrite Ht in Hd; discriminate]. destruct Hd as (t' & Ht' & T1 & T2 & T3 & T4). rewrite Ht in Ht'. injection Ht' as <-.
  assert (ps' = ps /\ cli_output (p (w_now wq) t) tty false (shown_container (w_cache wq !! t_pid_ns t)) t (r_args rw) = line) as [-> Li] by (injection X; intros; split; congruence). clear X.
  destruct (cache_known _ _ _ _ _ (w0_fresh h0) _ _ _ Rq) as [_ Ck]. specialize (Ck (ev_pidns e)). unfold some_ns in P.
  rewrite T2 in Li. unfold event_of in O. rewrite T1, T2 in O. split; [discriminate|]. split; [|split].
  - intros c Kc. apply Ck in Kc; [|lia]. rewrite Kc in Li. pose proof D as D'. rewrite <- T1 in D'. destruct (prints (p (w_now wq) t) tty false (shown_container (Some c)) t (r_args rw) fs Len D' T4) as (out & Ho).
    exists out. split; [rewrite <- Li; exact Ho|]. eapply container_line; [exact T1|exact T3|rewrite D; discriminate|exact Ho].
  - intros N. destruct (w_cache wq !! ev_pidns e) as [c|] eqn:Kc; [destruct (N c); apply Ck; [lia|reflexivity]|]. unfold on_event in O. cbn [e_container] in O. injection O as _ <-. reflexivity.
  - intros c n m Kc A Rn Mn. apply Ck in Kc; [|lia]. rewrite Kc in O.
    destruct (run_inv tbl J p tty h0 w0 (trace_one id flag) H0 eq_refl _ _ _ (real_take l q F) Rq) as (os & hrs & I). destruct I as [I1 I2 I3 I4 I5 I6].
    set (ev := Event (ev_pidns e) (ev_nr e) (match lookup_sc tbl (ByInt (ev_nr e)) with Some sc => sc_name sc | None => "" end) (Some c)) in O.
    assert (Hs : hstep J tbl (w_hub wq) (OEvent ev) = Ok (w_hub wq', RPublished ps)) by (cbn [hstep]; rewrite O; reflexivity).
    pose proof (regs_count (take q l) wq (take q rs) (ev_pidns e) (ev_nr e) ltac:(lia) Rq (installed_take rs q A)) as Cn.
    rewrite <- (reports_length _ _ _ Rn), <- (mentions_length _ _ Mn) in Cn. split.
    + pose proof (event_exact J tbl h0 os (w_hub wq) hrs ev (w_hub wq') ps H0 I1 Hs) as Ex. cbn [ev e_container e_ns e_nr] in Ex. rewrite I6 in Ex.
      destruct (regs_at (ev_pidns e) (ev_nr e) (all_regs tbl J (take q l) (take q rs))) as [|g L]; [rewrite Ex, <- Cn; reflexivity|].
      destruct Ex as (qs & -> & _ & Eq). rewrite <- Cn. unfold for_trace. cbn [List.filter fst].
      assert (All : forall l' : list nat, filter (fun j => j_rate (J j) <= 0) l' = l') by (clear; intros l'; induction l' as [|x l' IH]; [reflexivity|]; rewrite filter_cons, decide_True by (cbn; lia); f_equal; exact IH).
      rewrite !All in Eq. subst qs. rewrite List_filter_map_some. rewrite !map_length. reflexivity.
    + intros srt sb cs Srt Sh Pa Cj Del.
      rewrite (job_subscriber_gets J tbl h0 os (w_hub wq) hrs ev c (w_hub wq') ps srt sb id cs H0 I1 Hs eq_refl) by first [assumption|intros g _; split; [exact Cj|cbn; lia]].
      cbn [ev e_ns e_nr]. rewrite I6, <- Cn.
      f_equal. unfold regs_of. generalize (regs_at (ev_pidns e) (ev_nr e) (all_regs tbl J (take q l) (take q rs))). intros L. induction L as [|g L IH]; [reflexivity|].
      rewrite filter_cons, decide_True by reflexivity. f_equal. exact IH.
Qed.

Lemma read_once l w rs q q' k ps line ps' line' : wrun tbl J p tty w0 l = Some (w, rs) ->
  rs !! q = Some (URead k ps line) -> rs !! q' = Some (URead k ps' line') -> q = q'.
Proof.
  assert (X : forall q q' ps line ps' line', wrun tbl J p tty w0 l = Some (w, rs) -> rs !! q = Some (URead k ps line) -> rs !! q' = Some (URead k ps' line') -> ~ (q < q')%nat).
  { clear. intros q q' ps line ps' line' R H1 H2 Lt. destruct (read_at _ _ _ _ _ _ _ R H2) as (i & wq & wq' & _ & Rq & S).
    destruct (ring_spec _ _ _ _ _ (w0_fresh h0) _ _ _ Rq) as [[_ M] _]. destruct (read_cases _ _ _ _ _ _ _ _ S) as (_ & _ & _ & [(_ & X & _)|(k' & bs & Hi & _ & Hx)]); [discriminate|].
    assert (k' = k) as -> by (destruct Hx as [[X _]|(t & rw & ps'' & _ & _ & _ & X)]; injection X; congruence).
    destruct (proj1 (M k bs) (elem_of_list_lookup_2 _ _ _ Hi)) as [_ N]. apply (N q). exists ps, line. rewrite lookup_take by exact Lt. exact H1. }
  intros R H1 H2. pose proof (X q q' ps line ps' line' R H1 H2). pose proof (X q' q ps' line' ps line R H2 H1). lia.
Qed.
Lemma none_lost l w rs k e su : wrun tbl J p tty w0 l = Some (w, rs) -> sends l rs k e su ->
  (exists q ps line, (k < q)%nat /\ rs !! q = Some (URead k ps line)) \/ exists bs, (k, bs) ∈ w_ring w.
Proof.
  intros R (o & sc & tr & r & H1 & H2 & H3). destruct (ring_spec _ _ _ _ _ (w0_fresh h0) _ _ _ R) as [[_ M] Old].
  destruct (existsb (fun x => match x with URead k' _ _ => (k' =? k)%nat | _ => false end) rs) eqn:D.
  - left. apply existsb_exists in D as (x & Hx & Hk). apply elem_of_list_In, elem_of_list_lookup in Hx as (q & Hq). destruct x as [|?|? ?|k' ps line]; try discriminate Hk. apply Nat.eqb_eq in Hk. subst k'.
    exists q, ps, line. split; [|exact Hq]. apply Old. exists ps, line. exact Hq.
  - right. exists (emit e su sc ++ tr). apply M. split; [exists o, su, sc, tr, r, e; repeat split; assumption|]. intros q (ps & line & Hq).
    assert (X : existsb (fun x => match x with URead k' _ _ => (k' =? k)%nat | _ => false end) rs = true); [|congruence].
    apply existsb_exists. exists (URead k ps line). split; [apply elem_of_list_In; exact (elem_of_list_lookup_2 _ _ _ Hq)|apply Nat.eqb_refl].
Qed.

(** * When it ends *)

Lemma stop_not_fatal : forall cs ns h, stop_calls tbl cs ns h <> Fatal.
Proof. induction cs as [|[nr|] cs IH]; intros ns h; cbn [stop_calls]; [discriminate|apply IH|discriminate]. Qed.
Lemma names_known name nr : names_call name nr -> SyscallSpec.known tbl nr.
Proof.
  intros H. destruct (names_lookup _ _ H) as (sc & L & <-). rewrite (go_table_eq _ G). exact (ex_intro _ sc (lookup_string_known _ _ _ go_table_intro L)).
Qed.
Lemma unknown_iff : unknown_name tbl (J 0%nat) <-> exists name, wanted flag name /\ forall nr, ~ names_call name nr.
Proof.
  unfold unknown_name. cbn [the_trace j_calls]. rewrite (go_table_eq _ G). split.
  - intros (s & Hs & L). exists s. split; [apply wanted_flag; exact Hs|]. intros nr N. destruct (names_lookup _ _ N) as (sc & L' & _). congruence.
  - intros (s & Hs & N). exists s. split; [apply wanted_flag; exact Hs|]. destruct (lookup_sc table (ByString s)) as [sc|] eqn:L; [|reflexivity]. destruct (N (sc_nr sc)). exact (lookup_names _ _ L).
Qed.

Lemma goes_on l : (forall name, wanted flag name -> exists nr, names_call name nr /\ decoder nr <> None) -> Forall real l -> wrun tbl J p tty w0 l <> None.
Proof.
  intros A. assert (NU : ~ unknown_name tbl (J 0%nat)) by (intros H; apply unknown_iff in H as (name & W & N); destruct (A name W) as (nr & H & _); exact (N nr H)).
  induction l as [|o l IH] using rev_ind; intros F; [discriminate|]. apply Forall_app in F as [F F']. inversion F' as [|? ? Ro _]; subst. specialize (IH F).
  destruct (wrun tbl J p tty w0 l) as [[w rs]|] eqn:R; [clear IH|contradiction].
  assert (S : exists w' r, wstep tbl J p tty w o = Some (w', r)).
  { destruct (run_inv tbl J p tty h0 w0 (trace_one id flag) H0 eq_refl _ _ _ F R) as (os & hrs & [I1 I2 I3 I4 I5 I6]).
    destruct o as [o su sc tr lost|start c|start ns|start c|i]; cbn [wstep].
    - destruct (task_step tbl w o su sc tr lost) as [w' r]. exists w', r. reflexivity.
    - eexists. eexists. reflexivity.
    - unfold meter_step. destruct start; cbn [hstep]; eexists; eexists; reflexivity.
    - unfold match_step. destruct (0 <? ct_ns c); [|eexists; eexists; reflexivity]. destruct start.
      + destruct (known_start J tbl h0 os (w_hub w) hrs 0 c H0 I1) as (h' & n & ok & ->); [intros [_ X]; exact (NU X)|]. eexists. eexists. reflexivity.
      + pose proof (stop_outcome J tbl h0 os (w_hub w) hrs 0 c H0 I1) as St. cbn [hstep] in *. destruct (on_stop J tbl (w_hub w) 0 c) as [h'| |] eqn:E; [eexists; eexists; reflexivity|destruct (NU (proj1 St eq_refl))|destruct (stop_not_fatal _ _ _ E)].
    - unfold read_step. destruct (w_ring w !! i) as [[k bs]|] eqn:E; [|eexists; eexists; reflexivity].
      destruct (ring_spec _ _ _ _ _ (w0_fresh h0) _ _ _ R) as [[_ M] _]. destruct (proj1 (M k bs) (elem_of_list_lookup_2 _ _ _ E)) as [Sr _].
      destruct (sent_ok _ _ _ _ _ F R Sr) as (e & su & _ & Rec & P & name & Wn & Nm). destruct (A name Wn) as (nr' & Nm' & Dn). rewrite <- (names_functional _ _ _ Nm Nm') in Dn.
      destruct (ingest_sent e su bs Rec) as (rw & Hb & _ & Hd). destruct (decoder (ev_nr e)) as [fs|]; [|contradiction]. destruct Hd as (t & Ht & T1 & _). rewrite Ht, Hb.
      assert (N : nil_syscall tbl w t = false).
      { unfold nil_syscall. rewrite T1. destruct (names_known _ _ Nm) as [sc L]. rewrite L. destruct (w_cache w !! t_pid_ns t); reflexivity. }
      rewrite N. destruct (event_outcome J tbl h0 os (w_hub w) hrs (event_of tbl w t) H0 I1) as [_ Ok]. destruct Ok as (h' & ps & Hs).
      { intros (_ & g & g0 & _ & _ & X & _). cbn in X. lia. }
      cbn [hstep] in Hs. destruct (on_event J (w_hub w) (event_of tbl w t)) as [[h2 ps2]| |]; [|discriminate Hs..]. eexists. eexists. reflexivity. }
  destruct S as (w' & r & S). intros E. assert (X : wrun tbl J p tty w0 (l ++ [o]) = Some (w', rs ++ [r])).
  { eapply wrun_join; [exact R|]. cbn [wrun]. rewrite S. reflexivity. }
  congruence.
Qed.

Definition some_container : container := Container "default" "pod" "main" 1.
Lemma first_read l k e su w rs : ~ (exists i, WRead i ∈ l) -> wrun tbl J p tty w0 (l ++ [WRead 0]) = Some (w, rs) ->
  sends (l ++ [WRead 0]) rs k e su -> (forall k' e' su', sends (l ++ [WRead 0]) rs k' e' su' -> k' = k) -> exists ps line, rs !! length l = Some (URead k ps line).
Proof.
  intros NR R Se Un. pose proof (none_lost _ _ _ _ _ _ R Se) as NL. pose proof (wrun_length _ _ _ _ _ _ _ _ R) as Len.
  assert (Rd : forall q k' ps line, rs !! q = Some (URead k' ps line) -> q = length l).
  { intros q k' ps line Hq. destruct (read_at _ _ _ _ _ _ _ R Hq) as (i & _ & _ & Hl & _). destruct (decide (q < length l)%nat) as [Lt|Ge].
    - rewrite lookup_app_l in Hl by exact Lt. destruct NR. exists i. exact (elem_of_list_lookup_2 _ _ _ Hl).
    - apply lookup_lt_Some in Hl. rewrite app_length in Hl. cbn [length] in Hl. lia. }
  destruct NL as [(q & ps & line & _ & Hq)|(bs & Hb)]; [exists ps, line; rewrite <- (Rd _ _ _ _ Hq); exact Hq|].
  assert (Ta : take (length l) (l ++ [WRead 0]) = l) by (rewrite take_app; reflexivity).
  destruct (wrun_at _ _ _ _ _ _ _ _ (length l) (WRead 0) R) as (w1 & w2 & r & R1 & S & Hr & R2); [rewrite lookup_app_r, Nat.sub_diag by lia; reflexivity|].
  pose proof (step_ring _ _ _ _ _ _ _ _ S) as E. cbn beta iota in E.
  rewrite take_ge in R2 by (rewrite app_length; cbn [length]; lia). rewrite R in R2. apply Some_inj, pair_equal_spec in R2 as [<- _].
  destruct E as [[-> E]|(k' & bs' & ps & line & Hi & E & ->)].
  - cbn [wstep] in S. destruct (read_cases _ _ _ _ _ _ _ _ S) as (_ & _ & _ & [(N & _ & _)|(k' & bs' & _ & _ & [[X _]|(t & rw & ps' & _ & _ & _ & X)])]); [|discriminate X|discriminate X].
    rewrite E in Hb. apply lookup_ge_None in N. destruct (w_ring w1); [apply not_elem_of_nil in Hb; contradiction|cbn [length] in N; lia].
  - exists ps, line. rewrite Hr. do 2 f_equal. destruct (ring_spec _ _ _ _ _ (w0_fresh h0) _ _ _ R1) as [[_ M] _].
    destruct (proj1 (M k' bs') (elem_of_list_lookup_2 _ _ _ Hi)) as [(o & su' & sc & tr & r & e' & A1 & A2 & A3 & _) _].
    apply (Un k' e' su'). exists o, sc, tr, r. apply lookup_take_Some in A1 as [A1 _]. apply lookup_take_Some in A2 as [A2 _]. split; [exact A1|]. split; [exact A2|exact A3].
Qed.

Lemma nowhere_nobody : surroundings_ok nobody nowhere.
Proof. split; cbn; lia. Qed.
Definition does (o : kop) : wop := WTask o nowhere (repeat 0 736) [] false.
Lemma does_real o : fits o -> real (does o).
Proof. intros H. split; [exact H|]. split; [exact nowhere_nobody|apply repeat_length]. Qed.
Definition fatal_call (nr : Z) : list wop :=
  [WMatch true some_container; does (KEnter 1 (Task 1 1 nr) [] 0 0); does (KExit 1 (Task 1 1 nr) 0 0 0)].
Lemma fatal_did nr k o : did (fatal_call nr ++ [WRead 0]) k o -> (k = 1%nat /\ o = KEnter 1 (Task 1 1 nr) [] 0 0) \/ (k = 2%nat /\ o = KExit 1 (Task 1 1 nr) 0 0 0).
Proof.
  intros (su & sc & tr & lost & H). destruct k as [|[|[|[|k]]]]; cbn in H; try discriminate H; injection H as <- _ _ _ _; [left|right]; split; reflexivity.
Qed.
Lemma fatal_real nr : Forall real (fatal_call nr ++ [WRead 0]).
Proof.
  unfold fatal_call. cbn [app]. repeat (apply Forall_cons; split). - cbn. lia.
  - apply does_real. unfold fits, word, some_ns. cbn [t_pidns]. lia.
  - apply does_real. unfold fits, word, some_ns. cbn [t_pidns]. lia.
  - exact Logic.I. - apply Forall_nil. exact Logic.I.
Qed.
Lemma size_one (x : Z) : size (list_to_set [x] : gset Z) = 1%nat.
Proof. cbn [list_to_set]. rewrite union_empty_r_L. apply size_singleton. Qed.

Lemma fatal_ends nr : asked flag nr -> decoder nr = None -> wrun tbl J p tty w0 (fatal_call nr ++ [WRead 0]) = None.
Proof.
  intros A D. destruct (wrun tbl J p tty w0 (fatal_call nr ++ [WRead 0])) as [[w rs]|] eqn:R; [|reflexivity]. exfalso.
  pose proof (asked_range _ _ A) as B. assert (U : u32 nr = nr) by (apply Z.mod_small; lia). assert (N59 : nr <> 59) by (intros ->; discriminate D).
  pose proof (fatal_real nr) as F. set (l := fatal_call nr ++ [WRead 0]) in *.
  assert (D1 : did l 1 (KEnter 1 (Task 1 1 nr) [] 0 0)) by (exists nowhere, (repeat 0 736), [], false; reflexivity).
  assert (D2 : did l 2 (KExit 1 (Task 1 1 nr) 0 0 0)) by (exists nowhere, (repeat 0 736), [], false; reflexivity).
  assert (FR : few_rules l).
  { unfold few_rules. change (matched l) with [1]. change (metered l) with ([] : list Z). rewrite size_one. change (size (list_to_set ([] : list Z) : gset Z)) with 0%nat. lia. }
  assert (FT : few_tasks l) by (unfold few_tasks; change (entering l) with [1]; rewrite size_one; lia).
  assert (T : in_turn l).
  { intros tid i j Lt (t & a & u & n & H1) (t' & a' & u' & n' & H2). apply fatal_did in H1 as [[-> _]|[_ X]]; [|discriminate X]. apply fatal_did in H2 as [[-> _]|[_ X]]; [|discriminate X]. lia. }
  assert (NS : none_stopped l).
  { intros c H. unfold l, fatal_call in H. cbn [app] in H. repeat (apply elem_of_cons in H as [X|H]; [discriminate X|]). apply not_elem_of_nil in H. exact H. }
  destruct (task_at _ _ _ _ _ _ _ _ _ _ R D2) as (w2 & _ & Hr). set (r := (kstep tbl (kernel_of w2) (KExit 1 (Task 1 1 nr) 0 0 0)).2) in *.
  assert (He : o_event r = Some (KEvent 1 0 nr 0 0 1 [] 0)).
  { apply (sent_exit tbl G id flag p tty h0 H0 l w rs 2 1 (Task 1 1 nr) 0 0 0 r _ F T NS (rules_fit _ _ _ F FR R) FT R D2 Hr). cbn [t_id t_pidns]. rewrite U.
    split; [lia|]. split; [exact N59|]. split; [exact A|]. exists 1%nat, (Task 1 1 nr), [], 0, 0. split; [|split; [reflexivity|split; [|reflexivity]]].
    - split; [lia|]. split; [exact D1|]. split; [exact D2|]. intros j Hj. lia.
    - exists 0%nat, some_container. split; reflexivity. }
  assert (Se : sends l rs 2 (KEvent 1 0 nr 0 0 1 [] 0) nowhere) by (exists (KExit 1 (Task 1 1 nr) 0 0 0), (repeat 0 736), [], r; split; [reflexivity|]; split; [exact Hr|exact He]).
  assert (Un : forall k' e' su', sends l rs k' e' su' -> k' = 2%nat).
  { intros k' e' su' (o & sc & tr & r' & E1 & E2 & E3). assert (D' : did l k' o) by (exists su', sc, tr, false; exact E1). destruct (fatal_did _ _ _ D') as [[-> ->]|[-> _]]; [|reflexivity].
    destruct (task_at _ _ _ _ _ _ _ _ _ _ R D') as (wk & _ & E). rewrite E2 in E. apply Some_inj, utask_inj in E. rewrite E in E3. destruct (sent_from _ _ _ _ E3) as [(? & ? & ? & ? & ? & X)|(? & ? & ? & ? & ? & ? & X)]; discriminate X. }
  assert (NR : ~ exists i, WRead i ∈ fatal_call nr).
  { intros (i & H). unfold fatal_call in H. repeat (apply elem_of_cons in H as [X|H]; [discriminate X|]). apply not_elem_of_nil in H. exact H. }
  destruct (first_read (fatal_call nr) 2 _ _ w rs NR R Se Un) as (ps & line & Hq).
  destruct (what_is_read _ _ _ _ _ _ _ F R Hq) as (e & su & _ & (o & sc & tr & r' & E1 & E2 & E3) & Dn & _). rewrite Hr in E2. apply Some_inj, utask_inj in E2. rewrite <- E2, He in E3. apply Some_inj in E3. subst e. exact (Dn D).
Qed.

Lemma survives_iff : (forall l, Forall real l -> wrun tbl J p tty w0 l <> None) <-> forall name, wanted flag name -> exists nr, names_call name nr /\ decoder nr <> None.
Proof.
  split; [|intros A l; apply goes_on; exact A]. intros A name W.
  destruct (lookup_sc table (ByString name)) as [sc|] eqn:L.
  - pose proof (lookup_names _ _ L) as N. exists (sc_nr sc). split; [exact N|]. intros D. apply (A _ (fatal_real (sc_nr sc))). apply fatal_ends; [exists name; split; assumption|exact D].
  - exfalso. apply (A [WMatch false some_container]); [constructor; [cbn; lia|constructor]|]. cbn [wrun wstep]. unfold match_step. change (0 <? ct_ns some_container) with true. cbv iota.
    destruct (stop_outcome J tbl h0 [] h0 [] 0 some_container H0 eq_refl) as [_ P]. cbn [w_hub]. rewrite P; [reflexivity|]. apply unknown_iff. exists name. split; [exact W|].
    intros nr N. destruct (names_lookup _ _ N) as (sc & L' & _). congruence.
Qed.

(** * A call of execve *)
Definition observes (o : wop) : Prop := match o with WPod _ _ => True | WMatch true _ => True | _ => False end.
Definition execs : wop := does (KExecve 7 (Task 5 7 59) [] 0 0 0).
Lemma exec_run pre : Forall real pre -> Forall observes pre -> few_rules pre -> reported pre 5 -> asked flag 59 ->
  (forall name, wanted flag name -> exists nr, names_call name nr /\ decoder nr <> None) ->
  exists w rs ps line, wrun tbl J p tty w0 ((pre ++ [execs]) ++ [WRead 0]) = Some (w, rs) /\ all_installed rs
    /\ rs !! Datatypes.S (length pre) = Some (URead (length pre) ps line)
    /\ forall e su, sends ((pre ++ [execs]) ++ [WRead 0]) rs (length pre) e su <-> e = KEvent 7 0 59 0 0 5 [] 0 /\ su = nowhere.
Proof.
  intros Fp Op FR Rp A K. set (l := (pre ++ [execs]) ++ [WRead 0]).
  assert (F : Forall real l).
  { apply Forall_app. split; [apply Forall_app; split; [exact Fp|]|constructor; [exact Logic.I|constructor]]. constructor; [|constructor]. apply does_real. unfold fits, word, some_ns. cbn [t_pidns t_id]. lia. }
  pose proof (goes_on l K F) as Go. destruct (wrun tbl J p tty w0 l) as [[w rs]|] eqn:R; [clear Go|contradiction]. exists w, rs.
  assert (Hl : l !! length pre = Some execs) by (unfold l; rewrite <- app_assoc, lookup_app_r, Nat.sub_diag by lia; reflexivity).
  assert (D : did l (length pre) (KExecve 7 (Task 5 7 59) [] 0 0 0)) by (exists nowhere, (repeat 0 736), [], false; exact Hl).
  assert (FR' : few_rules l).
  { unfold few_rules in *. unfold l, matched, metered in *. rewrite !omap_app. change (omap _ [execs]) with ([] : list Z). change (omap _ [WRead 0]) with ([] : list Z). change (omap _ [execs]) with ([] : list Z). change (omap _ [WRead 0]) with ([] : list Z). rewrite !app_nil_r. exact FR. }
  assert (NS : none_stopped l).
  { intros c H. rewrite Forall_forall in Op. apply elem_of_app in H as [H|H]; [apply elem_of_app in H as [H|H]|]; [exact (Op _ H)|apply elem_of_list_singleton in H; discriminate H|apply elem_of_list_singleton in H; discriminate H]. }
  pose proof (rules_fit _ _ _ F FR' R) as AI.
  destruct (task_at _ _ _ _ _ _ _ _ _ _ R D) as (w2 & _ & Hr). set (r := (kstep tbl (kernel_of w2) (KExecve 7 (Task 5 7 59) [] 0 0 0)).2) in *.
  assert (Rl : reported (take (length pre) l) 5) by (unfold l; rewrite <- app_assoc, take_app; exact Rp).
  assert (He : o_event r = Some (KEvent 7 0 59 0 0 5 [] 0)).
  { apply (sent_execve tbl G id flag p tty h0 H0 l w rs _ _ _ _ _ _ _ r _ F NS AI R D Hr). split; [lia|]. split; [exact A|]. split; [exact Rl|reflexivity]. }
  assert (Se : forall e su, sends l rs (length pre) e su <-> e = KEvent 7 0 59 0 0 5 [] 0 /\ su = nowhere).
  { intros e su. split.
    - intros (o & sc & tr & r' & E1 & E2 & E3). rewrite Hl in E1. apply Some_inj in E1. injection E1 as _ <- _ _. rewrite Hr in E2. apply Some_inj, utask_inj in E2. rewrite <- E2, He in E3. apply Some_inj in E3. split; [symmetry; exact E3|reflexivity].
    - intros [-> ->]. eexists _, _, _, r. split; [exact Hl|]. split; [exact Hr|exact He]. }
  assert (Un : forall k' e' su', sends l rs k' e' su' -> k' = length pre).
  { intros k' e' su' (o & sc & tr & r' & E1 & _). unfold l in E1. rewrite Forall_forall in Op. destruct (decide (k' < length pre)%nat) as [Lt|Ge].
    - rewrite <- app_assoc, lookup_app_l in E1 by exact Lt. destruct (Op _ (elem_of_list_lookup_2 _ _ _ E1)).
    - rewrite <- app_assoc, lookup_app_r in E1 by lia. destruct (k' - length pre)%nat as [|[|n]] eqn:En; [lia|discriminate E1|discriminate E1]. }
  assert (NR : ~ exists i, WRead i ∈ pre ++ [execs]).
  { intros (i & H). rewrite Forall_forall in Op. apply elem_of_app in H as [H|H]; [exact (Op _ H)|apply elem_of_list_singleton in H; discriminate H]. }
  destruct (first_read (pre ++ [execs]) (length pre) _ _ w rs NR R (proj2 (Se _ _) (conj eq_refl eq_refl)) Un) as (ps & line & Hq).
  rewrite app_length, Nat.add_1_r in Hq. exists ps, line. split; [reflexivity|]. split; [exact AI|]. split; [exact Hq|exact Se].
Qed.
End trace.
