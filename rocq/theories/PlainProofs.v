(** Proofs about `swoll trace --no-containers`. *)
From Coq Require Import ZArith String Lia.
From stdpp Require Import base list numbers strings pretty gmap.
From Verif Require Import SyscallTable SyscallModel SyscallSpec SyscallProofs FilterModel FilterSpec FilterProofs KernelModel KernelSpec KernelProofs
  RawModel RawSpec RawProofs DecodeProofs CaptureModel CaptureSpec CaptureProofs LineModel LineSpec LineProofs LineTop JsonSpec MsgModel MsgSpec MsgRead DecodeModel PlainModel PlainSpec.

Local Open Scope string_scope.
Local Open Scope list_scope.
Local Open Scope Z_scope.
Local Opaque gSyscallMap gClassMap table.
Local Notation u32 := FilterModel.u32.
Local Notation s32 := FilterModel.s32.

(** * Names *)

Lemma no_double_prefix : forallb (fun e : string * Z => negb (String.prefix "sys_sys_" (fst e))) gSyscallMap = true.
Proof. Local Transparent gSyscallMap. vm_compute. reflexivity. Local Opaque gSyscallMap. Qed.

Lemma prefix_app v : String.prefix "sys_" v = true -> exists w, v = "sys_" +:+ w.
Proof.
  intros H.
  do 4 (destruct v as [|? v]; [discriminate H|]; cbn [String.prefix] in H; match type of H with (if ?b then _ else _) = _ => destruct b as [<-|]; [|discriminate H] end).
  exists v. reflexivity.
Qed.

Lemma lookup_names name sc : lookup_sc table (ByString name) = Some sc -> names_call name (sc_nr sc).
Proof.
  unfold lookup_sc. destruct (String.prefix "sys_" name) eqn:P; intros H; apply by_name_all in H as [E H]; apply all_elem in H.
  - exists (sc_class sc), (sc_group sc), (sc_name sc). destruct H as [H1 H2]. split; [exact H1|]. split; [exact H2|]. left. exact E.
  - exists (sc_class sc), (sc_group sc), (sc_name sc). destruct H as [H1 H2]. split; [exact H1|]. split; [exact H2|]. right. exact E.
Qed.
Lemma names_lookup name nr : names_call name nr -> exists sc, lookup_sc table (ByString name) = Some sc /\ sc_nr sc = nr.
Proof.
  intros (class & group & full & C & N & E). exists (Syscall nr full class group). split; [|reflexivity].
  assert (A : Syscall nr full class group ∈ all) by (apply all_elem; cbn; split; assumption).
  unfold lookup_sc. destruct (String.prefix "sys_" name) eqn:P.
  - destruct E as [->| ->]; [apply by_name_all; split; [reflexivity|exact A]|]. exfalso.
    pose proof no_double_prefix as D. rewrite forallb_forall in D. specialize (D _ (proj1 (elem_of_list_In _ _) N)). cbn [fst] in D.
    destruct (prefix_app _ P) as (w & ->). apply negb_true_iff in D.
    change ("sys_" +:+ ("sys_" +:+ w)) with ("sys_sys_" +:+ w) in D.
    assert (H : String.prefix "sys_sys_" ("sys_sys_" +:+ w) = true); [|congruence]. clear. destruct w; reflexivity.
  - destruct E as [->| ->].
    + pose proof (all_names_prefixed _ _ N) as Q. congruence.
    + apply by_name_all. split; [reflexivity|exact A].
Qed.
Lemma asked_range flag nr : asked flag nr -> 0 <= nr <= 332.
Proof. intros (name & _ & c & g & full & _ & N & _). exact (nr_range _ _ N). Qed.

(** * The rules *)

Record rules_for (P : Z -> Prop) (m : kmaps) : Prop := {
  rf_config : forall ty, is_Some (config m !! ty) -> ty = 1 \/ ty = 2 + 2 ^ 15;
  rf_only : forall k v, nfilter m !! k = Some v -> exists nr, k = syscall_rule_any nr /\ P nr /\ v_rate v = 0 /\ v_action v = 0;
  rf_all : forall nr, P nr -> is_Some (nfilter m !! syscall_rule_any nr);
  rf_on : (exists nr, P nr) -> configured m (2 + 2 ^ 15)
}.

Lemma rule_of tbl name sc : lookup_sc tbl (ByString name) = Some sc -> 0 <= sc_nr sc < 2 ^ 31 ->
  new_rule tbl [SetModeSyscall; SetSyscall (ByString name); SetActionAllow] = Some (Rule (syscall_rule_any (sc_nr sc)) fresh).
Proof.
  intros H R. unfold new_rule. cbn [apply_opts apply_opt]. rewrite H. unfold with_flag. cbn [r_key r_val zero_rule k_flags k_pidns k_thrid k_syscall v_rate v_count v_hits].
  rewrite FilterProofs.s32_small by lia. reflexivity.
Qed.
Lemma no_rule tbl name : lookup_sc tbl (ByString name) = None ->
  new_rule tbl [SetModeSyscall; SetSyscall (ByString name); SetActionAllow] = None.
Proof. intros H. unfold new_rule. cbn [apply_opts apply_opt]. rewrite H. reflexivity. Qed.

Definition any_keys : list fkey := map (fun i => syscall_rule_any (Z.of_nat i)) (seq 0 333).
Lemma in_any nr : 0 <= nr <= 332 -> syscall_rule_any nr ∈ any_keys.
Proof.
  intros H. apply elem_of_list_In, in_map_iff. exists (Z.to_nat nr). rewrite Z2Nat.id by lia. split; [reflexivity|]. apply in_seq. lia.
Qed.
Lemma size_keys {K A} `{Countable K} (m : gmap K A) (ks : list K) : (forall k, is_Some (m !! k) -> k ∈ ks) -> (size m <= length ks)%nat.
Proof.
  intros Hs. rewrite <- size_dom. transitivity (size (list_to_set ks : gset K)).
  - apply subseteq_size. intros k Hk. apply elem_of_list_to_set, Hs, elem_of_dom. exact Hk.
  - clear. induction ks as [|k ks IH]; [cbn [list_to_set length]; rewrite size_empty; lia|]. cbn [list_to_set length]. rewrite size_union_alt, size_singleton.
    pose proof (subseteq_size (list_to_set ks ∖ {[k]} : gset K) (list_to_set ks) ltac:(set_solver)). lia.
Qed.

Lemma rules_room P m : rules_for P m -> (forall nr, P nr -> 0 <= nr <= 332) ->
  (size (config m) < config_max)%nat /\ (size (nfilter m) < nfilter_max)%nat.
Proof.
  intros [C O A _] R. split.
  - pose proof (size_keys (config m) [1; 2 + 2 ^ 15]) as S. cbn [length] in S. unfold config_max.
    assert (N : (2 < N.to_nat 1024)%nat) by lia. eapply Nat.le_lt_trans; [apply S|exact N].
    intros k Hk. destruct (C k Hk) as [->| ->]; [left|right; left].
  - pose proof (size_keys (nfilter m) any_keys) as S. unfold any_keys in S at 2. rewrite map_length, seq_length in S. unfold nfilter_max.
    assert (N : (333 < N.to_nat 65535)%nat) by lia. eapply Nat.le_lt_trans; [apply S|exact N].
    intros k [v Hk]. destruct (O k v Hk) as (nr & -> & Hp & _). apply in_any, R, Hp.
Qed.
Lemma update_room {K A} `{Countable K} cap (m : gmap K A) k v : (size m < cap)%nat -> map_update cap m k v = Some (<[k := v]> m).
Proof. intros Hs. unfold map_update. destruct (m !! k); [reflexivity|]. rewrite decide_True by exact Hs. reflexivity. Qed.

Lemma add_any P m nr : rules_for P m -> (forall nr, P nr -> 0 <= nr <= 332) -> 0 <= nr <= 332 ->
  exists m', add_rule (Rule (syscall_rule_any nr) fresh) m = (m', true) /\ rules_for (fun n => P n \/ n = nr) m' /\ (forall ty, configured m ty -> configured m' ty).
Proof.
  intros F R Hn. destruct (rules_room P m F R) as [S1 S2]. unfold add_rule. cbn [r_key r_val]. rewrite add_key_syscall_any.
  rewrite (update_room config_max) by exact S1. rewrite (update_room nfilter_max) by exact S2. eexists. split; [reflexivity|]. destruct F as [C O A On]. split; [split|].
  - cbn [config]. intros ty [v H]. destruct (decide (ty = 2 + 2 ^ 15)) as [->|E]; [right; reflexivity|].
    change (k_flags (syscall_rule_any nr)) with (2 + 2 ^ 15) in H. rewrite lookup_insert_ne in H by congruence. apply C. eexists. exact H.
  - cbn [nfilter]. intros k v H. destruct (decide (k = syscall_rule_any nr)) as [->|E].
    + rewrite lookup_insert in H. injection H as <-. exists nr. split; [reflexivity|]. split; [right; reflexivity|]. split; reflexivity.
    + rewrite lookup_insert_ne in H by congruence. destruct (O k v H) as (n & -> & Hp & Hv). exists n. split; [reflexivity|]. split; [left; exact Hp|exact Hv].
  - cbn [nfilter]. intros n Hp. destruct (decide (n = nr)) as [->|E]; [rewrite lookup_insert; eexists; reflexivity|].
    rewrite lookup_insert_ne by (intros X; apply E; injection X; congruence). destruct Hp as [Hp|Hp]; [exact (A n Hp)|congruence].
  - intros _. exists 1. cbn [config]. change (k_flags (syscall_rule_any nr)) with (2 + 2 ^ 15). rewrite lookup_insert. split; [reflexivity|discriminate].
  - intros ty (v & Hv & Hz). unfold configured. cbn [config]. destruct (decide (ty = k_flags (syscall_rule_any nr))) as [->|E].
    + exists 1. rewrite lookup_insert. split; [reflexivity|discriminate].
    + exists v. rewrite lookup_insert_ne by congruence. split; assumption.
Qed.

Definition among (names : list string) (nr : Z) : Prop := exists name, name ∈ names /\ names_call name nr.

Lemma rules_ext P Q m : (forall nr, P nr <-> Q nr) -> rules_for P m -> rules_for Q m.
Proof.
  intros E [C O A On]. split; [exact C| | |].
  - intros k v H. destruct (O k v H) as (nr & -> & Hp & Hv). exists nr. split; [reflexivity|]. split; [apply E, Hp|exact Hv].
  - intros nr Hq. apply A, E, Hq.
  - intros [nr Hq]. apply On. exists nr. apply E, Hq.
Qed.

Lemma names_functional name nr nr' : names_call name nr -> names_call name nr' -> nr = nr'.
Proof. intros H H'. destruct (names_lookup _ _ H) as (sc & L & <-), (names_lookup _ _ H') as (sc' & L' & <-). congruence. Qed.

Lemma install_calls_spec names : forall P m, rules_for P m -> (forall nr, P nr -> 0 <= nr <= 332) ->
  ((forall name, name ∈ names -> exists nr, names_call name nr) ->
   exists m', install_calls table names m = Some m' /\ rules_for (fun n => P n \/ among names n) m' /\ forall ty, configured m ty -> configured m' ty)
  /\ (forall m', install_calls table names m = Some m' -> forall name, name ∈ names -> exists nr, names_call name nr).
Proof.
  induction names as [|name names IH]; intros P m F R.
  - split.
    + intros _. exists m. split; [reflexivity|]. split; [|tauto]. eapply rules_ext; [|exact F].
      intros nr. split; [tauto|]. intros [H|(n & H & _)]; [exact H|]. apply not_elem_of_nil in H. contradiction.
    + intros m' _ n H. apply not_elem_of_nil in H. contradiction.
  - cbn [install_calls]. unfold with_rule. destruct (lookup_sc table (ByString name)) as [sc|] eqn:L.
    + pose proof (lookup_names _ _ L) as N. assert (Rn : 0 <= sc_nr sc <= 332) by (destruct N as (c & g & full & _ & H & _); exact (nr_range _ _ H)).
      rewrite (rule_of table name sc L) by lia. destruct (add_any P m (sc_nr sc) F R Rn) as (m1 & -> & F1 & C1).
      destruct (IH _ m1 F1) as [H1 H2]; [intros nr [H|H]; [exact (R nr H)|lia]|]. split.
      * intros K. destruct H1 as (m' & E & F' & C'); [intros n Hn; apply K; right; exact Hn|]. exists m'. split; [exact E|].
        split; [|intros ty Ht; apply C', C1, Ht]. eapply rules_ext; [|exact F']. intros nr. split.
        { intros [[H|H]|(n & Hn & H)]; [left; exact H|right; exists name; split; [left|]; subst; exact N|right; exists n; split; [right; exact Hn|exact H]]. }
        { intros [H|(n & Hn & H)]; [left; left; exact H|]. apply elem_of_cons in Hn as [->|Hn].
          - left. right. exact (names_functional _ _ _ H N).
          - right. exists n. split; assumption. }
      * intros m' E n Hn. apply elem_of_cons in Hn as [->|Hn]; [exists (sc_nr sc); exact N|exact (H2 m' E n Hn)].
    + rewrite (no_rule table name L). split.
      * intros K. destruct (K name) as (nr & H); [left|]. destruct (names_lookup _ _ H) as (sc & H' & _). congruence.
      * discriminate.
Qed.

Lemma wanted_flag flag name : wanted flag name <-> name ∈ flag_calls flag.
Proof.
  unfold wanted, flag_calls. destruct flag as [|n flag].
  - rewrite elem_of_list_singleton. split; [intros [[_ H]|H]; [exact H|apply not_elem_of_nil in H; contradiction]|intros H; left; split; [reflexivity|exact H]].
  - split; [intros [[H _]|H]; [discriminate|exact H]|intros H; right; exact H].
Qed.
Lemma asked_among flag nr : asked flag nr <-> among (flag_calls flag) nr.
Proof. unfold asked, among. split; intros (n & H & N); exists n; (split; [apply wanted_flag, H|exact N]). Qed.

Record installed (flag : list string) (m : kmaps) : Prop := {
  in_rules : rules_for (asked flag) m;
  in_on : configured m 1;
  in_kind : configured m (2 + 2 ^ 15)
}.

Lemma empty_rules : rules_for (fun _ => False) (KMaps ∅ ∅).
Proof.
  split; cbn [config nfilter].
  - intros ty [v H]. rewrite lookup_empty in H. discriminate.
  - intros k v H. rewrite lookup_empty in H. discriminate.
  - intros nr [].
  - intros [nr []].
Qed.

Lemma install_spec flag :
  ((forall name, wanted flag name -> exists nr, names_call name nr) -> exists m, install table flag = Some m /\ installed flag m)
  /\ (forall m, install table flag = Some m -> forall name, wanted flag name -> exists nr, names_call name nr).
Proof.
  destruct (install_calls_spec (flag_calls flag) _ _ empty_rules ltac:(intros nr [])) as [H1 H2]. unfold install. split.
  - intros K. destruct H1 as (m & E & F & C); [intros n Hn; apply K, wanted_flag, Hn|]. rewrite E.
    assert (F' : rules_for (asked flag) m) by (eapply rules_ext; [|exact F]; intros nr; rewrite asked_among; tauto).
    destruct (rules_room _ m F' (asked_range flag)) as [S _]. unfold enable. rewrite (update_room config_max) by exact S. eexists. split; [reflexivity|].
    assert (A : exists nr, asked flag nr).
    { assert (exists name, wanted flag name) as (name & Hw).
      { destruct flag as [|n fl]; [exists "execve"; left; split; reflexivity|exists n; right; left]. }
      destruct (K name Hw) as (nr & N). exists nr, name. split; assumption. }
    destruct F' as [Fc Fo Fa Fon]. specialize (Fon A). split.
    + split; cbn [config nfilter]; [|exact Fo|exact Fa|].
      * intros ty [v H]. unfold mode_enabled in H. destruct (decide (ty = 1)) as [->|E1]; [left; reflexivity|]. rewrite lookup_insert_ne in H by congruence. apply Fc. eexists. exact H.
      * intros _. destruct Fon as (v & Hv & Hz). exists v. split; [|exact Hz]. unfold mode_enabled. cbn [config]. rewrite lookup_insert_ne by discriminate. exact Hv.
    + exists 1. cbn [config]. unfold mode_enabled. rewrite lookup_insert. split; [reflexivity|discriminate].
    + destruct Fon as (v & Hv & Hz). exists v. split; [|exact Hz]. cbn [config]. unfold mode_enabled. rewrite lookup_insert_ne by discriminate. exact Hv.
  - intros m E. destruct (install_calls table (flag_calls flag) (KMaps ∅ ∅)) as [m1|]; [|discriminate]. intros n Hw. apply (H2 m1 eq_refl n), wanted_flag, Hw.
Qed.

Lemma starts_iff tbl flag : go_table tbl -> (is_Some (install tbl flag) <-> forall name, wanted flag name -> exists nr, names_call name nr).
Proof.
  intros G. rewrite (go_table_eq _ G). destruct (install_spec flag) as [H1 H2]. split.
  - intros [m E]. exact (H2 m E).
  - intros K. destruct (H1 K) as (m & E & _). exists m. exact E.
Qed.
Lemma install_installed tbl flag m : go_table tbl -> install tbl flag = Some m -> installed flag m.
Proof.
  intros G E. rewrite (go_table_eq _ G) in E. destruct (install_spec flag) as [H1 H2]. destruct (H1 (H2 m E)) as (m' & E' & I).
  rewrite E in E'. apply Some_inj in E'. subst m'. exact I.
Qed.

(** * The verdict *)

Lemma installed_run flag m mode t : installed flag m -> installed flag (run_nfilter mode t m).1.
Proof.
  intros [[C O A On] On1 K]. destruct (run_nfilter_frame mode t m) as [Fc Fn]. split; [split|..]; unfold configured; rewrite ?Fc; try assumption.
  - intros k v H. destruct (Fn k) as [E|(v0 & E & E')].
    + rewrite E in H. exact (O k v H).
    + rewrite E' in H. injection H as <-. destruct (hit_same v0) as [-> ->]. exact (O k v0 E).
  - intros nr P. destruct (A nr P) as [v H]. destruct (Fn (syscall_rule_any nr)) as [E|(v0 & E & E')]; [rewrite E; eexists; exact H|rewrite E'; eexists; reflexivity].
Qed.

Lemma verdict_syscall flag m t : installed flag m -> ((run_nfilter 2 t m).2 <> 1 <-> asked flag (s32 (u32 (t_id t)))).
Proof.
  intros [[C O A On] On1 K]. rewrite (verdict_exact m 2 t _ (or_introl eq_refl) eq_refl). split.
  - intros (_ & k & v & (i & Hi & _ & Hk & _) & _). destruct (O k v Hk) as (nr & -> & P & _).
    do 5 (destruct i as [|i]; [cbn [subjects lookup list_lookup] in Hi; unfold syscall_rule_any in Hi; try (exfalso; injection Hi; intros; lia)|]); [|discriminate].
    injection Hi as ->. exact P.
  - intros P. split; [exact On1|]. destruct (A _ P) as [v Hv]. exists (syscall_rule_any (s32 (u32 (t_id t)))), v. split.
    + exists 4%nat. split; [reflexivity|]. split; [exact K|]. split; [exact Hv|]. intros j k' Hj Hk' [_ [v' Hv']]. destruct (O k' v' Hv') as (n & -> & _).
      do 4 (destruct j as [|j]; [cbn [subjects lookup list_lookup] in Hk'; unfold syscall_rule_any in Hk'; injection Hk'; intros; lia|]). lia.
    + destruct (O _ v Hv) as (n & _ & _ & Hr & Ha). split; [rewrite Ha; discriminate|]. left. lia.
Qed.
Lemma verdict_metrics flag m t : installed flag m -> (run_nfilter 4 t m).2 = 1.
Proof.
  intros [[C O A On] On1 K]. destruct (decide ((run_nfilter 4 t m).2 = 1)) as [E|E]; [exact E|]. exfalso.
  apply (verdict_exact m 4 t _ (or_intror eq_refl) eq_refl) in E as (_ & k & v & (i & Hi & _ & Hk & _) & _). destruct (O k v Hk) as (nr & -> & _).
  do 5 (destruct i as [|i]; [cbn [subjects lookup list_lookup] in Hi; unfold syscall_rule_any in Hi; injection Hi; intros; lia|]). discriminate.
Qed.
Lemma asked_s32 flag x : asked flag (s32 (u32 x)) <-> asked flag (u32 x).
Proof.
  assert (R : 0 <= u32 x < 2 ^ 32) by (apply Z.mod_pos_bound; lia). split; intros H.
  - pose proof (asked_range _ _ H) as B. unfold s32 in B, H. rewrite Z.mod_small in B, H by exact R. destruct (u32 x <? 2 ^ 31) eqn:E; [exact H|lia].
  - pose proof (asked_range _ _ H) as B. rewrite FilterProofs.s32_small by lia. exact H.
Qed.

(** * Histories *)

Lemma fill_dropped flag upd t s : installed flag (ks_filter s) -> (fill_metrics upd t s).2 = None /\ installed flag (ks_filter (fill_metrics upd t s).1)
  /\ ks_filter (fill_metrics upd t s).1 = (run_nfilter 4 t (ks_filter s)).1.
Proof.
  intros I. unfold fill_metrics, mode_metrics. pose proof (verdict_metrics flag _ t I) as V. pose proof (installed_run flag _ 4 t I) as I'.
  destruct (run_nfilter 4 t (ks_filter s)) as [f v]. cbn [fst snd] in V, I'. subst v. change (1 =? action_drop) with true. cbn [fst snd ks_filter]. split; [reflexivity|]. split; [exact I'|reflexivity].
Qed.
Lemma kstep_installed flag tbl s o : (forall u, o <> KUser u) -> installed flag (ks_filter s) -> installed flag (ks_filter (kstep tbl s o).1) /\ o_metric (kstep tbl s o).2 = None.
Proof.
  intros NU I. destruct o as [tid t args ugid now|tid t ret now cpu|tid t args ugid now cpu|o|ns]; cbn [kstep].
  - unfold sys_enter. destruct (fill_dropped flag (fun ns nr => update_metrics_ktime ns nr now) t s I) as (Hm & I1 & _).
    destruct (fill_metrics _ t s) as [s1 mo]. cbn [fst snd] in Hm, I1. subst mo. destruct (_ =? nr_execve); [split; [exact I1|reflexivity]|].
    pose proof (installed_run flag _ mode_syscall t I1) as I2. destruct (run_nfilter mode_syscall t (ks_filter s1)) as [f v]. cbn [fst] in I2.
    destruct (v =? action_drop); [split; [exact I2|reflexivity]|]. destruct (store _ _ _ _). split; [exact I2|reflexivity].
  - unfold sys_exit. destruct (fill_dropped flag (fun ns nr => update_metrics ns nr (ret_err ret) now) t s I) as (Hm & I1 & _).
    destruct (fill_metrics _ t s) as [s1 mo]. cbn [fst snd] in Hm, I1. subst mo. destruct (ks_calls s1 !! tid); [|split; [exact I1|reflexivity]].
    destruct (negb _); [split; [exact I1|reflexivity]|]. destruct (negb _); split; first [exact I1|reflexivity].
  - unfold sys_execve. pose proof (installed_run flag _ mode_syscall t I) as I2. destruct (run_nfilter mode_syscall t (ks_filter s)) as [f v]. cbn [fst] in I2.
    destruct (v =? action_drop); [split; [exact I2|reflexivity]|]. destruct (negb _); split; first [exact I2|reflexivity].
  - exfalso. exact (NU o eq_refl).
  - split; [exact I|reflexivity].
Qed.
Lemma krun_installed flag tbl : forall l s s1 rs, no_edits l -> installed flag (ks_filter s) -> krun tbl s l = (s1, rs) ->
  installed flag (ks_filter s1) /\ Forall (fun r => o_metric r = None) rs.
Proof.
  induction l as [|o l IH]; intros s s1 rs NE I R; cbn [krun] in R; [injection R as <- <-; split; [exact I|constructor]|].
  destruct (kstep_installed flag tbl s o) as [I1 M]; [intros u ->; exact (NE u (elem_of_list_here _ _))|exact I|].
  destruct (kstep tbl s o) as [s2 r]. destruct (krun tbl s2 l) as [s3 rs'] eqn:E. injection R as <- <-. cbn [fst snd] in I1, M.
  destruct (IH s2 s3 rs') as [H1 H2]; [intros u Hu; apply (NE u); right; exact Hu|exact I1|exact E|]. split; [exact H1|constructor; assumption].
Qed.

Lemma no_edits_take l i : no_edits l -> no_edits (take i l).
Proof. intros H o Ho. apply (H o). rewrite <- (take_drop i l). apply elem_of_app. left. exact Ho. Qed.

(** Every entry that passes is stored, on a machine with few threads. *)
Lemma store_room cap (m : gmap Z entry) k v (ks : gset Z) : dom m ⊆ ks -> k ∈ ks -> (size ks <= cap)%nat -> (store cap m k v).2 = true.
Proof.
  intros D Hk S. unfold store, map_update. destruct (m !! k) as [x|] eqn:E; [reflexivity|]. rewrite decide_True; [reflexivity|].
  assert (N : k ∉ dom m) by (apply not_elem_of_dom; exact E). rewrite <- size_dom.
  assert (H : (size (dom m ∪ {[k]}) <= size ks)%nat) by (apply subseteq_size; set_solver).
  rewrite size_union, size_singleton in H by set_solver. lia.
Qed.
Lemma kstep_stored tbl s o (ks : gset Z) : dom (ks_calls s) ⊆ ks -> (forall tid t args ugid now, o = KEnter tid t args ugid now -> tid ∈ ks) -> (size ks <= state_max)%nat ->
  dom (ks_calls (kstep tbl s o).1) ⊆ ks /\ o_saved (kstep tbl s o).2 <> Some false.
Proof.
  intros D K S. split.
  - rewrite kstep_calls. destruct o as [tid t args ugid now|tid t ret now cpu|tid t args ugid now cpu|o|ns]; cbn [calls_after]; try exact D.
    + specialize (K _ _ _ _ _ eq_refl). destruct (o_saved _) as [[]|]; [|exact D..]. rewrite dom_insert. set_solver.
    + rewrite dom_delete. set_solver.
  - destruct o as [tid t args ugid now|tid t ret now cpu|tid t args ugid now cpu|o|ns]; cbn [kstep]; [..|discriminate|discriminate].
    + specialize (K _ _ _ _ _ eq_refl). unfold sys_enter. pose proof (fill_calls (fun ns nr => update_metrics_ktime ns nr now) t s) as E.
      destruct (fill_metrics _ t s) as [s1 mo]. cbn [fst] in E. destruct (_ =? nr_execve); [discriminate|]. destruct (run_nfilter _ _ _) as [f v]. destruct (v =? _); [discriminate|].
      pose proof (store_room state_max (ks_calls s1) tid (Entry (t_id t) args ugid now) ks) as R. rewrite E in R. specialize (R D K S).
      rewrite <- E in R. destruct (store _ _ _ _) as [c ok]. cbn [snd] in R. subst ok. cbn. discriminate.
    + unfold sys_exit. destruct (fill_metrics _ t s) as [s1 mo]. destruct (ks_calls s1 !! tid); [|discriminate]. destruct (negb _); [discriminate|]. destruct (negb _); discriminate.
    + unfold sys_execve. destruct (run_nfilter _ _ _) as [f v]. destruct (v =? _); [discriminate|]. destruct (negb _); discriminate.
Qed.
Lemma krun_stored tbl (ks : gset Z) : (size ks <= state_max)%nat -> forall l s s1 rs, dom (ks_calls s) ⊆ ks -> (forall tid, tid ∈ enters l -> tid ∈ ks) -> krun tbl s l = (s1, rs) ->
  forall r, r ∈ rs -> o_saved r <> Some false.
Proof.
  intros S. induction l as [|o l IH]; intros s s1 rs D K R; cbn [krun] in R; [injection R as <- <-; intros r H; apply not_elem_of_nil in H; contradiction|].
  destruct (kstep_stored tbl s o ks D) as [D1 N]; [intros tid t args ugid now ->; apply K; unfold enters; cbn; left|exact S|].
  destruct (kstep tbl s o) as [s2 r0]. destruct (krun tbl s2 l) as [s3 rs'] eqn:E. injection R as <- <-. cbn [fst snd] in D1, N. intros r H.
  apply elem_of_cons in H as [->|H]; [exact N|]. eapply (IH s2 s3 rs'); [exact D1| |exact E|exact H].
  intros tid Ht. apply K. unfold enters in *. cbn. destruct o; try exact Ht. right. exact Ht.
Qed.
Lemma all_stored tbl m l s rs : few_threads l -> krun tbl (fresh_kernel m) l = (s, rs) -> forall r, r ∈ rs -> o_saved r <> Some false.
Proof.
  intros F R. eapply (krun_stored tbl (list_to_set (enters l)) ltac:(unfold few_threads in F; unfold state_max; lia) l (fresh_kernel m)); [|intros tid H; apply elem_of_list_to_set; exact H|exact R].
  cbn [fresh_kernel ks_calls]. rewrite dom_empty. set_solver.
Qed.

Lemma saved_iff tbl flag m l s rs i tid t args ugid now : go_table tbl -> install tbl flag = Some m -> no_edits l -> few_threads l ->
  krun tbl (fresh_kernel m) l = (s, rs) -> l !! i = Some (KEnter tid t args ugid now) ->
  (saved rs i <-> u32 (t_id t) <> 59 /\ asked flag (u32 (t_id t))).
Proof.
  intros G I NE FT R Hi. destruct (krun_at _ _ _ _ _ _ _ R Hi) as (sk & Hsk & E).
  destruct (krun_installed flag tbl (take i l) (fresh_kernel m) sk (take i rs) (no_edits_take l i NE) (install_installed tbl flag m G I) Hsk) as [Ik _].
  set (r := (kstep tbl sk (KEnter tid t args ugid now)).2) in *.
  pose proof (saved_at tbl _ l s rs i tid t args ugid now sk (take i rs) r R Hsk Hi E) as Q.
  rewrite (verdict_syscall flag) in Q by (apply installed_run; exact Ik). rewrite asked_s32 in Q.
  pose proof (all_stored tbl m l s rs FT R r ltac:(eapply elem_of_list_lookup_2; exact E)) as N.
  split.
  - intros (r' & Hr & Hs). rewrite E in Hr. apply Some_inj in Hr. subst r'. apply Q. rewrite Hs. discriminate.
  - intros H. apply Q in H. exists r. split; [exact E|]. destruct (o_saved r) as [[]|]; [reflexivity|contradiction..].
Qed.

Lemma sent_at_exit tbl flag m l s rs k tid t ret now cpu r ev : go_table tbl -> install tbl flag = Some m -> no_edits l -> few_threads l -> takes_turns l tid ->
  krun tbl (fresh_kernel m) l = (s, rs) -> l !! k = Some (KExit tid t ret now cpu) -> rs !! k = Some r ->
  (o_event r = Some ev <-> cpu < 1024 /\ asked flag (u32 (t_id t)) /\ u32 (t_id t) <> 59 /\
    exists i t' args ugid now', just_before l i k tid /\ l !! i = Some (KEnter tid t' args ugid now') /\ t_id t' = t_id t /\
      ev = KEvent tid ugid (u32 (t_id t)) now' now (t_pidns t) args ret).
Proof.
  intros G I NE FT T R Hk Hr. split.
  - intros He. destruct (event_pairs tbl (fresh_kernel m) l s rs k tid t ret now cpu r ev eq_refl R T Hk Hr He) as (i & t' & args & ugid & now' & Hj & Hi & Hs & Ht & ->).
    pose proof (saved_iff tbl flag m l s rs i tid t' args ugid now' G I NE FT R Hi) as Q. apply Q in Hs. rewrite Ht in Hs. split.
    + destruct (krun_at _ _ _ _ _ _ _ R Hk) as (sk & _ & E). rewrite Hr in E. apply Some_inj in E. subst r. cbn [kstep] in He. unfold sys_exit in He.
      destruct (fill_metrics _ _ _) as [s1 mo]. destruct (ks_calls s1 !! tid); [|discriminate]. unfold has_scratch in He. destruct (cpu <? 1024) eqn:Ec; [apply Z.ltb_lt; exact Ec|discriminate].
    + split; [apply Hs|]. split; [apply Hs|]. exists i, t', args, ugid, now'. split; [exact Hj|]. split; [exact Hi|]. split; [exact Ht|reflexivity].
  - intros (Hc & Ha & Hn & i & t' & args & ugid & now' & Hj & Hi & Ht & ->).
    destruct (event_sent tbl (fresh_kernel m) l s rs k tid t ret now cpu i t' args ugid now' eq_refl R Hk Hc Hj Hi) as (r' & Hr' & He); [|exact Ht|].
    + apply (saved_iff tbl flag m l s rs i tid t' args ugid now' G I NE FT R Hi). rewrite Ht. split; assumption.
    + rewrite Hr in Hr'. apply Some_inj in Hr'. subst r'. exact He.
Qed.

Lemma sent_at_execve tbl flag m l s rs k tid t args ugid now cpu r ev : go_table tbl -> install tbl flag = Some m -> no_edits l ->
  krun tbl (fresh_kernel m) l = (s, rs) -> l !! k = Some (KExecve tid t args ugid now cpu) -> t_id t = 59 -> rs !! k = Some r ->
  (o_event r = Some ev <-> cpu < 1024 /\ asked flag 59 /\ ev = KEvent tid ugid 59 now now (t_pidns t) args 0).
Proof.
  intros G I NE R Hk Ht Hr. destruct (krun_at _ _ _ _ _ _ _ R Hk) as (sk & Hsk & E). rewrite Hr in E. apply Some_inj in E. subst r.
  destruct (krun_installed flag tbl (take k l) (fresh_kernel m) sk (take k rs) (no_edits_take l k NE) (install_installed tbl flag m G I) Hsk) as [Ik _].
  pose proof (verdict_syscall flag (ks_filter sk) t Ik) as V. rewrite asked_s32, Ht in V. change (u32 59) with 59 in V.
  cbn [kstep]. unfold sys_execve, mode_syscall, action_drop, has_scratch. destruct (run_nfilter 2 t (ks_filter sk)) as [f v]. cbn [snd] in V.
  destruct (Z.eqb_spec v 1) as [Hv|Hv].
  - cbn [o_event snd]. split; [discriminate|]. intros (_ & Ha & _). apply V in Ha. contradiction.
  - destruct (Z.ltb_spec cpu 1024) as [Hc|Hc]; cbn [negb snd o_event].
    + split; [intros [= <-]; split; [exact Hc|split; [apply V, Hv|reflexivity]]|]. intros (_ & _ & ->). reflexivity.
    + split; [discriminate|]. intros (? & _). lia.
Qed.

Lemma sent_asked tbl flag m l s rs r ev : go_table tbl -> install tbl flag = Some m -> no_edits l -> few_threads l -> (forall tid, takes_turns l tid) ->
  (forall tid t args ugid now cpu, KExecve tid t args ugid now cpu ∈ l -> t_id t = 59) ->
  krun tbl (fresh_kernel m) l = (s, rs) -> r ∈ rs -> o_event r = Some ev -> asked flag (ev_nr ev).
Proof.
  intros G I NE FT T X R Hr He. apply elem_of_list_lookup in Hr as (k & Hr).
  destruct (events_from _ _ _ _ _ _ _ _ R Hr He) as [(tid & t & ret & now & cpu & Hk)|(tid & t & args & ugid & now & cpu & sk & rk & Hk & _)].
  - destruct (proj1 (sent_at_exit tbl flag m l s rs k tid t ret now cpu r ev G I NE FT (T tid) R Hk Hr) He) as (_ & Ha & _ & i & t' & args & ugid & now' & _ & _ & _ & ->). exact Ha.
  - assert (E59 : t_id t = 59) by (eapply X, elem_of_list_lookup_2, Hk).
    destruct (proj1 (sent_at_execve tbl flag m l s rs k tid t args ugid now cpu r ev G I NE R Hk E59 Hr) He) as (_ & Ha & ->). exact Ha.
Qed.
Lemma nothing_else tbl flag m l s rs : go_table tbl -> install tbl flag = Some m -> no_edits l -> krun tbl (fresh_kernel m) l = (s, rs) ->
  forall r, r ∈ rs -> o_metric r = None.
Proof.
  intros G I NE R r Hr. destruct (krun_installed flag tbl l (fresh_kernel m) s rs NE (install_installed tbl flag m G I) R) as [_ F].
  rewrite Forall_forall in F. exact (F r Hr).
Qed.

(** * Printing *)

Lemma prototypes_ok : forallb (fun e : Z * string * list field => match prototype (fst (fst e)), call (fst (fst e)) with
    | Some (name, _), Some (c, _) => String.eqb c (if decide (fst (fst e) = 166) then "umount" else name) | _, _ => false end) decoders = true.
Proof. vm_compute. reflexivity. Qed.
Lemma prototype_of nr fs : decoder nr = Some fs -> exists name params shs, prototype nr = Some (name, params) /\ call nr = Some (if decide (nr = 166) then "umount" else name, shs).
Proof.
  unfold decoder. intros H. destruct (List.find _ decoders) as [e|] eqn:F; [|discriminate]. apply List.find_some in F as [I E]. apply Z.eqb_eq in E. subst nr.
  pose proof prototypes_ok as P. rewrite forallb_forall in P. specialize (P e I). destruct (prototype (fst (fst e))) as [[name params]|]; [|discriminate].
  destruct (call (fst (fst e))) as [[c shs]|]; [|discriminate]. apply String.eqb_eq in P. subst c. exists name, params, shs. split; reflexivity.
Qed.

Lemma line_shape (a ms b n1 comm sl pid n2 c res d name e args f nl : list Z) :
  (a ++ ms ++ b ++ (txt "[" ++ (n1 ++ comm) ++ sl ++ (pid ++ n2) ++ c) ++ res ++ d ++ name ++ e) ++ args ++ f ++ nl
  = a ++ ms ++ (b ++ txt "[") ++ n1 ++ comm ++ sl ++ pid ++ n2 ++ c ++ res ++ d ++ name ++ e ++ args ++ f ++ nl.
Proof. rewrite <- !app_assoc. reflexivity. Qed.
Lemma cli_line p tty t raw out name shs : call (t_syscall t) = Some (name, shs) -> cli_output p tty true None t raw = Some out -> line_of tty (t_comm t) (t_pid t) name out.
Proof.
  intros K. unfold cli_output. rewrite K. destruct (arguments p (t_syscall t) raw (t_argv t)) as [args|]; [|discriminate]. intros E. apply Some_inj in E. subst out.
  unfold line_of. rewrite <- !txt_bytes. exists (latency_text p tty (latency (t_start t) (t_finish t))), (15 - runes (t_comm t))%nat, (8 - runes (txt (pretty (t_pid t))))%nat,
    (right_align 11 (error_text tty (t_error t))), (join (txt ", ") (map (one_arg tty) args)).
  unfold header. cbv iota. unfold right_align at 1, left_align, blanks at 1 2. rewrite line_shape. reflexivity.
Qed.

Lemma ingest_record e su bs : record_of (e, su) bs ->
  exists r, ingest_bytes bs = Some r /\ r_syscall r = ev_nr e /\ length (r_args r) = 640%nat /\
  match decoder (ev_nr e) with
  | None => ingest (InKernelEvent bs) = IngestPanic
  | Some fs => exists t, ingest (InKernelEvent bs) = Ingested t /\ t_syscall t = ev_nr e /\ t_pid t = ev_tid e mod 2 ^ 32 /\ t_comm t = until_nul (su_comm su)
      /\ decode_fields (r_args r) fs = Some (t_argv t)
  end.
Proof.
  intros (S & scratch & trailing & L & ->). pose proof (event_members_ok e su scratch S L) as K.
  pose proof (ingest_image _ scratch trailing K L) as Gi. fold (emit e su scratch) in Gi. exists (raw_of (event_members e su scratch)).
  split; [exact Gi|]. split; [reflexivity|]. split; [exact (ok_args _ K)|].
  destruct (decoder (ev_nr e)) as [fs|] eqn:D.
  - destruct (end_to_end e su scratch trailing fs S L D) as (t & Hi & H1 & H2 & _ & _ & _ & _ & _ & _ & H3 & _). exists t.
    split; [exact Hi|]. split; [exact H1|]. split; [exact H2|]. split; [exact H3|].
    unfold ingest in Hi. rewrite Gi in Hi. unfold decode_syscall in Hi. change (r_syscall (raw_of (event_members e su scratch))) with (ev_nr e) in Hi. rewrite D in Hi.
    destruct (decode_fields _ fs) as [argv|]; [|discriminate]. injection Hi as <-. reflexivity.
  - unfold ingest. rewrite Gi. unfold decode_syscall. change (r_syscall (raw_of (event_members e su scratch))) with (ev_nr e). rewrite D. reflexivity.
Qed.

Lemma prints_spec json p tty evs msgs : Forall2 record_of evs msgs -> forall outs alive, print_loop json p "cli" tty msgs = (outs, alive) ->
  exists n, Forall2 (line_for tty) (take n evs) outs /\ Forall (fun x => decoder (ev_nr (fst x)) <> None) (take n evs)
    /\ (alive = true -> n = length evs)
    /\ (alive = false -> exists x, evs !! n = Some x /\ decoder (ev_nr (fst x)) = None).
Proof.
  induction 1 as [|[e su] bs evs msgs Hr F IH]; intros outs alive L; cbn [print_loop] in L.
  - injection L as <- <-. exists 0%nat. split; [constructor|]. split; [constructor|]. split; [reflexivity|discriminate].
  - destruct (ingest_record e su bs Hr) as (r & Hb & _ & Len & Hd). rewrite Hb in L. destruct (decoder (ev_nr e)) as [fs|] eqn:D.
    + destruct Hd as (t & Hi & Ht & Hp & Hc & Ha). rewrite Hi in L. unfold show_msg in L. change (String.eqb "cli" "cli") with true in L. cbv iota in L.
      rewrite <- Ht in D. destruct (prints (p (length msgs) t) tty true None t (r_args r) fs Len D Ha) as (o & Ho). rewrite Ho in L.
      destruct (print_loop json p "cli" tty msgs) as [os al] eqn:E. injection L as <- <-. destruct (IH os al eq_refl) as (n & H1 & H2 & H3 & H4).
      exists (S n). cbn [take]. split; [constructor; [|exact H1]|].
      * destruct (prototype_of _ _ D) as (name & params & shs & Pn & Cn). rewrite Ht in Pn, Cn, D. exists name, params. cbn [fst snd]. split; [exact Pn|].
        rewrite <- Hc, <- Hp. eapply cli_line; [rewrite Ht; exact Cn|exact Ho].
      * split; [constructor; [cbn [fst]; rewrite <- Ht, D; discriminate|exact H2]|]. split; [intros A; cbn [length]; rewrite (H3 A); reflexivity|exact H4].
    + rewrite Hd in L. injection L as <- <-. exists 0%nat. split; [constructor|]. split; [constructor|]. split; [discriminate|]. intros _. exists (e, su). split; [reflexivity|exact D].
Qed.

Lemma alive_iff json p tty evs msgs outs alive : Forall2 record_of evs msgs -> print_loop json p "cli" tty msgs = (outs, alive) ->
  (alive = true <-> Forall (fun x => decoder (ev_nr (fst x)) <> None) evs).
Proof.
  intros F L. destruct (prints_spec json p tty evs msgs F outs alive L) as (n & _ & H2 & H3 & H4). split.
  - intros A. rewrite (H3 A), take_ge in H2 by lia. exact H2.
  - intros A. destruct alive; [reflexivity|]. destruct (H4 eq_refl) as (x & Hx & Hd). rewrite Forall_forall in A. exfalso. exact (A x (elem_of_list_lookup_2 _ _ _ Hx) Hd).
Qed.

Lemma listed_lines tbl flag m l s rs json p tty evs msgs outs alive j out : go_table tbl -> install tbl flag = Some m -> no_edits l -> few_threads l -> (forall tid, takes_turns l tid) ->
  (forall tid t args ugid now cpu, KExecve tid t args ugid now cpu ∈ l -> t_id t = 59) ->
  krun tbl (fresh_kernel m) l = (s, rs) -> Forall (was_sent rs) evs -> Forall2 record_of evs msgs -> print_loop json p "cli" tty msgs = (outs, alive) -> outs !! j = Some out ->
  exists x, evs !! j = Some x /\ asked flag (ev_nr (fst x)) /\ line_for tty x out.
Proof.
  intros G I NE FT T X R Sent F L Hj. destruct (prints_spec json p tty evs msgs F outs alive L) as (n & H1 & _ & _ & _).
  destruct (Forall2_lookup_r _ _ _ _ _ H1 Hj) as (x & Hx & Hl). apply lookup_take_Some in Hx as [Hx _]. exists x. split; [exact Hx|]. split; [|exact Hl].
  rewrite Forall_forall in Sent. destruct (Sent x (elem_of_list_lookup_2 _ _ _ Hx)) as (r & Hr & He). eapply sent_asked; eassumption.
Qed.

(** * When it ends *)

Definition nowhere : surroundings := Surroundings 0 0 0 0 0 0 0 (repeat 0 16) (fun _ => None).
Lemma nowhere_ok nr : 0 <= nr <= 332 -> surroundings_ok (KEvent 1 0 nr 0 0 1 [] 0) nowhere.
Proof. intros H. split; cbn; lia. Qed.

Definition one_call (nr : Z) : list kop := [KEnter 1 (Task 1 1 nr) [] 0 0; KExit 1 (Task 1 1 nr) 0 0 0].
Lemma one_call_turns nr tid : takes_turns (one_call nr) tid.
Proof.
  intros i j H _ (t & a & u & n & Hj). destruct j as [|[|j]]; [lia|discriminate Hj|discriminate Hj].
Qed.
Lemma one_call_sent tbl flag m nr : go_table tbl -> install tbl flag = Some m -> asked flag nr -> nr <> 59 ->
  exists s rs, krun tbl (fresh_kernel m) (one_call nr) = (s, rs) /\ was_sent rs (KEvent 1 0 nr 0 0 1 [] 0, nowhere).
Proof.
  intros G I A N. destruct (krun tbl (fresh_kernel m) (one_call nr)) as [s rs] eqn:R. exists s, rs. split; [reflexivity|].
  pose proof (asked_range _ _ A) as B. assert (U : u32 nr = nr) by (apply Z.mod_small; lia).
  pose proof (krun_length _ _ _ _ _ R) as Len. destruct rs as [|r0 [|r1 rs]]; try discriminate Len. exists r1. split; [right; left|].
  apply (sent_at_exit tbl flag m (one_call nr) s (r0 :: r1 :: rs) 1%nat 1 (Task 1 1 nr) 0 0 0 r1 (KEvent 1 0 nr 0 0 1 [] 0) G I).
  - intros o Ho. unfold one_call in Ho. repeat (apply elem_of_cons in Ho as [Ho|Ho]; [discriminate|]). apply not_elem_of_nil in Ho. exact Ho.
  - unfold few_threads, one_call, enters. cbn [omap list_omap list_to_set]. rewrite union_empty_r_L, size_singleton. lia.
  - apply one_call_turns.
  - exact R.
  - reflexivity.
  - reflexivity.
  - cbn [t_id t_pidns]. rewrite U. split; [lia|]. split; [exact A|]. split; [exact N|]. exists 0%nat, (Task 1 1 nr), [], 0, 0.
    split; [split; [lia|intros j Hj; lia]|]. split; [reflexivity|]. split; reflexivity.
Qed.

Lemma survives_iff tbl flag m json p tty : go_table tbl -> install tbl flag = Some m ->
  ((forall l s rs evs msgs outs alive, no_edits l -> few_threads l -> (forall tid, takes_turns l tid) ->
      (forall tid t args ugid now cpu, KExecve tid t args ugid now cpu ∈ l -> t_id t = 59) ->
      krun tbl (fresh_kernel m) l = (s, rs) -> Forall (was_sent rs) evs -> Forall2 record_of evs msgs ->
      print_loop json p "cli" tty msgs = (outs, alive) -> alive = true)
   <-> forall nr, asked flag nr -> decoder nr <> None).
Proof.
  intros G I. split.
  - intros H nr A. destruct (decide (nr = 59)) as [->|N]; [discriminate|]. destruct (one_call_sent tbl flag m nr G I A N) as (s & rs & R & Sent).
    pose proof (asked_range _ _ A) as B. intros D. set (e := KEvent 1 0 nr 0 0 1 [] 0) in *.
    assert (F : Forall2 record_of [(e, nowhere)] [emit e nowhere (repeat 0 736) ++ []]).
    { constructor; [|constructor]. split; [apply nowhere_ok, B|]. exists (repeat 0 736), []. split; [apply repeat_length|reflexivity]. }
    destruct (print_loop json p "cli" tty [emit e nowhere (repeat 0 736) ++ []]) as [outs alive] eqn:L.
    assert (alive = true) as ->.
    { eapply (H (one_call nr) s rs [(e, nowhere)]); [| | | |exact R|constructor; [exact Sent|constructor]|exact F|exact L].
      - intros o Ho. unfold one_call in Ho. repeat (apply elem_of_cons in Ho as [Ho|Ho]; [discriminate|]). apply not_elem_of_nil in Ho. exact Ho.
      - unfold few_threads, one_call, enters. cbn [omap list_omap list_to_set]. rewrite union_empty_r_L, size_singleton. lia.
      - intros tid. apply one_call_turns.
      - intros tid t args ugid now cpu Ho. unfold one_call in Ho. repeat (apply elem_of_cons in Ho as [Ho|Ho]; [discriminate|]). apply not_elem_of_nil in Ho. contradiction. }
    apply (alive_iff json p tty _ _ _ _ F L) in eq_refl as Q || pose proof (proj1 (alive_iff json p tty _ _ _ _ F L) eq_refl) as Q.
    inversion Q as [|x xs Hx _]; subst. exact (Hx D).
  - intros H l s rs evs msgs outs alive NE FT T X R Sent F L. apply (alive_iff json p tty evs msgs outs alive F L). apply Forall_forall. intros x Hx.
    rewrite Forall_forall in Sent. destruct (Sent x Hx) as (r & Hr & He). apply H. eapply sent_asked; eassumption.
Qed.

(** * JSON *)

Lemma same_input bs : ingest (InKernelEvent bs) = ingest (InBytes bs).
Proof. reflexivity. Qed.
Lemma json_alive (f : list Z -> list Z) jp (sc : trace_event -> option syscall) p tty evs msgs : Forall2 record_of evs msgs -> Forall bytes msgs -> forall outs alive,
  print_loop (fun t raw => f <$> message jp (sc t) None raw t) p "json" tty msgs = (outs, alive) ->
  (alive = false <-> exists j x bs r, evs !! j = Some x /\ msgs !! j = Some bs /\ ingest_bytes bs = Some r
     /\ (decoder (ev_nr (fst x)) = None \/ ends_the_server jp (r_args r) (ev_nr (fst x)))).
Proof.
  induction 1 as [|[e su] bs evs msgs Hr F IH]; intros B outs alive L; cbn [print_loop] in L.
  - injection L as <- <-. split; [discriminate|]. intros (j & x & bs & r & H & _). discriminate.
  - inversion B as [|? ? B0 B1]; subst. destruct (ingest_record e su bs Hr) as (r & Hb & Hn & Len & Hd). rewrite Hb in L.
    assert (Here : decoder (ev_nr e) = None \/ ends_the_server jp (r_args r) (ev_nr e) -> exists j x bs' r',
      ((e, su) :: evs) !! j = Some x /\ (bs :: msgs) !! j = Some bs' /\ ingest_bytes bs' = Some r' /\ (decoder (ev_nr (fst x)) = None \/ ends_the_server jp (r_args r') (ev_nr (fst x)))).
    { intros H. exists 0%nat, (e, su), bs, r. split; [reflexivity|]. split; [reflexivity|]. split; [exact Hb|exact H]. }
    destruct (decoder (ev_nr e)) as [fs|] eqn:D.
    + destruct Hd as (t & Hi & Ht & _). rewrite Hi in L. unfold show_msg in L. change (String.eqb "json" "cli") with false in L. change (String.eqb "json" "json") with true in L. cbv iota in L.
      pose proof (message_none jp (sc t) None bs t r B0 Hi Hb) as N. rewrite Ht in N. destruct (message jp (sc t) None (r_args r) t) as [msg|]; cbn [fmap option_fmap option_map] in L.
      * destruct (print_loop _ p "json" tty msgs) as [os al] eqn:E. injection L as <- <-. rewrite (IH B1 os al eq_refl). split.
        { intros (j & x & bs' & r' & H1 & H2 & H3). exists (S j), x, bs', r'. split; [exact H1|]. split; [exact H2|exact H3]. }
        { intros (j & x & bs' & r' & H1 & H2 & H3 & H4). destruct j as [|j].
          - exfalso. cbn in H1, H2. injection H1 as <-. injection H2 as <-. rewrite Hb in H3. apply Some_inj in H3. subst r'. cbn [fst] in H4. destruct H4 as [H4|H4]; [congruence|]. apply N in H4. discriminate.
          - exists j, x, bs', r'. split; [exact H1|]. split; [exact H2|]. split; [exact H3|exact H4]. }
      * injection L as <- <-. split; [intros _; apply Here; right; apply N; reflexivity|reflexivity].
    + rewrite Hd in L. injection L as <- <-. split; [intros _; apply Here; left; reflexivity|reflexivity].
Qed.
