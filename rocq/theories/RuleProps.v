(** Property C121: the rules of the kernel filter as the program logs them. *)
From Coq Require Import ZArith String Ascii Lia.
From stdpp Require Import base list numbers strings pretty gmap.
From Verif Require Import SyscallTable SyscallModel SyscallSpec SyscallProofs FilterModel FilterSpec FilterProofs KernelModel LibModel.
From Verif Require Import CodecModel CodecNames WalkModel WalkProofs WalkProps ChartProofs RuleModel.

Local Open Scope string_scope.
Local Open Scope list_scope.
Local Open Scope Z_scope.

(** * Texts without a comma *)
Fixpoint no_comma (s : string) : bool := match s with EmptyString => true | String c s => negb (Ascii.eqb c ",") && no_comma s end.
Lemma cut a : forall b x y, no_comma a = true -> no_comma b = true -> (a ++ String "," x)%string = (b ++ String "," y)%string -> a = b /\ x = y.
Proof.
  induction a as [|c a IH]; intros b x y Ha Hb E; destruct b as [|d b].
  - change (String "," x = String "," y) in E. by injection E as ->.
  - change (String "," x = String d (b ++ String "," y)) in E. injection E as <- _. discriminate Hb.
  - change (String c (a ++ String "," x) = String "," y) in E. injection E as -> _. discriminate Ha.
  - change (String c (a ++ String "," x) = String d (b ++ String "," y)) in E. injection E as <- E.
    cbn [no_comma] in Ha, Hb. apply andb_prop in Ha as [_ Ha]. apply andb_prop in Hb as [_ Hb].
    destruct (IH b x y Ha Hb E) as [-> ->]. done.
Qed.
Lemma append_right (s t u : string) : ((s ++ t) ++ u)%string = (s ++ (t ++ u))%string.
Proof. induction s as [|ch s IH]; [done|]. change (String ch ((s ++ t) ++ u)%string = String ch (s ++ (t ++ u))%string). by rewrite IH. Qed.
Lemma digits_no_comma s : forall acc n, digits acc s = Some n -> no_comma s = true.
Proof.
  induction s as [|c s IH]; intros acc n H; [done|]. cbn [digits] in H. destruct (digit c) as [d|] eqn:D; [|discriminate].
  cbn [no_comma]. rewrite (IH _ _ H), andb_true_r. destruct (Ascii.eqb c ",") eqn:E; [|done]. apply Ascii.eqb_eq in E. subst c. discriminate D.
Qed.
Lemma pretty_no_comma (z : Z) : no_comma (pretty z) = true.
Proof.
  destruct z as [|p|p]; [reflexivity| |].
  - eapply digits_no_comma. exact (digits_pretty (N.pos p)).
  - change (no_comma (pretty (N.pos p)) = true). eapply digits_no_comma. exact (digits_pretty (N.pos p)).
Qed.

(** * The flags *)
Lemma bit_testbit f i name : 0 <= i -> bit f (2 ^ i) name = if Z.testbit f i then [name] else [].
Proof.
  intros Hi. unfold bit. assert (E : Z.land f (2 ^ i) = if Z.testbit f i then 2 ^ i else 0).
  { apply Z.bits_inj'. intros n Hn. rewrite Z.land_spec, Z.pow2_bits_eqb by done. destruct (Z.eqb_spec i n) as [->|Hne].
    - rewrite andb_true_r. destruct (Z.testbit f n) eqn:T; [by rewrite Z.pow2_bits_true|by rewrite Z.testbit_0_l].
    - rewrite andb_false_r. destruct (Z.testbit f i); [by rewrite Z.pow2_bits_false|by rewrite Z.testbit_0_l]. }
  rewrite E. destruct (Z.testbit f i); [|done]. destruct (Z.eqb_spec (2 ^ i) 0) as [X|X]; [|done]. pose proof (Z.pow_pos_nonneg 2 i). lia.
Qed.
Definition words (a b c d e : bool) : string :=
  join_bar ((if a then ["FILTER_MODE_SYSCALL"] else []) ++ (if b then ["FILTER_MODE_METRICS"] else []) ++ (if c then ["FILTER_TYPE_PID"] else []) ++
            (if d then ["FILTER_TYPE_PID_NS"] else []) ++ (if e then ["FILTER_TYPE_SYSCALL"] else [])).
Lemma flag_words f : flag_text f = words (Z.testbit f 1) (Z.testbit f 2) (Z.testbit f 13) (Z.testbit f 14) (Z.testbit f 15).
Proof.
  unfold flag_text, words. rewrite <- (bit_testbit f 1), <- (bit_testbit f 2), <- (bit_testbit f 13), <- (bit_testbit f 14), <- (bit_testbit f 15) by lia.
  reflexivity.
Qed.
Lemma words_no_comma a b c d e : no_comma (words a b c d e) = true.
Proof. destruct a, b, c, d, e; reflexivity. Qed.
Lemma words_inj a b c d e a' b' c' d' e' : words a b c d e = words a' b' c' d' e' -> a = a' /\ b = b' /\ c = c' /\ d = d' /\ e = e'.
Proof.
  intros H. apply String.eqb_eq in H.
  assert (K : String.eqb (words a b c d e) (words a' b' c' d' e') = Bool.eqb a a' && (Bool.eqb b b' && (Bool.eqb c c' && (Bool.eqb d d' && Bool.eqb e e')))).
  { clear H. destruct a, b, c, d, e, a', b', c', d', e'; reflexivity. }
  rewrite K in H. repeat (apply andb_prop in H as [?%Bool.eqb_prop H]). apply Bool.eqb_prop in H. done.
Qed.
Definition plain_flags (f : Z) : Prop := forall i, Z.testbit f i = true -> i ∈ [1; 2; 13; 14; 15].
Lemma flag_text_inj f g : plain_flags f -> plain_flags g -> flag_text f = flag_text g -> f = g.
Proof.
  intros Hf Hg E. rewrite !flag_words in E. apply words_inj in E as (E1 & E2 & E3 & E4 & E5). apply Z.bits_inj'. intros n _.
  destruct (decide (n ∈ [1; 2; 13; 14; 15])) as [Hn|Hn].
  - rewrite !elem_of_cons, elem_of_nil in Hn. destruct Hn as [->|[->|[->|[->|[->|[]]]]]]; assumption.
  - destruct (Z.testbit f n) eqn:T1; [by apply Hf in T1|]. destruct (Z.testbit g n) eqn:T2; [by apply Hg in T2|done].
Qed.

(** * The calls *)
Lemma names_plain : forallb (fun sc => no_comma (sc_name sc) && negb (String.eqb (sc_name sc) "ALL")) all = true.
Proof. vm_compute. reflexivity. Qed.
Lemma read_in_table : exists sc, lookup_sc table (ByInt 0) = Some sc /\ sc_name sc = "sys_read".
Proof. eexists. split; vm_compute; reflexivity. Qed.
Local Opaque all syscall_nr gClassMap gSyscallMap.
Lemma name_plain tbl nr sc : go_table tbl -> lookup_sc tbl (ByInt nr) = Some sc -> no_comma (sc_name sc) = true /\ sc_name sc <> "ALL".
Proof.
  intros Ht H. rewrite (go_table_eq _ Ht) in H. cbn [lookup_sc] in H. apply by_nr_all in H as [_ H].
  pose proof names_plain as N. rewrite forallb_forall in N. specialize (N sc). cbv beta in N.
  pose proof (proj1 (elem_of_list_In _ _) H) as I. specialize (N I). apply andb_prop in N as [I1 I2].
  split; [exact I1|]. apply negb_true_iff, String.eqb_neq in I2. exact I2.
Qed.
Definition plain_call (tbl : syscalls) (nr : Z) : Prop := nr = -1 \/ known tbl nr.
Lemma no_minus_one tbl : go_table tbl -> lookup_sc tbl (ByInt (-1)) = None.
Proof.
  intros Ht. destruct (lookup_sc tbl (ByInt (-1))) as [sc|] eqn:E; [|done].
  destruct (known_sc tbl (-1) Ht) as (_ & _ & _ & B); [by exists sc|lia].
Qed.
Lemma call_no_comma tbl nr : go_table tbl -> no_comma (call_text tbl nr) = true.
Proof. intros Ht. unfold call_text. destruct (lookup_sc tbl (ByInt nr)) as [sc|] eqn:E; [|done]. by destruct (name_plain tbl nr sc Ht E). Qed.
Lemma call_inj tbl a b : go_table tbl -> plain_call tbl a -> plain_call tbl b -> call_text tbl a = call_text tbl b -> a = b.
Proof.
  intros Ht Ha Hb E. unfold call_text in E.
  destruct Ha as [->|[sa Ha]], Hb as [->|[sb Hb]]; [done| | |].
  - rewrite (no_minus_one tbl Ht), Hb in E. destruct (name_plain tbl _ _ Ht Hb) as [_ N]. congruence.
  - rewrite (no_minus_one tbl Ht), Ha in E. destruct (name_plain tbl _ _ Ht Ha) as [_ N]. congruence.
  - rewrite Ha, Hb in E. exact (name_inj tbl a b sa sb Ht Ha Hb E).
Qed.

(** * Rules that can be in the filter *)
Definition plain_rule (tbl : syscalls) (k : fkey) (v : fval) : Prop :=
  plain_flags (k_flags k) /\ plain_call tbl (k_syscall k) /\ (v_action v = 0 \/ v_action v = 1).
Lemma rule_text_inj tbl k v k' v' : go_table tbl -> plain_rule tbl k v -> plain_rule tbl k' v' -> rule_text tbl k v = rule_text tbl k' v' -> k = k' /\ v = v'.
Proof.
  intros Ht (F & C & A) (F' & C' & A') E. destruct k as [f ns th nr], v as [r c h a], k' as [f' ns' th' nr'], v' as [r' c' h' a'].
  cbn [k_flags k_syscall v_action] in *. unfold rule_text, key_text, val_text in E. cbn [k_flags k_pidns k_thrid k_syscall v_rate v_count v_hits v_action] in E.
  assert (L : forall p x y, (String.append p x) = String.append p y -> x = y).
  { intros p x y. induction p as [|ch p IH]; [done|]. intros H. apply IH. by injection H. }
  rewrite !append_right in E. apply L in E. apply L in E.
  apply cut in E as [E1 E]; [|rewrite flag_words; apply words_no_comma..]. apply (L " pid-namespace=") in E.
  apply cut in E as [E2 E]; [|apply pretty_no_comma..]. apply (L " thread-id=") in E.
  apply cut in E as [E3 E]; [|apply pretty_no_comma..]. apply (L " syscall=") in E.
  apply cut in E as [E4 E]; [|by apply call_no_comma..]. apply (L " sample-rate=") in E.
  apply cut in E as [E5 E]; [|apply pretty_no_comma..]. apply (L " current-sample-count=") in E.
  apply cut in E as [E6 E]; [|apply pretty_no_comma..]. apply (L " hits=") in E.
  apply cut in E as [E7 E]; [|apply pretty_no_comma..]. apply (L " action=") in E.
  apply flag_text_inj in E1; [|done..]. apply (inj pretty) in E2, E3, E5, E6, E7. apply (call_inj tbl _ _ Ht C C') in E4.
  assert (a = a') as ->. { destruct A as [->| ->], A' as [->| ->]; [done|discriminate E|discriminate E|done]. }
  split; congruence.
Qed.

(** Every rule the library puts into the filter is such a rule. *)
Definition plain_maps (tbl : syscalls) (m : kmaps) : Prop := forall k v, nfilter m !! k = Some v -> plain_rule tbl k v.
Lemma plain_or f i : In i [1; 2; 13; 14; 15] -> plain_flags f -> plain_flags (Z.lor f (2 ^ i)).
Proof.
  intros Hi Hf n. rewrite Z.lor_spec. intros [H|H]%orb_prop; [by apply Hf|]. assert (P : 0 <= i) by (cbn in Hi; lia).
  rewrite Z.pow2_bits_eqb in H by exact P. apply Z.eqb_eq in H. subst n. by apply elem_of_list_In.
Qed.
Lemma known_arg tbl a sc : go_table tbl -> lookup_sc tbl a = Some sc -> s32 (sc_nr sc) = sc_nr sc /\ known tbl (sc_nr sc).
Proof.
  intros Ht H. assert (K : known tbl (sc_nr sc)).
  { destruct a as [v|n|n|]; [exists sc; by eapply lookup_string_known| | |discriminate H].
    - destruct (known_sc tbl n Ht) as (sc' & H' & E & _); [by exists sc|]. change (lookup_sc tbl (ByUint32 n)) with (lookup_sc tbl (ByInt n)) in H.
      rewrite H in H'. injection H' as <-. rewrite E. by exists sc.
    - destruct (known_sc tbl n Ht) as (sc' & H' & E & _); [by exists sc|]. rewrite H in H'. injection H' as <-. rewrite E. by exists sc. }
  split; [|exact K]. destruct (known_sc tbl _ Ht K) as (_ & _ & _ & B). unfold s32. rewrite Z.mod_small by lia. destruct (Z.ltb_spec (sc_nr sc) (2 ^ 31)); lia.
Qed.
Lemma opts_plain tbl os : go_table tbl -> forall r r', apply_opts tbl os r = Some r' -> plain_rule tbl (r_key r) (r_val r) -> plain_rule tbl (r_key r') (r_val r').
Proof.
  intros Ht. induction os as [|o os IH]; intros r r' E P; cbn [apply_opts] in E; [by injection E as <-|].
  destruct (apply_opt tbl o r) as [r1|] eqn:E1; [|discriminate]. apply (IH r1 r' E). clear IH E.
  destruct r as [[f ns th nr] [ra c h a]], P as (F & C & A). cbn [r_key r_val k_flags k_syscall v_action] in *.
  assert (O : forall i, In i [1; 2; 13; 14; 15] -> plain_flags (Z.lor f (2 ^ i))) by (intros i Hi; by apply plain_or).
  destruct o as [sc|rate|n|pid| | | |]; cbn [apply_opt] in E1.
  - destruct (lookup_sc tbl sc) as [x|] eqn:El; [|discriminate]. injection E1 as <-. destruct (known_arg tbl sc x Ht El) as [Es Ek].
    split_and!; cbn [r_key r_val with_flag k_flags k_syscall v_action]; [apply (O 15); cbn; tauto|rewrite Es; by right|exact A].
  - injection E1 as <-. by split_and!.
  - destruct (n =? -1); injection E1 as <-; [by split_and!|]. split_and!; [apply (O 14); cbn; tauto|exact C|exact A].
  - injection E1 as <-. split_and!; [apply (O 13); cbn; tauto|exact C|exact A].
  - injection E1 as <-. split_and!; [exact F|exact C|by right].
  - injection E1 as <-. split_and!; [exact F|exact C|by left].
  - injection E1 as <-. split_and!; [apply (O 1); cbn; tauto|exact C|exact A].
  - injection E1 as <-. split_and!; [apply (O 2); cbn; tauto|exact C|exact A].
Qed.
Lemma read_known tbl : go_table tbl -> exists sc, lookup_sc tbl (ByInt 0) = Some sc /\ sc_name sc = "sys_read".
Proof. intros Ht. rewrite (go_table_eq _ Ht). exact read_in_table. Qed.
Lemma plain_new tbl os r : go_table tbl -> new_rule tbl os = Some r -> plain_rule tbl (r_key r) (r_val r).
Proof.
  intros Ht E. apply (opts_plain tbl os Ht _ _ E). split_and!; [intros i H; by rewrite Z.testbit_0_l in H| |by left].
  right. destruct (read_known tbl Ht) as (sc & H & _). by exists sc.
Qed.
Lemma plain_add tbl os m : go_table tbl -> plain_maps tbl m -> plain_maps tbl (with_rule tbl os add_rule m).1.
Proof.
  intros Ht P. unfold with_rule. destruct (new_rule tbl os) as [r|] eqn:E; [|exact P]. pose proof (plain_new tbl os r Ht E) as (F & C & A).
  unfold add_rule. destruct (map_update config_max _ _ _); [|exact P].
  destruct (map_update nfilter_max _ _ _) as [f|] eqn:Eu; [|exact P]. apply map_update_some in Eu as ->. intros k v H. cbn [fst nfilter] in H.
  apply lookup_insert_Some in H as [[<- <-]|[_ H]]; [|by apply P]. unfold add_key. destruct (_ && _); [|by split_and!]. split_and!; [exact F|by left|exact A].
Qed.
Lemma plain_del tbl os m : plain_maps tbl m -> plain_maps tbl (with_rule tbl os del_rule m).1.
Proof.
  intros P. unfold with_rule. destruct (new_rule tbl os) as [r|]; [|exact P]. intros k v H. cbn [del_rule fst nfilter] in H.
  apply lookup_delete_Some in H as [_ H]. by apply P.
Qed.
Lemma plain_loop tbl ks m : plain_maps tbl m -> plain_maps tbl (eval_loop ks m).1.
Proof.
  intros P. induction ks as [|k0 ks IH]; [exact P|]. cbn [eval_loop]. destruct (filter_enabled m (k_flags k0)); [|exact IH].
  destruct (nfilter m !! k0) as [v0|] eqn:E; [|exact IH]. destruct (P _ _ E) as (F & C & A). unfold hit.
  destruct (0 <? v_rate v0); intros k v H; cbn [fst nfilter] in H; apply lookup_insert_Some in H as [[<- <-]|[_ H]]; first [by apply P|by split_and!].
Qed.
Lemma plain_run tbl mode t m : plain_maps tbl m -> plain_maps tbl (run_nfilter mode t m).1.
Proof. intros P. unfold run_nfilter. destruct (filter_enabled m mode_enabled); [by apply plain_loop|exact P]. Qed.
Lemma plain_fstep tbl o m : go_table tbl -> plain_maps tbl m -> plain_maps tbl (fstep tbl o m).
Proof.
  intros Ht P. destruct o; cbn [fstep]; try (by apply plain_add); try (by apply plain_del); [|by apply plain_run].
  unfold enable. destruct (map_update config_max _ _ _); exact P.
Qed.
Lemma plain_fill tbl upd t s : plain_maps tbl (ks_filter s) -> plain_maps tbl (ks_filter (fill_metrics upd t s).1).
Proof.
  intros P. unfold fill_metrics. pose proof (plain_run tbl mode_metrics t _ P) as Q. destruct (run_nfilter mode_metrics t (ks_filter s)) as [f v].
  destruct (v =? action_drop); [exact Q|]. destruct (_ =? _); [exact Q|]. destruct (upd _ _ _); exact Q.
Qed.
Lemma plain_step tbl s a : go_table tbl -> plain_maps tbl (ks_filter s) -> plain_maps tbl (ks_filter (lib_step tbl s a).1).
Proof.
  intros Ht P. destruct a as [o|os|os|]; cbn [lib_step].
  - destruct o as [tid t args ugid now|tid t ret now cpu|tid t args ugid now cpu|o|ns]; cbn [kstep].
    + unfold sys_enter. pose proof (plain_fill tbl (fun ns nr => update_metrics_ktime ns nr now) t s P) as Q.
      destruct (fill_metrics _ t s) as [s1 mo]. destruct (_ =? _); [exact Q|].
      pose proof (plain_run tbl mode_syscall t _ Q) as R. cbn [fst] in R. destruct (run_nfilter mode_syscall t (ks_filter s1)) as [f v].
      destruct (v =? action_drop); [exact R|]. destruct (store _ _ _ _); exact R.
    + unfold sys_exit. pose proof (plain_fill tbl (fun ns nr => update_metrics ns nr (ret_err ret) now) t s P) as Q.
      destruct (fill_metrics _ t s) as [s1 mo]. destruct (ks_calls s1 !! tid); [|exact Q].
      destruct (negb (has_scratch cpu)); [exact Q|]. destruct (negb _); exact Q.
    + unfold sys_execve. pose proof (plain_run tbl mode_syscall t _ P) as R. destruct (run_nfilter mode_syscall t (ks_filter s)) as [f v].
      destruct (v =? action_drop); [exact R|]. destruct (negb _); exact R.
    + by apply plain_fstep.
    + exact P.
  - by apply plain_add.
  - by apply plain_del.
  - exact P.
Qed.
Lemma plain_lib tbl l : go_table tbl -> forall s s' rs, plain_maps tbl (ks_filter s) -> lib_run tbl s l = (s', rs) -> plain_maps tbl (ks_filter s').
Proof.
  intros Ht. induction l as [|a l IH]; intros s s' rs P E; cbn [lib_run] in E; [by injection E as <- _|].
  pose proof (plain_step tbl s a Ht P) as Q. destruct (lib_step tbl s a) as [s1 r]. destruct (lib_run tbl s1 l) as [s2 rs2] eqn:E2.
  injection E as <- _. exact (IH s1 s2 rs2 Q E2).
Qed.
Lemma plain_fsteps tbl os : go_table tbl -> forall m, plain_maps tbl m -> plain_maps tbl (fsteps tbl os m).
Proof.
  intros Ht. unfold fsteps. induction os as [|o os IH]; intros m P; [exact P|]. apply (IH (fstep tbl o m)). by apply plain_fstep.
Qed.
Lemma plain_empty tbl : plain_maps tbl (KMaps ∅ ∅).
Proof. intros k v H. cbn [nfilter] in H. rewrite lookup_empty in H. discriminate. Qed.

(** C121: after any history of the library and the machine, two rules in the filter that
    read alike are one rule, with the same counters. *)
Theorem C121_text_tells_rules_apart : forall tbl l s rs k v k' v', go_table tbl -> lib_run tbl loaded l = (s, rs) ->
  nfilter (ks_filter s) !! k = Some v -> nfilter (ks_filter s) !! k' = Some v' -> rule_text tbl k v = rule_text tbl k' v' -> k = k' /\ v = v'.
Proof.
  intros tbl l s rs k v k' v' Ht E H H'. pose proof (plain_lib tbl l Ht loaded s rs (plain_empty tbl) E) as P.
  exact (rule_text_inj tbl k v k' v' Ht (P _ _ H) (P _ _ H')).
Qed.

(** C121: a report of a filter nobody changes meanwhile has the text of each of its rules
    once and nothing else. *)
Theorem C121_report_lists_every_rule_once : forall tbl os m fuel, go_table tbl -> NoDup (map fst m) ->
  (list_to_map m : gmap fkey fval) = nfilter (fsteps tbl os (KMaps ∅ ∅)) -> (length m < fuel)%nat ->
  exists lines, report tbl (fun _ => m) fuel = Some lines /\ NoDup lines /\
    forall x, x ∈ lines <-> exists k v, nfilter (fsteps tbl os (KMaps ∅ ∅)) !! k = Some v /\ x = rule_text tbl k v.
Proof.
  intros tbl os m fuel Ht N E F. unfold report. rewrite (C30_get_running_returns_every_rule_once tbl os m fuel N E F).
  pose proof (plain_fsteps tbl os Ht _ (plain_empty tbl)) as P. eexists. split; [reflexivity|].
  assert (I : forall k v, (k, v) ∈ m <-> nfilter (fsteps tbl os (KMaps ∅ ∅)) !! k = Some v).
  { intros k v. rewrite <- E. apply elem_of_list_to_map. exact N. }
  split.
  - assert (N' : NoDup m) by (by eapply NoDup_fmap_1).
    assert (Inj : forall a b, a ∈ m -> b ∈ m -> rule_text tbl a.1 a.2 = rule_text tbl b.1 b.2 -> a = b).
    { intros [k v] [k' v'] Ha Hb Eq. apply I in Ha. apply I in Hb. destruct (rule_text_inj tbl k v k' v' Ht (P _ _ Ha) (P _ _ Hb) Eq). congruence. }
    clear -N' Inj. induction m as [|a m IH]; [constructor|]. apply NoDup_cons in N' as [Na N']. cbn [map]. constructor.
    + intros (b & Eb & Hb)%elem_of_list_In%in_map_iff. apply elem_of_list_In in Hb. assert (a = b) as -> by (apply Inj; [by left|by right|congruence]). done.
    + apply IH; [exact N'|]. intros x y Hx Hy. apply Inj; by right.
  - intros x. split.
    + intros ([k v] & <- & H)%elem_of_list_In%in_map_iff. apply elem_of_list_In, I in H. eauto.
    + intros (k & v & H & ->). apply I in H. apply elem_of_list_In, in_map_iff. exists (k, v). split; [done|by apply elem_of_list_In].
Qed.

(** C121: what the lines of the rules the helpers add say. *)
Definition line (flags : string) (ns : Z) (call : string) (rate : Z) : string :=
  ("{flags=" ++ flags ++ ", pid-namespace=" ++ pretty ns ++ ", thread-id=0, syscall=" ++ call ++ ", sample-rate=" ++ pretty rate ++
   ", current-sample-count=0, hits=0, action=ACTION_ALLOW}")%string.
Theorem C121_lines_of_the_helpers : forall tbl nr sc ns rate m, go_table tbl -> lookup_sc tbl nr = Some sc -> 0 <= ns < 2 ^ 32 -> 0 <= rate < 2 ^ 32 ->
  nfilter m = ∅ -> (size (config m) < config_max)%nat ->
  (exists k v, nfilter (fstep tbl (FAddSyscall nr ns) m) = {[k := v]} /\ rule_text tbl k v = line "FILTER_MODE_SYSCALL|FILTER_TYPE_PID_NS|FILTER_TYPE_SYSCALL" ns (sc_name sc) 0) /\
  (exists k v, nfilter (fstep tbl (FAddSampled nr ns rate) m) = {[k := v]} /\ rule_text tbl k v = line "FILTER_MODE_SYSCALL|FILTER_TYPE_PID_NS|FILTER_TYPE_SYSCALL" ns (sc_name sc) rate) /\
  (exists k v, nfilter (fstep tbl (FAddMetrics ns) m) = {[k := v]} /\ rule_text tbl k v = line "FILTER_MODE_METRICS|FILTER_TYPE_PID_NS" ns "ALL" 0).
Proof.
  intros tbl nr sc ns rate m Ht Hl Hns Hr Hm Hc. destruct (known_arg tbl nr sc Ht Hl) as [Es [sc' Ek]].
  assert (sc' = sc) as ->.
  { destruct nr as [v|n|n|]; [|pose proof (known_sc tbl n Ht)|pose proof (known_sc tbl n Ht)|discriminate Hl].
    - pose proof (lookup_string_known tbl v sc Ht Hl). congruence.
    - destruct H as (x & Hx & Ex & _); [by exists sc|]. change (lookup_sc tbl (ByUint32 n)) with (lookup_sc tbl (ByInt n)) in Hl. congruence.
    - destruct H as (x & Hx & Ex & _); [by exists sc|]. congruence. }
  assert (N1 : (ns =? -1) = false) by lia. assert (U1 : u32 ns = ns) by (unfold u32; by rewrite Z.mod_small). assert (U2 : u32 rate = rate) by (unfold u32; by rewrite Z.mod_small).
  assert (Up : forall k v, map_update nfilter_max (nfilter m) k v = Some {[k := v]}).
  { intros k v. rewrite Hm. unfold map_update. rewrite lookup_empty, map_size_empty. rewrite decide_True; [by rewrite insert_empty|]. unfold nfilter_max. lia. }
  assert (Uc : forall f, exists c, map_update config_max (config m) f 1 = Some c).
  { intros f. unfold map_update. destruct (config m !! f); [eauto|]. rewrite decide_True by exact Hc. eauto. }
  assert (Add : forall r, nfilter (add_rule r m).1 = {[add_key (r_key r) := r_val r]}).
  { intros r. unfold add_rule. destruct (Uc (k_flags (add_key (r_key r)))) as [c ->]. by rewrite Up. }
  assert (T : call_text tbl (sc_nr sc) = sc_name sc) by (unfold call_text; by rewrite Ek).
  assert (T2 : call_text tbl (-1) = "ALL") by (unfold call_text; by rewrite (no_minus_one tbl Ht)).
  cbn [fstep]. unfold add_syscall, add_sampled_syscall, add_metrics, with_rule, new_rule.
  cbn [apply_opts apply_opt]. rewrite Hl, N1. cbn [apply_opts apply_opt r_key r_val zero_rule k_flags k_pidns k_thrid k_syscall v_rate v_count v_hits v_action with_flag].
  rewrite !Add. cbn [r_key r_val]. rewrite Es, U1, U2. split_and!; (eexists _, _; split; [reflexivity|]).
  - lazymatch goal with |- rule_text ?t ?kk ?vv = ?x => change (rule_text t (FKey (2 + 2 ^ 14 + 2 ^ 15) ns 0 (sc_nr sc)) vv = x) end. unfold rule_text, key_text, val_text. cbn [k_flags k_pidns k_thrid k_syscall v_rate v_count v_hits v_action]. rewrite T, !append_right. reflexivity.
  - lazymatch goal with |- rule_text ?t ?kk ?vv = ?x => change (rule_text t (FKey (2 + 2 ^ 14 + 2 ^ 15) ns 0 (sc_nr sc)) vv = x) end. unfold rule_text, key_text, val_text. cbn [k_flags k_pidns k_thrid k_syscall v_rate v_count v_hits v_action]. rewrite T, !append_right. reflexivity.
  - lazymatch goal with |- rule_text ?t ?kk ?vv = ?x => change (rule_text t (FKey (4 + 2 ^ 14) ns 0 (-1)) vv = x) end. unfold rule_text, key_text, val_text. cbn [k_flags k_pidns k_thrid k_syscall v_rate v_count v_hits v_action]. rewrite T2, !append_right. reflexivity.
Qed.

(** C121, false of the code: that a rule reads the same before and after it is added. AddRule
    changes a metrics rule: before, it reads as one for sys_read, afterwards as one for all. *)
Theorem C121_text_stays_refuted : forall tbl ns, go_table tbl -> 0 <= ns < 2 ^ 32 ->
  exists r, new_rule tbl [SetModeMetrics; SetPidNamespace ns; SetActionAllow] = Some r /\
    rule_text tbl (r_key r) (r_val r) = line "FILTER_MODE_METRICS|FILTER_TYPE_PID_NS" ns "sys_read" 0 /\
    rule_text tbl (add_key (r_key r)) (r_val r) = line "FILTER_MODE_METRICS|FILTER_TYPE_PID_NS" ns "ALL" 0.
Proof.
  intros tbl ns Ht Hns. assert (N1 : (ns =? -1) = false) by lia. assert (U1 : u32 ns = ns) by (unfold u32; by rewrite Z.mod_small).
  unfold new_rule. cbn [apply_opts apply_opt]. rewrite N1, U1. eexists. split; [reflexivity|]. cbn [r_key r_val].
  destruct (read_known tbl Ht) as (sc & Hs & Hn). assert (T0 : call_text tbl 0 = "sys_read") by (unfold call_text; by rewrite Hs).
  assert (T2 : call_text tbl (-1) = "ALL") by (unfold call_text; by rewrite (no_minus_one tbl Ht)). split.
  - lazymatch goal with |- rule_text ?t ?kk ?vv = ?x => change (rule_text t (FKey (4 + 2 ^ 14) ns 0 0) vv = x) end.
    unfold rule_text, key_text, val_text. cbn [k_flags k_pidns k_thrid k_syscall v_rate v_count v_hits v_action]. rewrite T0, !append_right. reflexivity.
  - lazymatch goal with |- rule_text ?t ?kk ?vv = ?x => change (rule_text t (FKey (4 + 2 ^ 14) ns 0 (-1)) vv = x) end.
    unfold rule_text, key_text, val_text. cbn [k_flags k_pidns k_thrid k_syscall v_rate v_count v_hits v_action]. rewrite T2, !append_right. reflexivity.
Qed.

(** A filter with two rules, one of which has been hit. *)
Example C121_nonvacuous : go_table table /\ exists m, NoDup (map fst m) /\ length m = 2%nat /\
  (list_to_map m : gmap fkey fval) = nfilter (fsteps table [FAddMetrics 6; FEnable; FKernel mode_metrics (Task 6 7 1); FAddMetrics 7] (KMaps ∅ ∅)) /\
  (FKey (4 + 2 ^ 14) 6 0 (-1), FVal 0 0 1 0) ∈ m.
Proof.
  split; [exact go_table_intro|]. exists (map_to_list (nfilter (fsteps table [FAddMetrics 6; FEnable; FKernel mode_metrics (Task 6 7 1); FAddMetrics 7] (KMaps ∅ ∅)))).
  split; [apply NoDup_fst_map_to_list|]. split; [vm_compute; reflexivity|]. split; [apply list_to_map_to_list|].
  apply elem_of_map_to_list. vm_compute. reflexivity.
Qed.

Print Assumptions C121_text_tells_rules_apart.
Print Assumptions C121_report_lists_every_rule_once.
Print Assumptions C121_lines_of_the_helpers.
Print Assumptions C121_text_stays_refuted.
