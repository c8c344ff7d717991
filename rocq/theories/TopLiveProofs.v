(** What `swoll top` tells of the system calls. *)
From Coq Require Import ZArith String Lia.
From stdpp Require Import base list numbers strings pretty gmap.
From Verif Require Import SyscallTable SyscallModel SyscallSpec SyscallProofs FilterModel HubModel
  KernelModel KernelSpec KernelProofs CodecModel LiveModel LiveSpec ServeModel ServeSpec ServeFrame ServeProofs ServeEnds
  WalkModel WalkProofs ChartModel ChartSpec ChartProofs ChartTop ScrapeModel ScrapeSpec ScrapeProofs ScrapeTop TopModel TopSpec TopProofs TopLiveModel TopLiveSpec.
From Verif Require LiveProofs.

Local Open Scope string_scope.
Local Open Scope list_scope.
Local Open Scope Z_scope.
Local Opaque gSyscallMap gClassMap table kstep.

(** ** How many *)

Lemma counts_lt l ns nr e k : counts l ns nr e k -> (k < length l)%nat.
Proof.
  intros ((tid & t & ret & now & cpu & (su & sc & tr & lost & D) & _) & _). apply lookup_lt_Some in D. unfold story in D. rewrite map_length in D. exact D.
Qed.
Lemma how_many_le l ns nr e n : how_many (counts l ns nr e) n -> (n <= length l)%nat.
Proof.
  intros (ks & N & <- & K). rewrite <- (seq_length (length l) 0). apply submseteq_length, NoDup_submseteq; [exact N|]. intros k Hk. apply K, counts_lt in Hk. apply elem_of_seq. lia.
Qed.

(** ** Columns *)

Lemma no_empty_name name nr : (name, nr) ∈ gSyscallMap -> name <> "".
Proof.
  intros H ->. assert (X : forallb (fun p : string * Z => negb (String.eqb p.1 "")) gSyscallMap = true) by (vm_compute; reflexivity).
  rewrite forallb_forall in X. apply elem_of_list_In, X in H. discriminate H.
Qed.

Definition key_of (hd : list string) : tkey :=
  match hd with [sc; err; ns; pod; ctr] => (pod, ns, ctr, sc, err) | _ => ("", "", "", "", "") end.

Lemma shown_iff m sc err ns pod ctr n : m !! (pod, ns, ctr, sc, err) = Some (Z.of_nat n) -> shown m [sc; err; ns; pod; ctr] n.
Proof.
  intros H rows (sorted & rate & P & ->). exists (rate (pod, ns, ctr, sc, err)). intros row. rewrite elem_of_list_In, (rows_of _ _ _ _ P). split.
  - intros [(pod' & ns' & ctr' & sc' & err' & c & Hc & ->) E]. cbn [take] in E. injection E as -> -> -> -> ->. rewrite H in Hc. injection Hc as <-. reflexivity.
  - intros ->. split; [|reflexivity]. exists pod, ns, ctr, sc, err, (Z.of_nat n). split; [exact H|reflexivity].
Qed.

Section top.
Context (tbl : syscalls) (describe : HubModel.container -> TopoModel.container (list (string * string)))
  (srt : list PubSubModel.env -> list PubSubModel.env) (J : nat -> job).
Local Notation step := (sstep tbl describe srt J).
Local Notation run := (srun tbl describe srt J).
Context (G : go_table tbl) (h0 : hub) (H0 : new_hub tbl = Some h0) (s0 : server) (E0 : start_server tbl = Some s0).

Definition sc_text (nr : Z) : string := match lookup_sc tbl (ByInt nr) with Some sc => sc_name sc | None => "" end.
Lemma called_iff nr name : called nr name <-> name = sc_text nr.
Proof.
  destruct G as (walk & W & E). destruct (table_any_walk walk W) as (s & E1 & _ & L & _). rewrite E1 in E. apply Some_inj in E. subst s. unfold called, sc_text.
  destruct (lookup_sc tbl (ByInt nr)) as [[i n cl gr]|] eqn:El.
  - pose proof (proj1 (L _ _) El) as (Ei & A & B). cbn in Ei, A, B. cbn [sc_name]. split.
    + intros [(cl' & gr' & A' & B')|[N _]]; [|destruct N; exists cl, gr, n; split; assumption].
      assert (El' : lookup_sc tbl (ByInt nr) = Some (Syscall nr name cl' gr')) by (apply L; cbn; repeat split; assumption). rewrite El' in El. injection El as _ ->. reflexivity.
    + intros ->. left. exists cl, gr. split; assumption.
  - assert (N : ~ has_name nr) by (intros (cl & gr & n & A & B); assert (El' : lookup_sc tbl (ByInt nr) = Some (Syscall nr n cl gr)) by (apply L; cbn; repeat split; assumption); rewrite El' in El; discriminate).
    split; [intros [(cl & gr & A & B)|[_ ->]]; [destruct N; exists cl, gr, name; split; assumption|reflexivity]|]. intros ->. right. split; [exact N|reflexivity].
Qed.
Lemma named_text nr : has_name nr -> exists sc, lookup_sc tbl (ByInt nr) = Some sc /\ sc_name sc <> "".
Proof.
  intros H. apply (named_call tbl G) in H as [sc H]. exists sc. split; [exact H|].
  destruct G as (walk & W & E). destruct (table_any_walk walk W) as (s & E1 & _ & L & _). rewrite E1 in E. apply Some_inj in E. subst s. apply L in H as (_ & _ & B). exact (no_empty_name _ _ B).
Qed.
(** A call with a name is not taken for another. *)
Lemma text_inj nr nr' : has_name nr -> sc_text nr = sc_text nr' -> nr = nr'.
Proof.
  intros H E. destruct (named_text _ H) as (sc & L & N). unfold sc_text in E. rewrite L in E. destruct (lookup_sc tbl (ByInt nr')) as [sc'|] eqn:L'; [|contradiction].
  exact (name_inj tbl _ _ _ _ G L L' E).
Qed.

(** ** Ticks *)

Lemma units l s rs al ak es ns nr e v x : Forall plausible l -> few_rules l -> few_counters l -> run s0 l s rs -> tick_of tbl describe srt J s0 l rs al ak es -> In ((MKey ns nr e, v), x) es ->
  exists i n, 0 < ns /\ 0 <= e /\ (exists j, shows (take (al i) l) ns nr e j) /\ how_many (counts (take (al i) l) ns nr e) n /\ mv_count v = Z.of_nat n mod 2 ^ 64
    /\ forall o, x = Some o -> exists c, LiveSpec.known (story (take (ak i) l)) ns c /\ o = Owner (ct_namespace c) (ct_pod c) (ct_name c).
Proof.
  intros F FR FC R (snap & lookups & A & B & S) I. inversion S as [fuel r Q Eg]; subst. apply in_answers in I as (i & Hi & Hx). cbn [fst mk_ns] in Hx.
  pose proof (walk_present _ _ _ _ _ Q _ _ Hi) as P. cbn [Nat.add] in P. destruct (A i) as (w & Mw & Lw). apply (listing_in _ _ _ _ Lw) in P.
  destruct (at_moment tbl describe srt J G h0 H0 s0 E0 _ _ _ _ _ F FR FC R Mw) as [T _]. destruct (at_moment tbl describe srt J G h0 H0 s0 E0 _ _ _ _ _ F FR FC R (B i)) as [_ K].
  assert (D : MKey ns nr e ∈ counters (take (al i) l)) by (apply (ta_dom _ _ T); eexists; exact P). apply (counters_real _ _ (Forall_take _ _ _ F)) in D as [D De]. cbn [mk_ns mk_err] in D, De.
  destruct (tally_value _ _ _ _ _ _ T P) as (n & Hn & Ev). exists i, n. split; [exact D|]. split; [exact De|]. split; [apply (ta_shown _ _ T); eexists; exact P|]. split; [exact Hn|]. split; [exact Ev|].
  intros o Eo. rewrite Eo in Hx. symmetry in Hx. apply is_owner in Hx as (c & Hc & ->). exists c. split; [apply K; assumption|reflexivity].
Qed.
Lemma quiet_is_tick l rs k es : quiet_tick tbl describe srt J s0 l rs k es -> tick_of tbl describe srt J s0 l rs (fun _ => k) (fun _ => k) es.
Proof. intros (w & m & M & L & S). exists (fun _ => m), (fun _ => w). split; [intros i; exists w; split; [exact M|exact L]|]. split; [intros i; exact M|exact S]. Qed.
Lemma length_take_le (l : list sop) k : (length (take k l) <= length l)%nat.
Proof. clear. rewrite take_length. lia. Qed.
Lemma small_count (l : list sop) k ns nr e n : Z.of_nat (length l) <= 2 ^ 53 -> how_many (counts (take k l) ns nr e) n -> Z.of_nat n <= Z.of_nat (length l) /\ Z.of_nat n mod 2 ^ 64 = Z.of_nat n.
Proof.
  clear. intros B H. apply how_many_le in H. pose proof (length_take_le l k). split; [lia|]. apply Z.mod_small. lia.
Qed.
Lemma tick_in l rs ts h es : ticks tbl describe srt J s0 l rs ts h -> In es h -> exists t, t ∈ ts /\ tick_of tbl describe srt J s0 l rs t.1 t.2 es.
Proof.
  intros T I. apply elem_of_list_In, elem_of_list_lookup in I as [i Hi]. destruct (Forall2_lookup_r _ _ _ _ _ T Hi) as (t & Ht & X). exists t. split; [exact (elem_of_list_lookup_2 _ _ _ Ht)|exact X].
Qed.
Lemma ticks_snoc l rs ts h k es : ticks tbl describe srt J s0 l rs ts h -> quiet_tick tbl describe srt J s0 l rs k es -> ticks tbl describe srt J s0 l rs (ts ++ [(fun _ => k, fun _ => k)]) (h ++ [es]).
Proof. intros T Q. apply Forall2_app; [exact T|]. constructor; [exact (quiet_is_tick _ _ _ _ Q)|constructor]. Qed.
Lemma ticks_exact l s rs ts h : Forall plausible l -> few_rules l -> few_counters l -> run s0 l s rs -> Z.of_nat (length l) <= 2 ^ 53 -> ticks tbl describe srt J s0 l rs ts h -> exact_counts (concat h).
Proof.
  intros F FR FC R B T. unfold exact_counts. rewrite Forall_forall. intros [[[ns nr e] v] x] I. apply elem_of_list_In, in_concat in I as (es & Ih & I). destruct (tick_in _ _ _ _ _ T Ih) as ([al ak] & _ & Te). cbn [fst snd] in Te.
  destruct (units _ _ _ _ _ _ _ _ _ _ _ F FR FC R Te I) as (i & n & _ & _ & _ & Hn & Ev & _). cbn [fst snd]. rewrite Ev. destruct (small_count _ _ _ _ _ _ B Hn) as [L ->]. lia.
Qed.
Lemma in_counts k es c : c ∈ counts_of tbl k es <-> exists en, In en es /\ TopSpec.seen tbl en = Some (k, c).
Proof.
  unfold counts_of. rewrite elem_of_list_omap. split.
  - intros (en & I & E). exists en. split; [apply elem_of_list_In; exact I|]. destruct (TopSpec.seen tbl en) as [[k' c']|]; [|discriminate]. destruct (decide (k' = k)) as [->|]; [injection E as ->; reflexivity|discriminate].
  - intros (en & I & E). exists en. split; [apply elem_of_list_In; exact I|]. rewrite E. destruct (decide (k = k)); [reflexivity|contradiction].
Qed.

Lemma a_row l s rs ts h rows row : Forall plausible l -> few_rules l -> few_counters l -> Z.of_nat (length l) <= 2 ^ 53 -> run s0 l s rs -> ticks tbl describe srt J s0 l rs ts h ->
  screen (top_run tbl ∅ h).1 rows -> row ∈ rows ->
  exists t i c ns nr e n hd rate, t ∈ ts /\ LiveSpec.known (story (take (t.2 i) l)) ns c /\ (exists j, shows (take (t.1 i) l) ns nr e j) /\ how_many (counts (take (t.1 i) l) ns nr e) n
    /\ heads c nr e hd /\ row = hd ++ [pretty (Z.of_nat n); rate].
Proof.
  intros F FR FC B R T (sorted & rate & P & ->) I. apply elem_of_list_In, (rows_of _ _ _ _ P) in I as (pod & ns' & ctr & sc & err & v & Hm & ->).
  rewrite (shown_last tbl h _ (ticks_exact _ _ _ _ _ F FR FC R B T)) in Hm. apply last_Some_elem_of, in_counts in Hm as ([[[ns nr e] mv] x] & I & Es). unfold TopSpec.seen in Es. cbn [fst snd mk_nr mk_err] in Es. destruct x as [o|]; [|discriminate].
  apply in_concat in I as (es & Ih & I). destruct (tick_in _ _ _ _ _ T Ih) as ([al ak] & It & Te). cbn [fst snd] in Te.
  destruct (units _ _ _ _ _ _ _ _ _ _ _ F FR FC R Te I) as (i & n & _ & _ & Hs & Hn & Ev & K). destruct (K o eq_refl) as (c & Hk & ->). cbn [ow_pod ow_namespace ow_name] in Es. injection Es as <- <- <- <- <- <-.
  rewrite Ev. destruct (small_count _ _ _ _ _ _ B Hn) as [_ ->].
  eexists (al, ak), i, c, ns, nr, e, n, _, _. split; [exact It|]. split; [exact Hk|]. split; [exact Hs|]. split; [exact Hn|]. split; [exists (sc_text nr); split; [apply called_iff; reflexivity|reflexivity]|]. reflexivity.
Qed.

(** What the loop of a quiet tick goes over. *)
Lemma quiet_units l s rs k es : Forall plausible l -> few_rules l -> few_counters l -> run s0 l s rs -> quiet_tick tbl describe srt J s0 l rs k es ->
  forall ns nr e n c, LiveSpec.known (story (take k l)) ns c -> (exists j, shows (take k l) ns nr e j) -> how_many (counts (take k l) ns nr e) n ->
  exists v, In ((MKey ns nr e, v), Some (Owner (ct_namespace c) (ct_pod c) (ct_name c))) es /\ mv_count v = Z.of_nat n mod 2 ^ 64.
Proof.
  intros F FR FC R (w & m & M & Lw & S) ns nr e n c Hk Hs Hn. inversion S as [fuel r Q Eg]; subst.
  destruct (quiet_entries tbl describe srt J G h0 H0 s0 E0 _ _ _ _ _ _ _ _ F FR FC R M Lw Q) as [-> X]. destruct (at_moment tbl describe srt J G h0 H0 s0 E0 _ _ _ _ _ F FR FC R M) as [T _].
  apply (ta_shown _ _ T) in Hs as [v Hv]. exists v. split; [apply X; split; [exact Hv|]; exists c; split; [exact Hk|reflexivity]|].
  destruct (tally_value _ _ _ _ _ _ T Hv) as (n' & Hn' & Ev). rewrite (how_many_one _ _ _ Hn Hn'). exact Ev.
Qed.
Lemma last_all (l : list Z) v : v ∈ l -> (forall w, w ∈ l -> w = v) -> last l = Some v.
Proof.
  intros I A. destruct (last l) as [w|] eqn:E; [|apply last_None in E; subst l; apply not_elem_of_nil in I; contradiction]. f_equal. apply A. apply last_Some_elem_of. exact E.
Qed.

Lemma the_entry l s rs ts h k es c ns nr e n : Forall plausible l -> few_rules l -> few_counters l -> Z.of_nat (length l) <= 2 ^ 53 -> run s0 l s rs -> ticks tbl describe srt J s0 l rs ts h -> quiet_tick tbl describe srt J s0 l rs k es ->
  LiveSpec.known (story (take k l)) ns c -> (exists j, shows (take k l) ns nr e j) -> how_many (counts (take k l) ns nr e) n ->
  has_name nr -> named e -> (forall ns' c', LiveSpec.known (story (take k l)) ns' c' -> same_names c' c -> ns' = ns) ->
  (top_run tbl ∅ (h ++ [es])).1 !! (ct_pod c, ct_namespace c, ct_name c, sc_text nr, errno_to_string e) = Some (Z.of_nat n).
Proof.
  intros F FR FC B R T Q Hk Hs Hn Nn Ne U.
  pose proof (ticks_exact _ _ _ _ _ F FR FC R B (ticks_snoc _ _ _ _ _ _ T Q)) as X. rewrite (shown_last tbl _ _ X), concat_app, counts_app. cbn [concat]. rewrite app_nil_r.
  destruct (quiet_units _ _ _ _ _ F FR FC R Q _ _ _ _ _ Hk Hs Hn) as (v & Iv & Ev). destruct (small_count _ _ _ _ _ _ B Hn) as [_ Em]. rewrite Em in Ev.
  assert (L : last (counts_of tbl (ct_pod c, ct_namespace c, ct_name c, sc_text nr, errno_to_string e) es) = Some (Z.of_nat n)).
  { apply last_all.
    - apply in_counts. eexists. split; [exact Iv|]. unfold TopSpec.seen. cbn [fst snd mk_nr mk_err ow_pod ow_namespace ow_name]. rewrite Ev. reflexivity.
    - intros w Hw. apply in_counts in Hw as ([[[ns' nr' e'] v'] x] & I & Es). unfold TopSpec.seen in Es. cbn [fst snd mk_nr mk_err] in Es. destruct x as [o|]; [|discriminate].
      destruct (units _ _ _ _ _ _ _ _ _ _ _ F FR FC R (quiet_is_tick _ _ _ _ Q) I) as (_ & n' & _ & Pe' & _ & Hn' & Ev' & K). destruct (K o eq_refl) as (c' & Hk' & ->). cbn [ow_pod ow_namespace ow_name] in Es.
      fold (sc_text nr') in Es. injection Es as E1 E2 E3 E4 E5 <-. assert (ns' = ns) by (apply (U _ c' Hk'); repeat split; assumption). subst ns'.
      assert (nr' = nr) by (symmetry; apply text_inj; [exact Nn|]; symmetry; exact E4). subst nr'.
      destruct (units _ _ _ _ _ _ _ _ _ _ _ F FR FC R (quiet_is_tick _ _ _ _ Q) Iv) as (_ & _ & _ & Pe & _).
      destruct (errno_inj _ _ Pe Pe' (eq_sym E5)) as [<-|[Y _]]; [|contradiction]. rewrite Ev'. rewrite (how_many_one _ _ _ Hn' Hn). exact Em. }
  rewrite last_app, L. reflexivity.
Qed.

Lemma the_row l s rs ts h k es c ns nr e n hd : Forall plausible l -> few_rules l -> few_counters l -> Z.of_nat (length l) <= 2 ^ 53 -> run s0 l s rs -> ticks tbl describe srt J s0 l rs ts h -> quiet_tick tbl describe srt J s0 l rs k es ->
  LiveSpec.known (story (take k l)) ns c -> (exists j, shows (take k l) ns nr e j) -> how_many (counts (take k l) ns nr e) n -> heads c nr e hd ->
  has_name nr -> named e -> (forall ns' c', LiveSpec.known (story (take k l)) ns' c' -> same_names c' c -> ns' = ns) ->
  shown (top_run tbl ∅ (h ++ [es])).1 hd n.
Proof.
  intros F FR FC B R T Q Hk Hs Hn (name & Hc & ->) Nn Ne U. apply called_iff in Hc. subst name. apply shown_iff. exact (the_entry _ _ _ _ _ _ _ _ _ _ _ _ F FR FC B R T Q Hk Hs Hn Nn Ne U).
Qed.

(** ** No records *)

Lemma no_force l rs ns nr m i j : Forall of_top l -> in_force J l rs ns nr m i j -> False.
Proof. intros F (c & n & ok & name & H & _). rewrite Forall_forall in F. exact (F _ (elem_of_list_lookup_2 _ _ _ H)). Qed.
Lemma nothing_sent l s rs k e su : Forall of_top l -> Forall plausible l -> run s0 l s rs -> ~ sends (story l) (outcomes rs) k e su.
Proof.
  intros Ft F R (o & sc & tr & r & Hl & Hr & He). assert (D : did (story l) k o) by (exists su, sc, tr, false; exact Hl).
  pose proof (plausible_real _ F) as F'.
  destruct (task_at tbl describe srt J G h0 H0 s0 E0 _ _ _ _ _ F R D) as (wk & os & hrs & T & _ & E & I). rewrite Hr in E. apply Some_inj, LiveProofs.utask_inj in E.
  assert (He' := He). rewrite E in He'. apply LiveProofs.sent_from in He' as [(tid & t & ret & now & cpu & ->)|(tid & t & args & ugid & now & cpu & ->)].
  - destruct (proj1 (f_exit_iff tbl (sv_world s0) (start_fresh tbl h0 H0 s0 E0) _ _ _ _ _ _ _ _ _ _ _ (srun_framed _ _ _ _ _ _ _ _ R) D Hr) He) as (Hc & i & t0 & args & ugid & now0 & Hik & Hi & Hs & Hj & Hid & ->).
    destruct (kept_sound tbl describe srt J G h0 H0 s0 E0 _ _ _ _ _ _ _ _ _ F R Hi Hs) as (N1 & m & i' & j & N2). exact (no_force _ _ _ _ _ _ _ (Forall_take _ _ _ Ft) N2).
  - subst r. apply LiveProofs.execve_event in He as (Hc & V & ->). destruct (LiveProofs.real_did _ _ _ F' D) as (_ & _ & _ & P & I59).
    destruct (verdict_sound tbl J G h0 H0 _ _ t _ _ _ _ I P V) as (m & i' & j & N2). exact (no_force _ _ _ _ _ _ _ (Forall_take _ _ _ Ft) N2).
Qed.
End top.

(** ** The graphs *)

Lemma many_sum {K} (Q : K -> nat -> Prop) (l : list (K * Z)) : NoDup (map fst l) -> (forall k v, (k, v) ∈ l -> exists n, v = Z.of_nat n /\ how_many (Q k) n) -> (forall k k' j, Q k j -> Q k' j -> k = k') ->
  exists n, sum (map snd l) = Z.of_nat n /\ how_many (fun j => exists k v, (k, v) ∈ l /\ Q k j) n.
Proof.
  induction l as [|[k v] l IH]; intros N A D.
  - exists 0%nat. split; [reflexivity|]. exists []. split; [constructor|]. split; [reflexivity|]. intros j. split; [intros X; apply not_elem_of_nil in X; contradiction|]. intros (k & v & X & _). apply not_elem_of_nil in X. contradiction.
  - cbn [map fst] in N. apply NoDup_cons in N as [Nk N]. destruct IH as (n & S & (ks & Nks & <- & Hks)); [exact N|intros k' v' I; apply A; right; exact I|exact D|].
    destruct (A k v ltac:(left)) as (m & -> & (js & Njs & <- & Hjs)). exists (length (js ++ ks)). split; [cbn [map snd sum foldr]; unfold sum in S; rewrite S, app_length; lia|].
    exists (js ++ ks). split; [apply NoDup_app; split; [exact Njs|]; split; [|exact Nks]|].
    + intros j Hj Hk. apply Hjs in Hj. apply Hks in Hk as (k' & v' & I & Hk). rewrite (D _ _ _ Hj Hk) in Nk. apply Nk. apply elem_of_list_In. apply in_map_iff. exists (k', v'). split; [reflexivity|apply elem_of_list_In; exact I].
    + split; [reflexivity|]. intros j. rewrite elem_of_app, Hjs, Hks. split.
      * intros [H|(k' & v' & I & H)]; [exists k, (Z.of_nat (length js)); split; [left|exact H]|exists k', v'; split; [right; exact I|exact H]].
      * intros (k' & v' & I & H). apply elem_of_cons in I as [[= -> ->]|I]; [left; exact H|right; eauto].
Qed.

Lemma story_app a b : story (a ++ b) = story a ++ story b.
Proof. unfold story. apply map_app. Qed.
Lemma leaves_app a b ns nr e k : leaves a ns nr e k -> leaves (a ++ b) ns nr e k.
Proof. intros (tid & t & ret & now & cpu & (su & sc & tr & lost & D) & H). exists tid, t, ret, now, cpu. split; [|exact H]. exists su, sc, tr, lost. rewrite story_app. apply lookup_app_l_Some. exact D. Qed.
Lemma enters_app a b ns nr k : enters a ns nr k -> enters (a ++ b) ns nr k.
Proof. intros (tid & t & ar & u & now & (su & sc & tr & lost & D) & H). exists tid, t, ar, u, now. split; [|exact H]. exists su, sc, tr, lost. rewrite story_app. apply lookup_app_l_Some. exact D. Qed.
Lemma metered_app a b ns k : metered a ns k -> metered (a ++ b) ns k.
Proof. intros [H|(q & ns' & L & H & X)]; [left; exact H|right]. exists q, ns'. split; [exact L|]. split; [apply lookup_app_l_Some; exact H|exact X]. Qed.
Lemma shows_app a b ns nr e k : (forall q x, ~ did (story (a ++ b)) q (KPrune x)) -> shows a ns nr e k -> shows (a ++ b) ns nr e k.
Proof.
  intros P (H & M & N & _). split; [destruct H as [H|[He H]]; [left; apply leaves_app; exact H|right; split; [exact He|apply enters_app; exact H]]|].
  split; [apply metered_app; exact M|]. split; [exact N|]. intros (q & x & _ & D & _). exact (P q x D).
Qed.
Lemma counts_shows l ns nr e k : counts l ns nr e k -> shows l ns nr e k.
Proof. intros (L & H). split; [left; exact L|exact H]. Qed.
Lemma leaves_fun l ns nr e ns' nr' e' k : leaves l ns nr e k -> leaves l ns' nr' e' k -> ns = ns' /\ nr = nr' /\ e = e'.
Proof.
  intros (tid & t & ret & now & cpu & (su & sc & tr & lost & D) & <- & <- & <-) (tid' & t' & ret' & now' & cpu' & (su' & sc' & tr' & lost' & D') & <- & <- & <-).
  rewrite D in D'. injection D' as <- <- <- <- <- <- <- <- <-. repeat split; reflexivity.
Qed.
Lemma known_fun l ns c c' : LiveSpec.known l ns c -> LiveSpec.known l ns c' -> c = c'.
Proof.
  intros (P & k & A & B & C) (_ & k' & A' & B' & C'). destruct (Nat.lt_trichotomy k k') as [L|[<-|L]].
  - destruct (C _ _ _ L A' B').
  - rewrite A in A'. injection A' as <-. reflexivity.
  - destruct (C' _ _ _ L A B).
Qed.
Lemma known_pod l ns c : LiveSpec.known (story l) ns c -> SPod true c ∈ l /\ ct_ns c = ns /\ 0 < ns.
Proof.
  intros (P & k & A & B & _). split; [|split; assumption]. unfold story in A. apply list_lookup_fmap_inv in A as (o & E & A). apply elem_of_list_lookup_2 in A. destruct o; try discriminate E. injection E as <- <-. exact A.
Qed.
Lemma all_stay_app a b : all_stay (a ++ b) -> all_stay a.
Proof.
  intros (A & B & C). split; [intros c I; apply (A c), elem_of_app; left; exact I|]. split.
  - intros k ns (su & sc & tr & lost & D). apply (B k ns). exists su, sc, tr, lost. rewrite story_app. apply lookup_app_l_Some. exact D.
  - intros x y Ix Iy. apply C; apply elem_of_app; left; assumption.
Qed.
Lemma stay_known l c : all_stay l -> SPod true c ∈ l -> 0 < ct_ns c -> LiveSpec.known (story l) (ct_ns c) c.
Proof.
  intros S I P. split; [exact P|]. revert S I. induction l as [|o l IH] using rev_ind; intros S I; [apply not_elem_of_nil in I; contradiction|].
  assert (D : (exists c', o = SPod true c' /\ ct_ns c' = ct_ns c) \/ ~ exists c', o = SPod true c' /\ ct_ns c' = ct_ns c).
  { destruct o as [? ? ? ? ?|[] c'| | | | | | |]; try (right; intros (x & X & _); discriminate X). destruct (decide (ct_ns c' = ct_ns c)) as [E|E]; [left; exists c'; split; [reflexivity|exact E]|right; intros (x & [= <-] & X); contradiction]. }
  destruct D as [D|D].
  2: { apply elem_of_app in I as [I|I]; [|apply elem_of_list_singleton in I; subst o; destruct D; exists c; split; reflexivity].
       destruct (IH (all_stay_app _ _ S) I) as (k & A & B & C). exists k. rewrite story_app. split; [apply lookup_app_l_Some; exact A|]. split; [exact B|]. intros j start c' L H.
       apply lookup_app_Some in H as [H|[_ H]]; [exact (C _ _ _ L H)|]. cbn [story map] in H. apply list_lookup_singleton_Some in H as [_ H]. intros E.
       destruct o; try discriminate H; try (injection H as _ <-; cbn [ct_ns] in E; lia). cbn [machine] in H. injection H as -> ->. destruct start; [apply D; eexists; split; [reflexivity|exact E]|]. apply (proj1 S c'). apply elem_of_app. right. apply elem_of_list_singleton. reflexivity. }
  destruct D as (c' & -> & E). assert (c' = c).
  { apply (proj2 (proj2 S)); [apply elem_of_app; right; apply elem_of_list_singleton; reflexivity|exact I|left; exact E]. }
  subst c'. exists (length (story l)). rewrite story_app. split; [apply list_lookup_middle; reflexivity|]. split; [reflexivity|]. intros j start x L H. apply lookup_lt_Some in H. rewrite app_length in H. cbn [story map length] in H. lia.
Qed.

Section graphs.
Context (tbl : syscalls) (describe : HubModel.container -> TopoModel.container (list (string * string)))
  (srt : list PubSubModel.env -> list PubSubModel.env) (J : nat -> job).
Local Notation run := (srun tbl describe srt J).
Context (G : go_table tbl) (h0 : hub) (H0 : new_hub tbl = Some h0) (s0 : server) (E0 : start_server tbl = Some s0).

Lemma quiet_short l s rs k es : Forall plausible l -> few_rules l -> few_counters l -> run s0 l s rs -> quiet_tick tbl describe srt J s0 l rs k es -> Z.of_nat (length es) <= 65535.
Proof.
  intros F FR FC R (w & m & M & Lw & S). inversion S as [fuel r Q Eg]; subst. destruct (quiet_entries tbl describe srt J G h0 H0 s0 E0 _ _ _ _ _ _ _ _ F FR FC R M Lw Q) as [-> _].
  destruct (at_moment tbl describe srt J G h0 H0 s0 E0 _ _ _ _ _ F FR FC R M) as [T _]. destruct (few_take l k FR FC) as [_ FCk]. unfold few_counters in FCk.
  assert (X : (length (map fst m) <= size (list_to_set (counters (take k l)) : gset mkey))%nat).
  { rewrite <- (size_list_to_set (C := gset mkey) (map fst m)) by exact (proj1 Lw). apply subseteq_size. intros key Hk. apply elem_of_list_to_set in Hk. apply elem_of_list_to_set. apply (ta_dom _ _ T).
    apply elem_of_list_In, in_map_iff in Hk as ([key' v] & <- & Hk). apply elem_of_list_In, (listing_in _ _ _ _ Lw) in Hk. eexists. exact Hk. }
  rewrite map_length in X. assert (Y : length (answers (fun _ => w) m) = length m) by (rewrite <- (map_length (fun en : entry => en.1.1)), answers_keys, map_length; reflexivity). rewrite Y. apply Nat2Z.inj_le in X. apply Nat2Z.inj_le in FCk. rewrite Z2Nat.id in FCk by lia. lia.
Qed.
Lemma quiets_exact l s rs ks h : Forall plausible l -> few_rules l -> few_counters l -> run s0 l s rs -> 65535 * Z.of_nat (length l) <= 2 ^ 53 -> quiet_ticks tbl describe srt J s0 l rs ks h ->
  Forall (exact_sums 65535 (Z.of_nat (length l))) h /\ exists ts, ticks tbl describe srt J s0 l rs ts h.
Proof.
  intros F FR FC R B Q. unfold quiet_ticks in Q. split.
  - induction Q as [|k es ks h Q Qs IH]; constructor; [|exact IH]. split; [exact (quiet_short _ _ _ _ _ F FR FC R Q)|]. rewrite Forall_forall. intros [[[ns nr e] v] x] I. apply elem_of_list_In in I.
    destruct (units tbl describe srt J G h0 H0 s0 E0 _ _ _ _ _ _ _ _ _ _ _ F FR FC R (quiet_is_tick _ _ _ _ _ _ _ _ _ Q) I) as (i & n & _ & Pe & _ & Hn & Ev & _). cbn [fst snd mk_err]. rewrite Ev.
    destruct (small_count l _ _ _ _ _ ltac:(lia) Hn) as [L ->]. lia.
  - induction Q as [|k es ks h Q Qs [ts IH]]; [exists []; constructor|]. exists ((fun _ => k, fun _ => k) :: ts). constructor; [exact (quiet_is_tick _ _ _ _ _ _ _ _ _ Q)|exact IH].
Qed.
Lemma a_number l s rs k w ns nr e : Forall plausible l -> few_rules l -> few_counters l -> run s0 l s rs -> moment tbl describe srt J s0 l rs k w -> exists n, how_many (counts (take k l) ns nr e) n.
Proof.
  intros F FR FC R M. destruct (at_moment tbl describe srt J G h0 H0 s0 E0 _ _ _ _ _ F FR FC R M) as [[_ T _] _]. destruct (T ns nr e) as (js & A & B & _). exists (length js), js. split; [exact A|]. split; [reflexivity|exact B].
Qed.

(** The table when nobody has left. *)
Lemma whole_table l s rs ks h k es : Forall plausible l -> few_rules l -> few_counters l -> 65535 * Z.of_nat (length l) <= 2 ^ 53 -> run s0 l s rs -> quiet_ticks tbl describe srt J s0 l rs ks h -> quiet_tick tbl describe srt J s0 l rs k es ->
  Forall (fun k' => (k' <= k)%nat) ks -> all_stay (take k l) -> (forall ns nr e j, shows (take k l) ns nr e j -> has_name nr /\ named e) ->
  forall key v, (top_run tbl ∅ (h ++ [es])).1 !! key = Some v <-> exists c ns nr e n, LiveSpec.known (story (take k l)) ns c /\ (exists j, shows (take k l) ns nr e j) /\ how_many (counts (take k l) ns nr e) n
    /\ key = (ct_pod c, ct_namespace c, ct_name c, sc_text tbl nr, errno_to_string e) /\ v = Z.of_nat n.
Proof.
  intros F FR FC B R Qs Q Le S Nm key v. destruct (quiets_exact _ _ _ _ _ F FR FC R B Qs) as [_ [ts T]].
  pose proof (ticks_snoc _ _ _ _ _ _ _ _ _ _ _ T Q) as T'.
  assert (U : forall c ns, LiveSpec.known (story (take k l)) ns c -> forall ns' c', LiveSpec.known (story (take k l)) ns' c' -> same_names c' c -> ns' = ns).
  { intros c ns Hk ns' c' Hk' Sn. apply known_pod in Hk as (I & <- & _). apply known_pod in Hk' as (I' & <- & _). rewrite (proj2 (proj2 S) c' c I' I (or_intror Sn)). reflexivity. }
  assert (X : forall c ns nr e n, LiveSpec.known (story (take k l)) ns c -> (exists j, shows (take k l) ns nr e j) -> how_many (counts (take k l) ns nr e) n ->
    (top_run tbl ∅ (h ++ [es])).1 !! (ct_pod c, ct_namespace c, ct_name c, sc_text tbl nr, errno_to_string e) = Some (Z.of_nat n)).
  { intros c ns nr e n Hk [j Hs] Hn. destruct (Nm _ _ _ _ Hs) as [N1 N2]. exact (the_entry tbl describe srt J G h0 H0 s0 E0 _ _ _ _ _ _ _ _ _ _ _ _ F FR FC ltac:(lia) R T Q Hk (ex_intro _ j Hs) Hn N1 N2 (U _ _ Hk)). }
  split; [|intros (c & ns & nr & e & n & Hk & Hs & Hn & -> & ->); exact (X _ _ _ _ _ Hk Hs Hn)].
  intros Hm. assert (Y : exists c ns nr e, LiveSpec.known (story (take k l)) ns c /\ (exists j, shows (take k l) ns nr e j) /\ key = (ct_pod c, ct_namespace c, ct_name c, sc_text tbl nr, errno_to_string e)).
  { pose proof Hm as Hl. rewrite (shown_last tbl _ _ (ticks_exact tbl describe srt J G h0 H0 s0 E0 _ _ _ _ _ F FR FC R ltac:(lia) T')) in Hl. apply last_Some_elem_of, in_counts in Hl as ([[[ns nr e] mv] x] & I & Es). apply in_concat in I as (es' & Ih & I).
    assert (Z : exists k', (k' <= k)%nat /\ quiet_tick tbl describe srt J s0 l rs k' es').
    { apply in_app_or in Ih as [Ih|[<-|[]]]; [|exists k; split; [lia|exact Q]]. apply elem_of_list_In in Ih. apply elem_of_list_lookup in Ih as [i Hi]. destruct (Forall2_lookup_r _ _ _ _ _ Qs Hi) as (k' & Hk' & Z). exists k'. split; [|exact Z]. rewrite Forall_forall in Le. apply Le. exact (elem_of_list_lookup_2 _ _ _ Hk'). }
    destruct Z as (k' & Lk & Q'). destruct (units tbl describe srt J G h0 H0 s0 E0 _ _ _ _ _ _ _ _ _ _ _ F FR FC R (quiet_is_tick _ _ _ _ _ _ _ _ _ Q') I) as (_ & n & Pn & _ & [j Hs] & _ & _ & K). unfold TopSpec.seen in Es. cbn [fst snd mk_nr mk_err] in Es. destruct x as [o|]; [|discriminate]. destruct (K o eq_refl) as (c & Hk & ->). cbn [ow_pod ow_namespace ow_name] in Es.
    assert (P : take k l = take k' l ++ take (k - k') (drop k' l)) by (rewrite <- (take_drop k' (take k l)), take_take, skipn_firstn_comm; f_equal; f_equal; lia).
    exists c, ns, nr, e. split; [|split].
    - apply known_pod in Hk as (Ik & <- & _). apply stay_known; [exact S| |exact Pn]. rewrite P. apply elem_of_app. left. exact Ik.
    - exists j. rewrite P. apply shows_app; [|exact Hs]. intros q x. rewrite <- P. exact (proj1 (proj2 S) q x).
    - fold (sc_text tbl nr) in Es. injection Es as <- _. reflexivity. }
  destruct Y as (c & ns & nr & e & Hk & Hs & ->). destruct Q as (w & m & M & Lw & St). destruct (a_number _ _ _ _ _ ns nr e F FR FC R M) as [n Hn]. exists c, ns, nr, e, n. split; [exact Hk|]. split; [exact Hs|]. split; [exact Hn|]. split; [reflexivity|].
  rewrite (X _ _ _ _ _ Hk Hs Hn) in Hm. injection Hm as <-. reflexivity.
Qed.

Lemma the_graphs l s rs ks h k es : Forall plausible l -> few_rules l -> few_counters l -> 65535 * Z.of_nat (length l) <= 2 ^ 53 -> run s0 l s rs -> quiet_ticks tbl describe srt J s0 l rs ks h -> quiet_tick tbl describe srt J s0 l rs k es ->
  Forall (fun k' => (k' <= k)%nat) ks -> all_stay (take k l) -> (forall ns nr e j, shows (take k l) ns nr e j -> has_name nr /\ named e) ->
  forall b, exists n, how_many (fun j => exists c ns nr e, LiveSpec.known (story (take k l)) ns c /\ (e =? 0) = negb b /\ counts (take k l) ns nr e j) n
    /\ sum (map (if b then snd else fst) (top_run tbl ∅ (h ++ [es])).2) = Z.of_nat n.
Proof.
  intros F FR FC B R Qs Q Le S Nm b. set (m := (top_run tbl ∅ (h ++ [es])).1).
  assert (W := whole_table _ _ _ _ _ _ _ F FR FC B R Qs Q Le S Nm). fold m in W.
  assert (Qa : quiet_ticks tbl describe srt J s0 l rs (ks ++ [k]) (h ++ [es])) by (apply Forall2_app; [exact Qs|constructor; [exact Q|constructor]]).
  destruct (quiets_exact _ _ _ _ _ F FR FC R B Qa) as [Ex _]. destruct (graph_sums tbl 65535 (Z.of_nat (length l)) (h ++ [es]) ltac:(lia) B Ex) as [G1 G2]. fold m in G1, G2.
  set (ls := List.filter (fun kc : tkey * Z => Bool.eqb (is_error kc.1) b) (map_to_list m)).
  assert (Es : sum (map (if b then snd else fst) (top_run tbl ∅ (h ++ [es])).2) = sum (map snd ls)) by (destruct b; assumption).
  assert (In_ls : forall key v, (key, v) ∈ ls <-> m !! key = Some v /\ is_error key = b).
  { intros key v. unfold ls. rewrite elem_of_list_In, filter_In, <- elem_of_list_In, elem_of_map_to_list. cbn [fst]. rewrite Bool.eqb_true_iff. reflexivity. }
  set (Qk := fun (key : tkey) (j : nat) => exists c ns nr e, LiveSpec.known (story (take k l)) ns c /\ counts (take k l) ns nr e j /\ key = (ct_pod c, ct_namespace c, ct_name c, sc_text tbl nr, errno_to_string e)).
  assert (Fe : forall c ns nr e j, LiveSpec.known (story (take k l)) ns c -> shows (take k l) ns nr e j -> is_error (ct_pod c, ct_namespace c, ct_name c, sc_text tbl nr, errno_to_string e) = negb (e =? 0)).
  { intros c ns nr e j Hk Hs. unfold is_error. cbn [snd]. rewrite ok_iff; [reflexivity|]. assert (X : MKey ns nr e ∈ counters (take k l)).
    { destruct Q as (w & mm & M & _). destruct (at_moment tbl describe srt J G h0 H0 s0 E0 _ _ _ _ _ F FR FC R M) as [T _]. apply (ta_dom _ _ T), (ta_shown _ _ T). exists j. exact Hs. }
    exact (proj2 (counters_real _ _ (Forall_take _ _ _ F) X)). }
  destruct (many_sum Qk ls) as (n & Sn & Hn).
  - assert (N : NoDup (map fst (map_to_list m))) by exact (NoDup_fst_map_to_list m). unfold ls. clear -N. induction (map_to_list m) as [|x xs IH]; [constructor|]. cbn [map List.filter] in *. apply NoDup_cons in N as [N1 N2]. destruct (Bool.eqb (is_error x.1) b); [|exact (IH N2)]. cbn [map]. apply NoDup_cons. split; [|exact (IH N2)].
    intros I. apply N1. apply elem_of_list_In, in_map_iff in I as (y & E & I). apply filter_In in I as [I _]. apply elem_of_list_In, in_map_iff. exists y. split; assumption.
  - intros key v I. apply In_ls in I as [Hm _]. apply W in Hm as (c & ns & nr & e & n & Hk & [j Hs] & Hn & -> & ->). exists n. split; [reflexivity|]. destruct Hn as (js & N & L & A). exists js. split; [exact N|]. split; [exact L|]. intros i. rewrite A. split.
    + intros Hc. exists c, ns, nr, e. split; [exact Hk|]. split; [exact Hc|reflexivity].
    + intros (c' & ns' & nr' & e' & Hk' & Hc' & E). injection E as E1 E2 E3 E4 E5. pose proof (known_pod _ _ _ Hk) as (P & Pn & _). pose proof (known_pod _ _ _ Hk') as (P' & Pn' & _).
      assert (c' = c) by (apply (proj2 (proj2 S)); [exact P'|exact P|right; repeat split; congruence]). subst c'. assert (Ens : ns' = ns) by congruence. clear Pn'. subst ns'.
      destruct (Nm _ _ _ _ Hs) as [N1 N2]. assert (nr = nr') by (apply (text_inj tbl G); assumption). subst nr'.
      assert (P1 : 0 <= e /\ 0 <= e').
      { destruct Q as (w & mm & M & _). destruct (at_moment tbl describe srt J G h0 H0 s0 E0 _ _ _ _ _ F FR FC R M) as [T _]. split.
        - assert (X : MKey ns nr e ∈ counters (take k l)) by (apply (ta_dom _ _ T), (ta_shown _ _ T); exists j; exact Hs). exact (proj2 (counters_real _ _ (Forall_take _ _ _ F) X)).
        - assert (X : MKey ns nr e' ∈ counters (take k l)) by (apply (ta_dom _ _ T), (ta_shown _ _ T); exists i; apply counts_shows; exact Hc'). exact (proj2 (counters_real _ _ (Forall_take _ _ _ F) X)). }
      destruct (errno_inj _ _ (proj1 P1) (proj2 P1) E5) as [<-|[Y _]]; [exact Hc'|contradiction].
  - intros key key' j (c & ns & nr & e & Hk & Hc & ->) (c' & ns' & nr' & e' & Hk' & Hc' & ->). destruct (leaves_fun _ _ _ _ _ _ _ _ (proj1 Hc) (proj1 Hc')) as (<- & <- & <-). rewrite (known_fun _ _ _ _ Hk Hk'). reflexivity.
  - exists n. rewrite Es, Sn. split; [|reflexivity]. destruct Hn as (js & N & L & A). exists js. split; [exact N|]. split; [exact L|]. intros i. rewrite A. split.
    + intros (key & v & I & (c & ns & nr & e & Hk & Hc & ->)). apply In_ls in I as [_ He]. exists c, ns, nr, e. split; [exact Hk|]. split; [|exact Hc]. rewrite (Fe _ _ _ _ _ Hk (counts_shows _ _ _ _ _ Hc)) in He. rewrite <- He, negb_involutive. reflexivity.
    + intros (c & ns & nr & e & Hk & He & Hc). destruct Q as (w & mm & M & _). destruct (a_number _ _ _ _ _ ns nr e F FR FC R M) as [n' Hn'].
      exists (ct_pod c, ct_namespace c, ct_name c, sc_text tbl nr, errno_to_string e), (Z.of_nat n'). split.
      * apply In_ls. split; [apply W; exists c, ns, nr, e, n'; split; [exact Hk|]; split; [exists i; apply counts_shows; exact Hc|]; split; [exact Hn'|]; split; reflexivity|]. rewrite (Fe _ _ _ _ _ Hk (counts_shows _ _ _ _ _ Hc)), He. apply negb_involutive.
      * exists c, ns, nr, e. split; [exact Hk|]. split; [exact Hc|reflexivity].
Qed.
End graphs.
