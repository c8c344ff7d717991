(** What a scrape of `swoll server` tells of the system calls. *)
From Coq Require Import ZArith String Lia.
From stdpp Require Import base list numbers strings pretty gmap.
From Verif Require Import SyscallTable SyscallModel SyscallSpec SyscallProofs FilterModel HubModel
  KernelModel KernelSpec KernelProofs CodecModel LiveModel LiveSpec ServeModel ServeSpec ServeFrame ServeProofs ServeEnds
  WalkModel WalkProofs ChartModel ChartSpec ChartProofs ChartTop ScrapeModel ScrapeSpec ScrapeProofs.

Local Open Scope string_scope.
Local Open Scope list_scope.
Local Open Scope Z_scope.
Local Opaque gSyscallMap gClassMap table kstep.

Lemma walk_more {K V} `{EqDecision K} (snap : nat -> hmap K V) : forall fuel n i k r, walk snap fuel i k = Some r -> walk snap (fuel + n) i k = Some r.
Proof.
  induction fuel as [|fuel IH]; intros n i k r; cbn [walk Nat.add]; [discriminate|]. destruct (lookup_next (snap i) k) as [e|]; [|exact id].
  destruct (walk snap fuel (S i) e.1) as [r'|] eqn:E; [|discriminate]. intros H. rewrite (IH n _ _ _ E). exact H.
Qed.
Lemma query_all_is m fuel r : NoDup (map fst m) -> zero_mkey ∉ map fst m -> query_all (fun _ => m) fuel = Some r -> r = m.
Proof.
  intros N Z E. unfold query_all in E. apply (walk_more _ _ (S (length m))) in E. pose proof (query_all_exact m (fuel + S (length m)) N Z ltac:(lia)) as Q. unfold query_all in Q. rewrite Q in E. apply Some_inj in E. symmetry. exact E.
Qed.

Lemma in_answers f r e x : In (e, x) (answers f r) <-> exists i, r !! i = Some e /\ x = lookup_container (f i) (mk_ns e.1).
Proof.
  unfold answers. rewrite <- elem_of_list_In, elem_of_lookup_imap. split.
  - intros (i & y & E & H). injection E as -> ->. exists i. split; [exact H|reflexivity].
  - intros (i & H & ->). exists i, e. split; [reflexivity|exact H].
Qed.
Lemma answers_keys f r : map (fun en : (mkey * mval) * option owner => en.1.1) (answers f r) = map fst r.
Proof.
  unfold answers. revert f. induction r as [|e r IH]; intros f; [reflexivity|]. cbn [imap map fst]. f_equal. exact (IH (fun i => f (S i))).
Qed.
Lemma is_owner w ns c : lookup_container w ns = Some c <-> exists x, w_cache w !! ns = Some x /\ c = Owner (ct_namespace x) (ct_pod x) (ct_name x).
Proof.
  unfold lookup_container. destruct (w_cache w !! ns) as [x|]; split.
  - intros [= <-]. exists x. split; reflexivity.
  - intros (y & [= <-] & ->). reflexivity.
  - discriminate.
  - intros (y & H & _). discriminate H.
Qed.
Lemma listing_in w m k v : listing w m -> (k, v) ∈ m <-> w_metrics w !! k = Some v.
Proof. intros [N <-]. split; [apply elem_of_list_to_map_1; exact N|apply elem_of_list_to_map_2]. Qed.

Lemma counters_real l k : Forall plausible l -> k ∈ counters l -> 0 < mk_ns k /\ 0 <= mk_err k.
Proof.
  intros F H. unfold counters in H. apply elem_of_list_omap in H as (o & H & E). rewrite Forall_forall in F. specialize (F o H) as [F _].
  destruct o as [x su sc tr lost| | | | | | | |]; try discriminate E. destruct x as [tid t args ugid now|tid t ret now cpu| | |]; try discriminate E; injection E as <-; destruct F as [F _]; cbn [fits] in F; cbn [mk_ns mk_err].
  - destruct F as (_ & _ & _ & F). unfold some_ns in F. lia.
  - destruct F as (_ & _ & F). unfold some_ns in F. pose proof (errno_range ret). lia.
Qed.

Section scrape.
Context (tbl : syscalls) (describe : HubModel.container -> TopoModel.container (list (string * string)))
  (srt : list PubSubModel.env -> list PubSubModel.env) (J : nat -> job).
Local Notation step := (sstep tbl describe srt J).
Local Notation run := (srun tbl describe srt J).
Context (G : go_table tbl) (h0 : hub) (H0 : new_hub tbl = Some h0) (s0 : server) (E0 : start_server tbl = Some s0).

Lemma named_call nr : SyscallSpec.known tbl nr <-> has_name nr.
Proof.
  destruct G as (walk & W & E). destruct (table_any_walk walk W) as (s & E1 & _ & L & _). rewrite E1 in E. apply Some_inj in E. subst s. unfold SyscallSpec.known, has_name. split.
  - intros [sc H]. apply L in H as (_ & A & B). eauto.
  - intros (cl & gr & n & A & B). exists (Syscall nr n cl gr). apply L. cbn. repeat split; assumption.
Qed.
Lemma nameless nr : lookup_sc tbl (ByInt nr) = None <-> ~ has_name nr.
Proof. rewrite <- named_call. unfold SyscallSpec.known. apply eq_None_not_Some. Qed.
Lemma tagged_iff x ns nr e ls : label_values tbl (MKey ns nr e) (Owner (ct_namespace x) (ct_pod x) (ct_name x)) ls <-> tagged x ns nr e ls.
Proof.
  destruct G as (walk & W & E). destruct (table_any_walk walk W) as (s & E1 & _ & L & _). rewrite E1 in E. apply Some_inj in E. subst s. unfold label_values, tagged. cbn [mk_nr mk_err mk_ns ow_pod ow_name ow_namespace]. split.
  - intros (sc & H & ->). apply L in H as (_ & A & B). eauto 10.
  - intros (n & cl & gr & A & B & ->). exists (Syscall nr n cl gr). split; [apply L; cbn; repeat split; assumption|reflexivity].
Qed.

Lemma few_take l k : few_rules l -> few_counters l -> few_rules (take k l) /\ few_counters (take k l).
Proof.
  intros A B. rewrite <- (take_drop k l) in A, B. induction (drop k l) as [|o l' IH] using rev_ind; [rewrite app_nil_r in A, B; split; assumption|].
  rewrite app_assoc in A, B. apply IH; [exact (few_rules_app _ _ A)|exact (few_counters_app _ _ B)].
Qed.

Lemma at_moment l s rs k w : Forall plausible l -> few_rules l -> few_counters l -> run s0 l s rs -> moment tbl describe srt J s0 l rs k w ->
  tally (take k l) (w_metrics w) /\ forall ns c, 0 < ns -> (w_cache w !! ns = Some c <-> LiveSpec.known (story (take k l)) ns c).
Proof.
  intros F FR FC R (sk & Rk & ->). destruct (few_take l k FR FC) as [FRk FCk]. split.
  - exact (counted tbl describe srt J G h0 H0 s0 E0 _ _ _ (Forall_take _ k _ F) FRk FCk Rk).
  - destruct (f_known tbl (sv_world s0) (start_fresh tbl h0 H0 s0 E0) _ _ _ (srun_framed _ _ _ _ _ _ _ _ Rk)) as [_ K]. exact K.
Qed.
Lemma tally_value l m ns nr e v : tally l m -> m !! MKey ns nr e = Some v -> exists n, how_many (counts l ns nr e) n /\ mv_count v = Z.of_nat n mod 2 ^ 64.
Proof.
  intros [_ E _] H. destruct (E ns nr e) as (ks & A & B & C). exists (length ks). split; [exists ks; split; [exact A|]; split; [reflexivity|exact B]|]. unfold KernelProofs.cnt in C. rewrite H in C. exact C.
Qed.
Lemma how_many_one P n m : how_many P n -> how_many P m -> n = m.
Proof.
  intros (a & Na & <- & A) (b & Nb & <- & B). apply Permutation_length, NoDup_Permutation; [exact Na|exact Nb|]. intros k. rewrite A, B. reflexivity.
Qed.

Lemma a_sample l s rs at_look at_lookup ss ls v : Forall plausible l -> few_rules l -> few_counters l -> run s0 l s rs ->
  scrape_of tbl describe srt J s0 l rs at_look at_lookup (Samples ss) -> In (Sample DCount ls v) ss ->
  exists i c ns nr e n, LiveSpec.known (story (take (at_lookup i) l)) ns c /\ (exists k, shows (take (at_look i) l) ns nr e k)
    /\ how_many (counts (take (at_look i) l) ns nr e) n /\ tagged c ns nr e ls /\ v = to_f64 (Z.of_nat n mod 2 ^ 64).
Proof.
  intros F FR FC R (snap & lookups & A & B & S) I. inversion S as [fuel r Q Eg]; subst. apply (gather_samples _ _ _ Eg) in I as ([ns nr e] & mv & c & ls' & I & Lv & [Es|Es]); [|discriminate Es]. injection Es as -> ->.
  apply in_answers in I as (i & Hi & Hx). symmetry in Hx. apply is_owner in Hx as (x & Hc & ->). cbn [fst mk_ns] in Hc.
  pose proof (walk_present _ _ _ _ _ Q _ _ Hi) as P. cbn [Nat.add] in P. destruct (A i) as (w & Mw & Lw). apply (listing_in _ _ _ _ Lw) in P.
  destruct (at_moment _ _ _ _ _ F FR FC R Mw) as [T _]. destruct (at_moment _ _ _ _ _ F FR FC R (B i)) as [_ K].
  assert (D : MKey ns nr e ∈ counters (take (at_look i) l)) by (apply (ta_dom _ _ T); eexists; exact P). apply (counters_real _ _ (Forall_take _ _ _ F)) in D as [D _]. cbn [mk_ns] in D.
  destruct (tally_value _ _ _ _ _ _ T P) as (n & Hn & Ev). exists i, x, ns, nr, e, n. split; [apply K; assumption|]. split; [apply (ta_shown _ _ T); eexists; exact P|].
  split; [exact Hn|]. split; [apply tagged_iff; exact Lv|]. rewrite Ev. reflexivity.
Qed.

(** What the loop of a quiet scrape goes over. *)
Lemma quiet_entries l s rs k w m fuel r : Forall plausible l -> few_rules l -> few_counters l -> run s0 l s rs -> moment tbl describe srt J s0 l rs k w -> listing w m -> query_all (fun _ => m) fuel = Some r ->
  r = m /\ (forall key v x, In ((key, v), Some x) (answers (fun _ => w) r) <->
    w_metrics w !! key = Some v /\ exists c, LiveSpec.known (story (take k l)) (mk_ns key) c /\ x = Owner (ct_namespace c) (ct_pod c) (ct_name c)).
Proof.
  intros F FR FC R M Lw Q. destruct (at_moment _ _ _ _ _ F FR FC R M) as [T K].
  assert (D : forall key v, (key, v) ∈ m -> 0 < mk_ns key).
  { intros key v H. apply (listing_in _ _ _ _ Lw) in H. assert (X : key ∈ counters (take k l)) by (apply (ta_dom _ _ T); eexists; exact H). exact (proj1 (counters_real _ _ (Forall_take _ _ _ F) X)). }
  assert (E : r = m).
  { apply (query_all_is _ fuel); [exact (proj1 Lw)| |exact Q]. intros H. apply elem_of_list_In, in_map_iff in H as ([key v] & E & H). cbn [fst] in E. subst key. apply elem_of_list_In, D in H. cbn in H. lia. }
  split; [exact E|]. subst r. intros key v x. rewrite in_answers. split.
  - intros (i & Hi & Hx). apply elem_of_list_lookup_2 in Hi. pose proof (D _ _ Hi) as Dk. apply (listing_in _ _ _ _ Lw) in Hi. split; [exact Hi|]. symmetry in Hx. apply is_owner in Hx as (c & Hc & ->). cbn [fst] in Hc. exists c. split; [apply K; assumption|reflexivity].
  - intros (Hm & c & Hk & ->). apply (listing_in _ _ _ _ Lw) in Hm. apply elem_of_list_lookup in Hm as [i Hm]. exists i. split; [exact Hm|]. symmetry. apply is_owner. exists c. split; [|reflexivity]. cbn [fst]. apply K; [exact (D _ _ (elem_of_list_lookup_2 _ _ _ Hm))|exact Hk].
Qed.
Lemma quiet_samples l s rs k ss ls v : Forall plausible l -> few_rules l -> few_counters l -> run s0 l s rs -> quiet_scrape tbl describe srt J s0 l rs k (Samples ss) ->
  In (Sample DCount ls v) ss <-> exists c ns nr e n, LiveSpec.known (story (take k l)) ns c /\ (exists j, shows (take k l) ns nr e j)
    /\ how_many (counts (take k l) ns nr e) n /\ tagged c ns nr e ls /\ v = to_f64 (Z.of_nat n mod 2 ^ 64).
Proof.
  intros F FR FC R (w & m & M & Lw & S). inversion S as [fuel r Q Eg]; subst. destruct (quiet_entries _ _ _ _ _ _ _ _ F FR FC R M Lw Q) as [-> X]. destruct (at_moment _ _ _ _ _ F FR FC R M) as [T _].
  rewrite (gather_samples _ _ _ Eg). split.
  - intros ([ns nr e] & mv & x & ls' & I & Lv & [Es|Es]); [|discriminate Es]. injection Es as -> ->. apply X in I as (Hm & c & Hk & ->). cbn [mk_ns] in Hk.
    destruct (tally_value _ _ _ _ _ _ T Hm) as (n & Hn & Ev). exists c, ns, nr, e, n. split; [exact Hk|]. split; [apply (ta_shown _ _ T); eexists; exact Hm|]. split; [exact Hn|]. split; [apply tagged_iff; exact Lv|]. rewrite Ev. reflexivity.
  - intros (c & ns & nr & e & n & Hk & Hs & Hn & Ht & ->). apply (ta_shown _ _ T) in Hs as [mv Hm]. destruct (tally_value _ _ _ _ _ _ T Hm) as (n' & Hn' & Ev). rewrite (how_many_one _ _ _ Hn Hn'), <- Ev.
    exists (MKey ns nr e), mv, (Owner (ct_namespace c) (ct_pod c) (ct_name c)), ls. split; [apply X; split; [exact Hm|]; exists c; split; [exact Hk|reflexivity]|]. split; [apply tagged_iff; exact Ht|left; reflexivity].
Qed.
Lemma quiet_crash l s rs k a : Forall plausible l -> few_rules l -> few_counters l -> run s0 l s rs -> quiet_scrape tbl describe srt J s0 l rs k a ->
  a = Crashed <-> exists c ns nr e j, LiveSpec.known (story (take k l)) ns c /\ shows (take k l) ns nr e j /\ ~ has_name nr.
Proof.
  intros F FR FC R (w & m & M & Lw & S). inversion S as [fuel r Q Eg]; subst. destruct (quiet_entries _ _ _ _ _ _ _ _ F FR FC R M Lw Q) as [-> X]. destruct (at_moment _ _ _ _ _ F FR FC R M) as [T _].
  rewrite gather_crashes. split.
  - intros (_ & [ns nr e] & v & x & I & N). apply X in I as (Hm & c & Hk & ->). apply nameless in N. cbn [mk_ns mk_nr] in *. assert (Hs : is_Some (w_metrics w !! MKey ns nr e)) by (eexists; exact Hm). apply (ta_shown _ _ T) in Hs as [j Hs]. eauto 10.
  - intros (c & ns & nr & e & j & Hk & Hs & N). split; [reflexivity|]. assert (Hm : exists j, shows (take k l) ns nr e j) by eauto. apply (ta_shown _ _ T) in Hm as [mv Hm]. exists (MKey ns nr e), mv, (Owner (ct_namespace c) (ct_pod c) (ct_name c)).
    split; [apply X; split; [exact Hm|]; exists c; split; [exact Hk|reflexivity]|]. apply nameless. exact N.
Qed.
Lemma quiet_refused l s rs k a : Forall plausible l -> few_rules l -> few_counters l -> run s0 l s rs -> quiet_scrape tbl describe srt J s0 l rs k a ->
  a = Refused <-> a <> Crashed /\ exists c ns nr e e' j j', LiveSpec.known (story (take k l)) ns c /\ shows (take k l) ns nr e j /\ shows (take k l) ns nr e' j' /\ e <> e' /\ ~ named e /\ ~ named e'.
Proof.
  intros F FR FC R (w & m & M & Lw & S). inversion S as [fuel r Q Eg]; subst. destruct (quiet_entries _ _ _ _ _ _ _ _ F FR FC R M Lw Q) as [-> X]. destruct (at_moment _ _ _ _ _ F FR FC R M) as [T K].
  assert (D : forall key v, (key, v) ∈ m -> 0 < mk_ns key /\ 0 <= mk_err key).
  { intros key v H. apply (listing_in _ _ _ _ Lw) in H. apply (counters_real (take k l)); [exact (Forall_take _ _ _ F)|]. apply (ta_dom _ _ T). eexists; exact H. }
  assert (N : gather tbl true (answers (fun _ => w) m) <> Crashed -> gather tbl true (answers (fun _ => w) m) = Refused <-> clash (answers (fun _ => w) m)).
  { intros NC. apply refused_iff.
    - exact G.
    - rewrite answers_keys. exact (proj1 Lw).
    - intros [a1 a2] [b1 b2] Ha Hb E. apply in_answers in Ha as (i & _ & ->). apply in_answers in Hb as (j & _ & ->). cbn [fst snd] in *. rewrite E. reflexivity.
    - intros [[a1 a2] a3] Ha. apply in_answers in Ha as (i & Hi & _). apply elem_of_list_lookup_2, D in Hi. exact (proj2 Hi).
    - intros key v c I. destruct (lookup_sc tbl (ByInt (mk_nr key))) eqn:E; [eexists; exact E|]. destruct NC. apply gather_crashes. split; [reflexivity|]. exists key, v, c. split; [exact I|exact E]. }
  assert (Cl : clash (answers (fun _ => w) m) <-> exists c ns nr e e' j j', LiveSpec.known (story (take k l)) ns c /\ shows (take k l) ns nr e j /\ shows (take k l) ns nr e' j' /\ e <> e' /\ ~ named e /\ ~ named e').
  { split.
    - intros ([[[ns nr e] v] [x|]] & [[[ns' nr' e'] v'] y] & Ia & Ib & Sx & E1 & E2 & E3 & N1 & N2); [|destruct Sx as [? Sx]; discriminate Sx]. cbn [fst snd mk_ns mk_nr mk_err] in *. subst ns' nr'. apply X in Ia as (Hm & c & Hk & _). cbn [mk_ns] in Hk.
      apply in_answers in Ib as (i & Hi & _). apply elem_of_list_lookup_2 in Hi. apply (listing_in _ _ _ _ Lw) in Hi.
      destruct (proj1 (ta_shown _ _ T ns nr e) (mk_is_Some _ _ Hm)) as [j Hj]. destruct (proj1 (ta_shown _ _ T ns nr e') (mk_is_Some _ _ Hi)) as [j' Hj'].
      exists c, ns, nr, e, e', j, j'. repeat split; assumption || exact (proj1 Hk) || exact (proj2 Hk) || apply Hj || apply Hj'.
    - intros (c & ns & nr & e & e' & j & j' & Hk & Hj & Hj' & E3 & N1 & N2). destruct (proj2 (ta_shown _ _ T ns nr e) (ex_intro _ j Hj)) as [v Hv]. destruct (proj2 (ta_shown _ _ T ns nr e') (ex_intro _ j' Hj')) as [v' Hv'].
      exists ((MKey ns nr e, v), Some (Owner (ct_namespace c) (ct_pod c) (ct_name c))), ((MKey ns nr e', v'), Some (Owner (ct_namespace c) (ct_pod c) (ct_name c))).
      split; [apply X; split; [exact Hv|]; exists c; split; [exact Hk|reflexivity]|]. split; [apply X; split; [exact Hv'|]; exists c; split; [exact Hk|reflexivity]|]. cbn [fst snd mk_ns mk_nr mk_err].
      split; [eexists; reflexivity|]. repeat split; assumption. }
  rewrite <- Cl. split.
  - intros E. assert (NC : gather tbl true (answers (fun _ => w) m) <> Crashed) by (rewrite E; discriminate). split; [exact NC|]. apply (N NC). exact E.
  - intros [NC C]. apply (N NC). exact C.
Qed.

(** A scrape always ends, in one of the three ways. *)
Lemma quiet_exists l s rs k : Forall plausible l -> few_rules l -> few_counters l -> run s0 l s rs -> exists a, quiet_scrape tbl describe srt J s0 l rs k a.
Proof.
  intros F FR FC R. destruct (srun_split _ _ _ _ _ _ _ _ k R) as (sk & Rk & _). assert (M : moment tbl describe srt J s0 l rs k (sv_world sk)) by (exists sk; split; [exact Rk|reflexivity]).
  destruct (at_moment _ _ _ _ _ F FR FC R M) as [T _]. set (m := map_to_list (w_metrics (sv_world sk))).
  assert (Lw : listing (sv_world sk) m) by (split; [exact (NoDup_fst_map_to_list _)|exact (list_to_map_to_list _)]).
  eexists. exists (sv_world sk), m. split; [exact M|]. split; [exact Lw|]. apply (scraped_intro _ _ _ (S (length m)) m). apply query_all_exact; [exact (proj1 Lw)| |lia].
  intros H. apply elem_of_list_In, in_map_iff in H as ([key v] & E & H). cbn [fst] in E. subst key. apply elem_of_list_In, (listing_in _ _ _ _ Lw) in H.
  assert (X : zero_mkey ∈ counters (take k l)) by (apply (ta_dom _ _ T); eexists; exact H). apply counters_real in X; [|exact (Forall_take _ _ _ F)]. cbn in X. lia.
Qed.
End scrape.
