(** Proofs about the hub model: the kernel rules (C13, C14, C19, C26). *)
From stdpp Require Import gmap strings list.
From Coq Require Import ZArith Lia.
From Verif Require Import SyscallTable SyscallModel SyscallSpec SyscallProofs FilterModel FilterSpec FilterProofs HashModel HubModel HubSpec HubProofs.
Open Scope Z_scope.
Local Opaque lookup_sc add_syscall add_sampled_syscall remove_syscall add_metrics remove_metrics run_nfilter.

Definition flags_sys : Z := 2 + 2^14 + 2^15.
Definition present (m : kmaps) (ns nr : Z) : Prop := is_Some (nfilter m !! syscall_rule ns nr).
Definition metrics_key (k : fkey) : Prop := k_flags k = 4 + 2^14 \/ k_flags k = 4.
Definition shape (tbl : syscalls) (m : kmaps) : Prop := forall k v, nfilter m !! k = Some v ->
  (exists ns nr, k = syscall_rule ns nr /\ v_rate v = 0 /\ v_action v = 0 /\ known tbl nr /\ kernel_ns ns) \/ metrics_key k.
Definition on (m : kmaps) : Prop := configured m 1 /\ configured m flags_sys.

Lemma syscall_not_metrics_key ns nr k : metrics_key k -> syscall_rule ns nr <> k.
Proof. intros [H|H] <-; cbn in H; lia. Qed.

Lemma configured_insert m c k type : config m = c \/ config m = <[k := 1]> c ->
  (exists v, c !! type = Some v /\ v <> 0) -> configured m type.
Proof.
  intros [E|E] (v & Hv & Hn); unfold configured; rewrite E; [eauto|]. destruct (decide (k = type)) as [->|Hne].
  - rewrite lookup_insert. by exists 1.
  - rewrite lookup_insert_ne by done. eauto.
Qed.
Lemma puts_config m r k v type : puts_rule m r k v -> configured m type -> configured r.1 type.
Proof.
  intros [H1 H2] Hc. destruct (r.2) eqn:E.
  - destruct (H1 eq_refl) as [_ H]. eapply configured_insert; [right; exact H|done].
  - destruct (H2 eq_refl) as [_ [H|H]]; (eapply (configured_insert _ _ (k_flags k)); [|exact Hc]); [left; exact H|right; exact H].
Qed.
Lemma puts_on m r k v : puts_rule m r k v -> on m -> on r.1.
Proof. intros H [H1 H2]. split; by eapply puts_config. Qed.

(** RemoveSyscall deletes one entry at most. *)
Lemma remove_any tbl nr ns m : config (remove_syscall tbl nr ns m).1 = config m /\
  (nfilter (remove_syscall tbl nr ns m).1 = nfilter m \/ exists k, nfilter (remove_syscall tbl nr ns m).1 = delete k (nfilter m)).
Proof.
  Local Transparent remove_syscall. unfold remove_syscall, with_rule. destruct (new_rule _ _) as [r|]; [|auto].
  cbn [del_rule fst config nfilter]. split; [done|]. right. by eexists.
  Local Opaque remove_syscall.
Qed.
Lemma remove_metrics_any tbl ns m : config (remove_metrics tbl ns m).1 = config m /\
  exists k, metrics_key k /\ nfilter (remove_metrics tbl ns m).1 = delete k (nfilter m).
Proof.
  Local Transparent remove_metrics. unfold remove_metrics, with_rule. rewrite metrics_new_rule.
  cbn [del_rule fst config nfilter]. split; [done|]. eexists. split; [|reflexivity]. unfold metrics_key. destruct (ns =? -1); cbn; auto.
  Local Opaque remove_metrics.
Qed.
Lemma add_metrics_any tbl ns m : exists k, metrics_key k /\ puts_rule m (add_metrics tbl ns m) k fresh.
Proof.
  Local Transparent add_metrics. unfold add_metrics, with_rule. rewrite metrics_new_rule. eexists. split; [|apply add_rule_puts].
  unfold metrics_key. destruct (ns =? -1); cbn; auto.
  Local Opaque add_metrics.
Qed.

Lemma shape_delete tbl m m' k : nfilter m' = nfilter m \/ nfilter m' = delete k (nfilter m) -> shape tbl m -> shape tbl m'.
Proof.
  intros [E|E] H k' v; rewrite E; [apply H|]. intros [_ Hv]%lookup_delete_Some. by apply H.
Qed.
Lemma shape_remove tbl nr ns m : shape tbl m -> shape tbl (remove_syscall tbl nr ns m).1.
Proof.
  intros H. destruct (remove_any tbl nr ns m) as [_ [E|[k E]]].
  - apply (shape_delete tbl m _ (FKey 0 0 0 0)); [by left|done].
  - apply (shape_delete tbl m _ k); [by right|done].
Qed.
Lemma on_eq m m' : config m' = config m -> on m -> on m'.
Proof. intros E [H1 H2]. unfold on, configured. rewrite E. split; [apply H1|apply H2]. Qed.

Lemma shape_puts_metrics tbl m r k : metrics_key k -> puts_rule m r k fresh -> shape tbl m -> shape tbl r.1.
Proof.
  intros Hk [H1 H2] H k' v. destruct (r.2).
  - destruct (H1 eq_refl) as [E _]. rewrite E. intros [[<- _]|[_ Hv]]%lookup_insert_Some; [by right|by apply H].
  - destruct (H2 eq_refl) as [E _]. rewrite E. apply H.
Qed.
Lemma shape_puts_syscall tbl m r ns nr v : v_rate v = 0 -> v_action v = 0 -> known tbl nr -> kernel_ns ns ->
  puts_rule m r (syscall_rule ns nr) v -> shape tbl m -> shape tbl r.1.
Proof.
  intros Hv1 Hv2 Hk Hn [H1 H2] H k' v'. destruct (r.2).
  - destruct (H1 eq_refl) as [E _]. rewrite E. intros [[<- <-]|[_ Hv]]%lookup_insert_Some; [left; eauto 10|by apply H].
  - destruct (H2 eq_refl) as [E _]. rewrite E. apply H.
Qed.

(** AddSyscall of a rule that is already there cannot fail. *)
Lemma add_syscall_again tbl nr ns m v : go_table tbl -> known tbl nr -> kernel_ns ns ->
  nfilter m !! syscall_rule ns nr = Some v -> is_Some (config m !! flags_sys) ->
  (add_syscall tbl (ByInt nr) ns m).2 = true.
Proof.
  Local Transparent add_syscall.
  intros Ht Hk Hns Hv [x Hx]. destruct (known_nr _ _ Ht Hk) as (sc & Hl & E & Hr).
  unfold add_syscall, with_rule. rewrite (syscall_new_rule _ _ sc), kernel_ns_not_any, u32_small by done. rewrite E.
  unfold add_rule. cbn [r_key r_val]. rewrite add_key_syscall. unfold map_update. 
  change (k_flags (syscall_rule ns nr)) with flags_sys. rewrite Hx, Hv. done.
  Local Opaque add_syscall.
Qed.

(** What the rest of a start does for one syscall. *)
Lemma install_maps J tbl h C j ns nr m ok : go_table tbl -> repr J h C -> known tbl nr -> kernel_ns ns ->
  install J tbl h j ns nr = Ok (m, ok) -> shape tbl (maps h) -> on (maps h) ->
  shape tbl m /\ on m /\
  (forall k, k <> syscall_rule ns nr -> nfilter m !! k = nfilter (maps h) !! k) /\
  (ok = true -> nfilter m !! syscall_rule ns nr = Some fresh).
Proof.
  intros Ht Hr Hk Hns Hi Hsh Hon. unfold install in Hi.
  assert (forall m0, shape tbl m0 -> on m0 -> 
    let r := add_syscall tbl (ByInt nr) ns m0 in
    shape tbl r.1 /\ on r.1 /\ (forall k, k <> syscall_rule ns nr -> nfilter r.1 !! k = nfilter m0 !! k) /\
    (r.2 = true -> nfilter r.1 !! syscall_rule ns nr = Some fresh)) as Hadd.
  { intros m0 Hs0 Ho0. pose proof (add_syscall_puts tbl nr ns m0 Ht Hk Hns) as Hp. cbv zeta. split; [|split; [|split]].
    - by eapply (shape_puts_syscall tbl m0 _ ns nr fresh).
    - by eapply puts_on.
    - intros k Hne. destruct Hp as [H1 H2]. destruct ((add_syscall tbl (ByInt nr) ns m0).2).
      + destruct (H1 eq_refl) as [-> _]. by rewrite lookup_insert_ne.
      + by destruct (H2 eq_refl) as [-> _].
    - intros E. destruct Hp as [H1 _]. destruct (H1 E) as [-> _]. apply lookup_insert. }
  destruct (0 <? j_rate (J j)); [|injection Hi as Hi; specialize (Hadd _ Hsh Hon); rewrite Hi in Hadd; exact Hadd].
  assert (exists low, lowest J h nr ns = Ok low) as [low El].
  { destruct (lowest_repr J h C nr ns Hr) as [[_ E]|(c & E & _)]; eauto. }
  rewrite El in Hi. cbv zeta in Hi.
  set (m1 := if match low with Some l => _ | None => false end then _ else _) in Hi.
  assert (shape tbl m1 /\ on m1 /\ forall k, k <> syscall_rule ns nr -> nfilter m1 !! k = nfilter (maps h) !! k) as (Hs1 & Ho1 & Hf1).
  { unfold m1. destruct (match low with Some l => _ | None => false end).
    - split; [by apply shape_remove|]. split; [eapply on_eq; [apply remove_any|done]|]. intros k Hne.
      rewrite remove_syscall_eq by done. cbn [fst nfilter]. by rewrite lookup_delete_ne.
    - done. }
  pose proof (add_sampled_puts tbl nr ns (j_rate (J j)) m1 Ht Hk Hns) as Hp.
  destruct (add_sampled_syscall tbl (ByInt nr) ns (j_rate (J j)) m1) as [m2 ok2] eqn:E2.
  destruct ok2.
  - injection Hi as Hi. destruct Hp as [Hp _]. destruct (Hp eq_refl) as [Hf2 Hc2]. cbn [fst] in Hf2, Hc2.
    assert ((add_syscall tbl (ByInt nr) ns m2).2 = true) as Hok.
    { eapply add_syscall_again; [done|done|done|rewrite Hf2; apply lookup_insert|]. rewrite Hc2. exists 1. apply lookup_insert. }
    pose proof (add_syscall_puts tbl nr ns m2 Ht Hk Hns) as [Hq _]. specialize (Hq Hok) as [Hf3 Hc3]. rewrite Hi in Hf3, Hc3, Hok. cbn [fst snd] in *.
    assert (nfilter m = <[syscall_rule ns nr := fresh]> (nfilter m1)) as Hf by (rewrite Hf3, Hf2; apply insert_insert).
    split; [|split; [|split]].
    + intros k v. rewrite Hf. intros [[<- <-]|[_ Hv]]%lookup_insert_Some; [left; exists ns, nr; done|by apply Hs1].
    + apply (puts_on m2 (m, true) (syscall_rule ns nr) fresh); [split; [by intros|done]|].
      apply (puts_on m1 (m2, true) (syscall_rule ns nr) (FVal (u32 (j_rate (J j))) 0 0 0)); [split; [by intros|done]|done].
    + intros k Hne. rewrite Hf, lookup_insert_ne by done. by apply Hf1.
    + intros _. rewrite Hf. apply lookup_insert.
  - injection Hi as <- <-. destruct Hp as [_ Hp]. destruct (Hp eq_refl) as [Hf2 Hc2]. cbn [fst] in Hf2, Hc2.
    split; [|split; [|split]]; [..|done].
    + intros k v. rewrite Hf2. apply Hs1.
    + apply (puts_on m1 (m2, false) (syscall_rule ns nr) (FVal (u32 (j_rate (J j))) 0 0 0)); [split; [done|by intros]|done].
    + intros k Hne. rewrite Hf2. by apply Hf1.
Qed.

(** Invariants. [backed]: every rule has a registration (or is NewHub's stub);
    [covered]: every registration has its rule. *)
Definition stub (ns nr : Z) : Prop := ns = 0 /\ nr = 218.
Definition backed (m : kmaps) (C : list ctx) : Prop := forall ns nr, present m ns nr ->
  (exists c, c ∈ C /\ at_ ns nr c) \/ stub ns nr.
Definition covered (tbl : syscalls) (m : kmaps) (C : list ctx) : Prop := forall c, c ∈ C ->
  known tbl (c_nr c) /\ kernel_ns (c_ns c) /\ present m (c_ns c) (c_nr c).

Lemma start_maps J tbl j ns : go_table tbl -> kernel_ns ns -> forall cs h C n h' n' ok,
  repr J h C -> (forall nr, Some nr ∈ cs -> known tbl nr) ->
  start_calls J tbl cs j ns h n = Ok (h', (n', ok)) ->
  shape tbl (maps h) -> on (maps h) -> backed (maps h) C ->
  shape tbl (maps h') /\ on (maps h') /\
  (ok = true -> forall nr, Some nr ∈ cs -> nfilter (maps h') !! syscall_rule ns nr = Some fresh) /\
  (forall k, nfilter (maps h') !! k = nfilter (maps h) !! k \/ exists nr, Some nr ∈ cs /\ k = syscall_rule ns nr) /\
  exists C', repr J h' C' /\ backed (maps h') C' /\ (covered tbl (maps h) C -> ok = true -> covered tbl (maps h') C').
Proof.
  intros Ht Hns. induction cs as [|[nr|] cs IH]; intros h C n h' n' ok Hr Hkn Hs Hsh Hon Hb; cbn [start_calls] in Hs.
  - injection Hs as <- <- <-. split; [done|]. split; [done|]. split; [by intros _ nr ?%elem_of_nil|]. split; [by left|]. by exists C.
  - assert (known tbl nr) as Hk by (apply Hkn; left).
    pose proof (push_repr J h C j ns nr Hr) as Hp. set (c := Ctx (next_uid h) j ns nr) in *.
    destruct (install_total J tbl _ _ j ns nr Hp) as [[m ok1] Ei]. rewrite Ei in Hs.
    destruct (install_maps _ _ _ _ _ _ _ _ _ Ht Hp Hk Hns Ei Hsh Hon) as (Hsh1 & Hon1 & Hf1 & Hfr).
    change (maps (push_job J h j ns nr)) with (maps h) in Hf1.
    assert (backed m (C ++ [c])) as Hb1.
    { intros ns' nr' Hpr. destruct (decide (syscall_rule ns' nr' = syscall_rule ns nr)) as [E|Hne].
      - apply syscall_rule_inj in E as [-> ->]. left. exists c. split; [apply elem_of_app; right; left|done].
      - unfold present in Hpr. rewrite Hf1 in Hpr by done. destruct (Hb _ _ Hpr) as [(c' & Hc' & Ha)|Hst]; [|by right].
        left. exists c'. split; [apply elem_of_app; by left|done]. }
    assert (covered tbl (maps h) C -> ok1 = true -> covered tbl m (C ++ [c])) as Hc1.
    { intros Hc Hok c' [Hc'|Hc']%elem_of_app.
      - destruct (Hc _ Hc') as (H1 & H2 & H3). split; [done|]. split; [done|]. unfold present.
        destruct (decide (syscall_rule (c_ns c') (c_nr c') = syscall_rule ns nr)) as [E|Hne].
        + rewrite E, (Hfr Hok). by eexists.
        + by rewrite Hf1.
      - apply elem_of_list_singleton in Hc' as ->. split; [done|]. split; [done|]. unfold present. cbn [c c_ns c_nr]. rewrite (Hfr Hok). by eexists. }
    destruct ok1.
    + destruct (IH _ _ _ _ _ _ (repr_set_maps _ _ _ m Hp) (fun nr' H => Hkn nr' (elem_of_list_further _ _ _ H)) Hs Hsh1 Hon1 Hb1)
        as (I1 & I2 & I3 & I4 & C' & I5 & I6 & I7).
      split; [done|]. split; [done|]. split; [|split].
      * intros Hok nr' [E|Hin]%elem_of_cons; [|by apply I3]. injection E as ->.
        destruct (I4 (syscall_rule ns nr)) as [E|(nr' & Hin & E)].
        -- rewrite E. by apply Hfr.
        -- rewrite E. by apply I3.
      * intros k. destruct (I4 k) as [E|(nr' & Hin & E)]; [|right; exists nr'; split; [by right|done]].
        destruct (decide (k = syscall_rule ns nr)) as [->|Hne]; [right; exists nr; split; [left|done]|].
        left. rewrite E. by apply Hf1.
      * exists C'. split; [done|]. split; [done|]. intros Hc Hok. apply I7; [by apply Hc1|done].
    + injection Hs as <- <- <-. split; [done|]. split; [done|]. split; [done|]. split.
      * intros k. destruct (decide (k = syscall_rule ns nr)) as [->|Hne]; [right; exists nr; split; [left|done]|].
        left. by apply Hf1.
      * exists (C ++ [c])%list. split; [by apply repr_set_maps|]. split; [done|]. done.
  - done.
Qed.

Lemma stop_maps tbl ns : go_table tbl -> kernel_ns ns -> forall cs h h', (forall nr, Some nr ∈ cs -> known tbl nr) ->
  stop_calls tbl cs ns h = Ok h' ->
  config (maps h') = config (maps h) /\
  (forall nr, Some nr ∈ cs -> nfilter (maps h') !! syscall_rule ns nr = None) /\
  (forall k, (forall nr, Some nr ∈ cs -> k <> syscall_rule ns nr) -> nfilter (maps h') !! k = nfilter (maps h) !! k) /\
  (forall k v, nfilter (maps h') !! k = Some v -> nfilter (maps h) !! k = Some v).
Proof.
  intros Ht Hns. induction cs as [|[nr|] cs IH]; intros h h' Hkn Hs; cbn [stop_calls] in Hs; [|..|done].
  - injection Hs as <-. split; [done|]. split; [by intros ? ?%elem_of_nil|]. done.
  - assert (known tbl nr) as Hk by (apply Hkn; left).
    destruct (IH _ _ (fun nr' H => Hkn nr' (elem_of_list_further _ _ _ H)) Hs) as (I1 & I2 & I3 & I4).
    cbn [maps set_maps] in I1, I3, I4. rewrite remove_syscall_eq in I1, I3, I4 by done. cbn [fst config nfilter] in I1, I3, I4.
    split; [done|]. split; [|split].
    + intros nr' [[= ->]|Hin]%elem_of_cons; [|by apply I2]. apply eq_None_not_Some. intros [v Hv]. apply I4 in Hv.
      by rewrite lookup_delete in Hv.
    + intros k Hk'. rewrite I3 by (intros nr' Hin; apply Hk'; by right). apply lookup_delete_ne. intros <-. by apply (Hk' nr); [left|].
    + intros k v Hv. apply I4 in Hv. by apply lookup_delete_Some in Hv as [_ Hv].
Qed.

(** The delete loop. *)
Lemma elem_gone c c' (C : list ctx) : c' ∈ filter (gone [c]) C <-> c' ∈ C /\ c_uid c' <> c_uid c.
Proof. rewrite elem_of_list_filter. unfold gone. cbn. rewrite elem_of_list_singleton. tauto. Qed.
Lemma delete_one_maps tbl c l h C : go_table tbl -> buckets h C -> NoDup (map c_uid C) -> c ∈ C ->
  find_list h (c_ns c) (c_nr c) = Some l -> shape tbl (maps h) -> on (maps h) -> backed (maps h) C ->
  shape tbl (maps (delete_one tbl c l h)) /\ on (maps (delete_one tbl c l h)) /\
  backed (maps (delete_one tbl c l h)) (filter (gone [c]) C) /\
  (covered tbl (maps h) C -> covered tbl (maps (delete_one tbl c l h)) (filter (gone [c]) C)).
Proof.
  intros Ht Hbk Hu Hc Hf Hsh Hon Hb. destruct (delete_one_buckets tbl c l h C Hbk Hu Hc Hf) as [El _].
  destruct (delete_one_other tbl c l h) as (_ & _ & _ & _ & Em). rewrite Em. rewrite list_remove_gone, El, filter_comm.
  assert (forall c', c' ∈ filter (at_ (c_ns c) (c_nr c)) (filter (gone [c]) C) <-> at_ (c_ns c) (c_nr c) c' /\ c' ∈ C /\ c_uid c' <> c_uid c) as Hin.
  { intros c'. by rewrite elem_of_list_filter, elem_gone. }
  destruct (filter (at_ (c_ns c) (c_nr c)) (filter (gone [c]) C)) as [|c1 l1].
  - split; [by apply shape_remove|]. split; [eapply on_eq; [apply remove_any|done]|]. split.
    + intros ns nr [v Hv]. 
      assert (nfilter (maps h) !! syscall_rule ns nr = Some v) as Hv0.
      { destruct (remove_any tbl (ByInt (c_nr c)) (c_ns c) (maps h)) as [_ [E|[k E]]]; rewrite E in Hv; [done|].
        by apply lookup_delete_Some in Hv as [_ Hv]. }
      destruct (Hb ns nr (ex_intro _ v Hv0)) as [(c' & Hc' & Ha)|Hst]; [|by right]. left. exists c'. split; [|done].
      apply elem_gone. split; [done|]. intros Euid.
      assert (c' = c) as ->.
      { clear -Hu Hc Hc' Euid. induction C as [|x C IH]; [by apply elem_of_nil in Hc|]. cbn in Hu. apply NoDup_cons in Hu as [Hx Hu].
        apply elem_of_cons in Hc as [->|Hc], Hc' as [->|Hc']; [done|..|by apply IH].
        - destruct Hx. rewrite <- Euid. by apply elem_of_list_In, in_map, elem_of_list_In.
        - destruct Hx. rewrite Euid. by apply elem_of_list_In, in_map, elem_of_list_In. }
      destruct Ha as [<- <-].
      destruct (Hsh _ _ Hv0) as [(ns' & nr' & E & _ & _ & Hk & Hns)|Hmk]; [|by apply (syscall_not_metrics_key (c_ns c) (c_nr c)) in Hmk].
      apply syscall_rule_inj in E as [<- <-]. rewrite remove_syscall_eq in Hv by done. cbn [fst nfilter] in Hv. by rewrite lookup_delete in Hv.
    + intros Hcov c' Hc'. apply elem_gone in Hc' as [Hc' Hne]. destruct (Hcov _ Hc') as (H1 & H2 & H3).
      destruct (Hcov _ Hc) as (K1 & K2 & _). split; [done|]. split; [done|]. unfold present.
      rewrite remove_syscall_eq by done. cbn [fst nfilter]. rewrite lookup_delete_ne; [done|].
      intros E. apply syscall_rule_inj in E as [E1 E2].
      apply (not_elem_of_nil c'), Hin. done.
  - split; [done|]. split; [done|]. split.
    + intros ns nr Hp. destruct (Hb ns nr Hp) as [(c' & Hc' & Ha)|Hst]; [|by right]. left.
      destruct (decide (c_uid c' = c_uid c)) as [E|Hne]; [|exists c'; by rewrite elem_gone].
      assert (at_ (c_ns c) (c_nr c) c1 /\ c1 ∈ C /\ c_uid c1 <> c_uid c) as (A1 & A2 & A3) by (apply Hin; left).
      assert (c' = c) as ->.
      { clear -Hu Hc Hc' E. induction C as [|x C IH]; [by apply elem_of_nil in Hc|]. cbn in Hu. apply NoDup_cons in Hu as [Hx Hu].
        apply elem_of_cons in Hc as [->|Hc], Hc' as [->|Hc']; [done|..|by apply IH].
        - destruct Hx. rewrite <- E. by apply elem_of_list_In, in_map, elem_of_list_In.
        - destruct Hx. rewrite E. by apply elem_of_list_In, in_map, elem_of_list_In. }
      destruct Ha as [<- <-]. exists c1. by rewrite elem_gone.
    + intros Hcov c' Hc'. apply elem_gone in Hc' as [Hc' _]. by apply Hcov.
Qed.
Lemma delete_loop_maps tbl : go_table tbl -> forall todo h jid C, buckets h C -> NoDup (map c_uid C) ->
  Forall (fun c => c ∈ C) todo -> NoDup (map c_uid todo) ->
  shape tbl (maps h) -> on (maps h) -> backed (maps h) C ->
  let m := maps (delete_loop tbl todo h jid).1 in
  shape tbl m /\ on m /\ backed m (filter (gone todo) C) /\
  (covered tbl (maps h) C -> covered tbl m (filter (gone todo) C)).
Proof.
  intros Ht. induction todo as [|c todo IH]; intros h jid C Hb Hu Hin Hd Hsh Hon Hbk; cbv zeta.
  - cbn. assert (forall l : list ctx, filter (gone []) l = l) as E.
    { intros l. induction l as [|x l IH]; [done|]. rewrite filter_cons_True by (apply not_elem_of_nil). by rewrite IH. }
    by rewrite E.
  - rewrite delete_loop_cons. apply Forall_cons in Hin as [Hc Hin]. cbn in Hd. apply NoDup_cons in Hd as [Hct Hd].
    destruct (find_list h (c_ns c) (c_nr c)) as [l|] eqn:Ef.
    2: { exfalso. destruct Hb as [Hl _]. rewrite Hl in Ef. apply ne_none in Ef.
         assert (c ∈ filter (at_ (c_ns c) (c_nr c)) C) as H by (by apply elem_of_list_filter). rewrite Ef in H. by apply elem_of_nil in H. }
    destruct (delete_one_buckets tbl c l h C Hb Hu Hc Ef) as [El Hb'].
    destruct (delete_one_maps tbl c l h C Ht Hb Hu Hc Ef Hsh Hon Hbk) as (M1 & M2 & M3 & M4).
    rewrite (gone_cons c todo C).
    destruct (IH (delete_one tbl c l h) (list_remove c jid) (filter (gone [c]) C)) as (I1 & I2 & I3 & I4); try done.
    + by apply nodup_map_filter.
    + rewrite Forall_forall in Hin |- *. intros x Hx. apply elem_of_list_filter. split; [|by apply Hin].
      unfold gone. cbn. rewrite elem_of_list_singleton. intros E. destruct Hct. rewrite <- E.
      by apply elem_of_list_In, in_map, elem_of_list_In.
    + split; [done|]. split; [done|]. split; [done|]. intros Hcov. by apply I4, M4.
Qed.
Lemma delete_maps J tbl h C id h' b : go_table tbl -> repr J h C -> delete_trace tbl h id = Ok (h', b) ->
  shape tbl (maps h) -> on (maps h) -> backed (maps h) C ->
  shape tbl (maps h') /\ on (maps h') /\
  exists C', repr J h' C' /\ backed (maps h') C' /\ (covered tbl (maps h) C -> covered tbl (maps h') C').
Proof.
  intros Ht Hr Hd Hsh Hon Hb. pose proof (delete_repr J tbl h C id Hr) as H.
  destruct (filter (fun c => j_id (J (c_job c)) = id) C) as [|c0 todo] eqn:E.
  - rewrite Hd in H. injection H as -> _. split; [done|]. split; [done|]. by exists C.
  - destruct H as (h1 & Hd1 & H1 & H2 & _). rewrite Hd in Hd1. injection Hd1 as -> ->.
    rewrite <- E in H2. destruct Hr as [Hbk Hid Hu Hn].
    destruct (delete_loop_maps tbl Ht (filter (fun c => j_id (J (c_job c)) = id) C) h (filter (fun c => j_id (J (c_job c)) = id) C) C) as (I1 & I2 & I3 & I4); try done.
    { apply Forall_forall. intros x Hx. by apply elem_of_list_filter in Hx as [_ Hx]. }
    { by apply nodup_map_filter. }
    rewrite <- H2 in I1, I2, I3, I4. rewrite (filter_gone_all _ C Hu) in I3, I4.
    split; [done|]. split; [done|]. by eexists.
Qed.

(** The calls of a job are known numbers. *)
Lemma calls_known tbl jb nr : go_table tbl -> Some nr ∈ calls_of tbl jb -> known tbl nr.
Proof.
  intros Ht Hin. unfold calls_of in Hin. apply elem_of_list_In, in_map_iff in Hin as (s & Hs & _).
  destruct (lookup_sc tbl (ByString s)) as [sc|] eqn:E; [|done]. injection Hs as <-.
  pose proof (lookup_string_known _ _ _ Ht E) as H. exact (ex_intro _ sc H).
Qed.

Definition kinv (tbl : syscalls) (h : hub) (C : list ctx) : Prop :=
  shape tbl (maps h) /\ on (maps h) /\ backed (maps h) C.

Lemma repr_elem J h C C' c : repr J h C -> repr J h C' -> c ∈ C' -> c ∈ C.
Proof.
  intros Hr Hr' Hc. pose proof (find_list_repr _ _ _ (c_ns c) (c_nr c) Hr) as E. rewrite (find_list_repr _ _ _ _ _ Hr') in E.
  assert (filter (at_ (c_ns c) (c_nr c)) C = filter (at_ (c_ns c) (c_nr c)) C') as Ef.
  { rewrite <- (default_ne (filter _ C)), <- (default_ne (filter _ C')). by rewrite E. }
  assert (c ∈ filter (at_ (c_ns c) (c_nr c)) C') as H by (by apply elem_of_list_filter).
  rewrite <- Ef in H. by apply elem_of_list_filter in H as [_ H].
Qed.
Lemma step_kinv J tbl h C o h' r : go_table tbl -> repr J h C -> kernel_op o -> kinv tbl h C ->
  hstep J tbl h o = Ok (h', r) ->
  exists C', repr J h' C' /\ map reg_of C' = reg_step J tbl (map reg_of C) (o, r) /\ kinv tbl h' C' /\
    ((forall j c, o <> OStop j c) -> (forall j ns nr, o <> OPush j ns nr) -> (forall n, r <> RStarted n false) ->
     covered tbl (maps h) C -> covered tbl (maps h') C').
Proof.
  intros Ht Hr Hko (Hsh & Hon & Hb) Hs.
  destruct (step_repr _ _ _ _ _ _ _ Hr Hs) as (C' & Hr' & HC'). exists C'. split; [done|]. split; [done|].
  assert (forall C1, repr J h' C1 -> backed (maps h') C1 -> (covered tbl (maps h) C -> covered tbl (maps h') C1) ->
     backed (maps h') C' /\ (covered tbl (maps h) C -> covered tbl (maps h') C')) as Htr.
  { intros C1 H1 H2 H3. split.
    - intros ns nr Hp. destruct (H2 _ _ Hp) as [(c & Hc & Ha)|Hst]; [|by right]. left. exists c. split; [|done]. by apply (repr_elem J h' C' C1).
    - intros Hc c Hc'. apply (H3 Hc). by apply (repr_elem J h' C1 C'). }
  assert (forall m, maps h' = m -> (forall ns nr, nfilter m !! syscall_rule ns nr = None <-> nfilter (maps h) !! syscall_rule ns nr = None) ->
     repr J h' C -> backed (maps h') C' /\ (covered tbl (maps h) C -> covered tbl (maps h') C')) as Hsame.
  { intros m Em Hm Hrc. subst m.
    assert (forall ns nr, present (maps h') ns nr <-> present (maps h) ns nr) as Hpp.
    { intros ns nr. unfold present. rewrite <- !not_eq_None_Some. by rewrite Hm. }
    apply (Htr C); [done|..].
    - intros ns nr Hp. apply Hb. by apply Hpp.
    - intros Hc c Hin. destruct (Hc c Hin) as (K1 & K2 & K3). split; [done|]. split; [done|]. by apply Hpp. }
  destruct o as [j c|j c|j ns nr|id|ev|ns|ns|mode t]; cbn [hstep kernel_op] in *.
  - unfold on_start in Hs. destruct (host_selected (J j) (ct_name c)).
    + destruct (start_calls _ _ _ _ _ _ _) as [[h1 [n ok]]| |] eqn:Es; [|done|done]. injection Hs as <- <-.
      destruct (start_maps J tbl j (ct_ns c) Ht Hko _ _ C _ _ _ _ (repr_set_hosts _ _ _ _ Hr) (fun nr => calls_known tbl (J j) nr Ht) Es Hsh Hon Hb)
        as (K1 & K2 & _ & _ & C1 & K3 & K4 & K5).
      destruct ok.
      * destruct (Htr C1 K3 K4 (fun H => K5 H eq_refl)) as [L1 L2]. split; [split; [done|split; done]|by intros _ _ _].
      * split; [|by intros _ _ H; destruct (H n)]. split; [done|]. split; [done|].
        intros ns nr Hp. destruct (K4 _ _ Hp) as [(c1 & Hc1 & Ha)|Hst]; [|by right]. left. exists c1. split; [|done]. by eapply repr_elem.
    + injection Hs as <- <-. destruct (Hsame _ eq_refl (fun _ _ => iff_refl _) Hr) as [L1 L2]. by split.
  - unfold on_stop in Hs. destruct (stop_calls _ _ _ _) as [h1| |] eqn:Es; [|done|done]. injection Hs as <- <-.
    destruct (stop_maps tbl (ct_ns c) Ht Hko _ _ _ (fun nr => calls_known tbl (J j) nr Ht) Es) as (K1 & K2 & K3 & K4).
    cbn [maps set_hosts] in K1, K3, K4. split; [|by intros H; destruct (H j c)]. split; [|split].
    + intros k v Hv. apply Hsh. by apply K4.
    + by eapply on_eq.
    + intros ns nr [v Hv]. apply K4 in Hv. destruct (Hb ns nr (ex_intro _ v Hv)) as [(c1 & Hc1 & Ha)|Hst]; [|by right].
      left. exists c1. split; [|done]. eapply (repr_elem J h1 C' C); [done| |done].
      pose proof (stop_repr J tbl (ct_ns c) (calls_of tbl (J j)) _ C (repr_set_hosts _ _ _ (<[j:=remove_container (default ∅ (hosts h !! j)) (ct_pod c) (ct_name c)]> (hosts h)) Hr)) as H.
      rewrite Es in H. apply H.
  - injection Hs as <- <-. split; [|by intros _ H; destruct (H j ns nr)]. split; [done|]. split; [done|].
    intros ns' nr' Hp. destruct (Hb _ _ Hp) as [(c1 & Hc1 & Ha)|Hst]; [|by right]. left. exists c1. split; [|done].
    eapply repr_elem; [exact Hr'|apply push_repr; exact Hr|]. apply elem_of_app. by left.
  - destruct (delete_trace tbl h id) as [[h1 b]| |] eqn:Ed; [|done|done]. injection Hs as <- <-.
    destruct (delete_maps J tbl h C id _ _ Ht Hr Ed Hsh Hon Hb) as (K1 & K2 & C1 & K3 & K4 & K5).
    destruct (Htr C1 K3 K4 K5) as [L1 L2]. split; [split; [done|split; done]|by intros _ _ _].
  - destruct (on_event J h ev) as [[h1 ps]| |] eqn:Ee; [|done|done]. injection Hs as <- <-.
    apply on_event_frame in Ee as (E1 & E2 & E3 & E4 & E5).
    destruct (Hsame _ E3 (fun _ _ => iff_refl _)) as [L1 L2]; [by eapply repr_frame|].
    rewrite E3 in L1. unfold kinv. rewrite E3 in *. by split.
  - injection Hs as <- <-. destruct (add_metrics_any tbl ns (maps h)) as (k & Hk & Hp).
    assert (forall ns' nr', nfilter (add_metrics tbl ns (maps h)).1 !! syscall_rule ns' nr' = nfilter (maps h) !! syscall_rule ns' nr') as Hsm.
    { intros ns' nr'. destruct Hp as [H1 H2]. destruct ((add_metrics tbl ns (maps h)).2).
      - destruct (H1 eq_refl) as [-> _]. apply lookup_insert_ne. intros E. symmetry in E. by apply (syscall_not_metrics_key ns' nr') in Hk.
      - by destruct (H2 eq_refl) as [-> _]. }
    destruct (Hsame _ eq_refl) as [L1 L2]; [intros; cbn [maps set_maps]; by rewrite Hsm|by apply repr_set_maps|].
    split; [|done]. split; [|split]; [by eapply shape_puts_metrics|by eapply puts_on|done].
  - injection Hs as <- <-. destruct (remove_metrics_any tbl ns (maps h)) as (Hc & k & Hk & Hp).
    assert (forall ns' nr', nfilter (remove_metrics tbl ns (maps h)).1 !! syscall_rule ns' nr' = nfilter (maps h) !! syscall_rule ns' nr') as Hsm.
    { intros ns' nr'. rewrite Hp. apply lookup_delete_ne. intros E. symmetry in E. by apply (syscall_not_metrics_key ns' nr') in Hk. }
    destruct (Hsame _ eq_refl) as [L1 L2]; [intros; cbn [maps set_maps]; by rewrite Hsm|by apply repr_set_maps|].
    split; [|done]. split; [|split]; [eapply shape_delete; [right; exact Hp|done]|by eapply on_eq|done].
  - destruct (run_nfilter mode t (maps h)) as [m v] eqn:E. injection Hs as <- <-.
    destruct (run_nfilter_frame mode t (maps h)) as [Hc Hf]. rewrite E in Hc, Hf. cbn [fst] in Hc, Hf.
    destruct (Hsame _ eq_refl) as [L1 L2]; [|by apply repr_set_maps|].
    { intros ns nr. cbn [maps set_maps]. destruct (Hf (syscall_rule ns nr)) as [->|(v0 & -> & ->)]; done. }
    split; [|done]. split; [|split]; [|by eapply on_eq|done].
    intros k v0 Hv. destruct (Hf k) as [Ek|(v1 & Ek1 & Ek2)].
    + apply Hsh. cbn [maps set_maps] in Hv. congruence.
    + cbn [maps set_maps] in Hv. rewrite Ek2 in Hv. injection Hv as <-. destruct (hit_same v1) as [Hh1 Hh2].
      destruct (Hsh _ _ Ek1) as [(ns & nr & H1 & H2 & H3 & H4)|Hm]; [|by right]. left. exists ns, nr.
      rewrite Hh1, Hh2. done.
Qed.

Lemma run_kinv J tbl : go_table tbl -> forall os h C h' rs, repr J h C -> Forall kernel_op os -> kinv tbl h C ->
  hrun J tbl h os = Ok (h', rs) ->
  exists C', repr J h' C' /\ map reg_of C' = fold_left (reg_step J tbl) (zip os rs) (map reg_of C) /\ kinv tbl h' C' /\
    (no_stops os -> no_pushes os -> updates_ok rs -> covered tbl (maps h) C -> covered tbl (maps h') C').
Proof.
  intros Ht. induction os as [|o os IH]; intros h C h' rs Hr Hko Hk; cbn [hrun].
  - intros [= <- <-]. by exists C.
  - destruct (hstep J tbl h o) as [[h1 r]| |] eqn:Es; [|done|done].
    destruct (hrun J tbl h1 os) as [[h2 rs2]| |] eqn:Er; [|done|done]. intros [= <- <-].
    apply Forall_cons in Hko as [Hko1 Hko].
    destruct (step_kinv _ _ _ _ _ _ _ Ht Hr Hko1 Hk Es) as (C1 & H1 & E1 & K1 & L1).
    destruct (IH _ _ _ _ H1 Hko K1 Er) as (C2 & H2 & E2 & K2 & L2).
    exists C2. split; [done|]. split; [cbn [zip zip_with fold_left]; by rewrite <- E1|]. split; [done|].
    intros Hns Hnp Hup Hc. apply L2.
    + intros j c Hin. apply (Hns j c). by right.
    + intros j ns nr Hin. apply (Hnp j ns nr). by right.
    + intros n Hin. apply (Hup n). by right.
    + apply L1; [..|done].
      * intros j c ->. apply (Hns j c). left.
      * intros j ns nr ->. apply (Hnp j ns nr). left.
      * intros n ->. apply (Hup n). left.
Qed.

Lemma stub_lookup : lookup_sc table (ByString stub_syscall) = Some (Syscall 218 "sys_set_tid_address" "ProcessManagement" "Threading").
Proof. Local Transparent lookup_sc. vm_compute. reflexivity. Local Opaque lookup_sc. Qed.

Lemma new_hub_kinv tbl h : go_table tbl -> new_hub tbl = Some h ->
  kinv tbl h [] /\ nfilter (maps h) = <[metrics_rule 31337 := fresh]> {[syscall_rule 0 218 := fresh]}.
Proof.
  intros Ht Hn. unfold new_hub, new_hub_maps in Hn. cbn [filter_self negb] in Hn.
  assert (puts_rule (KMaps ∅ ∅) (add_syscall tbl (ByString stub_syscall) 0 (KMaps ∅ ∅)) (syscall_rule 0 218) fresh) as Hp1.
  { Local Transparent add_syscall. unfold add_syscall, with_rule.
    rewrite (syscall_new_rule _ _ (Syscall 218 "sys_set_tid_address" "ProcessManagement" "Threading")); [|rewrite (go_table_eq _ Ht); exact stub_lookup|cbn; lia].
    apply (add_rule_puts (syscall_rule 0 218) fresh). Local Opaque add_syscall. }
  destruct (add_syscall tbl (ByString stub_syscall) 0 (KMaps ∅ ∅)) as [m2 [|]] eqn:E2; [|done]. cbn [negb] in Hn.
  assert (puts_rule m2 (add_metrics tbl 31337 m2) (metrics_rule 31337) fresh) as Hp2.
  { apply add_metrics_puts. unfold kernel_ns. lia. }
  unfold stub_metrics_ns in Hn. destruct (add_metrics tbl 31337 m2) as [m3 [|]] eqn:E3; [|done]. cbn [negb] in Hn.
  unfold enable in Hn. destruct (map_update config_max (config m3) mode_enabled 1) as [c|] eqn:Em; [|done]. cbn [negb] in Hn.
  apply map_update_some in Em as ->. injection Hn as <-. cbn [maps].
  destruct Hp1 as [Hp1 _]. destruct (Hp1 eq_refl) as [F1 G1]. destruct Hp2 as [Hp2 _]. destruct (Hp2 eq_refl) as [F2 G2].
  cbn [fst nfilter config] in F1, G1, F2, G2.
  assert (nfilter m3 = <[metrics_rule 31337 := fresh]> {[syscall_rule 0 218 := fresh]}) as EF by (rewrite F2, F1; reflexivity).
  split; [|done]. split; [|split]; cbn [maps].
  - intros k v. cbn [nfilter]. rewrite EF. intros [[<- <-]|[_ Hv]]%lookup_insert_Some; [right; by left|].
    apply lookup_singleton_Some in Hv as [<- <-]. left. exists 0, 218. split; [done|]. split; [done|]. split; [done|]. split; [|unfold kernel_ns; lia].
    rewrite (go_table_eq _ Ht). exact (ex_intro _ _ (lookup_string_known _ _ _ go_table_intro stub_lookup)).
  - split.
    + exists 1. cbn [config]. rewrite lookup_insert. done.
    + exists 1. cbn [config]. rewrite lookup_insert_ne by done. rewrite G2, lookup_insert_ne by done.
      rewrite G1. change (k_flags (syscall_rule 0 218)) with flags_sys. rewrite lookup_insert. done.
  - intros ns nr [v Hv]. cbn [nfilter] in Hv. rewrite EF in Hv. apply lookup_insert_Some in Hv as [[E _]|[_ Hv]].
    + exfalso. symmetry in E. by apply syscall_not_metrics in E.
    + apply lookup_singleton_Some in Hv as [E _]. apply syscall_rule_inj in E as [<- <-]. by right.
Qed.

Lemma regs_at_elem ns nr C : regs_at ns nr (map reg_of C) <> [] <-> exists c, c ∈ C /\ at_ ns nr c.
Proof.
  split.
  - intros H. destruct (regs_at ns nr (map reg_of C)) as [|g l] eqn:E; [done|].
    assert (g ∈ regs_at ns nr (map reg_of C)) as Hg by (rewrite E; left).
    unfold regs_at in Hg. apply elem_of_list_filter in Hg as [Ha Hg]. apply elem_of_list_In, in_map_iff in Hg as (c & <- & Hc).
    exists c. split; [by apply elem_of_list_In|exact Ha].
  - intros (c & Hc & Ha) H. apply (not_elem_of_nil (reg_of c)). rewrite <- H. unfold regs_at. apply elem_of_list_filter.
    split; [exact Ha|]. by apply elem_of_list_In, in_map, elem_of_list_In.
Qed.

(** C13 *)
Lemma rules_backed J tbl h0 os h rs ns nr : go_table tbl -> new_hub tbl = Some h0 -> Forall kernel_op os ->
  hrun J tbl h0 os = Ok (h, rs) -> has_rule h ns nr -> ~ (ns = 0 /\ nr = 218) -> regs_at ns nr (registrations J tbl os rs) <> [].
Proof.
  intros Ht H0 Hko Hr Hh Hst. destruct (run_kinv J tbl Ht os h0 [] h rs (new_hub_repr J _ _ H0) Hko (proj1 (new_hub_kinv _ _ Ht H0)) Hr)
    as (C & HC & E & (_ & _ & Hb) & _). unfold registrations. cbn [map] in E. rewrite <- E. apply regs_at_elem.
  destruct (Hb ns nr Hh) as [H|H]; [done|by destruct Hst].
Qed.
Lemma rules_covered J tbl h0 os h rs ns nr : go_table tbl -> new_hub tbl = Some h0 -> Forall kernel_op os ->
  hrun J tbl h0 os = Ok (h, rs) -> no_stops os -> no_pushes os -> updates_ok rs ->
  regs_at ns nr (registrations J tbl os rs) <> [] -> has_rule h ns nr.
Proof.
  intros Ht H0 Hko Hr Hns Hnp Hup Hreg.
  destruct (run_kinv J tbl Ht os h0 [] h rs (new_hub_repr J _ _ H0) Hko (proj1 (new_hub_kinv _ _ Ht H0)) Hr)
    as (C & HC & E & _ & Hc). unfold registrations in Hreg. cbn [map] in E. rewrite <- E in Hreg.
  apply regs_at_elem in Hreg as (c & Hc1 & <- & <-).
  assert (covered tbl (maps h0) []) as Hc0 by (intros c' Hc'; by apply elem_of_nil in Hc').
  by destruct (Hc Hns Hnp Hup Hc0 c Hc1) as (_ & _ & ?).
Qed.

(** What the kernel lets through (C26). *)
Lemma verdict_shape tbl m t ns nr : go_table tbl -> shape tbl m -> on m -> t_pidns t = ns -> s32 (u32 (t_id t)) = nr ->
  ((run_nfilter 2 t m).2 <> 1 <-> present m ns nr).
Proof.
  intros Ht Hsh [Hon1 Hon2] Hns Hnr. rewrite (verdict_exact m 2 t nr (or_introl eq_refl) Hnr). 
  assert (forall i k v, subjects 2 t nr !! i = Some k -> nfilter m !! k = Some v -> i = 2%nat /\ k = syscall_rule ns nr) as Honly.
  { intros i k v Hi Hv. unfold subjects in Hi.
    destruct (Hsh _ _ Hv) as [(ns' & nr' & -> & _)|[Hm|Hm]].
    - unfold syscall_rule in Hi. destruct i as [|[|[|[|[|i]]]]]; cbn in Hi; try discriminate Hi.
      injection Hi as <- <-. rewrite Hns. done.
    - destruct i as [|[|[|[|[|i]]]]]; cbn in Hi; try discriminate Hi; injection Hi as <-; cbn in Hm; lia.
    - destruct i as [|[|[|[|[|i]]]]]; cbn in Hi; try discriminate Hi; injection Hi as <-; cbn in Hm; lia. }
  split.
  - intros (_ & k & v & (i & Hi & _ & Hv & _) & _). destruct (Honly _ _ _ Hi Hv) as [_ ->]. by exists v.
  - intros [v Hv]. split; [done|]. exists (syscall_rule ns nr), v. split.
    + exists 2%nat. split; [cbn; rewrite Hns; done|]. split; [done|]. split; [done|]. intros j k' Hj Hk' [_ [v' Hv']].
      destruct (Honly _ _ _ Hk' Hv') as [-> _]. lia.
    + destruct (Hsh _ _ Hv) as [(ns' & nr' & E & Hr & Ha & _)|Hm].
      * split; [lia|]. left. lia.
      * by apply (syscall_not_metrics_key ns nr) in Hm.
Qed.
Lemma emitted_exact J tbl h0 os h rs t nr : go_table tbl -> new_hub tbl = Some h0 -> Forall kernel_op os ->
  hrun J tbl h0 os = Ok (h, rs) -> no_stops os -> no_pushes os -> updates_ok rs ->
  0 < t_pidns t < 2^32 -> s32 (u32 (t_id t)) = nr ->
  ((run_nfilter 2 t (maps h)).2 <> 1 <-> regs_at (t_pidns t) nr (registrations J tbl os rs) <> []).
Proof.
  intros Ht H0 Hko Hr Hns Hnp Hup Hpos Hnr.
  destruct (run_kinv J tbl Ht os h0 [] h rs (new_hub_repr J _ _ H0) Hko (proj1 (new_hub_kinv _ _ Ht H0)) Hr)
    as (C & HC & E & (Hsh & Hon & _) & _).
  rewrite (verdict_shape tbl (maps h) t (t_pidns t) nr Ht Hsh Hon eq_refl Hnr). split.
  - intros Hp. eapply rules_backed; try done. lia.
  - intros Hp. eapply rules_covered; done.
Qed.
(** Whatever happened, stops included: what comes out was asked for. *)
Lemma emitted_wanted J tbl h0 os h rs t nr : go_table tbl -> new_hub tbl = Some h0 -> Forall kernel_op os ->
  hrun J tbl h0 os = Ok (h, rs) -> 0 < t_pidns t < 2^32 -> s32 (u32 (t_id t)) = nr ->
  (run_nfilter 2 t (maps h)).2 <> 1 -> regs_at (t_pidns t) nr (registrations J tbl os rs) <> [].
Proof.
  intros Ht H0 Hko Hr Hpos Hnr Hv.
  destruct (run_kinv J tbl Ht os h0 [] h rs (new_hub_repr J _ _ H0) Hko (proj1 (new_hub_kinv _ _ Ht H0)) Hr)
    as (C & HC & E & (Hsh & Hon & _) & _).
  apply (verdict_shape tbl (maps h) t (t_pidns t) nr Ht Hsh Hon eq_refl Hnr) in Hv. eapply rules_backed; try done. lia.
Qed.

Lemma job_nrs_calls tbl jb nr : nr ∈ job_nrs tbl jb <-> Some nr ∈ calls_of tbl jb.
Proof. rewrite <- calls_nrs. rewrite elem_of_list_omap. split; [intros (x & Hx & E); cbn in E; by subst|intros H; by exists (Some nr)]. Qed.

(** C14: a stop takes the rules away and leaves the registrations. *)
Lemma stop_drops J tbl h j c h' : go_table tbl -> kernel_ns (ct_ns c) -> on_stop J tbl h j c = Ok h' ->
  nsmap h' = nsmap h /\ idmap h' = idmap h /\
  (forall nr, nr ∈ job_nrs tbl (J j) -> ~ has_rule h' (ct_ns c) nr) /\
  (forall k, (forall nr, nr ∈ job_nrs tbl (J j) -> k <> syscall_rule (ct_ns c) nr) -> nfilter (maps h') !! k = nfilter (maps h) !! k).
Proof.
  intros Ht Hns Hs. unfold on_stop in Hs.
  destruct (stop_maps tbl (ct_ns c) Ht Hns _ _ _ (fun nr => calls_known tbl (J j) nr Ht) Hs) as (K1 & K2 & K3 & K4).
  assert (forall cs h0 h1, stop_calls tbl cs (ct_ns c) h0 = Ok h1 -> nsmap h1 = nsmap h0 /\ idmap h1 = idmap h0) as Hfr.
  { induction cs as [|[nr|] cs IH]; intros h1 h2; cbn [stop_calls]; [by intros [= <-]|..|done].
    intros H. apply IH in H. exact H. }
  apply Hfr in Hs as [E1 E2]. split; [done|]. split; [done|]. split.
  - intros nr Hnr [v Hv]. apply job_nrs_calls in Hnr. rewrite (K2 _ Hnr) in Hv. done.
  - intros k Hk. rewrite K3; [done|]. intros nr Hnr. apply Hk. by apply job_nrs_calls.
Qed.

(** C19 *)
Lemma start_unsampled J tbl h0 os h rs j c h' n : go_table tbl -> new_hub tbl = Some h0 -> Forall kernel_op os ->
  hrun J tbl h0 os = Ok (h, rs) -> kernel_ns (ct_ns c) -> selects (J j) (ct_name c) ->
  on_start J tbl h j c = Ok (h', (n, true)) ->
  forall nr, nr ∈ job_nrs tbl (J j) -> nfilter (maps h') !! syscall_rule (ct_ns c) nr = Some fresh.
Proof.
  intros Ht H0 Hko Hr Hns Hsel Hs nr Hnr.
  destruct (run_kinv J tbl Ht os h0 [] h rs (new_hub_repr J _ _ H0) Hko (proj1 (new_hub_kinv _ _ Ht H0)) Hr)
    as (C & HC & E & (Hsh & Hon & Hb) & _).
  unfold on_start in Hs. apply host_selected_spec in Hsel. rewrite Hsel in Hs.
  destruct (start_maps J tbl j (ct_ns c) Ht Hns _ _ C _ _ _ _ (repr_set_hosts _ _ _ _ HC) (fun nr => calls_known tbl (J j) nr Ht) Hs Hsh Hon Hb)
    as (_ & _ & K & _). apply K; [done|]. by apply job_nrs_calls.
Qed.
