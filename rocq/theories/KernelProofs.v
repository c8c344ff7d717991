(** Proofs about the BPF programs. *)
From stdpp Require Import gmap strings list.
From Coq Require Import ZArith Lia.
From Verif Require Import SyscallModel SyscallSpec FilterModel FilterSpec FilterProofs KernelModel KernelSpec.
Open Scope Z_scope.
Local Opaque run_nfilter fstep.

(** ** Runs *)
Lemma krun_snoc tbl : forall l s o s1 rs, krun tbl s l = (s1, rs) ->
  krun tbl s (l ++ [o]) = ((kstep tbl s1 o).1, (rs ++ [(kstep tbl s1 o).2])%list).
Proof.
  induction l as [|o' l IH]; intros s o s1 rs; cbn [krun app].
  - intros [= <- <-]. by destruct (kstep tbl s o).
  - destruct (kstep tbl s o') as [s2 r]. destruct (krun tbl s2 l) as [s3 rs3] eqn:E. intros [= <- <-].
    by rewrite (IH _ o _ _ E).
Qed.
Lemma krun_length tbl : forall l s s1 rs, krun tbl s l = (s1, rs) -> length rs = length l.
Proof.
  induction l as [|o l IH]; intros s s1 rs; cbn [krun]; [by intros [= <- <-]|].
  destruct (kstep tbl s o) as [s2 r]. destruct (krun tbl s2 l) as [s3 rs3] eqn:E. intros [= <- <-]. cbn. by rewrite (IH _ _ _ E).
Qed.
Lemma krun_at tbl : forall l s s1 rs k o, krun tbl s l = (s1, rs) -> l !! k = Some o ->
  exists sk, krun tbl s (take k l) = (sk, take k rs) /\ rs !! k = Some (kstep tbl sk o).2.
Proof.
  induction l as [|o' l IH]; intros s s1 rs k o; cbn [krun]; [by rewrite lookup_nil|].
  destruct (kstep tbl s o') as [s2 r] eqn:Es. destruct (krun tbl s2 l) as [s3 rs3] eqn:E. intros [= <- <-] Hk.
  destruct k as [|k].
  - cbn in Hk. injection Hk as <-. exists s. cbn. by rewrite Es.
  - cbn in Hk. destruct (IH _ _ _ _ _ E Hk) as (sk & H1 & H2). exists sk. cbn [take krun]. rewrite Es, H1. done.
Qed.

(** ** The entry map *)
Lemma store_spec {K A} `{Countable K} cap (m : gmap K A) k v :
  store cap m k v = (if (store cap m k v).2 then <[k := v]> m else m, (store cap m k v).2).
Proof.
  unfold store. destruct (map_update cap m k v) as [m'|] eqn:E; [|done]. cbn. f_equal. by eapply map_update_some.
Qed.
Lemma fill_calls upd t s : ks_calls (fill_metrics upd t s).1 = ks_calls s.
Proof.
  unfold fill_metrics. destruct (run_nfilter _ _ _) as [f v]. destruct (v =? _); [done|]. destruct (_ =? _); [done|]. by destruct (upd _ _ _).
Qed.
Definition calls_after (o : kop) (r : kout) (c : gmap Z entry) : gmap Z entry :=
  match o with
  | KEnter tid t args ugid now => match o_saved r with Some true => <[tid := Entry (t_id t) args ugid now]> c | _ => c end
  | KExit tid _ _ _ _ => delete tid c
  | _ => c
  end.
Lemma kstep_calls tbl s o : ks_calls (kstep tbl s o).1 = calls_after o (kstep tbl s o).2 (ks_calls s).
Proof.
  destruct o as [tid t args ugid now|tid t ret now cpu|tid t args ugid now cpu|o|ns]; cbn [kstep calls_after]; [..|done|done].
  - unfold sys_enter. pose proof (fill_calls (fun ns nr => update_metrics_ktime ns nr now) t s) as E.
    destruct (fill_metrics _ t s) as [s1 mo]. cbn [fst] in E. destruct (_ =? nr_execve); [done|].
    destruct (run_nfilter _ _ _) as [f v]. destruct (v =? _); [done|].
    rewrite store_spec. destruct (store _ _ _ _).2; cbn; by rewrite E.
  - unfold sys_exit. pose proof (fill_calls (fun ns nr => update_metrics ns nr (ret_err ret) now) t s) as E.
    destruct (fill_metrics _ t s) as [s1 mo]. cbn [fst] in E.
    destruct (ks_calls s1 !! tid) as [e|] eqn:El.
    + rewrite <- E. destruct (negb _); [done|]. by destruct (negb _).
    + cbn. rewrite delete_notin; [done|]. by rewrite <- E.
  - unfold sys_execve. destruct (run_nfilter _ _ _) as [f v]. destruct (v =? _); [done|]. by destruct (negb _).
Qed.
(** What is saved at the end of a history. *)
Definition open_call (l : list kop) (rs : list kout) (tid : Z) (e : entry) : Prop :=
  exists i t args ugid now, l !! i = Some (KEnter tid t args ugid now) /\ saved rs i /\ e = Entry (t_id t) args ugid now /\
    forall j, (i < j)%nat -> ~ exit_at l j tid /\ ~ (enter_at l j tid /\ saved rs j).
Lemma lookup_snoc {A} (l : list A) x i y : (l ++ [x]) !! i = Some y <-> l !! i = Some y \/ (i = length l /\ x = y).
Proof.
  rewrite lookup_app_Some. split.
  - intros [H|[H1 H2]]; [by left|right]. apply list_lookup_singleton_Some in H2 as [H2 <-]. split; [lia|done].
  - intros [H|[-> ->]]; [by left|right]. split; [done|]. by rewrite Nat.sub_diag.
Qed.
Lemma calls_open tbl s0 : ks_calls s0 = ∅ -> forall l s rs, krun tbl s0 l = (s, rs) ->
  forall tid e, ks_calls s !! tid = Some e <-> open_call l rs tid e.
Proof.
  intros H0 l. induction l as [|o l IH] using rev_ind; intros s rs Hr tid e.
  - cbn in Hr. injection Hr as <- <-. rewrite H0, lookup_empty. split; [done|].
    intros (i & t & args & ugid & now & Hi & _). by rewrite lookup_nil in Hi.
  - destruct (krun tbl s0 l) as [s1 rs1] eqn:E1. rewrite (krun_snoc _ _ _ o _ _ E1) in Hr. injection Hr as <- <-.
    specialize (IH _ _ eq_refl tid). pose proof (krun_length _ _ _ _ _ E1) as Hlen. rewrite kstep_calls.
    set (r := (kstep tbl s1 o).2).
    (* the open calls of l survive o unless o is an exit or a saved enter of tid *)
    assert (Hlast : forall j, exit_at (l ++ [o]) j tid <-> exit_at l j tid \/ (j = length l /\ exists t ret now cpu, o = KExit tid t ret now cpu)).
    { intros j. split.
      - intros (t & ret & now & cpu & H). apply lookup_snoc in H as [H|[-> ->]]; [left; by repeat eexists|right; split; [done|by repeat eexists]].
      - intros [(t & ret & now & cpu & H)|[-> (t & ret & now & cpu & ->)]]; repeat eexists; apply lookup_snoc; [by left|by right]. }
    assert (Hsv : forall j, saved (rs1 ++ [r]) j <-> saved rs1 j \/ (j = length l /\ o_saved r = Some true)).
    { intros j. split.
      - intros (r' & H & Hs). apply lookup_snoc in H as [H|[-> ->]]; [left; by exists r'|right; by rewrite Hlen].
      - intros [(r' & H & Hs)|[-> Hs]]; [exists r'|exists r]; (split; [|done]); apply lookup_snoc; [by left|right; by rewrite Hlen]. }
    assert (Hent : forall j, enter_at (l ++ [o]) j tid <-> enter_at l j tid \/ (j = length l /\ exists t args ugid now, o = KEnter tid t args ugid now)).
    { intros j. split.
      - intros (t & ret & now & cpu & H). apply lookup_snoc in H as [H|[-> ->]]; [left; by repeat eexists|right; split; [done|by repeat eexists]].
      - intros [(t & ret & now & cpu & H)|[-> (t & ret & now & cpu & ->)]]; repeat eexists; apply lookup_snoc; [by left|by right]. }
    assert (Hlt : forall j, saved rs1 j -> (j < length l)%nat).
    { intros j (r' & H & _). apply lookup_lt_Some in H. lia. }
    assert (Hsame : (forall t ret now cpu, o <> KExit tid t ret now cpu) -> (forall t args ugid now, o = KEnter tid t args ugid now -> o_saved r <> Some true) ->
      (open_call l rs1 tid e <-> open_call (l ++ [o]) (rs1 ++ [r]) tid e)).
    { intros Hne1 Hne2. split.
      - intros (i & t & args & ugid & now & Hi & Hs & He & Hj). exists i, t, args, ugid, now. split; [apply lookup_snoc; by left|].
        split; [apply Hsv; by left|]. split; [done|]. intros j Hij. destruct (Hj j Hij) as [A B]. split.
        + rewrite Hlast. intros [H|(_ & t' & ret & n & cpu & ->)]; [done|]. by destruct (Hne1 t' ret n cpu).
        + rewrite Hent, Hsv. intros [[H1|(Hjl & a & b & c & d & ->)] [H2|(Hjl' & H2)]].
          * by destruct B.
          * destruct H1 as (a & b & c & d & H1). apply lookup_lt_Some in H1. lia.
          * apply Hlt in H2. lia.
          * by destruct (Hne2 a b c d).
      - intros (i & t & args & ugid & now & Hi & Hs & He & Hj). apply lookup_snoc in Hi as [Hi|[-> ->]].
        + exists i, t, args, ugid, now. split; [done|]. split.
          { apply Hsv in Hs as [Hs|[-> _]]; [done|]. apply lookup_lt_Some in Hi. lia. }
          split; [done|]. intros j Hij. destruct (Hj j Hij) as [A B]. split; [intros H; apply A, Hlast; by left|].
          intros [H1 H2]. apply B. split; [apply Hent; by left|apply Hsv; by left].
        + apply Hsv in Hs as [Hs|[_ Hs]]; [apply Hlt in Hs; lia|]. by destruct (Hne2 t args ugid now). }
    destruct o as [tid' t args ugid now|tid' t ret now cpu|tid' t args ugid now cpu|o|ns]; cbn [calls_after].
    + destruct (o_saved r) as [[]|] eqn:Eo.
      * destruct (decide (tid' = tid)) as [->|Hne].
        -- rewrite lookup_insert. split.
           ++ intros [= <-]. exists (length l), t, args, ugid, now. split; [apply lookup_snoc; by right|]. split; [apply Hsv; by right|]. split; [done|].
              intros j Hj. rewrite Hlast, Hent. split.
              ** intros [(a & b & c & d & H)|[-> _]]; [apply lookup_lt_Some in H; lia|lia].
              ** intros [[(a & b & c & d & H)|[-> _]] _]; [apply lookup_lt_Some in H; lia|lia].
           ++ intros (i & t' & args' & ugid' & now' & Hi & Hs & -> & Hj). apply lookup_snoc in Hi as [Hi|[-> [= <- <- <- <-]]]; [|done].
              exfalso. destruct (Hj (length l)) as [_ B]; [by apply lookup_lt_Some in Hi|]. apply B. split; [apply Hent; right|apply Hsv; by right].
              split; [done|]. by repeat eexists.
        -- rewrite lookup_insert_ne by done. rewrite IH. apply Hsame; [done|]. intros ? ? ? ? [= ? _ _ _ _]. done.
      * rewrite IH. by apply Hsame.
      * rewrite IH. by apply Hsame.
    + destruct (decide (tid' = tid)) as [->|Hne].
      * rewrite lookup_delete. split; [done|]. intros (i & t' & args' & ugid' & now' & Hi & Hs & -> & Hj). exfalso.
        apply lookup_snoc in Hi as [Hi|[-> [=]]]. destruct (Hj (length l)) as [A _]; [by apply lookup_lt_Some in Hi|].
        apply A, Hlast. right. split; [done|]. by repeat eexists.
      * rewrite lookup_delete_ne by done. rewrite IH. apply Hsame; [|done]. intros ? ? ? ? [= ? _ _ _ _]. done.
    + rewrite IH. by apply Hsame.
    + rewrite IH. by apply Hsame.
    + rewrite IH. by apply Hsame.
Qed.
(** The event a sys_exit sends. *)
Lemma exit_event tbl s tid t ret now cpu : o_event (kstep tbl s (KExit tid t ret now cpu)).2 =
  match ks_calls s !! tid with
  | Some e => if has_scratch cpu && (t_id t =? en_id e) then Some (KEvent tid (en_ugid e) (u32 (en_id e)) (en_time e) now (t_pidns t) (en_args e) ret) else None
  | None => None
  end.
Proof.
  cbn [kstep]. unfold sys_exit. pose proof (fill_calls (fun ns nr => update_metrics ns nr (ret_err ret) now) t s) as E.
  destruct (fill_metrics _ t s) as [s1 mo]. cbn [fst] in E. rewrite E. destruct (ks_calls s !! tid); [|done].
  destruct (has_scratch cpu); [|done]. cbn [negb andb]. by destruct (_ =? _).
Qed.
Lemma exit_at_take l k j tid : (j < k)%nat -> exit_at (take k l) j tid <-> exit_at l j tid.
Proof. intros H. unfold exit_at. by rewrite lookup_take. Qed.
Lemma enter_at_take l k j tid : (j < k)%nat -> enter_at (take k l) j tid <-> enter_at l j tid.
Proof. intros H. unfold enter_at. by rewrite lookup_take. Qed.
Lemma saved_take rs k j : (j < k)%nat -> saved (take k rs) j <-> saved rs j.
Proof. intros H. unfold saved. by rewrite lookup_take. Qed.

Lemma event_iff tbl s0 l s rs k tid t ret now cpu ev : ks_calls s0 = ∅ -> krun tbl s0 l = (s, rs) ->
  l !! k = Some (KExit tid t ret now cpu) ->
  (exists r, rs !! k = Some r /\ o_event r = Some ev) <->
  (cpu < 1024 /\ exists i t' args ugid now', (i < k)%nat /\ l !! i = Some (KEnter tid t' args ugid now') /\ saved rs i /\
    (forall j, (i < j < k)%nat -> ~ exit_at l j tid /\ ~ (enter_at l j tid /\ saved rs j)) /\
    t_id t' = t_id t /\ ev = KEvent tid ugid (u32 (t_id t)) now' now (t_pidns t) args ret).
Proof.
  intros H0 Hr Hk. destruct (krun_at _ _ _ _ _ _ _ Hr Hk) as (sk & Hrk & Ek).
  pose proof (calls_open tbl s0 H0 _ _ _ Hrk tid) as Ho. rewrite Ek.
  assert (length l > k)%nat as Hlen by (by apply lookup_lt_Some in Hk).
  pose proof (krun_length _ _ _ _ _ Hr) as Hrl.
  split.
  - intros (r & Hre & He). apply (inj Some) in Hre. subst r. rewrite exit_event in He. destruct (ks_calls sk !! tid) as [e|] eqn:El; [|done].
    destruct (has_scratch cpu) eqn:Es; [|done]. destruct (t_id t =? en_id e) eqn:Ei; [|done]. injection He as <-.
    split; [unfold has_scratch in Es; lia|].
    destruct (proj1 (Ho e) eq_refl) as (i & t' & args & ugid & now' & Hi & Hs & -> & Hj). apply Z.eqb_eq in Ei. cbn in Ei.
    assert (i < k)%nat as Hik by (apply lookup_lt_Some in Hi; rewrite take_length in Hi; lia).
    rewrite lookup_take in Hi by done. exists i, t', args, ugid, now'. split; [done|]. split; [done|].
    split; [by apply (saved_take rs k)|]. split; [|split; [done|by rewrite Ei]].
    intros j [Hj1 Hj2]. destruct (Hj j Hj1) as [A B]. rewrite exit_at_take in A by done. rewrite enter_at_take, saved_take in B by done. done.
  - intros (Hc & i & t' & args & ugid & now' & Hik & Hi & Hs & Hj & Hid & ->). eexists. split; [done|]. rewrite exit_event.
    assert (ks_calls sk !! tid = Some (Entry (t_id t') args ugid now')) as ->.
    { apply Ho. exists i, t', args, ugid, now'. rewrite lookup_take by done. split; [done|]. split; [by apply saved_take|]. split; [done|].
      intros j Hij. destruct (decide (j < k)%nat) as [Hlt|Hge].
      - destruct (Hj j) as [A B]; [lia|]. rewrite exit_at_take, enter_at_take, saved_take by done. done.
      - split; [intros (a & b & c & d & H)|intros [(a & b & c & d & H) _]]; apply lookup_lt_Some in H; rewrite take_length in H; lia. }
    cbn [en_id en_ugid en_time en_args]. unfold has_scratch. rewrite (proj2 (Z.ltb_lt _ _) Hc), Hid, Z.eqb_refl. done.
Qed.

Lemma event_pairs tbl s0 l s rs k tid t ret now cpu r ev : ks_calls s0 = ∅ -> krun tbl s0 l = (s, rs) -> takes_turns l tid ->
  l !! k = Some (KExit tid t ret now cpu) -> rs !! k = Some r -> o_event r = Some ev ->
  exists i t' args ugid now', just_before l i k tid /\ l !! i = Some (KEnter tid t' args ugid now') /\ saved rs i /\
    t_id t' = t_id t /\ ev = KEvent tid ugid (u32 (t_id t)) now' now (t_pidns t) args ret.
Proof.
  intros H0 Hr Htt Hk Hrk He.
  destruct (proj1 (event_iff tbl s0 l s rs k tid t ret now cpu ev H0 Hr Hk)) as (_ & i & t' & args & ugid & now' & Hik & Hi & Hs & Hj & Hid & Hev).
  { by exists r. }
  exists i, t', args, ugid, now'. split; [|done]. split; [done|]. intros j Hij. destruct (Hj j Hij) as [A _]. split; [done|].
  intros Hen. destruct (Htt i j) as (k' & Hk' & Hex); [lia|by repeat eexists|done|]. destruct (Hj k') as [A' _]; [lia|]. done.
Qed.
Lemma event_once tbl s0 l s rs k k' tid t ret now cpu t' ret' now' cpu' r r' ev ev' i : ks_calls s0 = ∅ -> krun tbl s0 l = (s, rs) ->
  l !! k = Some (KExit tid t ret now cpu) -> rs !! k = Some r -> o_event r = Some ev ->
  l !! k' = Some (KExit tid t' ret' now' cpu') -> rs !! k' = Some r' -> o_event r' = Some ev' ->
  just_before l i k tid -> just_before l i k' tid -> k = k'.
Proof.
  intros _ _ Hk _ _ Hk' _ _ [H1 H2] [H3 H4]. destruct (Nat.lt_trichotomy k k') as [Hlt|[->|Hlt]]; [|done|].
  - destruct (H4 k) as [A _]; [lia|]. destruct A. by repeat eexists.
  - destruct (H2 k') as [A _]; [lia|]. destruct A. by repeat eexists.
Qed.
Lemma event_sent tbl s0 l s rs k tid t ret now cpu i t' args ugid now' : ks_calls s0 = ∅ -> krun tbl s0 l = (s, rs) ->
  l !! k = Some (KExit tid t ret now cpu) -> cpu < 1024 -> just_before l i k tid ->
  l !! i = Some (KEnter tid t' args ugid now') -> saved rs i -> t_id t' = t_id t ->
  exists r, rs !! k = Some r /\ o_event r = Some (KEvent tid ugid (u32 (t_id t)) now' now (t_pidns t) args ret).
Proof.
  intros H0 Hr Hk Hc [Hik Hj] Hi Hs Hid. apply (event_iff tbl s0 l s rs k tid t ret now cpu _ H0 Hr Hk). split; [done|].
  exists i, t', args, ugid, now'. split; [done|]. split; [done|]. split; [done|]. split; [|done]. intros j Hij. destruct (Hj j Hij) as [A B]. tauto.
Qed.
Lemma dropped_silent tbl s0 l s rs k tid t ret now cpu i r : ks_calls s0 = ∅ -> krun tbl s0 l = (s, rs) -> takes_turns l tid ->
  l !! k = Some (KExit tid t ret now cpu) -> just_before l i k tid -> enter_at l i tid -> ~ saved rs i -> rs !! k = Some r -> o_event r = None.
Proof.
  intros H0 Hr Htt Hk [Hik Hj] Hi Hs Hrk. destruct (o_event r) as [ev|] eqn:He; [|done]. exfalso.
  destruct (event_pairs tbl s0 l s rs k tid t ret now cpu r ev H0 Hr Htt Hk Hrk He) as (i' & t' & args & ugid & now' & [Hi'k Hj'] & Hi' & Hs' & _).
  destruct (Nat.lt_trichotomy i i') as [Hlt|[->|Hlt]].
  - destruct (Hj i') as [_ B]; [lia|]. destruct B. by repeat eexists.
  - done.
  - destruct (Hj' i) as [_ B]; [lia|]. done.
Qed.

(** ** Metrics: one step *)
Lemma fill_metrics_spec upd t s :
  match (fill_metrics upd t s).2 with
  | None => ks_metrics (fill_metrics upd t s).1 = ks_metrics s
  | Some ok => upd (t_pidns t) (u32 (t_id t)) (ks_metrics s) = (ks_metrics (fill_metrics upd t s).1, ok)
  end.
Proof.
  unfold fill_metrics. destruct (run_nfilter _ _ _) as [f v]. destruct (v =? _); [done|]. destruct (_ =? _); [done|].
  destruct (upd _ _ _) as [m ok] eqn:E. done.
Qed.
Definition metrics_after (o : kop) (r : kout) (m : gmap mkey mval) : gmap mkey mval :=
  match o, o_metric r with
  | KEnter _ t _ _ now, Some _ => (update_metrics_ktime (t_pidns t) (u32 (t_id t)) now m).1
  | KExit _ t ret now _, Some _ => (update_metrics (t_pidns t) (u32 (t_id t)) (ret_err ret) now m).1
  | KPrune ns, _ => prune ns m
  | _, _ => m
  end.
Lemma kstep_metrics tbl s o : ks_metrics (kstep tbl s o).1 = metrics_after o (kstep tbl s o).2 (ks_metrics s) /\
  match o with
  | KEnter _ t _ _ now => forall ok, o_metric (kstep tbl s o).2 = Some ok -> (update_metrics_ktime (t_pidns t) (u32 (t_id t)) now (ks_metrics s)).2 = ok
  | KExit _ t ret now _ => forall ok, o_metric (kstep tbl s o).2 = Some ok -> (update_metrics (t_pidns t) (u32 (t_id t)) (ret_err ret) now (ks_metrics s)).2 = ok
  | _ => o_metric (kstep tbl s o).2 = None
  end.
Proof.
  destruct o as [tid t args ugid now|tid t ret now cpu|tid t args ugid now cpu|o|ns]; cbn [kstep]; [..|done|done].
  - unfold sys_enter. pose proof (fill_metrics_spec (fun ns nr => update_metrics_ktime ns nr now) t s) as E.
    destruct (fill_metrics _ t s) as [s1 mo]. cbn [fst snd] in E.
    assert (forall rr sv, ks_metrics rr = ks_metrics s1 -> ks_metrics (rr, KOut mo sv None).1 = metrics_after (KEnter tid t args ugid now) (rr, KOut mo sv None).2 (ks_metrics s) /\
      (forall ok, o_metric (rr, KOut mo sv None).2 = Some ok -> (update_metrics_ktime (t_pidns t) (u32 (t_id t)) now (ks_metrics s)).2 = ok)) as H.
    { intros rr sv Err. cbn [fst snd metrics_after o_metric]. rewrite Err. destruct mo as [ok|]; [|done]. cbn beta in E. rewrite E. cbn. split; [done|]. by intros ? [= ->]. }
    destruct (_ =? nr_execve); [by apply H|]. destruct (run_nfilter _ _ _) as [f v]. destruct (v =? _); [by apply H|].
    destruct (store _ _ _ _) as [c ok]. by apply H.
  - unfold sys_exit. pose proof (fill_metrics_spec (fun ns nr => update_metrics ns nr (ret_err ret) now) t s) as E.
    destruct (fill_metrics _ t s) as [s1 mo]. cbn [fst snd] in E.
    assert (forall rr sv ev, ks_metrics rr = ks_metrics s1 -> ks_metrics (rr, KOut mo sv ev).1 = metrics_after (KExit tid t ret now cpu) (rr, KOut mo sv ev).2 (ks_metrics s) /\
      (forall ok, o_metric (rr, KOut mo sv ev).2 = Some ok -> (update_metrics (t_pidns t) (u32 (t_id t)) (ret_err ret) now (ks_metrics s)).2 = ok)) as H.
    { intros rr sv ev Err. cbn [fst snd metrics_after o_metric]. rewrite Err. destruct mo as [ok|]; [|done]. cbn beta in E. rewrite E. cbn. split; [done|]. by intros ? [= ->]. }
    destruct (ks_calls s1 !! tid); [|by apply H]. destruct (negb _); [by apply H|]. destruct (negb _); by apply H.
  - unfold sys_execve. destruct (run_nfilter _ _ _) as [f v]. destruct (v =? _); [done|]. by destruct (negb _).
Qed.

(** ** Counts *)
Definition cnt (m : gmap mkey mval) (k : mkey) : Z := match m !! k with Some v => mv_count v | None => 0 end.
Definition prunes (ns : Z) (s : kop * kout) : bool := match s with (KPrune n, _) => u32 n =? ns | _ => false end.
Lemma since_prune_snoc ns h s : since_prune ns (h ++ [s]) = if prunes ns s then [] else (since_prune ns h ++ [s])%list.
Proof.
  induction h as [|x h IH]; cbn [app since_prune].
  - cbn. unfold prunes. by destruct s as [[| | | |n] r].
  - rewrite existsb_app. cbn [existsb]. fold (prunes ns s). rewrite orb_false_r. rewrite IH.
    destruct (prunes ns s) eqn:Ep; [by rewrite orb_true_r|]. rewrite orb_false_r.
    destruct (existsb _ h); [done|]. destruct x as [[| | | |n] r]; try done. by destruct (u32 n =? ns).
Qed.
Lemma exits_count_snoc ns nr e h s : exits_count ns nr e (h ++ [s]) =
  if prunes ns s then 0 else exits_count ns nr e h + (if decide (exits_with ns nr e s) then 1 else 0).
Proof.
  unfold exits_count. rewrite since_prune_snoc. destruct (prunes ns s); [done|].
  rewrite filter_app, app_length, filter_cons. cbn [filter list_filter]. destruct (decide (exits_with ns nr e s)); cbn; lia.
Qed.
Lemma s32_range x : -2^31 <= s32 x < 2^31.
Proof. unfold s32. pose proof (Z.mod_pos_bound x (2^32)). destruct (Z.ltb_spec (x mod 2^32) (2^31)); lia. Qed.
Lemma s32_small' x : -2^31 <= x < 2^31 -> s32 x = x.
Proof.
  intros H. destruct (Z.le_gt_cases 0 x) as [Hp|Hn]; [apply s32_small; lia|]. unfold s32. rewrite <- (Z_mod_plus_full x 1), Z.mod_small by lia.
  destruct (Z.ltb_spec (x + 1 * 2^32) (2^31)); lia.
Qed.
(** The errno, its range test and the key. *)
Lemma ret_err_cases ret :
  (errno_of ret = 0 /\ ((ret_err ret = 0 /\ 0 <= s32 ret) \/ (255 <= ret_err ret /\ -2^31 < s32 ret <= -255) \/ (ret_err ret = -2^31 /\ s32 ret = -2^31))) \/
  (0 < errno_of ret < 255 /\ ret_err ret = errno_of ret /\ s32 ret = - errno_of ret).
Proof.
  unfold errno_of, ret_err. pose proof (s32_range ret) as Hr. destruct (decide (-255 < s32 ret < 0)) as [H|H].
  - right. destruct (Z.ltb_spec (s32 ret) 0); [|lia]. rewrite (s32_small' (- s32 ret)) by lia. lia.
  - left. split; [done|]. destruct (Z.ltb_spec (s32 ret) 0) as [Hn|Hn]; [|left; lia]. right.
    destruct (decide (s32 ret = -2^31)) as [->|Hne]; [right; split; [reflexivity|done]|]. left. rewrite (s32_small' (- s32 ret)) by lia. lia.
Qed.
Lemma exit_key ns nr ret now m : (exit_metric ns nr (ret_err ret) now m).1 = MKey ns nr (errno_of ret).
Proof.
  unfold exit_metric. cbn [fst]. destruct (ret_err_cases ret) as [[-> [[-> _]|[[H _]|[-> _]]]]|[H [E _]]].
  - done.
  - destruct (Z.eqb_spec (ret_err ret) 0); [lia|]. destruct (Z.ltb_spec (ret_err ret) 255); [lia|]. done.
  - done.
  - rewrite E. destruct (Z.eqb_spec (errno_of ret) 0); [lia|]. destruct (Z.ltb_spec (errno_of ret) 255); [|lia]. cbn.
    f_equal. unfold u16. rewrite Z.mod_small by lia. done.
Qed.
Lemma exit_value_count ns nr ret now m : mv_count (exit_metric ns nr (ret_err ret) now m).2 = 
  u64 (cnt m (MKey ns nr (errno_of ret)) + 1).
Proof.
  rewrite <- (exit_key ns nr ret now m). unfold exit_metric, cnt. cbn [fst snd].
  by match goal with |- context [match m !! ?k with Some _ => _ | None => _ end] => destruct (m !! k) end.
Qed.
Lemma u64_succ n : u64 (u64 n + 1) = u64 (n + 1).
Proof. unfold u64. by rewrite Z.add_mod_idemp_l. Qed.
Lemma update_count ns nr ret now m k : (update_metrics ns nr (ret_err ret) now m).2 = true ->
  cnt (update_metrics ns nr (ret_err ret) now m).1 k = if decide (k = MKey ns nr (errno_of ret)) then u64 (cnt m k + 1) else cnt m k.
Proof.
  unfold update_metrics. pose proof (exit_key ns nr ret now m) as Ek. pose proof (exit_value_count ns nr ret now m) as Ev.
  destruct (exit_metric ns nr (ret_err ret) now m) as [k' v]. cbn [fst snd] in *. subst k'. rewrite store_spec. cbn [snd fst]. intros ->.
  unfold cnt at 1. destruct (decide (k = _)) as [->|Hne]; [by rewrite lookup_insert|]. by rewrite lookup_insert_ne.
Qed.
Lemma ktime_count ns nr now m k : cnt (update_metrics_ktime ns nr now m).1 k = cnt m k.
Proof.
  unfold update_metrics_ktime. rewrite store_spec. cbn [fst]. destruct (store _ _ _ _).2; [|done]. unfold cnt.
  destruct (decide (k = MKey ns nr 0)) as [->|Hne]; [|by rewrite lookup_insert_ne]. rewrite lookup_insert. by destruct (m !! _).
Qed.
Lemma prune_lookup ns m k : prune ns m !! k = if decide (mk_ns k = u32 ns) then None else m !! k.
Proof.
  unfold prune. destruct (decide (mk_ns k = u32 ns)) as [E|E].
  - apply map_filter_lookup_None. right. intros v _. cbn. tauto.
  - destruct (m !! k) as [v|] eqn:Em.
    + apply map_filter_lookup_Some. done.
    + apply map_filter_lookup_None. by left.
Qed.
Lemma zip_snoc {A B} (l : list A) (r : list B) x y : length l = length r -> zip (l ++ [x]) (r ++ [y]) = (zip l r ++ [(x, y)])%list.
Proof. intros H. by rewrite zip_with_app. Qed.
Lemma counts_exact tbl m l s rs : krun tbl (fresh_kernel m) l = (s, rs) -> never_full rs ->
  forall ns nr e, shown_count s ns nr e = u64 (exits_count ns nr e (zip l rs)).
Proof.
  revert s rs. induction l as [|o l IH] using rev_ind; intros s rs Hr Hf ns nr e.
  - cbn in Hr. injection Hr as <- <-. unfold shown_count. cbn. by rewrite lookup_empty.
  - destruct (krun tbl (fresh_kernel m) l) as [s1 rs1] eqn:E1. rewrite (krun_snoc _ _ _ o _ _ E1) in Hr. injection Hr as <- <-.
    pose proof (krun_length _ _ _ _ _ E1) as Hlen. rewrite zip_snoc, exits_count_snoc by done.
    assert (never_full rs1) as Hf1 by (intros r Hin; apply Hf, elem_of_app; by left).
    assert (o_metric (kstep tbl s1 o).2 <> Some false) as Hok by (apply Hf, elem_of_app; right; left).
    specialize (IH _ _ eq_refl Hf1 ns nr e). change (shown_count s1 ns nr e) with (cnt (ks_metrics s1) (MKey ns nr e)) in IH.
    change (shown_count (kstep tbl s1 o).1 ns nr e) with (cnt (ks_metrics (kstep tbl s1 o).1) (MKey ns nr e)).
    destruct (kstep_metrics tbl s1 o) as [-> Hup]. destruct (kstep tbl s1 o) as [s2 r]. cbn [fst snd] in *.
    destruct o as [tid t args ugid now|tid t ret now cpu|tid t args ugid now cpu|o|ns']; cbn [metrics_after prunes].
    + rewrite decide_False by (exact (fun H => H)). rewrite Z.add_0_r. destruct (o_metric r); [by rewrite ktime_count|done].
    + destruct (o_metric r) as [ok|] eqn:Eo.
      * assert (ok = true) as -> by (destruct ok; [done|by destruct Hok]). rewrite update_count by (by apply Hup). rewrite IH.
        destruct (decide (MKey ns nr e = _)) as [[= -> -> ->]|Hne].
        -- rewrite decide_True; [apply u64_succ|]. cbn [exits_with]. by rewrite Eo.
        -- rewrite decide_False; [by rewrite Z.add_0_r|]. cbn [exits_with]. intros (_ & <- & <- & <-). done.
      * rewrite decide_False by (cbn [exits_with]; intros (H & _); done). rewrite Z.add_0_r. done.
    + rewrite decide_False by (exact (fun H => H)). rewrite Z.add_0_r. by destruct (o_metric r).
    + rewrite decide_False by (exact (fun H => H)). rewrite Z.add_0_r. by destruct (o_metric r).
    + assert (cnt (prune ns' (ks_metrics s1)) (MKey ns nr e) = if u32 ns' =? ns then 0 else cnt (ks_metrics s1) (MKey ns nr e)) as Ep.
      { unfold cnt. rewrite prune_lookup. cbn [mk_ns]. destruct (Z.eqb_spec (u32 ns') ns) as [->|Hne]; [by rewrite decide_True|by rewrite decide_False]. }
      destruct (o_metric r); rewrite Ep; (destruct (u32 ns' =? ns); [done|]); (rewrite decide_False by (exact (fun H => H))); by rewrite Z.add_0_r.
Qed.

(** The counts of one (namespace, syscall) add up. *)
Lemma errno_range ret : 0 <= errno_of ret < 255.
Proof. destruct (ret_err_cases ret) as [[-> _]|[H _]]; lia. Qed.
Lemma sum_one (n : nat) x : (x < n)%nat -> fold_right Z.add 0 (map (fun i => if decide (x = i) then 1 else 0) (seq 0 n)) = 1.
Proof.
  intros H. assert (forall a b, (a <= x < a + b)%nat -> fold_right Z.add 0 (map (fun i => if decide (x = i) then 1 else 0) (seq a b)) = 1) as G.
  { intros a b. revert a. induction b as [|b IH]; intros a Hab; [lia|]. cbn [seq map fold_right]. destruct (decide (x = a)) as [->|Hne].
    - assert (forall c d, (a < c)%nat -> fold_right Z.add 0 (map (fun i => if decide (a = i) then 1 else 0) (seq c d)) = 0) as G0.
      { intros c d. revert c. induction d as [|d IHd]; intros c Hc; [done|]. cbn [seq map fold_right]. rewrite decide_False by lia. rewrite IHd; lia. }
      rewrite G0; lia.
    - rewrite IH; lia. }
  apply G. lia.
Qed.
Lemma counts_sum_spec ns nr (h : list (kop * kout)) :
  fold_right Z.add 0 (map (fun i => Z.of_nat (length (filter (exits_with ns nr (Z.of_nat i)) h))) (seq 0 255)) =
  Z.of_nat (length (filter (exits_all ns nr) h)).
Proof.
  induction h as [|s h IH].
  - cbn. reflexivity.
  - set (f := fun i => Z.of_nat (length (filter (exits_with ns nr (Z.of_nat i)) h))) in *.
    assert (forall is, fold_right Z.add 0 (map (fun i => Z.of_nat (length (filter (exits_with ns nr (Z.of_nat i)) (s :: h)))) is) =
      fold_right Z.add 0 (map f is) + fold_right Z.add 0 (map (fun i => if decide (exits_with ns nr (Z.of_nat i) s) then 1 else 0) is)) as E.
    { induction is as [|i is IHi]; [done|]. cbn [map fold_right]. rewrite IHi. rewrite filter_cons. unfold f at 2.
      destruct (decide (exits_with ns nr (Z.of_nat i) s)); cbn [length]; lia. }
    rewrite E, IH, filter_cons. clear E IH f.
    destruct (decide (exits_all ns nr s)) as [Ha|Ha].
    + destruct s as [[|tid t ret now cpu| | |] r]; try done. cbn in Ha. destruct Ha as (H1 & H2 & H3).
      rewrite (map_ext_in _ (fun i => if decide (Z.to_nat (errno_of ret) = i) then 1 else 0)).
      * rewrite sum_one; [cbn [length]; lia|]. pose proof (errno_range ret). lia.
      * intros i _. pose proof (errno_range ret). cbn [exits_with]. destruct (decide (Z.to_nat (errno_of ret) = i)).
        -- rewrite decide_True; [done|]. split; [done|]. split; [done|]. split; [done|]. lia.
        -- rewrite decide_False; [done|]. intros (_ & _ & _ & ?). lia.
    + rewrite (map_ext_in _ (fun _ => 0)).
      * assert (forall is : list nat, fold_right Z.add 0 (map (fun _ => 0) is) = 0) as -> by (induction is; cbn; lia). lia.
      * intros i _. rewrite decide_False; [done|]. destruct s as [[|tid t ret now cpu| | |] r]; try done. cbn in *. tauto.
Qed.
Lemma since_prune_suffix ns h : exists h0, h = (h0 ++ since_prune ns h)%list.
Proof.
  induction h as [|s h [h0 IH]]; [by exists []|]. cbn [since_prune]. destruct (existsb _ h).
  - exists (s :: h0). cbn. by rewrite <- IH.
  - destruct s as [[| | | |n] r]; try by exists []. destruct (u32 n =? ns); [by exists [(KPrune n, r)]|by exists []].
Qed.
Lemma counts_sum tbl m l s rs ns nr : krun tbl (fresh_kernel m) l = (s, rs) -> never_full rs -> Z.of_nat (length l) < 2^64 ->
  fold_right Z.add 0 (map (fun i => shown_count s ns nr (Z.of_nat i)) (seq 0 255)) =
  Z.of_nat (length (filter (exits_all ns nr) (since_prune ns (zip l rs)))).
Proof.
  intros Hr Hf Hl. rewrite <- counts_sum_spec. f_equal. apply map_ext_in. intros i _.
  rewrite (counts_exact _ _ _ _ _ Hr Hf). unfold exits_count, u64. apply Z.mod_small. split; [lia|].
  destruct (since_prune_suffix ns (zip l rs)) as [h0 E]. 
  assert (length (since_prune ns (zip l rs)) <= length (zip l rs))%nat as H1 by (rewrite E at 2; rewrite app_length; lia).
  pose proof (filter_length (exits_with ns nr (Z.of_nat i)) (since_prune ns (zip l rs))) as H2.
  pose proof (zip_with_length_l_eq (B := kout) pair l rs) as H3. rewrite <- (krun_length _ _ _ _ _ Hr) in *. rewrite zip_with_length in *. lia.
Qed.

(** Once a metrics rule is installed, every exit of the namespace is monitored. *)
Lemma kstep_filter tbl s o : exists os, ks_filter (kstep tbl s o).1 = fsteps tbl os (ks_filter s).
Proof.
  Local Transparent fstep.
  assert (forall upd t s, exists os, ks_filter (fill_metrics upd t s).1 = fsteps tbl os (ks_filter s)) as Hfm.
  { intros upd t s'. exists [FKernel mode_metrics t]. unfold fill_metrics. cbn [fsteps fold_left fstep].
    destruct (run_nfilter mode_metrics t (ks_filter s')) as [f v]. destruct (v =? _); [done|]. destruct (_ =? _); [done|]. by destruct (upd _ _ _). }
  assert (forall os os' m, fsteps tbl os' (fsteps tbl os m) = fsteps tbl (os ++ os') m) as Happ.
  { intros. unfold fsteps. by rewrite fold_left_app. }
  destruct o as [tid t args ugid now|tid t ret now cpu|tid t args ugid now cpu|o|ns]; cbn [kstep].
  - unfold sys_enter. destruct (Hfm (fun ns nr => update_metrics_ktime ns nr now) t s) as [os E].
    destruct (fill_metrics _ t s) as [s1 mo]. cbn [fst] in E. destruct (_ =? nr_execve); [by exists os|].
    exists (os ++ [FKernel mode_syscall t])%list. rewrite <- Happ, <- E. cbn [fsteps fold_left fstep].
    destruct (run_nfilter mode_syscall t (ks_filter s1)) as [f v]. destruct (v =? _); [done|]. by destruct (store _ _ _ _).
  - unfold sys_exit. destruct (Hfm (fun ns nr => update_metrics ns nr (ret_err ret) now) t s) as [os E].
    destruct (fill_metrics _ t s) as [s1 mo]. cbn [fst] in E. exists os. destruct (ks_calls s1 !! tid); [|done]. destruct (negb _); [done|]. by destruct (negb _).
  - unfold sys_execve. exists [FKernel mode_syscall t]. cbn [fsteps fold_left fstep]. destruct (run_nfilter _ _ _) as [f v]. destruct (v =? _); [done|]. by destruct (negb _).
  - by exists [o].
  - by exists [].
  Local Opaque fstep.
Qed.
Lemma krun_filter tbl : forall l s s1 rs, krun tbl s l = (s1, rs) -> exists os, ks_filter s1 = fsteps tbl os (ks_filter s).
Proof.
  induction l as [|o l IH]; intros s s1 rs; cbn [krun]; [intros [= <- <-]; by exists []|].
  destruct (kstep tbl s o) as [s2 r] eqn:E. destruct (krun tbl s2 l) as [s3 rs3] eqn:E3. intros [= <- <-].
  destruct (kstep_filter tbl s o) as [os1 H1]. rewrite E in H1. cbn [fst] in H1. destruct (IH _ _ _ E3) as [os2 H2].
  exists (os1 ++ os2)%list. rewrite H2, H1. unfold fsteps. by rewrite fold_left_app.
Qed.
Lemma monitored_forever tbl ns m m' l s rs k tid t ret now cpu r : go_table tbl -> kernel_ns ns -> configured m 1 ->
  add_metrics tbl ns m = (m', true) -> krun tbl (fresh_kernel m') l = (s, rs) ->
  l !! k = Some (KExit tid t ret now cpu) -> t_pidns t = ns -> u32 (t_id t) <> 2^32 - 1 -> rs !! k = Some r -> o_metric r <> None.
Proof.
  intros Ht Hns Hc Ha Hr Hk Hpn Hid Hrk. destruct (krun_at _ _ _ _ _ _ _ Hr Hk) as (sk & Hsk & Ek). rewrite Hrk in Ek. injection Ek as ->.
  destruct (krun_filter _ _ _ _ _ Hsk) as [os Eos]. cbn in Eos.
  pose proof (metrics_forever tbl ns m m' os t Ht Hns Hc Ha Hpn) as Hv. rewrite <- Eos in Hv.
  cbn [kstep]. unfold sys_exit.
  assert ((fill_metrics (fun ns nr => update_metrics ns nr (ret_err ret) now) t sk).2 <> None) as Hne.
  { unfold fill_metrics. unfold mode_metrics. destruct (run_nfilter 4 t (ks_filter sk)) as [f v]. cbn [snd] in Hv.
    unfold action_drop. destruct (Z.eqb_spec v 1); [done|]. destruct (Z.eqb_spec (u32 (t_id t)) 0xFFFFFFFF); [done|]. by destruct (update_metrics _ _ _ _ _). }
  destruct (fill_metrics _ t sk) as [s1 mo]. cbn [snd] in Hne. destruct (ks_calls s1 !! tid); [|done]. destruct (negb _); [done|]. by destruct (negb _).
Qed.

(** Two exits racing on two CPUs: both read before either writes. *)
Lemma racing ns nr ret now ret' now' m : errno_of ret = errno_of ret' ->
  let w1 := exit_metric ns nr (ret_err ret) now m in
  let w2 := exit_metric ns nr (ret_err ret') now' m in
  cnt (<[w2.1 := w2.2]> (<[w1.1 := w1.2]> m)) (MKey ns nr (errno_of ret)) = u64 (cnt m (MKey ns nr (errno_of ret)) + 1).
Proof.
  intros E w1 w2. unfold w2. rewrite exit_key, <- E. unfold cnt at 1. rewrite lookup_insert, exit_value_count. by rewrite E.
Qed.

(** ** Time *)
Definition tm (m : gmap mkey mval) (k : mkey) : Z := match m !! k with Some v => mv_time v | None => 0 end.
Definition skip_first (e : Z) (cs : list called) : list called := if decide (e = 0) then cs else drop 1 cs.
Record tinv (m : gmap mkey mval) (ns nr : Z) (cs : list called) (fl : option Z) : Prop := TInv {
  tv_zero : m !! MKey ns nr 0 = None <-> cs = [] /\ fl = None;
  tv_enter : forall x, fl = Some x -> exists v, m !! MKey ns nr 0 = Some v /\ mv_enter v = x;
  tv_errno : forall e, 0 < e < 255 -> m !! MKey ns nr e = None <-> with_errno e cs = [];
  tv_time : forall e, 0 <= e < 255 -> tm m (MKey ns nr e) = u64 (total (skip_first e (with_errno e cs))) }.
Lemma total_app cs c : total (cs ++ [c]) = total cs + (cl_out c - cl_in c).
Proof. unfold total. induction cs as [|x cs IH]; cbn [app fold_right]; [lia|]. rewrite IH. lia. Qed.
Lemma u64_add a b : u64 (u64 a + b) = u64 (a + b).
Proof. unfold u64. by rewrite Z.add_mod_idemp_l. Qed.
Lemma with_errno_snoc e cs c : with_errno e (cs ++ [c]) = (with_errno e cs ++ if decide (errno_of (cl_ret c) = e) then [c] else [])%list.
Proof. unfold with_errno. rewrite filter_app, filter_cons. cbn. by destruct (decide _). Qed.
Lemma tinv_enter m ns nr cs now : (update_metrics_ktime ns nr now m).2 = true -> tinv m ns nr cs None ->
  tinv (update_metrics_ktime ns nr now m).1 ns nr cs (Some now).
Proof.
  intros Hok [Hz He Hn Ht]. unfold update_metrics_ktime in *. rewrite store_spec in *. cbn [fst snd] in *. rewrite Hok.
  set (v := match m !! MKey ns nr 0 with Some _ => _ | None => _ end). constructor.
  - rewrite lookup_insert. split; [done|]. by intros [_ ?].
  - intros x [= <-]. exists v. rewrite lookup_insert. split; [done|]. unfold v. by destruct (m !! _).
  - intros e Hr. rewrite lookup_insert_ne by (intros [= ?]; lia). by apply Hn.
  - intros e Hr. unfold tm. destruct (decide (e = 0)) as [->|Hne].
    + rewrite lookup_insert. rewrite <- (Ht 0) by lia. unfold v, tm. by destruct (m !! _).
    + rewrite lookup_insert_ne by (intros [= ?]; lia). by apply Ht.
Qed.
Lemma tinv_exit m ns nr cs enter now ret : (update_metrics ns nr (ret_err ret) now m).2 = true -> -255 < s32 ret -> tinv m ns nr cs (Some enter) ->
  tinv (update_metrics ns nr (ret_err ret) now m).1 ns nr (cs ++ [Called enter now ret]) None.
Proof.
  intros Hok Hord [Hz He Hn Ht]. unfold update_metrics in *. pose proof (exit_key ns nr ret now m) as Ek.
  destruct (exit_metric ns nr (ret_err ret) now m) as [k v] eqn:Em. cbn [fst] in Ek. subst k.
  rewrite store_spec in *. cbn [fst snd] in *. rewrite Hok.
  destruct (He enter eq_refl) as (v0 & Hv0 & Hen).
  assert (mv_time v = match m !! MKey ns nr (errno_of ret) with Some _ => u64 (tm m (MKey ns nr (errno_of ret)) + (now - enter)) | None => 0 end) as Htime.
  { pose proof (exit_key ns nr ret now m) as Ek. rewrite Em in Ek. cbn [fst] in Ek.
    unfold exit_metric in Em. injection Em as _ <-. 
    destruct (ret_err_cases ret) as [[E0 [[E _]|[[_ H]|[_ H]]]]|[H1 [E _]]]; [|lia..|].
    - rewrite E, E0. cbn. unfold tm. rewrite Hv0, Hen. done.
    - rewrite E. destruct (Z.eqb_spec (errno_of ret) 0); [lia|]. destruct (Z.ltb_spec (errno_of ret) 255); [|lia]. cbn [negb andb].
      unfold u16. rewrite (Z.mod_small (errno_of ret)) by lia. rewrite Hv0, Hen. unfold tm. by destruct (m !! MKey ns nr (errno_of ret)). }
  pose proof (errno_range ret) as Hrange. constructor.
  - split.
    + intros H. exfalso. destruct (decide (errno_of ret = 0)) as [E|E].
      * rewrite E, lookup_insert in H. done.
      * rewrite lookup_insert_ne in H by (intros [= ?]; lia). congruence.
    + intros [H _]. by destruct cs.
  - done.
  - intros e Hr. rewrite with_errno_snoc. cbn [cl_ret]. destruct (decide (errno_of ret = e)) as [<-|Hne].
    + rewrite lookup_insert. split; [done|]. intros H. by destruct (with_errno _ cs).
    + rewrite lookup_insert_ne by (intros [= ?]; lia). rewrite app_nil_r. by apply Hn.
  - intros e Hr. rewrite with_errno_snoc. cbn [cl_ret]. destruct (decide (errno_of ret = e)) as [<-|Hne].
    + unfold tm at 1. rewrite lookup_insert, Htime. unfold skip_first. destruct (decide (errno_of ret = 0)) as [E|E].
      * rewrite E, Hv0. rewrite (Ht 0) by lia. unfold skip_first. rewrite decide_True by done. rewrite total_app, u64_add. done.
      * destruct (with_errno (errno_of ret) cs) as [|c0 cs0] eqn:Ew.
        -- assert (m !! MKey ns nr (errno_of ret) = None) as -> by (apply Hn; [lia|done]). done.
        -- destruct (m !! MKey ns nr (errno_of ret)) eqn:El; [|apply Hn in El; [congruence|lia]].
           rewrite (Ht (errno_of ret)) by lia. unfold skip_first. rewrite decide_False by done. rewrite Ew.
           assert (forall x, drop 1 ((c0 :: cs0) ++ [x]) = cs0 ++ [x])%list as -> by done. assert (drop 1 (c0 :: cs0) = cs0) as -> by done.
           rewrite total_app, u64_add. done.
    + unfold tm. rewrite lookup_insert_ne by (intros [= ?]; lia). rewrite app_nil_r. by apply Ht.
Qed.
Lemma tinv_frame m m' ns nr cs fl : (forall e, m' !! MKey ns nr e = m !! MKey ns nr e) -> tinv m ns nr cs fl -> tinv m' ns nr cs fl.
Proof.
  intros E [A B C D]. constructor; unfold tm in *.
  - by rewrite E.
  - intros x. rewrite E. apply B.
  - intros e. rewrite E. apply C.
  - intros e. rewrite E. apply D.
Qed.
Lemma update_frame ns nr ret now m ns' nr' e : (ns', nr') <> (ns, nr) ->
  (update_metrics ns nr (ret_err ret) now m).1 !! MKey ns' nr' e = m !! MKey ns' nr' e.
Proof.
  intros Hne. unfold update_metrics. pose proof (exit_key ns nr ret now m) as Ek. destruct (exit_metric ns nr (ret_err ret) now m) as [k v]. cbn [fst] in Ek. subst k.
  rewrite store_spec. cbn [fst]. destruct (store _ _ _ _).2; [|done]. apply lookup_insert_ne. congruence.
Qed.
Lemma ktime_frame ns nr now m ns' nr' e : (ns', nr') <> (ns, nr) ->
  (update_metrics_ktime ns nr now m).1 !! MKey ns' nr' e = m !! MKey ns' nr' e.
Proof.
  intros Hne. unfold update_metrics_ktime. rewrite store_spec. cbn [fst]. destruct (store _ _ _ _).2; [|done]. apply lookup_insert_ne. congruence.
Qed.
Lemma times_inv tbl m l s rs ns nr cs fl : krun tbl (fresh_kernel m) l = (s, rs) -> never_full rs ->
  calls ns nr (zip l rs) = Some (cs, fl) -> (forall tid t ret now cpu, KExit tid t ret now cpu ∈ l -> t_pidns t = ns -> u32 (t_id t) = nr -> -255 < s32 ret) ->
  tinv (ks_metrics s) ns nr cs fl.
Proof.
  revert s rs cs fl. induction l as [|o l IH] using rev_ind; intros s rs cs fl Hr Hf Hc Hord.
  - cbn in Hr. injection Hr as <- <-. cbn in Hc. injection Hc as <- <-. constructor; cbn.
    + by rewrite lookup_empty.
    + done.
    + intros e _. by rewrite lookup_empty.
    + intros e _. unfold tm, skip_first. rewrite lookup_empty. by destruct (decide (e = 0)).
  - destruct (krun tbl (fresh_kernel m) l) as [s1 rs1] eqn:E1. rewrite (krun_snoc _ _ _ o _ _ E1) in Hr. injection Hr as <- <-.
    pose proof (krun_length _ _ _ _ _ E1) as Hlen. rewrite zip_snoc in Hc by done. unfold calls in Hc. rewrite fold_left_app in Hc. cbn [fold_left] in Hc.
    fold (calls ns nr (zip l rs1)) in Hc. destruct (calls ns nr (zip l rs1)) as [[cs1 fl1]|] eqn:Ec; [|done].
    assert (never_full rs1) as Hf1 by (intros r Hin; apply Hf, elem_of_app; by left).
    assert (o_metric (kstep tbl s1 o).2 <> Some false) as Hok by (apply Hf, elem_of_app; right; left).
    assert (tinv (ks_metrics s1) ns nr cs1 fl1) as Hi.
    { eapply IH; [done|done|done|]. intros tid t ret now cpu Hin. apply (Hord tid t ret now cpu), elem_of_app. by left. }
    destruct (kstep_metrics tbl s1 o) as [-> Hup]. destruct (kstep tbl s1 o) as [s2 [mo sv ev]]. cbn [fst snd o_metric] in *.
    destruct o as [tid t args ugid now|tid t ret now cpu|tid t args ugid now cpu|o|ns']; cbn [metrics_after call_step o_metric] in *.
    + destruct mo as [ok|]; [|by injection Hc as <- <-]. assert (ok = true) as -> by (destruct ok; [done|by destruct Hok]).
      destruct (decide (t_pidns t = ns /\ u32 (t_id t) = nr)) as [[<- <-]|Hne].
      * destruct fl1; [done|]. injection Hc as <- <-. apply tinv_enter; [by apply Hup|done].
      * injection Hc as <- <-. eapply tinv_frame; [|done]. intros e. apply ktime_frame. intros [= -> ->]. by destruct Hne.
    + destruct mo as [ok|]; [|by injection Hc as <- <-]. assert (ok = true) as -> by (destruct ok; [done|by destruct Hok]).
      destruct (decide (t_pidns t = ns /\ u32 (t_id t) = nr)) as [[<- <-]|Hne].
      * destruct fl1 as [x|]; [|done]. injection Hc as <- <-. apply tinv_exit; [by apply Hup| |done].
        eapply Hord; [apply elem_of_app; right; left|done|done].
      * injection Hc as <- <-. eapply tinv_frame; [|done]. intros e. apply update_frame. intros [= -> ->]. by destruct Hne.
    + destruct mo; by injection Hc as <- <-.
    + destruct mo; by injection Hc as <- <-.
    + assert (tinv (prune ns' (ks_metrics s1)) ns nr cs fl) as H; [|by destruct mo].
      destruct (decide (u32 ns' = ns)) as [Ens|Hne].
      * destruct fl1; [done|]. injection Hc as <- <-.
        assert (forall e, prune ns' (ks_metrics s1) !! MKey ns nr e = None) as Hnone.
        { intros e. rewrite prune_lookup. by rewrite decide_True. }
        constructor; [by rewrite Hnone|done|intros; by rewrite Hnone|]. intros e _. unfold tm. rewrite Hnone. unfold skip_first. by destruct (decide (e = 0)).
      * injection Hc as <- <-. eapply tinv_frame; [|done]. intros e. rewrite prune_lookup. by rewrite decide_False.
Qed.
Lemma times_exact tbl m l s rs ns nr cs fl e : krun tbl (fresh_kernel m) l = (s, rs) -> never_full rs ->
  calls ns nr (zip l rs) = Some (cs, fl) -> (forall tid t ret now cpu, KExit tid t ret now cpu ∈ l -> t_pidns t = ns -> u32 (t_id t) = nr -> -255 < s32 ret) ->
  0 <= e < 255 -> shown_time s ns nr e = u64 (total (if decide (e = 0) then with_errno e cs else drop 1 (with_errno e cs))).
Proof. intros. by apply (times_inv tbl m l s rs ns nr cs fl). Qed.
(** A result that is negative as an int but no errno. *)
Lemma uptime_added tbl s tid t ret now cpu v : o_metric (kstep tbl s (KExit tid t ret now cpu)).2 = Some true ->
  -2^31 < s32 ret <= -255 -> ks_metrics s !! MKey (t_pidns t) (u32 (t_id t)) 0 = Some v ->
  shown_time (kstep tbl s (KExit tid t ret now cpu)).1 (t_pidns t) (u32 (t_id t)) 0 = u64 (mv_time v + now).
Proof.
  intros Ho Hr Hv. destruct (kstep_metrics tbl s (KExit tid t ret now cpu)) as [E Hup]. unfold shown_time. rewrite E. cbn [metrics_after]. rewrite Ho.
  specialize (Hup true Ho). unfold update_metrics in *. pose proof (exit_key (t_pidns t) (u32 (t_id t)) ret now (ks_metrics s)) as Ek.
  destruct (ret_err_cases ret) as [[E0 [[_ H]|[[H _]|[_ H]]]]|[H1 [_ H]]]; [lia| |lia|lia].
  rewrite E0 in Ek. destruct (exit_metric _ _ _ _ _) as [k x] eqn:Em. cbn [fst] in Ek. subst k. rewrite store_spec in *. cbn [fst snd] in *. rewrite Hup, lookup_insert.
  unfold exit_metric in Em. destruct (Z.eqb_spec (ret_err ret) 0); [lia|]. destruct (Z.ltb_spec (ret_err ret) 255); [lia|]. cbn in Em. rewrite Hv in Em. injection Em as <-. cbn. f_equal. lia.
Qed.

(** ** Which entries are saved, and the execve tracepoint *)
Lemma saved_passes tbl s tid t args ugid now :
  o_saved (kstep tbl s (KEnter tid t args ugid now)).2 <> None <->
  u32 (t_id t) <> 59 /\ (run_nfilter 2 t (run_nfilter 4 t (ks_filter s)).1).2 <> 1.
Proof.
  cbn [kstep]. unfold sys_enter.
  assert (ks_filter (fill_metrics (fun ns nr => update_metrics_ktime ns nr now) t s).1 = (run_nfilter 4 t (ks_filter s)).1) as E.
  { unfold fill_metrics, mode_metrics. destruct (run_nfilter 4 t (ks_filter s)) as [f v]. destruct (v =? _); [done|]. destruct (_ =? _); [done|]. by destruct (update_metrics_ktime _ _ _ _). }
  destruct (fill_metrics _ t s) as [s1 mo]. cbn [fst] in E. rewrite E. unfold nr_execve, action_drop, mode_syscall.
  destruct (Z.eqb_spec (u32 (t_id t)) 59) as [H|H]; [cbn; tauto|].
  destruct (run_nfilter 2 t _) as [f v]. cbn [snd]. destruct (Z.eqb_spec v 1) as [Hv|Hv]; [cbn; tauto|]. destruct (store _ _ _ _). by cbn.
Qed.
Lemma saved_at tbl s0 l s rs i tid t args ugid now sk rk r : krun tbl s0 l = (s, rs) -> krun tbl s0 (take i l) = (sk, rk) ->
  l !! i = Some (KEnter tid t args ugid now) -> rs !! i = Some r ->
  o_saved r <> None <-> u32 (t_id t) <> 59 /\ (run_nfilter 2 t (run_nfilter 4 t (ks_filter sk)).1).2 <> 1.
Proof.
  intros Hr Hsk Hi Hri. destruct (krun_at _ _ _ _ _ _ _ Hr Hi) as (sk' & Hsk' & E). rewrite Hsk in Hsk'. injection Hsk' as <- _.
  rewrite Hri in E. apply (inj Some) in E. subst r. apply saved_passes.
Qed.
Lemma events_from tbl s0 l s rs k r ev : krun tbl s0 l = (s, rs) -> rs !! k = Some r -> o_event r = Some ev ->
  (exists tid t ret now cpu, l !! k = Some (KExit tid t ret now cpu)) \/
  (exists tid t args ugid now cpu sk rk, l !! k = Some (KExecve tid t args ugid now cpu) /\ krun tbl s0 (take k l) = (sk, rk) /\
    (run_nfilter 2 t (ks_filter sk)).2 <> 1 /\ ev = KEvent tid ugid 59 now now (t_pidns t) args 0).
Proof.
  intros Hr Hrk He. assert (is_Some (l !! k)) as [o Ho].
  { apply lookup_lt_is_Some. rewrite <- (krun_length _ _ _ _ _ Hr). by apply lookup_lt_is_Some. }
  destruct (krun_at _ _ _ _ _ _ _ Hr Ho) as (sk & Hsk & E). rewrite Hrk in E. apply (inj Some) in E. subst r.
  destruct o as [tid t args ugid now|tid t ret now cpu|tid t args ugid now cpu|o|ns]; cbn [kstep] in He; [|left; by repeat eexists| |done..].
  - exfalso. revert He. unfold sys_enter. destruct (fill_metrics _ _ _). destruct (_ =? _); [done|]. destruct (run_nfilter _ _ _). destruct (_ =? _); [done|]. by destruct (store _ _ _ _).
  - right. exists tid, t, args, ugid, now, cpu, sk, (take k rs). split; [done|]. split; [done|]. revert He. unfold sys_execve, mode_syscall, action_drop.
    destruct (run_nfilter 2 t (ks_filter sk)) as [f v]. destruct (Z.eqb_spec v 1); [done|]. destruct (negb _); [done|]. intros [= <-]. done.
Qed.
