(** What LiveProofs.v proves about the machine, for any program that leaves the machine
    alone between its steps. *)
From Coq Require Import ZArith String Lia.
From stdpp Require Import base list numbers strings pretty gmap.
From Verif Require Import FilterModel HubModel KernelModel KernelSpec KernelProofs
  RawModel CaptureModel CaptureSpec LineModel DecodeModel PlainModel LiveModel LiveSpec LiveProofs PlainProofs.

Local Open Scope string_scope.
Local Open Scope list_scope.
Local Open Scope Z_scope.
Local Notation u32 := FilterModel.u32.

(** What a step does to the machine. *)
Record frame (tbl : SyscallModel.syscalls) (w : world) (o : wop) (r : wout) (w' : world) : Prop := {
  f_now : w_now w' = S (w_now w);
  f_cache : w_cache w' = match o with
               | WPod start c => if 0 <? ct_ns c then if start then <[ct_ns c := c]> (w_cache w) else delete (ct_ns c) (w_cache w) else w_cache w
               | _ => w_cache w
               end;
  f_calls : w_calls w' = calls_after (task_op o) (task_out r) (w_calls w);
  f_ring : match o with
  | WTask o su sc tr lost => exists r', r = UTask r' /\ w_ring w' = match o_event r' with Some e => if lost then w_ring w else w_ring w ++ [(w_now w, emit e su sc ++ tr)] | None => w_ring w end
  | WRead i => (r = UNone /\ w_ring w' = w_ring w) \/ exists k bs ps line, w_ring w !! i = Some (k, bs) /\ w_ring w' = delete i (w_ring w) /\ r = URead k ps line
  | _ => w_ring w' = w_ring w /\ forall k ps line, r <> URead k ps line
  end;
  f_task : match o with
  | WTask o _ _ _ _ => r = UTask (kstep tbl (kernel_of w) o).2 /\ w_calls w' = ks_calls (kstep tbl (kernel_of w) o).1
  | _ => forall r', r <> UTask r'
  end
}.
Inductive framed (tbl : SyscallModel.syscalls) (w : world) : list wop -> world -> list wout -> Prop :=
| fr_nil : framed tbl w [] w []
| fr_snoc l w1 rs o r w2 : framed tbl w l w1 rs -> frame tbl w1 o r w2 -> framed tbl w (l ++ [o]) w2 (rs ++ [r]).

Section framed.
Context (tbl : SyscallModel.syscalls) (w0 : world) (F0 : fresh w0).
Local Notation run l w rs := (framed tbl w0 l w rs).

Lemma framed_nil w rs : run [] w rs -> w = w0 /\ rs = [].
Proof. intros R. inversion R as [|l w1 rs1 o r w2 R1 S E]; [split; reflexivity|]. destruct l; discriminate. Qed.
Lemma framed_snoc l o w rs : run (l ++ [o]) w rs -> exists w1 rs1 r, run l w1 rs1 /\ frame tbl w1 o r w /\ rs = rs1 ++ [r].
Proof.
  intros R. inversion R as [E|l' w1 rs1 o' r w2 R1 S E]; [destruct l; discriminate|]. apply app_inj_tail in E as [-> ->].
  exists w1, rs1, r. split; [exact R1|]. split; [exact S|reflexivity].
Qed.
Lemma framed_length l w rs : run l w rs -> length rs = length l.
Proof. intros R. induction R as [|l w1 rs o r w2 R IH S]; [reflexivity|]. rewrite !app_length, IH. reflexivity. Qed.
Lemma framed_at l w rs k o : run l w rs -> l !! k = Some o ->
  exists wk wk' r, run (take k l) wk (take k rs) /\ frame tbl wk o r wk' /\ rs !! k = Some r /\ run (take (S k) l) wk' (take (S k) rs).
Proof.
  intros R. revert k o. induction R as [|l w1 rs o' r w2 R IH S]; intros k o Hk; [rewrite lookup_nil in Hk; discriminate|].
  pose proof (framed_length _ _ _ R) as Len. apply lookup_snoc in Hk as [Hk|[-> ->]].
  - destruct (IH k o Hk) as (wk & wk' & rk & R1 & S1 & H1 & R2). pose proof (lookup_lt_Some _ _ _ Hk) as Lk. exists wk, wk', rk.
    rewrite !take_app_le by lia. split; [exact R1|]. split; [exact S1|]. split; [rewrite lookup_app_l by lia; exact H1|exact R2].
  - exists w1, w2, r. rewrite take_app, (take_app_alt rs [r] (length l)) by (symmetry; exact Len). split; [exact R|]. split; [exact S|]. split; [rewrite list_lookup_middle by (symmetry; exact Len); reflexivity|].
    rewrite !take_ge by (rewrite app_length; cbn [length]; lia). exact (fr_snoc _ _ _ _ _ _ _ _ R S).
Qed.

Lemma f_known : forall l w rs, run l w rs ->
  w_now w = length l /\ forall ns c, 0 < ns -> (w_cache w !! ns = Some c <-> known l ns c).
Proof.
  destruct F0 as (_ & C0 & _ & N0). intros l. induction l as [|o l IH] using rev_ind; intros w rs R.
  - apply framed_nil in R as [-> ->]. split; [exact N0|]. intros ns c _. rewrite C0, lookup_empty. split; [discriminate|intros H; destruct (known_nil _ _ H)].
  - apply framed_snoc in R as (w1 & rs1 & r & R & S & ->). destruct (IH w1 rs1 R) as [N1 C1]. destruct S as [N E _ _ _]. split.
    { rewrite N, N1, app_length. cbn [length]. lia. }
    intros ns c P. rewrite E, known_snoc. specialize (C1 ns c P).
    destruct o as [o su scratch trailing lost|start c1|start ns1|start c1|i].
    + rewrite C1. split; [intros K; split; [exact P|]; right; split; [exact K|discriminate]|intros (_ & [[H _]|[K _]]); [discriminate|exact K]].
    + destruct (Z.ltb_spec 0 (ct_ns c1)) as [P1|P1].
      * destruct start.
        -- destruct (decide (ct_ns c1 = ns)) as [<-|Hne].
           ++ rewrite lookup_insert. split.
              ** intros H. apply Some_inj in H. subst c1. split; [exact P|]. left. split; reflexivity.
              ** intros (_ & [[H _]|[_ H]]); [injection H as <-; reflexivity|destruct (H true c1 eq_refl eq_refl)].
           ++ rewrite lookup_insert_ne by exact Hne. rewrite C1. split.
              ** intros K. split; [exact P|]. right. split; [exact K|]. intros start c' H. injection H as <- <-. exact Hne.
              ** intros (_ & [[H E']|[K _]]); [injection H as <-; contradiction|exact K].
        -- destruct (decide (ct_ns c1 = ns)) as [<-|Hne].
           ++ rewrite lookup_delete. split; [discriminate|]. intros (_ & [[H _]|[_ H]]); [discriminate|destruct (H false c1 eq_refl eq_refl)].
           ++ rewrite lookup_delete_ne by exact Hne. rewrite C1. split.
              ** intros K. split; [exact P|]. right. split; [exact K|]. intros start c' H. injection H as <- <-. exact Hne.
              ** intros (_ & [[H E']|[K _]]); [discriminate|exact K].
      * rewrite C1. split.
        -- intros K. split; [exact P|]. right. split; [exact K|]. intros start' c' H. injection H as <- <-. lia.
        -- intros (_ & [[H E']|[K _]]); [injection H as _ <-; lia|exact K].
    + rewrite C1. split; [intros K; split; [exact P|]; right; split; [exact K|discriminate]|intros (_ & [[H _]|[K _]]); [discriminate|exact K]].
    + rewrite C1. split; [intros K; split; [exact P|]; right; split; [exact K|discriminate]|intros (_ & [[H _]|[K _]]); [discriminate|exact K]].
    + rewrite C1. split; [intros K; split; [exact P|]; right; split; [exact K|discriminate]|intros (_ & [[H _]|[K _]]); [discriminate|exact K]].
Qed.

Lemma f_run_calls : forall l w rs, run l w rs -> w_calls w = calls_from (map task_op l) (map task_out rs).
Proof.
  destruct F0 as (C0 & _). intros l. induction l as [|o l IH] using rev_ind; intros w rs R.
  - apply framed_nil in R as [-> ->]. exact C0.
  - apply framed_snoc in R as (w1 & rs1 & r & R & S & ->). rewrite !map_app. cbn [map]. rewrite calls_from_snoc by (rewrite !map_length; exact (framed_length _ _ _ R)).
    rewrite <- (IH w1 rs1 R). exact (f_calls _ _ _ _ _ S).
Qed.

Lemma f_ring_spec : forall l w rs, run l w rs ->
  (NoDup (map fst (w_ring w)) /\ forall k bs, (k, bs) ∈ w_ring w <-> sent_record l rs k bs /\ forall q, ~ taken rs q k) /\ forall q k, taken rs q k -> (k < q)%nat.
Proof.
  intros l. induction l as [|o l IH] using rev_ind; intros w rs R.
  - apply framed_nil in R as [-> ->]. pose proof F0 as (_ & _ & -> & _). split; [|intros q k (ps & line & H); rewrite lookup_nil in H; discriminate]. split; [constructor|]. intros k bs. split.
    + intros H. apply not_elem_of_nil in H. contradiction.
    + intros [H _]. apply sent_lt in H. cbn [length] in H. lia.
  - apply framed_snoc in R as (w1 & rs1 & r & R & S & ->). destruct (IH w1 rs1 R) as [[N M] Old]. pose proof (framed_length _ _ _ R) as L.
    destruct (f_known _ _ _ R) as [Now _]. pose proof (f_ring _ _ _ _ _ S) as E.
    assert (Lt : forall k bs, (k, bs) ∈ w_ring w1 -> (k < length l)%nat) by (intros k bs H; apply M in H as [H _]; exact (sent_lt _ _ _ _ H)).
    split; [|intros q k Hq; apply taken_snoc in Hq as [Hq|(-> & ps & line & ->)]; [exact (Old q k Hq)|];
      destruct o as [? ? ? ? ?|? ?|? ?|? ?|i]; [destruct E as (? & E & _); discriminate|destruct E as [_ E]; destruct (E _ _ _ eq_refl)..|];
      destruct E as [[E _]|(k' & bs & ps' & line' & E & _ & Er)]; [discriminate|]; injection Er as <- _ _; rewrite L; apply (Lt k bs), elem_of_list_lookup_2 with i; exact E].
    (* a step that sends and takes nothing *)
    assert (Quiet : w_ring w = w_ring w1 -> (forall bs, ~ sent_record (l ++ [o]) (rs1 ++ [r]) (length l) bs) -> (forall k ps line, r <> URead k ps line) ->
      NoDup (map fst (w_ring w)) /\ forall k bs, (k, bs) ∈ w_ring w <-> sent_record (l ++ [o]) (rs1 ++ [r]) k bs /\ forall q, ~ taken (rs1 ++ [r]) q k).
    { intros -> NS NT. split; [exact N|]. intros k bs. rewrite M. split.
      - intros [Hs Ht]. split; [apply sent_snoc; [exact L|exact (sent_lt _ _ _ _ Hs)|exact Hs]|]. intros q Hq. apply taken_snoc in Hq as [Hq|(_ & ps & line & Hq)]; [exact (Ht q Hq)|exact (NT _ _ _ Hq)].
      - intros [Hs Ht]. assert (K : (k < length l)%nat).
        { pose proof (sent_lt _ _ _ _ Hs) as K. rewrite app_length in K. cbn [length] in K. destruct (decide (k = length l)) as [->|]; [destruct (NS _ Hs)|lia]. }
        split; [exact (proj1 (sent_snoc _ _ _ _ _ _ L K) Hs)|]. intros q Hq. apply (Ht q), taken_snoc. left. exact Hq. }
    destruct o as [o su sc tr lost|start c|start ns|start c|i].
    + destruct E as (r' & -> & E). destruct (o_event r') as [e|] eqn:Ev; [destruct lost|].
      * apply Quiet; [exact E| |discriminate]. intros bs H. apply sent_last in H as (o' & su' & sc' & tr' & r'' & e' & H & _); [discriminate|exact L].
      * assert (Last : forall bs, sent_record (l ++ [WTask o su sc tr false]) (rs1 ++ [UTask r']) (length l) bs <-> bs = emit e su sc ++ tr).
        { intros bs. rewrite sent_last by exact L. split.
          - intros (o' & su' & sc' & tr' & r'' & e' & H1 & H2 & H3 & H4). injection H1 as <- <- <- <-. injection H2 as <-. rewrite Ev in H3. apply Some_inj in H3. subst e'. exact H4.
          - intros ->. exists o, su, sc, tr, r', e. split; [reflexivity|]. split; [reflexivity|]. split; [exact Ev|reflexivity]. }
        rewrite E, Now. split.
        { rewrite map_app. cbn [map fst]. apply NoDup_app. split; [exact N|]. split; [|apply NoDup_singleton]. intros k Hk Hl. apply elem_of_list_singleton in Hl. subst k.
          apply elem_of_list_In, in_map_iff in Hk as ([k bs] & Hk & Hin). cbn [fst] in Hk. apply elem_of_list_In in Hin. apply Lt in Hin. lia. }
        intros k bs. rewrite elem_of_app, elem_of_list_singleton. split.
        -- intros [H|H].
           ++ pose proof (Lt _ _ H) as K. apply M in H as [Hs Ht]. split; [apply sent_snoc; [exact L|exact K|exact Hs]|]. intros q Hq. apply taken_snoc in Hq as [Hq|(_ & ps & line & Hq)]; [exact (Ht q Hq)|discriminate].
           ++ apply pair_equal_spec in H as [-> ->]. split; [apply Last; reflexivity|]. intros q Hq. apply taken_snoc in Hq as [(ps & line & Hq)|(_ & ps & line & Hq)]; [|discriminate].
              assert (Hl : (q < length rs1)%nat) by (apply lookup_lt_Some in Hq; exact Hq). pose proof (Old q (length l) ltac:(exists ps, line; exact Hq)). lia.
        -- intros [Hs Ht]. destruct (decide (k = length l)) as [->|Hk].
           ++ right. apply Last in Hs. subst bs. reflexivity.
           ++ left. apply M. split.
              ** assert (K : (k < length l)%nat) by (pose proof (sent_lt _ _ _ _ Hs) as K; rewrite app_length in K; cbn [length] in K; lia). exact (proj1 (sent_snoc _ _ _ _ _ _ L K) Hs).
              ** intros q Hq. apply (Ht q), taken_snoc. left. exact Hq.
      * apply Quiet; [exact E| |discriminate]. intros bs H. apply sent_last in H as (o' & su' & sc' & tr' & r'' & e' & _ & H & H' & _); [|exact L]. injection H as <-. rewrite Ev in H'. discriminate.
    + destruct E as [E1 E2]. apply Quiet; [exact E1| |exact E2]. intros bs H. apply sent_last in H as (o' & su' & sc' & tr' & r'' & e' & H & _); [discriminate|exact L].
    + destruct E as [E1 E2]. apply Quiet; [exact E1| |exact E2]. intros bs H. apply sent_last in H as (o' & su' & sc' & tr' & r'' & e' & H & _); [discriminate|exact L].
    + destruct E as [E1 E2]. apply Quiet; [exact E1| |exact E2]. intros bs H. apply sent_last in H as (o' & su' & sc' & tr' & r'' & e' & H & _); [discriminate|exact L].
    + assert (NS : forall bs, ~ sent_record (l ++ [WRead i]) (rs1 ++ [r]) (length l) bs) by (intros bs H; apply sent_last in H as (o' & su' & sc' & tr' & r'' & e' & H & _); [discriminate|exact L]).
      destruct E as [[-> E]|(k & bs & ps & line & E1 & E2 & ->)]; [apply Quiet; [exact E|exact NS|discriminate]|].
      destruct (delete_keys _ _ _ _ N E1) as [N' D]. rewrite E2. split; [exact N'|]. intros k' bs'. rewrite D, M. split.
      * intros [[Hs Ht] Hne]. split; [apply sent_snoc; [exact L|exact (sent_lt _ _ _ _ Hs)|exact Hs]|]. intros q Hq. apply taken_snoc in Hq as [Hq|(_ & ps' & line' & Hq)]; [exact (Ht q Hq)|]. injection Hq as Hq _ _. exact (Hne (eq_sym Hq)).
      * intros [Hs Ht]. assert (K : (k' < length l)%nat).
        { pose proof (sent_lt _ _ _ _ Hs) as K. rewrite app_length in K. cbn [length] in K. destruct (decide (k' = length l)) as [->|]; [destruct (NS _ Hs)|lia]. }
        split; [split|].
        -- exact (proj1 (sent_snoc _ _ _ _ _ _ L K) Hs).
        -- intros q Hq. apply (Ht q), taken_snoc. left. exact Hq.
        -- intros ->. apply (Ht (length rs1)), taken_snoc. right. split; [reflexivity|]. exists ps, line. reflexivity.
Qed.

Lemma f_task_at l w rs k o : run l w rs -> did l k o ->
  exists wk, run (take k l) wk (take k rs) /\ rs !! k = Some (UTask (kstep tbl (kernel_of wk) o).2).
Proof.
  intros R (su & sc & tr & lost & H). destruct (framed_at _ _ _ _ _ R H) as (wk & wk' & r & Rk & S & Hr & _). exists wk. split; [exact Rk|]. rewrite Hr.
  rewrite (proj1 (f_task _ _ _ _ _ S)). reflexivity.
Qed.

Lemma f_exit_iff l w rs k tid t ret now cpu r ev : run l w rs ->
  did l k (KExit tid t ret now cpu) -> rs !! k = Some (UTask r) ->
  (o_event r = Some ev <-> cpu < 1024 /\ exists i t' args ugid now', (i < k)%nat /\ did l i (KEnter tid t' args ugid now') /\ kept rs i /\
    (forall j, (i < j < k)%nat -> ~ leaves_at l j tid /\ ~ (enters_at l j tid /\ kept rs j)) /\
    t_id t' = t_id t /\ ev = KEvent tid ugid (u32 (t_id t)) now' now (t_pidns t) args ret).
Proof.
  intros R Hk Hr. destruct (f_task_at _ _ _ _ _ R Hk) as (wk & Rk & E). rewrite Hr in E. apply Some_inj, utask_inj in E. subst r.
  pose proof (framed_length _ _ _ R) as Len. pose proof (did_lt _ _ _ Hk) as Lk.
  pose proof (f_run_calls _ _ _ Rk) as C.
  assert (O : forall e, ks_calls (kernel_of wk) !! tid = Some e <-> open_call (map task_op (take k l)) (map task_out (take k rs)) tid e).
  { intros e. cbn [kernel_of ks_calls]. rewrite C. apply from_open. rewrite !map_length, !take_length. lia. }
  assert (B : forall i t' args ugid now', map task_op (take k l) !! i = Some (KEnter tid t' args ugid now') <-> (i < k)%nat /\ did l i (KEnter tid t' args ugid now')).
  { intros i t' args ugid now'. rewrite op_at by discriminate. split.
    - intros H. assert (Hi : (i < k)%nat) by (pose proof (did_lt _ _ _ H) as Hi; rewrite take_length in Hi; lia). split; [exact Hi|]. apply (did_take l k i _ Hi). exact H.
    - intros [Hi H]. apply (did_take l k i _ Hi). exact H. }
  rewrite exit_event. split.
  - intros H. destruct (ks_calls (kernel_of wk) !! tid) as [e|] eqn:El; [|discriminate].
    destruct (has_scratch cpu) eqn:Es; [|discriminate]. destruct (t_id t =? en_id e) eqn:Ei; [|discriminate]. apply Some_inj in H. subst ev.
    split; [unfold has_scratch in Es; lia|].
    destruct (proj1 (O e) eq_refl) as (i & t' & args & ugid & now' & Hi & Hs & -> & Hj). cbn [en_id en_ugid en_time en_args] in *. apply Z.eqb_eq in Ei.
    apply B in Hi as [Hik Hi]. exists i, t', args, ugid, now'. split; [exact Hik|]. split; [exact Hi|]. split; [apply kept_saved in Hs; apply (kept_take rs k i Hik); exact Hs|].
    split; [|split; [symmetry; exact Ei|rewrite Ei; reflexivity]].
    intros j [H1 H2]. destruct (Hj j H1) as [A1 A2]. rewrite leaves_op, leaves_take in A1 by exact H2. rewrite enters_op, enters_take, kept_saved, kept_take in A2 by exact H2. split; assumption.
  - intros (Hc & i & t' & args & ugid & now' & Hik & Hi & Hs & Hj & Hid & ->).
    rewrite (proj2 (O (Entry (t_id t') args ugid now'))).
    + cbn [en_id en_ugid en_time en_args]. unfold has_scratch. rewrite (proj2 (Z.ltb_lt _ _) Hc), Hid, Z.eqb_refl. reflexivity.
    + exists i, t', args, ugid, now'. split; [apply B; split; assumption|]. split; [apply kept_saved, (kept_take rs k i Hik); exact Hs|]. split; [reflexivity|].
      intros j Hij. destruct (decide (j < k)%nat) as [Hlt|Hge].
      * destruct (Hj j (conj Hij Hlt)) as [A1 A2]. rewrite leaves_op, leaves_take by exact Hlt. rewrite enters_op, enters_take, kept_saved, kept_take by exact Hlt. split; assumption.
      * split; [rewrite leaves_op; intros (a & b & c & d & H)|rewrite enters_op; intros [(a & b & c & d & H) _]]; apply did_lt in H; rewrite take_length in H; lia.
Qed.

Lemma f_enough_room l w rs : few_tasks l -> run l w rs -> forall i r, rs !! i = Some (UTask r) -> o_saved r <> Some false.
Proof.
  intros FT. set (ks := list_to_set (entering l) : gset Z).
  assert (X : forall l' w' rs', (forall tid, tid ∈ entering l' -> tid ∈ ks) -> run l' w' rs' -> dom (w_calls w') ⊆ ks /\ forall i r, rs' !! i = Some (UTask r) -> o_saved r <> Some false).
  { intros l'. induction l' as [|o l' IH] using rev_ind; intros w' rs' K R.
    - apply framed_nil in R as [-> ->]. pose proof F0 as (-> & _). rewrite dom_empty. split; [set_solver|]. intros i r H. rewrite lookup_nil in H. discriminate.
    - apply framed_snoc in R as (w1 & rs1 & r & R & S & ->). destruct (IH w1 rs1) as [D N]; [intros tid H; apply K; unfold entering; rewrite omap_app; apply elem_of_app; left; exact H|exact R|].
      destruct o as [o su sc tr lost|start c|start ns|start c|j].
      + destruct (f_task _ _ _ _ _ S) as [-> C].
        destruct (kstep_stored tbl (kernel_of w1) o ks D) as [D1 N1].
        { intros tid t args ugid now ->. apply K. unfold entering. rewrite omap_app. apply elem_of_app. right. left. }
        { unfold few_tasks in FT. unfold state_max. fold ks in FT. lia. }
        rewrite C. split; [exact D1|].
        intros i r H. apply lookup_snoc in H as [H|[_ H]]; [exact (N i r H)|]. apply utask_inj in H. subst r. exact N1.
      + pose proof (f_calls _ _ _ _ _ S) as C. cbn [task_op calls_after] in C. rewrite C. split; [exact D|]. intros i r' H. apply lookup_snoc in H as [H|[_ H]]; [exact (N i r' H)|]. destruct (f_task _ _ _ _ _ S r' H).
      + pose proof (f_calls _ _ _ _ _ S) as C. cbn [task_op calls_after] in C. rewrite C. split; [exact D|]. intros i r' H. apply lookup_snoc in H as [H|[_ H]]; [exact (N i r' H)|]. destruct (f_task _ _ _ _ _ S r' H).
      + pose proof (f_calls _ _ _ _ _ S) as C. cbn [task_op calls_after] in C. rewrite C. split; [exact D|]. intros i r' H. apply lookup_snoc in H as [H|[_ H]]; [exact (N i r' H)|]. destruct (f_task _ _ _ _ _ S r' H).
      + pose proof (f_calls _ _ _ _ _ S) as C. cbn [task_op calls_after] in C. rewrite C. split; [exact D|]. intros i r' H. apply lookup_snoc in H as [H|[_ H]]; [exact (N i r' H)|]. destruct (f_task _ _ _ _ _ S r' H). }
  intros R. destruct (X l w rs) as [_ N]; [intros tid H; unfold ks; apply elem_of_list_to_set; exact H|exact R|exact N].
Qed.
End framed.
