From stdpp Require Import base list strings gmap.
From Coq Require Import ZArith Lia.
From Verif Require Import AlertModel AlertSpec.

Lemma firing_snoc h a src sc :
  firing (h ++ [a]) src sc <->
  (about src sc a /\ i_status (a_info a) = StatusFiring) \/ (~ about src sc a /\ firing h src sc).
Proof.
  split.
  - intros (before & b & after & E & Hab & Hf & Hno).
    destruct after as [|x after _] using rev_ind.
    + apply app_inj_tail in E as [-> ->]. by left.
    + rewrite app_comm_cons, app_assoc in E. apply app_inj_tail in E as [-> ->].
      apply Forall_app in Hno as [Hno Hx]. inversion_clear Hx.
      right. split; [done|]. by exists before, b, after.
  - intros [[Hab Hf]|[Hna (before & b & after & -> & Hab & Hf & Hno)]].
    + by exists h, a, [].
    + exists before, b, (after ++ [a])%list. split_and!; auto.
      * by rewrite <-app_assoc.
      * apply Forall_app; auto.
Qed.

Lemma firing_nil src sc : ~ firing [] src sc.
Proof. intros (before & b & after & E & _). by destruct before. Qed.

Lemma run_app s l1 l2 :
  run s (l1 ++ l2) = ((run (run s l1).1 l2).1, ((run s l1).2 ++ (run (run s l1).1 l2).2)%list).
Proof.
  revert s. induction l1 as [|o l1 IH]; intros s; simpl; [by destruct (run s l2)|].
  destruct (step s o) as [s1 out]. rewrite IH. by destruct (run s1 l1).
Qed.

Lemma run_snoc s l o :
  run s (l ++ [o]) = ((step (run s l).1 o).1, ((run s l).2 ++ [(step (run s l).1 o).2])%list).
Proof. rewrite run_app. simpl. by destruct (step (run s l).1 o). Qed.

Lemma run_length s l : length (run s l).2 = length l.
Proof.
  revert s. induction l as [|o l IH]; intros s; simpl; [done|].
  destruct (step s o) as [s1 out]. specialize (IH s1). destruct (run s1 l). simpl in *. lia.
Qed.

Lemma step_heap s o : st_heap (step s o).1 = match o with Assign p a => <[p := a]> (st_heap s) | Push _ => st_heap s end.
Proof.
  destruct o as [p a|p]; simpl; [done|]. destruct (st_heap s !! p) as [a|]; [|done].
  by destruct (push _ _ _ _).
Qed.

Lemma pushed_app l1 l2 s :
  pushed (st_heap s) (l1 ++ l2) = (pushed (st_heap s) l1 ++ pushed (st_heap (run s l1).1) l2)%list.
Proof.
  revert s. induction l1 as [|o l1 IH]; intros s; [done|].
  assert (E : st_heap (run s (o :: l1)).1 = st_heap (run (step s o).1 l1).1).
  { simpl. destruct (step s o) as [s1 ?]. simpl. by destruct (run s1 l1). }
  rewrite E. pose proof (step_heap s o) as Hs. specialize (IH (step s o).1). rewrite Hs in IH.
  destruct o as [p a|p]; simpl in *; [done|].
  destruct (st_heap s !! p) as [a|] eqn:?; simpl; rewrite IH; done.
Qed.

Definition entry_ok (s : state) (done : list op) (src : source) (sc : string) (p : nat) : Prop :=
  Push p ∈ done /\ exists a, st_heap s !! p = Some a /\ i_status (a_info a) = StatusFiring /\ i_syscall (a_info a) = sc.

Record inv (s : state) (done : list op) (h : list alert) : Prop := Inv {
  inv_none src sc : st_queue s !! src = None -> ~ firing h src sc;
  inv_some src tbl : st_queue s !! src = Some tbl -> tbl <> ∅ /\ forall sc, is_Some (tbl !! sc) <-> firing h src sc;
  inv_entry src tbl sc p : st_queue s !! src = Some tbl -> tbl !! sc = Some p -> entry_ok s done src sc p
}.

Lemma inv_init : inv init [] [].
Proof.
  split.
  - intros src sc _. apply firing_nil.
  - intros src tbl H. simpl in H. by rewrite lookup_empty in H.
  - intros src tbl sc p H. simpl in H. by rewrite lookup_empty in H.
Qed.

Lemma entry_ok_app s done o src sc p : entry_ok s done src sc p -> entry_ok s (done ++ [o]) src sc p.
Proof. intros [H ?]. split; [|done]. apply elem_of_app. by left. Qed.

Lemma inv_assign s done h p a : inv s done h -> Push p ∉ done ->
  inv (State (<[p := a]> (st_heap s)) (st_queue s)) (done ++ [Assign p a]) h.
Proof.
  intros [H1 H2 H3] Hp. split; simpl; [done..|].
  intros src tbl sc q Hq Ht. apply entry_ok_app. destruct (H3 src tbl sc q Hq Ht) as [Hd (b & Hb & ?)].
  split; [done|]. exists b. simpl. rewrite lookup_insert_ne by congruence. done.
Qed.

Lemma about_not_src src sc a : a_source a <> src -> ~ about src sc a.
Proof. intros ? (? & _). done. Qed.
Lemma about_not_sc src sc a : i_syscall (a_info a) <> sc -> ~ about src sc a.
Proof. intros ? (_ & ? & _). done. Qed.

Lemma push_correct s done h p a :
  inv s done h -> st_heap s !! p = Some a ->
  inv (step s (Push p)).1 (done ++ [Push p]) (h ++ [a]) /\ due h a (step s (Push p)).2.
Proof.
  intros [H1 H2 H3] Hp. simpl. rewrite Hp.
  set (src := a_source a) in *. set (sc := i_syscall (a_info a)) in *.
  assert (Hpd : Push p ∈ (done ++ [Push p])%list) by (apply elem_of_app; right; by apply elem_of_list_singleton).
  unfold push. fold src sc.
  destruct (Z.eqb_spec (i_status (a_info a)) StatusFiring) as [Hf|Hnf].
  - assert (Hab : about src sc a) by (split_and!; auto).
    assert (Hfa : firing (h ++ [a]) src sc) by (apply firing_snoc; by left).
    destruct (st_queue s !! src) as [tbl|] eqn:Hq.
    + destruct (H2 _ _ Hq) as [Hne Hiff]. destruct (tbl !! sc) as [q|] eqn:Ht; simpl.
      * assert (Hold : firing h src sc) by (apply Hiff; eauto).
        split; [split|].
        -- intros src' sc' Hn Hfi. apply firing_snoc in Hfi as [[(<- & _) _]|[_ Hfi]]; [|by eapply H1].
           simpl in Hn. fold src in Hn. congruence.
        -- intros src' tbl' Hq'. simpl in Hq'. destruct (H2 _ _ Hq') as [? Hi]. split; [done|].
           intros sc'. rewrite Hi, firing_snoc. split.
           ++ intros Hx. destruct (decide (about src' sc' a)) as [Hy|]; [left|right]; auto.
           ++ intros [[(<- & <- & _) _]|[_ ?]]; done.
        -- intros src' tbl' sc' q' Hq' Ht'. simpl in Hq'. apply entry_ok_app. destruct (H3 _ _ _ _ Hq' Ht') as [? ?]. by split.
        -- by apply DueRepeated.
      * assert (Hnew : ~ firing h src sc) by (rewrite <-Hiff, Ht; by intros []).
        split; [split|].
        -- intros src' sc' Hn Hfi. simpl in Hn. destruct (decide (src' = src)) as [->|Hs]; [by rewrite lookup_insert in Hn|].
           rewrite lookup_insert_ne in Hn by done.
           apply firing_snoc in Hfi as [[(<- & _) _]|[_ Hfi]]; [done|by eapply H1].
        -- intros src' tbl' Hq'. simpl in Hq'. destruct (decide (src' = src)) as [->|Hs].
           ++ rewrite lookup_insert in Hq'. apply (inj Some) in Hq' as <-. split.
              { intros E. assert (Hx : <[sc:=p]> tbl !! sc = Some p) by apply lookup_insert. rewrite E in Hx. by rewrite lookup_empty in Hx. }
              intros sc'. rewrite firing_snoc. destruct (decide (sc' = sc)) as [->|Hsc].
              ** rewrite lookup_insert. split; [|eauto]. intros _. by left.
              ** rewrite lookup_insert_ne by done. rewrite Hiff. split.
                 { intros ?. right. split; [|done]. apply about_not_sc. done. }
                 { intros [[(_ & <- & _) _]|[_ ?]]; done. }
           ++ rewrite lookup_insert_ne in Hq' by done. destruct (H2 _ _ Hq') as [? Hi]. split; [done|].
              intros sc'. rewrite Hi, firing_snoc. split.
              ** intros ?. right. split; [|done]. by apply about_not_src.
              ** intros [[(<- & _) _]|[_ ?]]; done.
        -- intros src' tbl' sc' q' Hq' Ht'. simpl in Hq'. destruct (decide (src' = src)) as [->|Hs].
           ++ rewrite lookup_insert in Hq'. apply (inj Some) in Hq' as <-. destruct (decide (sc' = sc)) as [->|Hsc].
              ** rewrite lookup_insert in Ht'. apply (inj Some) in Ht' as <-. split; [done|]. exists a. done.
              ** rewrite lookup_insert_ne in Ht' by done. apply entry_ok_app. destruct (H3 _ _ _ _ Hq Ht') as [? ?]. by split.
           ++ rewrite lookup_insert_ne in Hq' by done. apply entry_ok_app. destruct (H3 _ _ _ _ Hq' Ht') as [? ?]. by split.
        -- apply DueAnother; [done| |done].
           destruct (map_choose tbl Hne) as (k & v & Hk). exists k. apply Hiff. eauto.
    + rewrite lookup_empty. simpl. split; [split|].
      -- intros src' sc' Hn Hfi. simpl in Hn. destruct (decide (src' = src)) as [->|Hs]; [by rewrite lookup_insert in Hn|].
         rewrite !lookup_insert_ne in Hn by done.
         apply firing_snoc in Hfi as [[(<- & _) _]|[_ Hfi]]; [done|by eapply H1].
      -- intros src' tbl' Hq'. simpl in Hq'. destruct (decide (src' = src)) as [->|Hs].
         ++ rewrite lookup_insert in Hq'. apply (inj Some) in Hq' as <-. split.
            { apply insert_non_empty. }
            intros sc'. rewrite firing_snoc. destruct (decide (sc' = sc)) as [->|Hsc].
            ** rewrite lookup_insert. split; [|eauto]. intros _. by left.
            ** rewrite lookup_insert_ne by done. rewrite lookup_empty. split; [by intros []|].
               intros [[(_ & <- & _) _]|[_ Hx]]; [done|]. destruct (H1 _ _ Hq Hx).
         ++ rewrite !lookup_insert_ne in Hq' by done. destruct (H2 _ _ Hq') as [? Hi]. split; [done|].
            intros sc'. rewrite Hi, firing_snoc. split.
            ** intros ?. right. split; [|done]. by apply about_not_src.
            ** intros [[(<- & _) _]|[_ ?]]; done.
      -- intros src' tbl' sc' q' Hq' Ht'. simpl in Hq'. destruct (decide (src' = src)) as [->|Hs].
         ++ rewrite lookup_insert in Hq'. apply (inj Some) in Hq' as <-. destruct (decide (sc' = sc)) as [->|Hsc].
            ** rewrite lookup_insert in Ht'. apply (inj Some) in Ht' as <-. split; [done|]. exists a. done.
            ** rewrite lookup_insert_ne in Ht' by done. by rewrite lookup_empty in Ht'.
         ++ rewrite !lookup_insert_ne in Hq' by done. apply entry_ok_app. destruct (H3 _ _ _ _ Hq' Ht') as [? ?]. by split.
      -- apply DueFirst; [done|]. intros [sc' Hx]. by eapply H1.
  - destruct (Z.eqb_spec (i_status (a_info a)) StatusResolved) as [Hr|Hnr].
    + assert (Hab : about src sc a) by (split_and!; auto).
      assert (Hfs : forall src' sc', firing (h ++ [a]) src' sc' <-> ~ (src' = src /\ sc' = sc) /\ firing h src' sc').
      { intros src' sc'. rewrite firing_snoc. split.
        - intros [[_ ?]|[Hna ?]]; [done|]. split; [|done]. intros [-> ->]. done.
        - intros [Hn ?]. right. split; [|done]. intros (<- & <- & _). by apply Hn. }
      assert (Hsame : ~ firing h src sc -> forall src' sc', firing (h ++ [a]) src' sc' <-> firing h src' sc').
      { intros Hn src' sc'. rewrite Hfs. split; [by intros [_ ?]|]. intros Hx. split; [|done]. by intros [-> ->]. }
      assert (Hkeep : ~ firing h src sc -> inv (State (st_heap s) (st_queue s)) (done ++ [Push p]) (h ++ [a])).
      { intros Hn. specialize (Hsame Hn). split; simpl.
        - intros src' sc' Hx. rewrite Hsame. by apply H1.
        - intros src' tbl' Hx. destruct (H2 _ _ Hx) as [? Hi]. split; [done|]. intros sc'. by rewrite Hsame.
        - intros src' tbl' sc' q' Hx Hy. apply entry_ok_app. destruct (H3 _ _ _ _ Hx Hy) as [? ?]. by split. }
      destruct (st_queue s !! src) as [tbl|] eqn:Hq; simpl.
      2:{ assert (Hn : ~ firing h src sc) by by apply H1. split; [by apply Hkeep|by apply DueNotFiring]. }
      destruct (H2 _ _ Hq) as [Hne Hiff]. destruct (tbl !! sc) as [q|] eqn:Ht; simpl.
      2:{ assert (Hn : ~ firing h src sc) by (rewrite <-Hiff, Ht; by intros []).
          split; [by apply Hkeep|by apply DueNotFiring]. }
      assert (Hold : firing h src sc) by (apply Hiff; eauto).
      destruct (H3 _ _ _ _ Hq Ht) as (Hd & b & Hb & Hbf & Hbs). rewrite Hb, Hbf, Hbs. simpl.
      destruct (decide (delete sc tbl = ∅)) as [He|He]; simpl.
      * split; [split; simpl|].
        -- intros src' sc' Hn. rewrite Hfs. intros [Hns Hx]. destruct (decide (src' = src)) as [->|Hs].
           ++ assert (sc' <> sc) by (intros ->; by apply Hns). apply Hiff in Hx as [v Hv].
              assert (Hw : delete sc tbl !! sc' = Some v) by (by rewrite lookup_delete_ne).
              rewrite He in Hw. by rewrite lookup_empty in Hw.
           ++ rewrite lookup_delete_ne in Hn by done. by eapply H1.
        -- intros src' tbl' Hq'. destruct (decide (src' = src)) as [->|Hs]; [by rewrite lookup_delete in Hq'|].
           rewrite lookup_delete_ne in Hq' by done. destruct (H2 _ _ Hq') as [? Hi]. split; [done|].
           intros sc'. rewrite Hi, Hfs. split; [|by intros [_ ?]]. intros Hx. split; [|done]. by intros [-> _].
        -- intros src' tbl' sc' q' Hq' Ht'. destruct (decide (src' = src)) as [->|Hs]; [by rewrite lookup_delete in Hq'|].
           rewrite lookup_delete_ne in Hq' by done. apply entry_ok_app. destruct (H3 _ _ _ _ Hq' Ht') as [? ?]. by split.
        -- apply DueLast; [done|done|]. intros sc' Hx. fold src in Hx. fold sc. destruct (decide (sc' = sc)) as [|Hs]; [done|].
           apply Hiff in Hx as [v Hv]. assert (Hw : delete sc tbl !! sc' = Some v) by (by rewrite lookup_delete_ne).
           rewrite He in Hw. by rewrite lookup_empty in Hw.
      * split; [split; simpl|].
        -- intros src' sc' Hn. rewrite Hfs. intros [Hns Hx]. destruct (decide (src' = src)) as [->|Hs].
           ++ by rewrite lookup_insert in Hn.
           ++ rewrite lookup_insert_ne in Hn by done. by eapply H1.
        -- intros src' tbl' Hq'. destruct (decide (src' = src)) as [->|Hs].
           ++ rewrite lookup_insert in Hq'. apply (inj Some) in Hq' as <-. split; [done|]. intros sc'. rewrite Hfs.
              destruct (decide (sc' = sc)) as [->|Hsc].
              ** rewrite lookup_delete. split; [by intros []|]. intros [[] _]. done.
              ** rewrite lookup_delete_ne by done. rewrite Hiff. split; [|by intros [_ ?]]. intros ?. split; [|done]. by intros [_ ->].
           ++ rewrite lookup_insert_ne in Hq' by done. destruct (H2 _ _ Hq') as [? Hi]. split; [done|].
              intros sc'. rewrite Hi, Hfs. split; [|by intros [_ ?]]. intros Hx. split; [|done]. by intros [-> _].
        -- intros src' tbl' sc' q' Hq' Ht'. apply entry_ok_app. destruct (decide (src' = src)) as [->|Hs].
           ++ rewrite lookup_insert in Hq'. apply (inj Some) in Hq' as <-. apply lookup_delete_Some in Ht' as [_ Ht'].
              destruct (H3 _ _ _ _ Hq Ht') as [? ?]. by split.
           ++ rewrite lookup_insert_ne in Hq' by done. destruct (H3 _ _ _ _ Hq' Ht') as [? ?]. by split.
        -- apply DueResolved; [done|done|]. destruct (map_choose _ He) as (k & v & Hk).
           apply lookup_delete_Some in Hk as [Hk1 Hk2]. exists k. split; [done|]. apply Hiff. eauto.
    + simpl. assert (Hna : forall src' sc', ~ about src' sc' a) by (intros src' sc' (_ & _ & [|]); done).
      assert (Hsame : forall src' sc', firing (h ++ [a]) src' sc' <-> firing h src' sc').
      { intros src' sc'. rewrite firing_snoc. split; [intros [[Hx _]|[_ ?]]; [by apply Hna in Hx|done]|]. intros ?. right. auto. }
      split; [split; simpl|].
      * intros src' sc' Hx. rewrite Hsame. by apply H1.
      * intros src' tbl' Hx. destruct (H2 _ _ Hx) as [? Hi]. split; [done|]. intros sc'. by rewrite Hsame.
      * intros src' tbl' sc' q' Hx Hy. apply entry_ok_app. destruct (H3 _ _ _ _ Hx Hy) as [? ?]. by split.
      * by apply DueOther.
Qed.

Lemma untouched_prefix l1 l2 : untouched (l1 ++ l2) -> untouched l1.
Proof. intros H before p a after ->. apply (H before p a (after ++ l2)%list). by rewrite <-app_assoc. Qed.

Lemma inv_run ops : untouched ops -> inv (run init ops).1 ops (pushed ∅ ops).
Proof.
  induction ops as [|o ops IH] using rev_ind; intros Hu; [apply inv_init|].
  specialize (IH (untouched_prefix _ _ Hu)). rewrite run_snoc. simpl.
  change (∅ : gmap nat alert) with (st_heap init) in *. rewrite pushed_app.
  destruct o as [p a|p].
  - simpl. rewrite app_nil_r. apply inv_assign; [done|]. by apply (Hu ops p a []).
  - destruct (st_heap (run init ops).1 !! p) as [a|] eqn:Hp.
    + simpl pushed. rewrite Hp. apply push_correct; done.
    + simpl. rewrite Hp. rewrite app_nil_r. destruct IH as [H1 H2 H3]. split; [done..|].
      intros src' tbl' sc' q' Hx Hy. apply entry_ok_app. destruct (H3 _ _ _ _ Hx Hy) as [? ?]. by split.
Qed.

(** The notices of one push are the ones due. *)
Lemma push_due ops before p after a :
  untouched ops -> ops = (before ++ Push p :: after)%list ->
  pushed ∅ (before ++ [Push p]) = (pushed ∅ before ++ [a])%list ->
  exists out, (run init ops).2 !! length before = Some out /\ due (pushed ∅ before) a out.
Proof.
  intros Hu -> Ha. pose proof (untouched_prefix _ _ Hu) as Hub. pose proof (inv_run _ Hub) as Hi.
  change (∅ : gmap nat alert) with (st_heap init) in *. rewrite pushed_app in Ha.
  apply app_inv_head in Ha. simpl in Ha. destruct (st_heap (run init before).1 !! p) as [b|] eqn:Hp; [|done].
  injection Ha as ->. exists (step (run init before).1 (Push p)).2. split.
  - rewrite cons_middle, app_assoc, run_app. simpl. rewrite run_snoc. simpl.
    rewrite <-app_assoc. rewrite lookup_app_r by (rewrite run_length; lia). rewrite run_length, Nat.sub_diag. done.
  - eapply push_correct in Hi as [_ ?]; done.
Qed.

(** Nothing is said at other times. *)
Lemma assign_silent ops before p a after :
  ops = (before ++ Assign p a :: after)%list -> (run init ops).2 !! length before = Some [].
Proof.
  intros ->. rewrite cons_middle, app_assoc, run_app. simpl. rewrite run_snoc. simpl.
  rewrite <-app_assoc. rewrite lookup_app_r by (rewrite run_length; lia). rewrite run_length, Nat.sub_diag. done.
Qed.

(** What the queue keeps. *)
Lemma queue_holds ops src : untouched ops ->
  match st_queue (run init ops).1 !! src with
  | None => ~ active (pushed ∅ ops) src
  | Some tbl => active (pushed ∅ ops) src /\ forall sc, is_Some (tbl !! sc) <-> firing (pushed ∅ ops) src sc
  end.
Proof.
  intros Hu. destruct (inv_run _ Hu) as [H1 H2 _]. destruct (st_queue _ !! src) as [tbl|] eqn:Hq.
  - destruct (H2 _ _ Hq) as [Hne Hiff]. split; [|done]. destruct (map_choose tbl Hne) as (k & v & Hk). exists k. apply Hiff. eauto.
  - intros [sc Hx]. by eapply H1.
Qed.

(** * Episodes *)

Lemma due_concerns h a out src : due h a out -> filter (concerns src) out = if decide (a_source a = src) then out else [].
Proof.
  intros Hd. destruct (decide (a_source a = src)) as [E|E]; inversion Hd; subst; rewrite ?filter_nil; try done;
  rewrite ?filter_cons; simpl; rewrite ?decide_True by done; rewrite ?decide_False by done; done.
Qed.

Lemma episodes_run ops src : untouched ops ->
  exists running, episodes (filter (concerns src) (concat (run init ops).2)) running /\ NoDup running /\
    forall sc, sc ∈ running <-> firing (pushed ∅ ops) src sc.
Proof.
  induction ops as [|o ops IH] using rev_ind; intros Hu.
  { exists []. split; [constructor|]. split; [constructor|]. intros sc. split; [by intros ?%elem_of_nil|].
    intros H. by apply firing_nil in H. }
  pose proof (untouched_prefix _ _ Hu) as Hub. destruct (IH Hub) as (running & He & Hnd & Hr).
  pose proof (inv_run _ Hub) as Hi.
  rewrite run_snoc. simpl. rewrite concat_app. simpl. rewrite app_nil_r, filter_app.
  change (∅ : gmap nat alert) with (st_heap init) in *. rewrite pushed_app.
  destruct o as [p a|p]; [simpl; rewrite !app_nil_r; eauto|].
  destruct (st_heap (run init ops).1 !! p) as [a|] eqn:Hp.
  2:{ simpl. rewrite Hp. simpl. rewrite !app_nil_r. eauto. }
  destruct (push_correct _ _ _ _ _ Hi Hp) as [_ Hd]. simpl pushed. rewrite Hp.
  rewrite (due_concerns _ _ _ src Hd).
  change (st_heap init) with (∅ : gmap nat alert) in *.
  set (h := pushed ∅ ops) in *.
  destruct (decide (a_source a = src)) as [<-|Hs].
  2:{ rewrite app_nil_r. exists running. split_and!; [done..|]. intros sc. rewrite Hr, firing_snoc. split.
      - intros ?. right. split; [|done]. by apply about_not_src.
      - intros [[(? & _) _]|[_ ?]]; done. }
  set (out := (step (run init ops).1 (Push p)).2) in *. clearbody out.
  assert (Hab : forall sc, about (a_source a) sc a <-> sc = i_syscall (a_info a) /\
    (i_status (a_info a) = StatusFiring \/ i_status (a_info a) = StatusResolved)) by (intros sc; unfold about; naive_solver).
  destruct Hd as [Hf Hna|Hf Hac Hnf|Hf Hfi|Hf Hfi (sc' & Hne & Hf')|Hf Hfi Hone|Hf Hnf|Hn1 Hn2].
  - assert (running = []) as ->.
    { destruct running as [|x r]; [done|]. exfalso. apply Hna. exists x. apply Hr. left. }
    eexists. split; [by apply EpBegin|]. split; [apply NoDup_singleton|]. intros sc.
    rewrite elem_of_list_singleton, firing_snoc, Hab. split; [naive_solver|].
    intros [[[? _] _]|[_ Hx]]; [done|]. exfalso. apply Hna. by exists sc.
  - exists (i_syscall (a_info a) :: running). split; [apply EpAdd|split].
    + done.
    + destruct Hac as [x Hx]. apply Hr in Hx. intros ->. by apply elem_of_nil in Hx.
    + by rewrite Hr.
    + constructor; [by rewrite Hr|done].
    + intros sc. rewrite elem_of_cons, Hr, firing_snoc, Hab. split.
      * intros [->|Hx]; [left; auto|]. destruct (decide (sc = i_syscall (a_info a))) as [->|]; [done|]. right. naive_solver.
      * naive_solver.
  - rewrite app_nil_r. exists running. split_and!; [done..|]. intros sc. rewrite Hr, firing_snoc, Hab.
    destruct (decide (sc = i_syscall (a_info a))) as [->|]; naive_solver.
  - pose proof Hfi as Hfi'. apply Hr in Hfi'. apply elem_of_list_split in Hfi' as (r1 & r2 & ->).
    exists (r1 ++ r2)%list. split; [apply EpRemove; [done|]|split].
    + apply Hr in Hf'. rewrite elem_of_app, elem_of_cons in Hf'. intros E.
      destruct r1; [|done]. destruct r2; [|done]. destruct Hf' as [H|[H|H]]; [by apply elem_of_nil in H|done|by apply elem_of_nil in H].
    + apply NoDup_app in Hnd as (N1 & N2 & N3). apply NoDup_cons in N3 as [N3 N4]. apply NoDup_app. split_and!; auto.
      intros x Hx Hy. apply (N2 x Hx). by right.
    + intros sc. assert (Hin : sc ∈ (r1 ++ r2)%list <-> sc <> i_syscall (a_info a) /\ sc ∈ (r1 ++ i_syscall (a_info a) :: r2)%list).
      { apply NoDup_app in Hnd as (N1 & N2 & N3). apply NoDup_cons in N3 as [N3 N4].
        rewrite !elem_of_app, elem_of_cons. split.
        - intros [Hx|Hx].
          + split; [|auto]. intros ->. apply (N2 _ Hx). by left.
          + split; [|auto]. by intros ->.
        - intros [? [?|[?|?]]]; auto; done. }
      rewrite Hin, Hr, firing_snoc, Hab. rewrite Hf. split.
      * intros [Hx Hy]. right. split; [|done]. by intros [? _].
      * intros [[_ Hx]|[Hx Hy]]; [done|]. split; [|done]. intros ->. apply Hx. auto.
  - assert (running = [i_syscall (a_info a)]) as ->.
    { pose proof Hfi as Hfi'. apply Hr in Hfi'. apply elem_of_list_split in Hfi' as (r1 & r2 & ->).
      apply NoDup_app in Hnd as (N1 & N2 & N3). apply NoDup_cons in N3 as [N3 N4].
      destruct r1 as [|x r1].
      - destruct r2 as [|x r2]; [done|]. exfalso. apply N3. assert (x = i_syscall (a_info a)) as <-.
        { apply Hone, Hr. simpl. right. left. }
        left.
      - exfalso. apply (N2 x); [left|]. assert (x = i_syscall (a_info a)) as -> by (apply Hone, Hr; left). left. }
    exists []. split; [by apply EpEnd|]. split; [constructor|]. intros sc.
    rewrite firing_snoc, Hab. split; [by intros ?%elem_of_nil|]. intros [[_ Hx]|[Hx Hy]].
    + rewrite Hf in Hx. done.
    + exfalso. apply Hx. split; [by apply Hone|by right].
  - rewrite app_nil_r. exists running. split_and!; [done..|]. intros sc. rewrite Hr, firing_snoc, Hab.
    destruct (decide (sc = i_syscall (a_info a))) as [->|]; [|naive_solver]. split; [done|].
    intros [[_ Hx]|[Hx Hy]]; [by rewrite Hf in Hx|done].
  - rewrite app_nil_r. exists running. split_and!; [done..|]. intros sc. rewrite Hr, firing_snoc, Hab. naive_solver.
Qed.

(** * Messages *)

Lemma push_new_assign p al q b : Assign q b ∈ push_new p al -> p <= q.
Proof.
  revert p. induction al as [|a al IH]; intros p; simpl; [by intros ?%elem_of_nil|].
  rewrite !elem_of_cons. intros [E|[E|H]]; [by injection E as -> ->|done|]. specialize (IH _ H). lia.
Qed.
Lemma push_new_push p al q : Push q ∈ push_new p al -> p <= q.
Proof.
  revert p. induction al as [|a al IH]; intros p; simpl; [by intros ?%elem_of_nil|].
  rewrite !elem_of_cons. intros [E|[E|H]]; [done|by injection E as ->|]. specialize (IH _ H). lia.
Qed.

Lemma push_new_untouched p al : untouched (push_new p al).
Proof.
  revert p. induction al as [|a al IH]; intros p before q b after E; simpl in E; [by destruct before|].
  destruct before as [|x before]; [apply not_elem_of_nil|].
  injection E as <- E. destruct before as [|x before]; [done|].
  injection E as <- E. intros H. rewrite !elem_of_cons in H. destruct H as [H|[H|H]]; [done| |by eapply IH].
  injection H as ->. assert (S p <= p); [|lia]. apply (push_new_assign _ al _ b). rewrite E. apply elem_of_app. right. left.
Qed.

Lemma push_new_pushed p al h : pushed h (push_new p al) = al.
Proof.
  revert p h. induction al as [|a al IH]; intros p h; simpl; [done|].
  rewrite lookup_insert. by rewrite IH.
Qed.

Lemma push_new_app p l1 l2 : push_new p (l1 ++ l2) = (push_new p l1 ++ push_new (p + length l1) l2)%list.
Proof.
  revert p. induction l1 as [|a l1 IH]; intros p; simpl; [by rewrite Nat.add_0_r|].
  rewrite IH. by rewrite Nat.add_succ_r.
Qed.
Lemma push_new_length p l : length (push_new p l) = 2 * length l.
Proof. revert p. induction l as [|a l IH]; intros p; simpl; [done|]. rewrite IH. lia. Qed.

Lemma messages_due messages before a after :
  concat (map parse_alerts messages) = (before ++ a :: after)%list ->
  exists out, (run init (receive messages)).2 !! S (2 * length before) = Some out /\ due before a out.
Proof.
  intros E. unfold receive. rewrite E.
  set (p := length before).
  assert (Hsplit : push_new 0 (before ++ a :: after) =
    ((push_new 0 before ++ [Assign p a]) ++ Push p :: push_new (S p) after)%list).
  { rewrite push_new_app. simpl. by rewrite <-app_assoc. }
  assert (Hb : forall l, pushed ∅ (push_new 0 before ++ Assign p a :: l) = (before ++ pushed (<[p := a]> (st_heap (run init (push_new 0 before)).1)) l)%list).
  { intros l. change (∅ : gmap nat alert) with (st_heap init). rewrite pushed_app. simpl st_heap at 1. by rewrite push_new_pushed. }
  destruct (push_due (push_new 0 (before ++ a :: after)) (push_new 0 before ++ [Assign p a]) p (push_new (S p) after) a) as (out & Ho & Hd).
  - apply push_new_untouched.
  - exact Hsplit.
  - rewrite <-app_assoc. change ([Assign p a] ++ [Push p])%list with [Assign p a; Push p].
    rewrite !Hb. simpl. rewrite lookup_insert. by rewrite app_nil_r.
  - exists out. rewrite Hb in Hd. simpl in Hd. rewrite app_nil_r in Hd. split; [|done].
    rewrite app_length, push_new_length in Ho. simpl in Ho. rewrite <-Ho. f_equal. lia.
Qed.

(** * What messages mean *)
Lemma label_says l k : says l k (label l k).
Proof. unfold says, label. destruct (l !! k); [by left|by right]. Qed.
Lemma parse_means r : means r (parse_single_alert r).
Proof.
  unfold means, parse_single_alert. cbn [a_info a_source i_status i_syscall i_name i_hash i_url src_namespace src_pod src_container].
  split_and!; try apply label_says; try done.
  - unfold parse_status. destruct (String.eqb (ra_status r) "firing") eqn:E1.
    + apply String.eqb_eq in E1. done.
    + apply String.eqb_neq in E1. destruct (String.eqb (ra_status r) "resolved"); split; intros H; done.
  - unfold parse_status. destruct (String.eqb (ra_status r) "firing") eqn:E1.
    + apply String.eqb_eq in E1. rewrite E1. split; intros H; done.
    + destruct (String.eqb (ra_status r) "resolved") eqn:E2.
      * apply String.eqb_eq in E2. done.
      * apply String.eqb_neq in E2. split; intros H; done.
Qed.
Lemma raw_messages_due messages before r after :
  concat messages = (before ++ r :: after)%list ->
  exists out bs a, Forall2 means before bs /\ means r a /\
    (run init (receive messages)).2 !! S (2 * length before) = Some out /\ due bs a out.
Proof.
  intros H. destruct (messages_due messages (map parse_single_alert before) (parse_single_alert r) (map parse_single_alert after)) as (out & H1 & H2).
  - transitivity (concat (map (map parse_single_alert) messages)); [done|]. rewrite <- (concat_map parse_single_alert messages), H. by rewrite map_app.
  - exists out, (map parse_single_alert before), (parse_single_alert r). split_and!; [|apply parse_means| |done].
    + clear. induction before; cbn [map]; constructor; [apply parse_means|done].
    + by rewrite map_length in H1.
Qed.
