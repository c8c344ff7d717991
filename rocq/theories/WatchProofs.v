(** Proofs about WatchModel.v. *)
From Coq Require Import ZArith String Lia.
From stdpp Require Import gmap strings list.
From Verif Require Import PubSubModel PubSubSpec PubSubProofs PubSubTop HashModel WatchModel WatchSpec.
Open Scope Z_scope.

(** * Histories of the subscription tree *)
Fixpoint subs (os : list op) : nat :=
  match os with [] => O | Subscribe _ _ _ _ :: os => S (subs os) | _ :: os => subs os end.

Lemma live_snoc os : forall n l o,
  live_from n l (os ++ [o]) =
  match o with
  | Subscribe p sh dn _ => (live_from n l os ++ [Sub (n + subs os) p sh dn])%list
  | Unsubscribe h => filter (fun s => s_handle s <> h) (live_from n l os)
  end.
Proof.
  induction os as [|o' os IH]; intros n l o.
  - destruct o; cbn [app live_from subs]; [by rewrite Nat.add_0_r|done].
  - destruct o' as [p sh dn d|h]; cbn [app live_from subs]; rewrite IH.
    + destruct o; [|done]. by replace (S n + subs os)%nat with (n + S (subs os))%nat by lia.
    + done.
Qed.
Lemma once_snoc os : forall n l o,
  once_from n l os ->
  match o with Subscribe _ _ _ _ => True | Unsubscribe h => h ∈ map s_handle (live_from n l os) end ->
  once_from n l (os ++ [o]).
Proof.
  induction os as [|o' os IH]; intros n l o H1 H2.
  - destruct o; cbn in *; [done|by split].
  - destruct o' as [p sh dn d|h]; cbn [app live_from once_from] in *.
    + by apply IH.
    + destruct H1 as [Ha Hb]. split; [done|]. by apply IH.
Qed.
Lemma run_snoc srt os : forall s s1 o s2,
  run srt s os = Ok s1 -> step srt s1 o = Ok s2 -> run srt s (os ++ [o]) = Ok s2.
Proof.
  induction os as [|o' os IH]; intros s s1 o s2 H1 H2.
  - cbn [run app] in *. injection H1 as ->. by rewrite H2.
  - cbn [run app] in *. destruct (step srt s o'); [|done|done]. by apply (IH _ _ _ _ H1).
Qed.
Lemma subs_app a b : subs (a ++ b) = (subs a + subs b)%nat.
Proof. induction a as [|[] a IH]; cbn [app subs]; lia. Qed.

(** * Logs *)
Lemma topic_app w p a b : topic w p (a ++ b) = topic w (topic w p a) b.
Proof. revert p. induction a as [|[t o] a IH]; intros p; [done|]. cbn [app topic]. apply IH. Qed.
Lemma stream_app w p a b : stream_from w p (a ++ b) = (stream_from w p a ++ stream_from w (topic w p a) b)%list.
Proof.
  revert p. induction a as [|[t o] a IH]; intros p; [done|]. cbn [app topic stream_from].
  rewrite IH. by rewrite (assoc_L (++)%list).
Qed.
Lemma gots_app w a b : gots w (a ++ b) = (gots w a ++ gots w b)%list.
Proof. unfold gots. by rewrite map_app, concat_app. Qed.
Lemma calls_app w a b : calls w (a ++ b) = (calls w a ++ calls w b)%list.
Proof. unfold calls. by rewrite map_app, concat_app. Qed.

Lemma stream_snoc w l t o : stream w (l ++ [(t, o)]) = (stream w l ++ in_topic (topic w None l) o)%list.
Proof. unfold stream. rewrite stream_app. cbn [stream_from]. by rewrite app_nil_r. Qed.
Lemma topic_snoc w l t o : topic w None (l ++ [(t, o)]) = topic_step w (topic w None l) o.
Proof. by rewrite topic_app. Qed.
Lemma gots_snoc w l t o : gots w (l ++ [(t, o)]) = (gots w l ++ got_of w o)%list.
Proof. rewrite gots_app. unfold gots at 2. cbn. by rewrite app_nil_r. Qed.
Lemma calls_snoc w l t o : calls w (l ++ [(t, o)]) = (calls w l ++ called_of w o)%list.
Proof. rewrite calls_app. unfold calls at 2. cbn. by rewrite app_nil_r. Qed.

(** Entries that none of this looks at. *)
Definition neutral (o : obs) : Prop := match o with Pinged _ | Ponged _ => True | _ => False end.
Lemma neutral_log w l t os : Forall neutral os ->
  stream w (l ++ map (pair t) os) = stream w l /\ topic w None (l ++ map (pair t) os) = topic w None l /\
  gots w (l ++ map (pair t) os) = gots w l /\ calls w (l ++ map (pair t) os) = calls w l.
Proof.
  intros H. revert l. induction H as [|o os Ho _ IH]; intros l.
  - cbn [map]. by rewrite app_nil_r.
  - cbn [map]. replace (l ++ (t, o) :: map (pair t) os)%list with ((l ++ [(t, o)]) ++ map (pair t) os)%list
      by (by rewrite <- (assoc_L (++)%list)).
    destruct (IH (l ++ [(t, o)])%list) as (-> & -> & -> & ->).
    rewrite stream_snoc, topic_snoc, gots_snoc, calls_snoc.
    destruct o; try done; cbn; by rewrite !app_nil_r.
Qed.
Lemma ticks_neutral now rf l : forall i, Forall neutral (ticks now rf i l).2.
Proof.
  induction l as [|w l IH]; intros i; [constructor|]. cbn [ticks].
  destruct (tick now _ w) as [w' b]. specialize (IH (S i)). destruct (ticks now rf (S i) l) as [l' o].
  cbn [snd] in *. destruct b; [by constructor|done].
Qed.

(** * The invariant *)
Definition subscribed (x : watcher) : bool :=
  match w_writer x, w_ask x with Left, AskJob _ => false | _, _ => true end.
Definition alive (x : watcher) : bool := w_open x && negb (w_broken x).
Definition waiting (s : sys) : list nat := match stall s with Some _ => tail (todo s) | None => todo s end.

Record tree (srt : list env -> list env) (s : sys) (os : list op) : Prop := {
  t_once : unsubscribes_once os;
  t_run : run srt new_pubsub os = Ok (ps s);
  t_subs : subs os = length (ws s);
  t_live : forall sb, sb ∈ live os <->
    exists w x, ws s !! w = Some x /\ subscribed x = true /\ sb = Sub w (w_path x) "" "" }.

Record core (srt : list env -> list env) (s : sys) : Prop := {
  c_tree : exists os, tree srt s os;
  c_nodup : NoDup (todo s);
  c_todo : forall w, w ∈ todo s -> exists x, ws s !! w = Some x /\ subscribed x = true;
  c_topic : forall w, topic w None (log s) =
    match ws s !! w with Some x => if subscribed x then Some (w_path x) else None | None => None end;
  c_calls : forall w, stream w (log s) = (calls w (log s) ++ (if decide (w ∈ waiting s) then [event s] else []))%list;
  c_gots : forall w x, ws s !! w = Some x ->
    if alive x then stream w (log s) = (gots w (log s) ++ (if decide (w ∈ todo s) then [event s] else []))%list
    else gots w (log s) `prefix_of` stream w (log s);
  c_new : forall w, ws s !! w = None -> stream w (log s) = [] /\ gots w (log s) = [] }.

Definition stall_ok (s : sys) : Prop :=
  forall t, stall s = Some t -> exists w r x, todo s = w :: r /\ ws s !! w = Some x /\ alive x = true.

Lemma core_start srt : core srt start.
Proof.
  split.
  - exists []. split; [done|done|done|]. intros sb. split; [intros H; by apply elem_of_nil in H|].
    intros (w & x & H & _). done.
  - constructor.
  - intros w H. by apply elem_of_nil in H.
  - intros w. done.
  - intros w. change (waiting start) with (@nil nat). by rewrite decide_False by (intros H; by apply elem_of_nil in H).
  - intros w x H. done.
  - done.
Qed.

(** Changing watchers without subscribing, unsubscribing or reviving anybody. *)
Definition sim (x x' : watcher) : Prop :=
  w_ask x' = w_ask x /\ subscribed x' = subscribed x /\ (alive x' = true -> alive x = true).
Lemma core_sim srt s c l o : core srt s ->
  (forall w, option_Forall2 sim (ws s !! w) (l !! w)) -> Forall neutral o ->
  core srt (Sys c l (ps s) (todo s) (event s) (stall s) (crashed s) (note s o)).
Proof.
  intros [(os & [Ht1 Ht2 Ht3 Ht4]) Hnd Htd Htp Hc Hg Hn] Hsim Ho.
  assert (length l = length (ws s)) as Hlen.
  { destruct (Nat.lt_trichotomy (length l) (length (ws s))) as [Hlt|[He|Hlt]]; [|done|].
    - destruct (lookup_lt_is_Some_2 (ws s) (length l) Hlt) as [x Hx].
      specialize (Hsim (length l)). rewrite Hx, lookup_ge_None_2 in Hsim by lia. inversion Hsim.
    - destruct (lookup_lt_is_Some_2 l (length (ws s)) Hlt) as [x Hx].
      specialize (Hsim (length (ws s))). rewrite Hx, lookup_ge_None_2 in Hsim by lia. inversion Hsim. }
  assert (forall w x', l !! w = Some x' -> exists x, ws s !! w = Some x /\ sim x x') as Hback.
  { intros w x' Hx'. specialize (Hsim w). rewrite Hx' in Hsim. inversion Hsim; subst. eauto. }
  assert (forall w x, ws s !! w = Some x -> exists x', l !! w = Some x' /\ sim x x') as Hfor.
  { intros w x Hx. specialize (Hsim w). rewrite Hx in Hsim. inversion Hsim; subst. eauto. }
  assert (forall x x', sim x x' -> w_path x' = w_path x) as Hpath.
  { intros x x' (Ha & _). unfold w_path. by rewrite Ha. }
  unfold note. destruct s as [ck wss p td ev st cr lg]. cbn [clock ws ps todo event stall crashed log] in *.
  split; cbn [clock ws ps todo event stall crashed log].
  - exists os. split; cbn [ps ws]; [done|done|by rewrite Hlen|].
    intros sb. rewrite Ht4. split.
    + intros (w & x & Hw & Hs & ->). destruct (Hfor w x Hw) as (x' & Hx' & Hsm).
      exists w, x'. split; [done|]. split; [by rewrite (proj1 (proj2 Hsm))|]. by rewrite (Hpath _ _ Hsm).
    + intros (w & x' & Hw & Hs & ->). destruct (Hback w x' Hw) as (x & Hx & Hsm).
      exists w, x. split; [done|]. split; [by rewrite <- (proj1 (proj2 Hsm))|]. by rewrite (Hpath _ _ Hsm).
  - done.
  - intros w Hw. destruct (Htd w Hw) as (x & Hx & Hs). destruct (Hfor w x Hx) as (x' & Hx' & Hsm).
    exists x'. split; [done|]. by rewrite (proj1 (proj2 Hsm)).
  - intros w. destruct (neutral_log w lg ck o Ho) as (_ & -> & _). rewrite Htp.
    specialize (Hsim w). destruct Hsim as [x x' Hsm|]; [|done].
    rewrite (proj1 (proj2 Hsm)). by rewrite (Hpath _ _ Hsm).
  - intros w. destruct (neutral_log w lg ck o Ho) as (-> & _ & _ & ->). exact (Hc w).
  - intros w x' Hx'. destruct (neutral_log w lg ck o Ho) as (-> & _ & -> & _).
    destruct (Hback w x' Hx') as (x & Hx & Hsm). specialize (Hg w x Hx).
    destruct (alive x') eqn:E'.
    + rewrite (proj2 (proj2 Hsm) E') in Hg. exact Hg.
    + destruct (alive x); [|exact Hg]. rewrite Hg. by eexists.
  - intros w Hw. destruct (neutral_log w lg ck o Ho) as (-> & _ & -> & _). apply Hn.
    specialize (Hsim w). rewrite Hw in Hsim. by inversion Hsim.
Qed.

Lemma sim_refl x : sim x x.
Proof. by split; [|split]. Qed.
Lemma sim_shut x : sim x (shut x).
Proof. split; [done|]. split; [done|]. done. Qed.
Lemma sim_break x : sim x (break x).
Proof. split; [done|]. split; [done|]. unfold alive. cbn. by rewrite andb_false_r. Qed.
Lemma sim_expire now x : sim x (expire now x).
Proof. unfold expire. destruct (_ && _); [apply sim_shut|apply sim_refl]. Qed.
Lemma sim_tick now r x : sim x (tick now r x).1.
Proof.
  unfold tick. destruct (w_writer x) eqn:Ew; [|apply sim_refl|apply sim_refl].
  destruct (w_due x <=? now); [|apply sim_refl].
  destruct (w_open x && negb (w_broken x) && negb r) eqn:E; cbn [fst].
  - split; [done|]. split; [unfold subscribed; cbn; by rewrite Ew|].
    intros _. apply andb_prop in E as [E _]. exact E.
  - split; [done|]. split; [|done]. unfold subscribed. cbn. rewrite Ew. by destruct (w_ask x).
Qed.
Lemma ticks_lookup now rf l : forall i w,
  (ticks now rf i l).1 !! w = (fun x => (tick now (bool_decide ((i + w)%nat ∈ rf)) x).1) <$> l !! w.
Proof.
  induction l as [|x l IH]; intros i w; [done|]. cbn [ticks].
  destruct (tick now (bool_decide (i ∈ rf)) x) as [x' b] eqn:Et. specialize (IH (S i)).
  destruct (ticks now rf (S i) l) as [l' o]. cbn [fst] in *. destruct w as [|w].
  - cbn [lookup list_lookup]. rewrite Nat.add_0_r. cbn. by rewrite Et.
  - change ((x' :: l') !! S w) with (l' !! w). change ((x :: l) !! S w) with (l !! w).
    rewrite IH. by replace (S i + w)%nat with (i + S w)%nat by lia.
Qed.

Lemma sim_alter f (w : nat) (l : list watcher) : (forall x, sim x (f x)) -> forall v : nat, option_Forall2 sim (l !! v) (alter f w l !! v).
Proof.
  intros Hf v. destruct (decide (v = w)) as [->|Hne].
  - rewrite list_lookup_alter. destruct (l !! w); constructor. apply Hf.
  - rewrite list_lookup_alter_ne by done. destruct (l !! v); constructor. apply sim_refl.
Qed.

(** Dropping the head of the callbacks to run, its write having failed. *)
Lemma core_drop srt s w rest t : core srt s -> stall s = Some t -> todo s = w :: rest ->
  core srt (Sys (clock s) (alter break w (ws s)) (ps s) rest (event s) None (crashed s) (log s)).
Proof.
  intros Hc Hst Htd.
  pose proof (core_sim srt s (clock s) (alter break w (ws s)) [] Hc (sim_alter break w (ws s) sim_break) (Forall_nil_2 _)) as H.
  unfold note in H. cbn [map] in H. rewrite app_nil_r in H.
  destruct H as [Ht Hnd Htd' Htp Hcl Hg Hn]. cbn [clock ws ps todo event stall crashed log] in *.
  rewrite Htd in Hnd. apply NoDup_cons in Hnd as [Hw Hnd].
  split; cbn [clock ws ps todo event stall crashed log]; try done.
  - destruct Ht as (os & [H1 H2 H3 H4]). exists os. by split.
  - intros v Hv. apply Htd'. rewrite Htd. by right.
  - intros v. specialize (Hcl v). unfold waiting in *. cbn [stall todo] in *. rewrite Hst, Htd in Hcl. exact Hcl.
  - intros v x Hx. specialize (Hg v x Hx). destruct (alive x) eqn:Ea; [|exact Hg].
    rewrite Hg. f_equal. destruct (decide (v = w)) as [->|Hne].
    + exfalso. rewrite list_lookup_alter in Hx. destruct (ws s !! w) as [y|]; [|done].
      cbn in Hx. injection Hx as <-. unfold alive in Ea. cbn in Ea. by rewrite andb_false_r in Ea.
    + rewrite Htd. destruct (decide (v ∈ w :: rest)) as [H|H], (decide (v ∈ rest)) as [H'|H']; try done.
      * apply elem_of_cons in H as [H|H]; done.
      * exfalso. apply H. by right.
Qed.

Lemma core_settle srt s : core srt s -> core srt (settle s).
Proof.
  intros Hc. unfold settle. destruct (stall s) as [t|] eqn:Es; [|done]. destruct (todo s) as [|w rest] eqn:Et; [done|].
  destruct (ws s !! w) as [x|] eqn:Ew; [|done]. destruct (w_open x); [done|]. by apply (core_drop srt s w rest t).
Qed.
Lemma core_write_timeout srt s : core srt s -> core srt (write_timeout s).
Proof.
  intros Hc. unfold write_timeout. destruct (stall s) as [t|] eqn:Es; [|done]. destruct (todo s) as [|w rest] eqn:Et; [done|].
  destruct (t <=? clock s); [|done]. by apply (core_drop srt s w rest t).
Qed.
Lemma core_clock srt s c : core srt s ->
  core srt (Sys c (ws s) (ps s) (todo s) (event s) (stall s) (crashed s) (log s)).
Proof.
  intros Hc. pose proof (core_sim srt s c (ws s) [] Hc) as H. unfold note in H. cbn [map] in H. rewrite app_nil_r in H.
  apply H; [|constructor]. intros w. destruct (ws s !! w); constructor. apply sim_refl.
Qed.
Lemma core_crash srt s b : core srt s ->
  core srt (Sys (clock s) (ws s) (ps s) (todo s) (event s) (stall s) b (log s)).
Proof. intros [Ht Hnd Htd Htp Hc Hg Hn]. split; try done. destruct Ht as (os & [H1 H2 H3 H4]). exists os. by split. Qed.

Lemma core_millisecond srt rf s : core srt s -> core srt (millisecond rf s).
Proof.
  intros Hc. unfold millisecond.
  apply (core_clock _ _ (clock s + 1)) in Hc. apply core_write_timeout in Hc.
  set (s1 := write_timeout _) in *. clearbody s1. clear s.
  assert (core srt (settle (Sys (clock s1) (map (expire (clock s1)) (ws s1)) (ps s1) (todo s1) (event s1) (stall s1) (crashed s1) (log s1)))) as Hc2.
  { apply core_settle. pose proof (core_sim srt s1 (clock s1) (map (expire (clock s1)) (ws s1)) [] Hc) as H.
    unfold note in H. cbn [map] in H. rewrite app_nil_r in H. apply H; [|constructor].
    intros w. change (map (expire (clock s1)) (ws s1)) with (expire (clock s1) <$> ws s1).
    rewrite list_lookup_fmap. destruct (ws s1 !! w); constructor. apply sim_expire. }
  cbv zeta. set (s2 := settle _) in *. clearbody s2. clear s1 Hc.
  destruct (clash s2); [by apply core_crash|].
  destruct (ticks (clock s2) rf 0 (ws s2)) as [l o] eqn:Et.
  apply core_sim; [done| |].
  - intros w. pose proof (ticks_lookup (clock s2) rf (ws s2) 0 w) as H. rewrite Et in H. cbn [fst] in H. rewrite H.
    destruct (ws s2 !! w); constructor. apply sim_tick.
  - pose proof (ticks_neutral (clock s2) rf (ws s2) 0) as H. by rewrite Et in H.
Qed.

Lemma idle_todo s : idle s = true -> todo s = [].
Proof. unfold idle. by destruct (todo s). Qed.
Lemma nil_dec {A} (w : nat) (a b : A) : (if decide (w ∈ @nil nat) then a else b) = b.
Proof. by rewrite decide_False by (intros H; by apply elem_of_nil in H). Qed.

Lemma waiting_None s : stall s = None -> waiting s = todo s.
Proof. intros H. unfold waiting. by rewrite H. Qed.
Lemma waiting_Some s t : stall s = Some t -> waiting s = tail (todo s).
Proof. intros H. unfold waiting. by rewrite H. Qed.

Lemma core_join srt s a draw p : sort_contract srt -> core srt s -> stall_ok s -> idle s = true ->
  step srt (ps s) (Subscribe (ask_path a) "" "" draw) = Ok p ->
  core srt (Sys (clock s) (ws s ++ [Watcher a true false (clock s + ping_period) (clock s + pong_wait) Pinging])
                p [] (event s) None (crashed s) (note s [Joined (length (ws s)) a])).
Proof.
  intros Hsrt [(os & [Ht1 Ht2 Ht3 Ht4]) Hnd Htd Htp Hc Hg Hn] Hst Hi Hstep. apply idle_todo in Hi.
  assert (stall s = None) as Hs.
  { destruct (stall s) as [t|] eqn:E; [|done]. destruct (Hst t E) as (w & r & x & Hx & _). by rewrite Hi in Hx. }
  set (x0 := Watcher a _ _ _ _ _). unfold note. cbn [map].
  assert (forall w x, (ws s ++ [x0]) !! w = Some x ->
            ws s !! w = Some x \/ w = length (ws s) /\ x = x0) as Hl.
  { intros w x Hx. apply lookup_app_Some in Hx as [Hx|[Hge Hx]]; [by left|]. right.
    apply list_lookup_singleton_Some in Hx as [Hw Hx]. split; [lia|done]. }
  split; cbn [clock ws ps todo event stall crashed log].
  - exists (os ++ [Subscribe (ask_path a) "" "" draw])%list. split; cbn [ps ws].
    + apply once_snoc; [done|done].
    + by apply (run_snoc _ _ _ _ _ _ Ht2).
    + rewrite subs_app, app_length. cbn. lia.
    + intros sb. unfold live. rewrite live_snoc. fold (live os). rewrite Nat.add_0_l.
      rewrite elem_of_app, elem_of_list_singleton, Ht4. split.
      * intros [(w & x & Hw & Hx)| ->].
        -- exists w, x. split; [by apply lookup_app_l_Some|done].
        -- exists (length (ws s)), x0. rewrite Ht3. split; [|done]. by apply list_lookup_middle.
      * intros (w & x & Hw & Hx & ->). destruct (Hl w x Hw) as [Hw'| [-> ->] ].
        -- left. eauto 6.
        -- right. by rewrite Ht3.
  - constructor.
  - intros w Hw. by apply elem_of_nil in Hw.
  - intros w. rewrite topic_snoc. cbn [topic_step]. destruct (decide (w = length (ws s))) as [->|Hne].
    + rewrite list_lookup_middle by done. by destruct a.
    + rewrite Htp. destruct (decide (w < length (ws s))%nat) as [Hlt|Hge].
      * by rewrite lookup_app_l by lia.
      * rewrite (lookup_ge_None_2 (ws s)) by lia. rewrite lookup_ge_None_2; [done|]. rewrite app_length. cbn. lia.
  - intros w. rewrite stream_snoc, calls_snoc. cbn [in_topic called_of]. rewrite !app_nil_r, Hc, (waiting_None s Hs), Hi.
    unfold waiting. cbn [stall todo]. rewrite !nil_dec. by rewrite !app_nil_r.
  - intros w x Hx. rewrite stream_snoc, gots_snoc. cbn [in_topic got_of]. rewrite !app_nil_r.
    destruct (Hl w x Hx) as [Hw| [-> ->] ].
    + specialize (Hg w x Hw). by rewrite Hi, nil_dec, app_nil_r in Hg.
    + cbn. destruct (Hn (length (ws s))) as [-> ->]; [|done]. by apply lookup_ge_None_2.
  - intros w Hw. rewrite stream_snoc, gots_snoc. cbn [in_topic got_of]. rewrite !app_nil_r. apply Hn.
    apply lookup_ge_None in Hw. rewrite app_length in Hw. cbn in Hw. apply lookup_ge_None_2. lia.
Qed.

Lemma unsub_ok srt s w x : sort_contract srt -> core srt s -> ws s !! w = Some x -> w_writer x = Leaving ->
  exists p, step srt (ps s) (Unsubscribe w) = Ok p.
Proof.
  intros Hsrt Hc Hw Hx. destruct (c_tree _ _ Hc) as (os & [Ht1 Ht2 Ht3 Ht4]).
  destruct (reach_inv _ _ _ Hsrt Ht1 Ht2) as (n & L & HI).
  destruct (Inv_unsub _ _ _ _ w HI) as (s1 & Hs1 & _).
  - apply elem_of_list_fmap. exists (Sub w (w_path x) "" ""). split; [done|]. apply Ht4. exists w, x.
    split; [done|]. split; [|done]. unfold subscribed. by rewrite Hx.
  - exists s1. by rewrite (step_unsub_srt srt (fun x => x)).
Qed.

Lemma core_unsub srt s w x p : core srt s -> stall_ok s -> idle s = true -> ws s !! w = Some x ->
  w_writer x = Leaving -> (exists id, w_ask x = AskJob id) -> step srt (ps s) (Unsubscribe w) = Ok p ->
  core srt (Sys (clock s) (<[w := Watcher (w_ask x) (w_open x) (w_broken x) (w_due x) (w_deadline x) Left]> (ws s))
                p [] (event s) None (crashed s) (note s [Unsubscribed w])).
Proof.
  intros [(os & [Ht1 Ht2 Ht3 Ht4]) Hnd Htd Htp Hc Hg Hn] Hst Hi Hw Hx [id Hid] Hstep. apply idle_todo in Hi.
  assert (stall s = None) as Hs.
  { destruct (stall s) as [t|] eqn:E; [|done]. destruct (Hst t E) as (w' & r & x' & Hx' & _). by rewrite Hi in Hx'. }
  set (x0 := Watcher (w_ask x) _ _ _ _ Left). unfold note. cbn [map].
  assert (subscribed x0 = false) as Hx0 by (unfold subscribed; cbn; by rewrite Hid).
  assert (w < length (ws s))%nat as Hlt by (by apply lookup_lt_Some in Hw).
  split; cbn [clock ws ps todo event stall crashed log].
  - exists (os ++ [Unsubscribe w])%list. split; cbn [ps ws].
    + apply once_snoc; [done|]. fold (live os). apply elem_of_list_fmap. exists (Sub w (w_path x) "" "").
      split; [done|]. apply Ht4. exists w, x. split; [done|]. split; [|done]. unfold subscribed. by rewrite Hx.
    + by apply (run_snoc _ _ _ _ _ _ Ht2).
    + rewrite subs_app, insert_length. cbn. lia.
    + intros sb. unfold live. rewrite live_snoc. fold (live os). rewrite elem_of_list_filter, Ht4. split.
      * intros (Hne & v & y & Hv & Hy & ->). cbn in Hne. exists v, y. split; [|done].
        by rewrite list_lookup_insert_ne by done.
      * intros (v & y & Hv & Hy & ->). destruct (decide (v = w)) as [->|Hne].
        -- rewrite list_lookup_insert in Hv by done. injection Hv as <-. by rewrite Hx0 in Hy.
        -- rewrite list_lookup_insert_ne in Hv by done. split; [done|]. eauto 6.
  - constructor.
  - intros v Hv. by apply elem_of_nil in Hv.
  - intros v. rewrite topic_snoc. cbn [topic_step]. destruct (decide (v = w)) as [->|Hne].
    + by rewrite list_lookup_insert, Hx0.
    + by rewrite list_lookup_insert_ne, Htp by done.
  - intros v. rewrite stream_snoc, calls_snoc. cbn [in_topic called_of]. rewrite !app_nil_r, Hc, (waiting_None s Hs), Hi.
    unfold waiting. cbn [stall todo]. rewrite !nil_dec. by rewrite !app_nil_r.
  - intros v y Hy. rewrite stream_snoc, gots_snoc. cbn [in_topic got_of]. rewrite !app_nil_r.
    destruct (decide (v = w)) as [->|Hne].
    + rewrite list_lookup_insert in Hy by done. injection Hy as <-. specialize (Hg w x Hw).
      rewrite Hi, nil_dec, app_nil_r in Hg. exact Hg.
    + rewrite list_lookup_insert_ne in Hy by done. specialize (Hg v y Hy). by rewrite Hi, nil_dec, app_nil_r in Hg.
  - intros v Hv. rewrite stream_snoc, gots_snoc. cbn [in_topic got_of]. rewrite !app_nil_r. apply Hn.
    destruct (decide (v = w)) as [->|Hne]; [by rewrite list_lookup_insert in Hv|].
    by rewrite list_lookup_insert_ne in Hv by done.
Qed.

Lemma elem_times x cs : (0 < times x cs)%nat <-> x ∈ cs.
Proof.
  unfold times. induction cs as [|y cs IH]; [split; [cbn; lia|intros H; by apply elem_of_nil in H]|].
  rewrite filter_cons, elem_of_cons. destruct (decide (y = x)) as [->|Hne].
  - cbn [length]. split; [by left|lia].
  - rewrite IH. split; [by right|]. by intros [->|H].
Qed.
Lemma times_nodup cs : (forall x, (times x cs <= 1)%nat) -> NoDup cs.
Proof.
  induction cs as [|y cs IH]; intros H; [constructor|]. apply NoDup_cons. split.
  - intros Hy. apply elem_times in Hy. specialize (H y). unfold times in *. rewrite filter_cons_True in H by done.
    cbn [length] in H. lia.
  - apply IH. intros x. specialize (H x). unfold times in *. rewrite filter_cons in H.
    destruct (decide (y = x)); cbn [length] in *; lia.
Qed.

(** Whom Publish calls: every subscribed watcher whose path is a prefix, once. *)
Lemma publish_watchers srt s path h cs : sort_contract srt -> core srt s ->
  publish (ps s) (linear path) h (Some cs) ->
  NoDup cs /\ forall w, w ∈ cs <-> exists x, ws s !! w = Some x /\ subscribed x = true /\ w_path x `prefix_of` path.
Proof.
  intros Hsrt Hc Hp. destruct (c_tree _ _ Hc) as (os & [Ht1 Ht2 Ht3 Ht4]).
  destruct (prefix_delivery _ _ _ _ _ _ Hsrt Ht1 Ht2 Hp) as (cs' & He & H1 & H2 & H3). injection He as <-.
  assert (forall w, w ∈ cs -> exists x, ws s !! w = Some x /\ subscribed x = true /\ w_path x `prefix_of` path) as Ha.
  { intros w Hw. destruct (H1 w Hw) as (sb & Hsb & <- & Hpre). apply Ht4 in Hsb as (v & x & Hv & Hx & ->). eauto. }
  assert (forall w x, ws s !! w = Some x -> subscribed x = true -> w_path x `prefix_of` path -> times w cs = 1%nat) as Hb.
  { intros w x Hw Hx Hpre. apply (H2 (Sub w (w_path x) "" "")); [|done|done]. apply Ht4. eauto. }
  split.
  - apply times_nodup. intros w. destruct (decide (w ∈ cs)) as [Hw|Hw].
    + destruct (Ha w Hw) as (x & Hx & Hs & Hpre). rewrite (Hb w x); done.
    + rewrite <- elem_times in Hw. lia.
  - intros w. split; [apply Ha|]. intros (x & Hx & Hs & Hpre). apply elem_times. rewrite (Hb w x); [lia|done..].
Qed.

Lemma core_event srt s e path h cs : sort_contract srt -> core srt s -> stall_ok s -> idle s = true ->
  publish (ps s) (linear path) h (Some cs) ->
  core srt (Sys (clock s) (ws s) (ps s) cs e None false (note s [Published e path])).
Proof.
  intros Hsrt Hcore Hst Hi Hp. destruct (publish_watchers _ _ _ _ _ Hsrt Hcore Hp) as [Hnd' Hcs].
  destruct Hcore as [Ht Hnd Htd Htp Hc Hg Hn]. apply idle_todo in Hi.
  assert (stall s = None) as Hs.
  { destruct (stall s) as [t|] eqn:E; [|done]. destruct (Hst t E) as (w' & r & x' & Hx' & _). by rewrite Hi in Hx'. }
  assert (forall w, in_topic (topic w None (log s)) (Published e path) = if decide (w ∈ cs) then [e] else []) as Hin.
  { intros w. rewrite Htp. cbn [in_topic]. destruct (ws s !! w) as [x|] eqn:Ew.
    - destruct (subscribed x) eqn:Es.
      + destruct (decide (w_path x `prefix_of` path)) as [Hpre|Hpre]; destruct (decide (w ∈ cs)) as [Hw|Hw]; try done.
        * exfalso. apply Hw, Hcs. eauto.
        * exfalso. apply Hcs in Hw as (y & Hy & _ & Hq). rewrite Ew in Hy. injection Hy as <-. done.
      + rewrite decide_False; [done|]. intros Hw. apply Hcs in Hw as (y & Hy & Hq & _). rewrite Ew in Hy. injection Hy as <-. by rewrite Es in Hq.
    - rewrite decide_False; [done|]. intros Hw. apply Hcs in Hw as (y & Hy & _). by rewrite Ew in Hy. }
  unfold note. cbn [map]. split; cbn [clock ws ps todo event stall crashed log].
  - destruct Ht as (os & [H1 H2 H3 H4]). exists os. by split.
  - done.
  - intros w Hw. apply Hcs in Hw as (x & Hx & Hy & _). eauto.
  - intros w. rewrite topic_snoc. cbn [topic_step]. apply Htp.
  - intros w. rewrite stream_snoc, calls_snoc, Hin. cbn [called_of]. rewrite app_nil_r, Hc, (waiting_None s Hs), Hi.
    unfold waiting. cbn [stall todo]. by rewrite nil_dec, app_nil_r.
  - intros w x Hx. rewrite stream_snoc, gots_snoc, Hin. cbn [got_of]. rewrite app_nil_r.
    specialize (Hg w x Hx). rewrite Hi, nil_dec, app_nil_r in Hg. destruct (alive x).
    + by rewrite Hg.
    + etrans; [exact Hg|]. by eexists.
  - intros w Hw. rewrite stream_snoc, gots_snoc, Hin. cbn [got_of]. rewrite app_nil_r. destruct (Hn w Hw) as [-> ->].
    rewrite decide_False; [done|]. intros Hq. apply Hcs in Hq as (y & Hy & _). by rewrite Hw in Hy.
Qed.

Lemma core_call srt s w rest x (takes : bool) : core srt s -> stall s = None -> todo s = w :: rest -> ws s !! w = Some x ->
  core srt (if alive x then
              if takes
              then Sys (clock s) (ws s) (ps s) rest (event s) None (crashed s) (note s [Called w (event s); Got w (event s)])
              else Sys (clock s) (ws s) (ps s) (todo s) (event s) (Some (clock s + write_wait)) (crashed s) (note s [Called w (event s)])
            else Sys (clock s) (ws s) (ps s) rest (event s) None (crashed s) (note s [Called w (event s)])).
Proof.
  intros [Ht Hnd Htd Htp Hc Hg Hn] Hs Hto Hw.
  destruct Ht as (os & [H1 H2 H3 H4]).
  rewrite Hto in Hnd. pose proof Hnd as Hnd'. apply NoDup_cons in Hnd' as [Hwr Hndr].
  assert (forall v : nat, v <> w -> forall (a b : list nat), (if decide (v ∈ w :: rest) then a else b) = (if decide (v ∈ rest) then a else b)) as Hd.
  { intros v Hne a b. destruct (decide (v ∈ w :: rest)) as [H|H], (decide (v ∈ rest)) as [H'|H']; try done.
    - apply elem_of_cons in H as [H|H]; done.
    - exfalso. apply H. by right. }
  assert (forall v, stream v (log s) = (calls v (log s) ++ called_of v (Called w (event s))) ++ (if decide (v ∈ rest) then [event s] else []))%list as Hc'.
  { intros v. rewrite Hc, (waiting_None s Hs), Hto. cbn [called_of]. destruct (decide (v = w)) as [->|Hne].
    - rewrite decide_True by (by left). rewrite decide_False by done. by rewrite app_nil_r.
    - by rewrite Hd, app_nil_r by done. }
  destruct (alive x) eqn:Ea; [destruct takes|].
  - unfold note. cbn [map].
    replace (log s ++ [(clock s, Called w (event s)); (clock s, Got w (event s))])%list
      with ((log s ++ [(clock s, Called w (event s))]) ++ [(clock s, Got w (event s))])%list by (by rewrite <- (assoc_L (++)%list)).
    split; cbn [clock ws ps todo event stall crashed log].
    + exists os. by split.
    + done.
    + intros v Hv. apply Htd. rewrite Hto. by right.
    + intros v. rewrite !topic_snoc. cbn [topic_step]. apply Htp.
    + intros v. rewrite !stream_snoc, !calls_snoc. cbn [in_topic]. change (called_of v (Got w (event s))) with (@nil nat).
      rewrite !app_nil_r. unfold waiting. cbn [stall todo]. apply Hc'.
    + intros v y Hy. rewrite !stream_snoc, !gots_snoc. cbn [in_topic]. rewrite !app_nil_r.
      specialize (Hg v y Hy).
      rewrite Hto in Hg. cbn [got_of]. destruct (decide (v = w)) as [->|Hne].
      * rewrite Hw in Hy. injection Hy as <-. rewrite Ea in *. rewrite decide_True in Hg by (by left).
        rewrite decide_False by done. rewrite Hg. by rewrite app_nil_r.
      * rewrite app_nil_r. destruct (alive y); [|exact Hg]. by rewrite Hd in Hg by done.
    + intros v Hv. rewrite !stream_snoc, !gots_snoc. cbn [in_topic]. rewrite !app_nil_r.
      destruct (Hn v Hv) as [-> ->].
      split; [done|]. cbn. destruct (decide (v = w)) as [->|]; [|done]. by rewrite Hw in Hv.
  - unfold note. cbn [map]. split; cbn [clock ws ps todo event stall crashed log].
    + exists os. by split.
    + by rewrite Hto.
    + intros v Hv. by apply Htd.
    + intros v. rewrite !topic_snoc. cbn [topic_step]. apply Htp.
    + intros v. rewrite !stream_snoc, !calls_snoc. cbn [in_topic]. rewrite !app_nil_r. unfold waiting.
      cbn [stall todo]. rewrite Hto. apply Hc'.
    + intros v y Hy. rewrite !stream_snoc, !gots_snoc. cbn [in_topic]. rewrite !app_nil_r.
      exact (Hg v y Hy).
    + intros v Hv. rewrite !stream_snoc, !gots_snoc. cbn [in_topic]. rewrite !app_nil_r.
      by apply Hn.
  - unfold note. cbn [map]. split; cbn [clock ws ps todo event stall crashed log].
    + exists os. by split.
    + done.
    + intros v Hv. apply Htd. rewrite Hto. by right.
    + intros v. rewrite !topic_snoc. cbn [topic_step]. apply Htp.
    + intros v. rewrite !stream_snoc, !calls_snoc. cbn [in_topic]. rewrite !app_nil_r. unfold waiting.
      cbn [stall todo]. apply Hc'.
    + intros v y Hy. rewrite !stream_snoc, !gots_snoc. cbn [in_topic]. rewrite !app_nil_r.
      specialize (Hg v y Hy).
      rewrite Hto in Hg. destruct (decide (v = w)) as [->|Hne].
      * rewrite Hw in Hy. injection Hy as <-. by rewrite Ea in *.
      * destruct (alive y); [|exact Hg]. by rewrite Hd in Hg by done.
    + intros v Hv. rewrite !stream_snoc, !gots_snoc. cbn [in_topic]. rewrite !app_nil_r.
      by apply Hn.
Qed.

Lemma core_take srt s t w rest x : core srt s -> stall s = Some t -> todo s = w :: rest -> ws s !! w = Some x ->
  alive x = true ->
  core srt (Sys (clock s) (ws s) (ps s) rest (event s) None (crashed s) (note s [Got w (event s)])).
Proof.
  intros [Ht Hnd Htd Htp Hc Hg Hn] Hs Hto Hw Ea.
  destruct Ht as (os & [H1 H2 H3 H4]).
  rewrite Hto in Hnd. pose proof Hnd as Hnd'. apply NoDup_cons in Hnd' as [Hwr Hndr].
  assert (forall v : nat, v <> w -> forall (a b : list nat), (if decide (v ∈ w :: rest) then a else b) = (if decide (v ∈ rest) then a else b)) as Hd.
  { intros v Hne a b. destruct (decide (v ∈ w :: rest)) as [H|H], (decide (v ∈ rest)) as [H'|H']; try done.
    - apply elem_of_cons in H as [H|H]; done.
    - exfalso. apply H. by right. }
  unfold note. cbn [map]. split; cbn [clock ws ps todo event stall crashed log].
  - exists os. by split.
  - done.
  - intros v Hv. apply Htd. rewrite Hto. by right.
  - intros v. rewrite !topic_snoc. cbn [topic_step]. apply Htp.
  - intros v. rewrite !stream_snoc, !calls_snoc. cbn [in_topic called_of]. rewrite !app_nil_r, Hc, (waiting_Some s t Hs), Hto.
    done.
  - intros v y Hy. rewrite !stream_snoc, !gots_snoc. cbn [in_topic]. rewrite !app_nil_r. specialize (Hg v y Hy).
    rewrite Hto in Hg. cbn [got_of]. destruct (decide (v = w)) as [->|Hne].
    + rewrite Hw in Hy. injection Hy as <-. rewrite Ea in *. rewrite decide_True in Hg by (by left).
      rewrite decide_False by done. rewrite Hg. by rewrite app_nil_r.
    + rewrite app_nil_r. destruct (alive y); [|exact Hg]. by rewrite Hd in Hg by done.
  - intros v Hv. rewrite !stream_snoc, !gots_snoc. cbn [in_topic]. rewrite !app_nil_r. destruct (Hn v Hv) as [-> ->].
    split; [done|]. cbn. destruct (decide (v = w)) as [->|]; [|done]. by rewrite Hw in Hv.
Qed.

(** * The write in progress *)
Lemma stall_settle s : (forall t, stall s = Some t -> exists w r x, todo s = w :: r /\ ws s !! w = Some x /\ w_broken x = false) ->
  stall_ok (settle s).
Proof.
  intros H t. unfold settle. destruct (stall s) as [t'|] eqn:Es.
  - destruct (H t' eq_refl) as (w & r & x & Ht & Hw & Hb). rewrite Ht, Hw. destruct (w_open x) eqn:Eo.
    + intros _. exists w, r, x. split; [done|]. split; [done|]. unfold alive. by rewrite Eo, Hb.
    + done.
  - rewrite Es. done.
Qed.
Lemma stall_write_timeout s : stall_ok s -> stall_ok (write_timeout s).
Proof.
  intros H t. unfold write_timeout. destruct (stall s) as [t'|] eqn:Es.
  - destruct (todo s) as [|w r] eqn:Et; [by rewrite Es; intros _; apply (H t')|].
    destruct (t' <=? clock s); [done|]. intros _. by apply (H t').
  - by rewrite Es.
Qed.
Lemma expire_broken now x : w_broken (expire now x) = w_broken x.
Proof. unfold expire. by destruct (_ && _). Qed.
Lemma alive_spec x : alive x = true <-> w_open x = true /\ w_broken x = false.
Proof. unfold alive. destruct (w_open x), (w_broken x); cbn; split; intros H; try done; by destruct H. Qed.

Lemma stall_millisecond rf s : stall_ok s -> stall_ok (millisecond rf s).
Proof.
  intros H. unfold millisecond. set (s0 := Sys (clock s + 1) _ _ _ _ _ _ _).
  assert (stall_ok s0) as H0 by exact H. apply stall_write_timeout in H0.
  set (s1 := write_timeout s0) in *. clearbody s1. clear s0 H.
  cbv zeta. set (s2 := settle _).
  assert (stall_ok s2) as H2.
  { apply stall_settle. cbn [stall todo ws]. intros t Ht. destruct (H0 t Ht) as (w & r & x & Hd & Hw & Ha).
    exists w, r, (expire (clock s1) x). split; [done|]. split.
    - change (map (expire (clock s1)) (ws s1)) with (expire (clock s1) <$> ws s1). by rewrite list_lookup_fmap, Hw.
    - rewrite expire_broken. by apply alive_spec in Ha as [_ Ha]. }
  clearbody s2. clear s1 H0. destruct (clash s2) eqn:Ec; [exact H2|].
  destruct (ticks (clock s2) rf 0 (ws s2)) as [l o] eqn:Et. intros t Ht. cbn [stall todo ws] in *.
  destruct (H2 t Ht) as (w & r & x & Hd & Hw & Ha). exists w, r, x. split; [done|]. split; [|done].
  pose proof (ticks_lookup (clock s2) rf (ws s2) 0 w) as Hl. rewrite Et, Hw in Hl. cbn in Hl. rewrite Hl. f_equal.
  unfold clash in Ec. rewrite Ht, Hd, Hw in Ec. unfold tick. destruct (w_writer x); [|done|done]. by rewrite Ec.
Qed.

Record inv (srt : list env -> list env) (s : sys) : Prop := {
  i_core : core srt s;
  i_stall : stall_ok s;
  i_leaving : forall w x, ws s !! w = Some x -> w_writer x = Leaving -> exists id, w_ask x = AskJob id }.

Lemma ext_leaving s w x y : ws s !! w = Some x -> y = x -> (w_writer y = Leaving -> exists id, w_ask y = AskJob id) ->
  w_writer x = Leaving -> exists id, w_ask x = AskJob id.
Proof. intros _ ->. done. Qed.

(** What one step does to one watcher. *)
Definition maybe (b : bool) (f : watcher -> watcher) (x : watcher) : watcher := if b then f x else x.
Inductive evolves (s s' : sys) (w : nat) (a : act) (x : watcher) : watcher -> Prop :=
| ev_same : clock s' = clock s -> evolves s s' w a x x
| ev_leave b : a = Leave w -> clock s' = clock s -> evolves s s' w a x (maybe b break (shut x))
| ev_pong : a = Pong w -> clock s' = clock s -> w_open x = true -> (clock s', Ponged w) ∈ log s' ->
    evolves s s' w a x (Watcher (w_ask x) true (w_broken x) (w_due x) (clock s' + pong_wait) (w_writer x))
| ev_unsub : a = Unsub w -> clock s' = clock s -> w_writer x = Leaving ->
    evolves s s' w a x (Watcher (w_ask x) (w_open x) (w_broken x) (w_due x) (w_deadline x) Left)
| ev_time rf b1 b2 y : a = Millisecond rf -> clock s' = clock s + 1 -> crashed s' = false ->
    y = maybe b2 break (expire (clock s') (maybe b1 break x)) ->
    ((tick (clock s') (bool_decide (w ∈ rf)) y).2 = true -> (clock s', Pinged w) ∈ log s') ->
    evolves s s' w a x (tick (clock s') (bool_decide (w ∈ rf)) y).1
| ev_crash rf b1 b2 : a = Millisecond rf -> crashed s' = true ->
    evolves s s' w a x (maybe b2 break (expire (clock s') (maybe b1 break x))).

Lemma ticks_pinged now rf l : forall i w x, l !! w = Some x ->
  (tick now (bool_decide ((i + w)%nat ∈ rf)) x).2 = true -> Pinged (i + w)%nat ∈ (ticks now rf i l).2.
Proof.
  induction l as [|y l IH]; intros i w x Hw Hp; [done|]. cbn [ticks].
  destruct w as [|w].
  - injection Hw as ->. rewrite Nat.add_0_r in *. destruct (tick now _ x) as [x' b]. cbn [snd] in Hp. subst b.
    destruct (ticks now rf (S i) l) as [l' o]. cbn [snd]. by left.
  - change ((y :: l) !! S w) with (l !! w) in Hw. specialize (IH (S i) w x Hw).
    replace (S i + w)%nat with (i + S w)%nat in IH by lia. specialize (IH Hp).
    destruct (tick now _ y) as [x' b]. destruct (ticks now rf (S i) l) as [l' o]. cbn [snd] in *.
    destruct b; [by right|done].
Qed.

Lemma settle_clock s : clock (settle s) = clock s.
Proof. unfold settle. destruct (stall s), (todo s); try done. destruct (ws s !! _); [|done]. by destruct (w_open _). Qed.
Lemma settle_log s : log (settle s) = log s.
Proof. unfold settle. destruct (stall s), (todo s); try done. destruct (ws s !! _); [|done]. by destruct (w_open _). Qed.
Lemma settle_crashed s : crashed (settle s) = crashed s.
Proof. unfold settle. destruct (stall s), (todo s); try done. destruct (ws s !! _); [|done]. by destruct (w_open _). Qed.
Lemma settle_ws s w x : ws s !! w = Some x -> exists b, ws (settle s) !! w = Some (maybe b break x).
Proof.
  intros Hw. unfold settle. destruct (stall s) as [t|], (todo s) as [|v r]; try (by exists false).
  destruct (ws s !! v) as [y|] eqn:Ev; [|by exists false]. destruct (w_open y); [by exists false|].
  cbn [ws]. destruct (decide (v = w)) as [->|Hne].
  - exists true. by rewrite list_lookup_alter, Hw.
  - exists false. by rewrite list_lookup_alter_ne, Hw by done.
Qed.
Lemma write_timeout_clock s : clock (write_timeout s) = clock s.
Proof. unfold write_timeout. destruct (stall s), (todo s); try done. by destruct (_ <=? _). Qed.
Lemma write_timeout_log s : log (write_timeout s) = log s.
Proof. unfold write_timeout. destruct (stall s), (todo s); try done. by destruct (_ <=? _). Qed.
Lemma write_timeout_crashed s : crashed (write_timeout s) = crashed s.
Proof. unfold write_timeout. destruct (stall s), (todo s); try done. by destruct (_ <=? _). Qed.
Lemma write_timeout_ws s w x : ws s !! w = Some x -> exists b, ws (write_timeout s) !! w = Some (maybe b break x).
Proof.
  intros Hw. unfold write_timeout. destruct (stall s) as [t|], (todo s) as [|v r]; try (by exists false).
  destruct (t <=? clock s); [|by exists false].
  cbn [ws]. destruct (decide (v = w)) as [->|Hne].
  - exists true. by rewrite list_lookup_alter, Hw.
  - exists false. by rewrite list_lookup_alter_ne, Hw by done.
Qed.

(** The log and the clock of one step. *)
Lemma do_log srt s a : exists l, log (do_act srt s a) = (log s ++ map (pair (clock (do_act srt s a))) l)%list /\
  clock (do_act srt s a) = clock s + match a with Millisecond _ => 1 | _ => 0 end.
Proof.
  assert (forall t, log s = (log s ++ map (pair t) [])%list) as Hn by (intros; by rewrite app_nil_r).
  destruct a as [a d|w|w|e p|tk| |w|rf]; cbn [do_act]; rewrite ?Z.add_0_r.
  - destruct (idle s); [|by exists []]. destruct (step _ _ _); [|by exists []..]. eexists. done.
  - exists []. rewrite settle_log, settle_clock. done.
  - destruct (ws s !! w) as [x|]; [|by exists []]. destruct (w_open x); [|by exists []]. eexists. done.
  - by exists [].
  - destruct (stall s), (todo s); try (by exists []). destruct (ws s !! _); [|by exists []].
    destruct (_ && _); [destruct tk|]; eexists; done.
  - destruct (stall s), (todo s); try (by exists []). eexists. done.
  - destruct (ws s !! w) as [x|]; [|by exists []]. destruct (w_writer x); try (by exists []).
    destruct (idle s); [|by exists []]. destruct (step _ _ _); [eexists; done|by exists []..].
  - unfold millisecond. cbv zeta.
    set (s1 := write_timeout _). set (s2 := settle _).
    assert (log s2 = log s) as Hl by (unfold s2, s1; rewrite settle_log; cbn [log]; by rewrite write_timeout_log).
    assert (clock s2 = clock s + 1) as Hc by (unfold s2, s1; rewrite settle_clock; cbn [clock]; by rewrite write_timeout_clock).
    destruct (clash s2); [exists []; cbn [log clock]; by rewrite Hl, <- Hn|].
    destruct (ticks _ _ _ _) as [l o]. exists o. cbn [log clock]. unfold note. by rewrite Hl.
Qed.
Lemma step_log srt s a s' : wstep srt s a s' ->
  exists l, log s' = (log s ++ map (pair (clock s')) l)%list /\ clock s <= clock s' <= clock s + 1.
Proof.
  intros H. destruct H as [s e path h cs _ _ _|s a _].
  - eexists. split; [done|]. cbn. lia.
  - destruct (crashed s); [exists []; rewrite app_nil_r; split; [done|lia]|].
    destruct (do_log srt s a) as (l & H1 & H2). exists l. split; [done|]. rewrite H2. destruct a; lia.
Qed.
Lemma step_crashed srt s a s' : wstep srt s a s' -> crashed s = true -> s' = s.
Proof. intros H Hc. destruct H as [s e path h cs Hf _ _|s a _]; [by rewrite Hc in Hf|by rewrite Hc]. Qed.

Lemma step_evolves srt s a s' w x : stall_ok s -> wstep srt s a s' -> ws s !! w = Some x ->
  exists x', ws s' !! w = Some x' /\ evolves s s' w a x x'.
Proof.
  intros Hso H Hw. destruct H as [s e path h cs _ _ _|s a Hne].
  { exists x. split; [done|by constructor]. }
  destruct (crashed s) eqn:Ecr; [exists x; split; [done|by constructor]|].
  destruct a as [a d|v|v|e p|tk| |v|rf]; cbn [do_act].
  - destruct (idle s); [|exists x; split; [done|by constructor]].
    destruct (step _ _ _); [|exists x; split; [done|by constructor]..].
    exists x. split; [|by constructor]. cbn [ws]. by apply lookup_app_l_Some.
  - destruct (decide (v = w)) as [->|Hnv].
    + destruct (settle_ws (Sys (clock s) (alter shut w (ws s)) (ps s) (todo s) (event s) (stall s) (crashed s) (log s)) w (shut x)) as [b Hb].
      { cbn [ws]. by rewrite list_lookup_alter, Hw. }
      exists (maybe b break (shut x)). split; [done|]. apply ev_leave; [done|]. by rewrite settle_clock.
    + unfold settle. cbn [stall todo ws]. destruct (stall s) as [t|] eqn:Es; [|exists x; split; [|by constructor]; cbn [ws]; by rewrite list_lookup_alter_ne by done].
      destruct (todo s) as [|u r] eqn:Etd; [exists x; split; [|by constructor]; cbn [ws]; by rewrite list_lookup_alter_ne by done|].
      destruct (alter shut v (ws s) !! u) as [y|] eqn:Ey; [|exists x; split; [|by constructor]; cbn [ws]; by rewrite list_lookup_alter_ne by done].
      destruct (w_open y) eqn:Eo; [exists x; split; [|by constructor]; cbn [ws]; by rewrite list_lookup_alter_ne by done|].
      cbn [ws]. destruct (decide (u = w)) as [->|Huw].
      * exfalso. rewrite list_lookup_alter_ne in Ey by done. rewrite Hw in Ey. injection Ey as <-.
        destruct (Hso t Es) as (u & r' & x' & Hu & Hx' & Ha). rewrite Etd in Hu. injection Hu as <- <-.
        rewrite Hw in Hx'. injection Hx' as <-. apply alive_spec in Ha as [Ha _]. by rewrite Eo in Ha.
      * exists x. split; [|by constructor]. by rewrite !list_lookup_alter_ne by done.
  - destruct (ws s !! v) as [y|] eqn:Ev; [|exists x; split; [done|by constructor]].
    destruct (w_open y) eqn:Eo; [|exists x; split; [done|by constructor]]. cbn [ws].
    destruct (decide (v = w)) as [->|Hnv].
    + rewrite Hw in Ev. injection Ev as <-. eexists. split; [apply list_lookup_insert; by apply lookup_lt_Some in Hw|].
      apply (ev_pong s (Sys (clock s) _ _ _ _ _ _ _)); [done|done|done|]. unfold note. cbn [log clock map]. apply elem_of_app. right. by left.
    + exists x. split; [|by constructor]. by rewrite list_lookup_insert_ne by done.
  - by destruct (Hne e p).
  - destruct (stall s), (todo s) as [|u r]; try (exists x; split; [done|by constructor]).
    destruct (ws s !! u) as [y|] eqn:Eu; [|exists x; split; [done|by constructor]].
    destruct (_ && _); [destruct tk|]; exists x; (split; [done|by constructor]).
  - destruct (stall s), (todo s); try (exists x; split; [done|by constructor]).
  - destruct (ws s !! v) as [y|] eqn:Ev; [|exists x; split; [done|by constructor]].
    destruct (w_writer y) eqn:Ey; try (exists x; split; [done|by constructor]).
    destruct (idle s); [|exists x; split; [done|by constructor]].
    destruct (step _ _ _); [|exists x; split; [done|by constructor]..]. cbn [ws].
    destruct (decide (v = w)) as [->|Hnv].
    + rewrite Hw in Ev. injection Ev as <-. eexists. split; [apply list_lookup_insert; by apply lookup_lt_Some in Hw|].
      by apply ev_unsub.
    + exists x. split; [|by constructor]. by rewrite list_lookup_insert_ne by done.
  - unfold millisecond. cbv zeta.
    set (s0 := Sys (clock s + 1) _ _ _ _ _ _ _). destruct (write_timeout_ws s0 w x Hw) as [b1 H1].
    pose proof (write_timeout_clock s0) as Hc1. pose proof (write_timeout_crashed s0) as Hr1.
    set (s1 := write_timeout s0) in *. cbn [clock crashed] in Hc1, Hr1.
    assert (clock s0 = clock s + 1) as Hc0 by done. assert (crashed s0 = crashed s) as Hr0 by done.
    clearbody s1. clearbody s0.
    set (s1' := Sys (clock s1) (map (expire (clock s1)) (ws s1)) _ _ _ _ _ _).
    destruct (settle_ws s1' w (expire (clock s1) (maybe b1 break x))) as [b2 H2].
    { unfold s1'. cbn [ws]. change (map (expire (clock s1)) (ws s1)) with (expire (clock s1) <$> ws s1).
      by rewrite list_lookup_fmap, H1. }
    pose proof (settle_clock s1') as Hc2. pose proof (settle_crashed s1') as Hr2. cbn [clock crashed] in Hc2, Hr2.
    set (s2 := settle s1') in *. clearbody s2. unfold s1' in Hc2, Hr2. cbn [clock crashed] in Hc2, Hr2. clear s1'.
    destruct (clash s2).
    + eexists. split; [exact H2|]. rewrite <- Hc2. by apply (ev_crash _ (Sys (clock s2) _ _ _ _ _ _ _) w _ x rf b1 b2).
    + destruct (ticks (clock s2) rf 0 (ws s2)) as [l o] eqn:Et. cbn [ws].
      pose proof (ticks_lookup (clock s2) rf (ws s2) 0 w) as Hl. rewrite Et, H2 in Hl. cbn [fst Nat.add] in Hl.
      eexists. split; [exact Hl|].
      apply (ev_time _ (Sys (clock s2) _ _ _ _ _ _ _) w _ x rf b1 b2); [done|cbn [clock]; congruence|cbn [crashed]; congruence| |].
      * cbn [clock]. by rewrite Hc2.
      * cbn [clock log]. intros Hp. unfold note. apply elem_of_app. right. apply elem_of_list_fmap.
        exists (Pinged w). split; [done|].
        pose proof (ticks_pinged (clock s2) rf (ws s2) 0 w _ H2 Hp) as Hq. by rewrite Et in Hq.
Qed.

Lemma settle_none s w : ws s !! w = None -> ws (settle s) !! w = None.
Proof.
  intros Hw. unfold settle. destruct (stall s) as [t|], (todo s) as [|v r]; try done.
  destruct (ws s !! v) as [y|] eqn:Ev; [|done]. destruct (w_open y); [done|].
  cbn [ws]. apply lookup_ge_None. rewrite alter_length. by apply lookup_ge_None.
Qed.
Lemma write_timeout_none s w : ws s !! w = None -> ws (write_timeout s) !! w = None.
Proof.
  intros Hw. unfold write_timeout. destruct (stall s) as [t|], (todo s) as [|v r]; try done.
  destruct (t <=? clock s); [|done].
  cbn [ws]. apply lookup_ge_None. rewrite alter_length. by apply lookup_ge_None.
Qed.
Definition fresh_watcher (a : ask) (c : Z) : watcher := Watcher a true false (c + ping_period) (c + pong_wait) Pinging.
Lemma step_new srt s a s' w x' : wstep srt s a s' -> ws s !! w = None -> ws s' !! w = Some x' ->
  exists k d, a = Join k d /\ x' = fresh_watcher k (clock s') /\ w = length (ws s) /\ crashed s' = false /\
    log s' = (log s ++ [(clock s', Joined w k)])%list.
Proof.
  intros H Hw Hx. destruct H as [s e path h cs _ _ _|s a Hne]; [cbn [ws] in Hx; by rewrite Hw in Hx|].
  destruct (crashed s) eqn:Ecr; [by rewrite Hw in Hx|].
  destruct a as [a d|v|v|e p|tk| |v|rf]; cbn [do_act] in *.
  - destruct (idle s); [|by rewrite Hw in Hx]. destruct (step _ _ _); [|by rewrite Hw in Hx..].
    cbn [ws] in Hx. apply lookup_app_Some in Hx as [Hx|[Hge Hx]]; [by rewrite Hw in Hx|].
    apply list_lookup_singleton_Some in Hx as [Hl <-]. exists a, d. cbn [crashed clock log].
    assert (w = length (ws s)) as -> by lia. done.
  - rewrite settle_none in Hx; [done|]. cbn [ws]. apply lookup_ge_None. rewrite alter_length. by apply lookup_ge_None.
  - destruct (ws s !! v) as [y|]; [|by rewrite Hw in Hx]. destruct (w_open y); [|by rewrite Hw in Hx]. cbn [ws] in Hx.
    apply lookup_lt_Some in Hx. rewrite insert_length in Hx. apply lookup_ge_None in Hw. lia.
  - by rewrite Hw in Hx.
  - destruct (stall s), (todo s) as [|u r]; try (by rewrite Hw in Hx). destruct (ws s !! u); [|by rewrite Hw in Hx].
    destruct (_ && _); [destruct tk|]; cbn [ws] in Hx; by rewrite Hw in Hx.
  - destruct (stall s), (todo s) as [|u r]; cbn [ws] in Hx; by rewrite Hw in Hx.
  - destruct (ws s !! v) as [y|] eqn:Ev; [|by rewrite Hw in Hx].
    destruct (w_writer y); try (by rewrite Hw in Hx). destruct (idle s); [|by rewrite Hw in Hx].
    destruct (step _ _ _); cbn [ws] in Hx; [|by rewrite Hw in Hx..].
    apply lookup_lt_Some in Hx. rewrite insert_length in Hx. apply lookup_ge_None in Hw. lia.
  - exfalso. unfold millisecond in Hx. cbv zeta in Hx.
    set (s0 := Sys (clock s + 1) _ _ _ _ _ _ _) in *. pose proof (write_timeout_none s0 w Hw) as H1.
    set (s1 := write_timeout s0) in *. clearbody s1.
    set (s1' := Sys (clock s1) (map (expire (clock s1)) (ws s1)) _ _ _ _ _ _) in *.
    assert (ws s1' !! w = None) as H1'.
    { unfold s1'. cbn [ws]. change (map (expire (clock s1)) (ws s1)) with (expire (clock s1) <$> ws s1).
      by rewrite list_lookup_fmap, H1. }
    pose proof (settle_none s1' w H1') as H2. set (s2 := settle s1') in *. clearbody s2.
    destruct (clash s2); [cbn [ws] in Hx; by rewrite H2 in Hx|].
    destruct (ticks (clock s2) rf 0 (ws s2)) as [l o] eqn:Et. cbn [ws] in Hx.
    pose proof (ticks_lookup (clock s2) rf (ws s2) 0 w) as Hl. rewrite Et, H2 in Hl. cbn in Hl. by rewrite Hl in Hx.
Qed.
Lemma step_back srt s a s' w x' : stall_ok s -> wstep srt s a s' -> ws s' !! w = Some x' ->
  (exists x, ws s !! w = Some x /\ evolves s s' w a x x') \/
  (ws s !! w = None /\ exists k d, a = Join k d /\ x' = fresh_watcher k (clock s') /\ crashed s' = false /\
     log s' = (log s ++ [(clock s', Joined w k)])%list).
Proof.
  intros Hso H Hx. destruct (ws s !! w) as [x|] eqn:Hw.
  - left. destruct (step_evolves _ _ _ _ _ _ Hso H Hw) as (y & Hy & He). rewrite Hx in Hy. injection Hy as <-. eauto.
  - right. split; [done|]. destruct (step_new _ _ _ _ _ _ H Hw Hx) as (k & d & ? & ? & _ & ? & ?). eauto 8.
Qed.

Lemma break_writer b x : w_writer (maybe b break x) = w_writer x.
Proof. by destruct b. Qed.
Lemma break_ask b x : w_ask (maybe b break x) = w_ask x.
Proof. by destruct b. Qed.
Lemma break_due b x : w_due (maybe b break x) = w_due x.
Proof. by destruct b. Qed.
Lemma break_open b x : w_open (maybe b break x) = w_open x.
Proof. by destruct b. Qed.
Lemma break_deadline b x : w_deadline (maybe b break x) = w_deadline x.
Proof. by destruct b. Qed.
Lemma expire_writer c x : w_writer (expire c x) = w_writer x.
Proof. unfold expire. by destruct (_ && _). Qed.
Lemma expire_ask c x : w_ask (expire c x) = w_ask x.
Proof. unfold expire. by destruct (_ && _). Qed.
Lemma expire_due c x : w_due (expire c x) = w_due x.
Proof. unfold expire. by destruct (_ && _). Qed.
Lemma expire_deadline c x : w_deadline (expire c x) = w_deadline x.
Proof. unfold expire. by destruct (_ && _). Qed.
Lemma expire_open c x : w_open (expire c x) = w_open x && (c <? w_deadline x).
Proof.
  unfold expire. destruct (w_open x) eqn:E; cbn [andb]; [|done]. rewrite Z.ltb_antisym.
  destruct (w_deadline x <=? c); cbn [negb]; [done|done].
Qed.
#[local] Hint Rewrite break_writer break_ask break_due break_open break_deadline expire_writer expire_ask expire_due expire_deadline expire_open expire_broken : fields.

Lemma tick_ask c r y : w_ask (tick c r y).1 = w_ask y.
Proof. unfold tick. destruct (w_writer y); try done. destruct (_ <=? _); [|done]. by destruct (_ && _). Qed.
Lemma evolves_ask s s' w a x x' : evolves s s' w a x x' -> w_ask x' = w_ask x.
Proof. intros [|b| | |rf b1 b2 y _ _ _ -> _|rf b1 b2 _ _]; rewrite ?tick_ask; by autorewrite with fields. Qed.

Lemma inv_start srt : inv srt start.
Proof. split; [apply core_start|done|done]. Qed.
Lemma inv_step srt s a s' : sort_contract srt -> inv srt s -> wstep srt s a s' -> inv srt s'.
Proof.
  intros Hsrt [Hc Hs Hl] H.
  assert (forall w x, ws s' !! w = Some x -> w_writer x = Leaving -> exists id, w_ask x = AskJob id) as Hl'.
  { intros w x' Hx' Hwr. destruct (step_back _ _ _ _ _ _ Hs H Hx') as [(x & Hx & He)|(_ & k & d & _ & -> & _)]; [|done].
    rewrite (evolves_ask _ _ _ _ _ _ He). specialize (Hl w x Hx).
    destruct He as [_|b Ha _|Ha _ _ _|Ha _ _|rf b1 b2 y _ _ _ Hy _|rf b1 b2 _ _].
    - by apply Hl.
    - rewrite break_writer in Hwr. by apply Hl.
    - by apply Hl.
    - done.
    - assert (w_writer y = w_writer x) as Hwy by (subst y; by autorewrite with fields).
      assert (w_ask y = w_ask x) as Hay by (subst y; by autorewrite with fields). clear Hy.
      unfold tick in Hwr. rewrite Hwy in Hwr. destruct (w_writer x) eqn:Ew; cbn [fst] in Hwr.
      + destruct (_ <=? _); [|cbn [fst] in Hwr; by rewrite Hwy in Hwr].
        destruct (_ && _); cbn [fst w_writer] in Hwr; [done|]. rewrite Hay in Hwr. destruct (w_ask x); [eauto|done].
      + by apply Hl.
      + by rewrite Hwy in Hwr.
    - autorewrite with fields in Hwr. by apply Hl. }
  destruct H as [s e path h cs Hcr Hi Hp|s a Hne].
  { split; [by apply (core_event srt s e path h)|done|done]. }
  destruct (crashed s) eqn:Ecr; [by split|].
  enough (core srt (do_act srt s a) /\ stall_ok (do_act srt s a)) as [? ?] by (by split).
  clear Hl'. destruct a as [a d|v|v|e p|tk| |v|rf]; cbn [do_act].
  - destruct (idle s) eqn:Ei; [|done]. destruct (step _ _ _) as [p| |] eqn:Est; [|done..].
    split; [by apply (core_join srt s a d p)|done].
  - split.
    + apply core_settle. pose proof (core_sim srt s (clock s) (alter shut v (ws s)) [] Hc (sim_alter shut v (ws s) sim_shut) (Forall_nil_2 _)) as H.
      unfold note in H. cbn [map] in H. by rewrite app_nil_r in H.
    + apply stall_settle. cbn [stall todo ws]. intros t Ht. destruct (Hs t Ht) as (w & r & x & Hd & Hw & Ha).
      apply alive_spec in Ha as [_ Ha]. destruct (decide (v = w)) as [->|Hn].
      * exists w, r, (shut x). rewrite list_lookup_alter, Hw. done.
      * exists w, r, x. by rewrite list_lookup_alter_ne by done.
  - destruct (ws s !! v) as [x|] eqn:Ev; [|done]. destruct (w_open x) eqn:Eo; [|done]. split.
    + apply core_sim; [done| |by repeat constructor]. intros w. destruct (decide (v = w)) as [->|Hn].
      * rewrite list_lookup_insert by (by apply lookup_lt_Some in Ev). rewrite Ev. constructor. split; [done|].
        split; [done|]. unfold alive. cbn. by rewrite Eo.
      * rewrite list_lookup_insert_ne by done. destruct (ws s !! w); constructor. apply sim_refl.
    + intros t Ht. cbn [stall todo ws] in *. destruct (Hs t Ht) as (w & r & y & Hd & Hw & Ha).
      destruct (decide (v = w)) as [->|Hn].
      * eexists _, _, _. split; [done|]. split; [apply list_lookup_insert; by apply lookup_lt_Some in Ev|].
        rewrite Hw in Ev. injection Ev as <-. apply alive_spec in Ha as [_ Ha]. by apply alive_spec.
      * exists w, r, y. by rewrite list_lookup_insert_ne by done.
  - done.
  - destruct (stall s) as [t|] eqn:Es; [done|]. destruct (todo s) as [|w rest] eqn:Et; [done|].
    destruct (ws s !! w) as [x|] eqn:Ew; [|done].
    pose proof (core_call srt s w rest x tk Hc Es Et Ew) as H. rewrite Et in H.
    change (w_open x && negb (w_broken x)) with (alive x). destruct (alive x) eqn:Ea; [destruct tk|]; (split; [exact H|]); try done.
    intros t Ht. cbn [stall todo ws]. exists w, rest, x. done.
  - destruct (stall s) as [t|] eqn:Es; [|done]. destruct (todo s) as [|w rest] eqn:Et; [done|].
    destruct (Hs t Es) as (w' & r' & x & Hd & Hw & Ha). rewrite Et in Hd. injection Hd as <- <-.
    split; [|done]. by apply (core_take srt s t w rest x).
  - destruct (ws s !! v) as [x|] eqn:Ev; [|done]. destruct (w_writer x) eqn:Ex; [done| |done].
    destruct (idle s) eqn:Ei; [|done]. destruct (unsub_ok srt s v x Hsrt Hc Ev Ex) as [p Hp].
    assert (exists id, w_ask x = AskJob id) as Hid by (by apply (Hl v)).
    rewrite Hp. split; [by apply core_unsub|done].
  - split; [by apply core_millisecond|by apply stall_millisecond].
Qed.
Lemma inv_run srt s acts s' : sort_contract srt -> inv srt s -> wrun srt s acts s' -> inv srt s'.
Proof. intros Hsrt HI H. induction H as [|s a s1 acts s2 Hst _ IH]; [done|]. apply IH. by apply (inv_step srt s a). Qed.
Lemma inv_reach srt acts s : sort_contract srt -> wrun srt start acts s -> inv srt s.
Proof. intros Hsrt. apply inv_run; [done|apply inv_start]. Qed.

(** * What watchers get *)
Lemma watcher_stream srt acts s w x : sort_contract srt -> wrun srt start acts s -> ws s !! w = Some x ->
  gots w (log s) `prefix_of` stream w (log s) /\
  (w_open x = true -> w_broken x = false -> idle s = true -> gots w (log s) = stream w (log s)).
Proof.
  intros Hsrt Hr Hx. pose proof (inv_reach _ _ _ Hsrt Hr) as [Hc Hs _]. pose proof (c_gots _ _ Hc w x Hx) as Hg. split.
  - destruct (alive x); [|done]. rewrite Hg. by eexists.
  - intros Ho Hb Hi. assert (alive x = true) as Ha by (by apply alive_spec). rewrite Ha in Hg.
    apply idle_todo in Hi. by rewrite Hi, nil_dec, app_nil_r in Hg.
Qed.
Lemma watcher_calls srt acts s w : sort_contract srt -> wrun srt start acts s -> idle s = true ->
  calls w (log s) = stream w (log s).
Proof.
  intros Hsrt Hr Hi. pose proof (inv_reach _ _ _ Hsrt Hr) as [Hc Hs _]. pose proof (c_calls _ _ Hc w) as Hw.
  apply idle_todo in Hi. assert (waiting s = []) as He by (unfold waiting; rewrite Hi; by destruct (stall s)).
  by rewrite He, nil_dec, app_nil_r in Hw.
Qed.

Lemma wrun_snoc srt s acts a s' : wrun srt s (acts ++ [a]) s' -> exists s1, wrun srt s acts s1 /\ wstep srt s1 a s'.
Proof.
  revert s. induction acts as [|b acts IH]; intros s H; cbn [app] in H.
  - inversion H as [|s0 a0 s1 l s2 H1 H2]; subst. inversion H2; subst. eexists. split; [constructor|done].
  - inversion H as [|s0 a0 s1 l s2 H1 H2]; subst. destruct (IH _ H2) as (s3 & Hs1 & Hst).
    exists s3. split; [by econstructor|done].
Qed.

(** * Who is unsubscribed *)
Lemma ticks_no_unsub now rf l : forall i w, Unsubscribed w ∉ (ticks now rf i l).2.
Proof.
  intros i w H. pose proof (ticks_neutral now rf l i) as Hn. rewrite Forall_forall in Hn. by apply (Hn _ H).
Qed.
Lemma step_unsubscribed srt s a s' w t : wstep srt s a s' -> (t, Unsubscribed w) ∈ log s' ->
  (t, Unsubscribed w) ∈ log s \/ exists x, ws s !! w = Some x /\ w_writer x = Leaving.
Proof.
  intros H Hin. destruct H as [s e path h cs _ _ _|s a Hne].
  { cbn [log] in Hin. unfold note in Hin. cbn [map] in Hin. apply elem_of_app in Hin as [Hin|Hin]; [by left|].
    by apply elem_of_list_singleton in Hin. }
  destruct (crashed s); [by left|].
  assert (forall l, (forall o, o ∈ l -> o <> Unsubscribed w) -> (t, Unsubscribed w) ∈ note s l -> (t, Unsubscribed w) ∈ log s) as Hno.
  { intros l Hl Hn. unfold note in Hn. apply elem_of_app in Hn as [Hn|Hn]; [done|].
    apply elem_of_list_fmap in Hn as (o & Ho & Hio). injection Ho as _ Ho. by destruct (Hl o Hio). }
  destruct a as [a d|v|v|e p|tk| |v|rf]; cbn [do_act] in Hin.
  - left. destruct (idle s); [|done]. destruct (step _ _ _); [|done..]. cbn [log] in Hin. apply Hno in Hin; [done|].
    intros o Ho. by apply elem_of_list_singleton in Ho as ->.
  - left. by rewrite settle_log in Hin.
  - left. destruct (ws s !! v) as [x|]; [|done]. destruct (w_open x); [|done]. cbn [log] in Hin. apply Hno in Hin; [done|].
    intros o Ho. by apply elem_of_list_singleton in Ho as ->.
  - by left.
  - left. destruct (stall s), (todo s) as [|u r]; try done. destruct (ws s !! u); [|done].
    destruct (_ && _); [destruct tk|]; cbn [log] in Hin; apply Hno in Hin; try done; intros o Ho;
    repeat (apply elem_of_cons in Ho as [->|Ho]; [done|]); by apply elem_of_nil in Ho.
  - left. destruct (stall s), (todo s) as [|u r]; try done. cbn [log] in Hin. apply Hno in Hin; [done|].
    intros o Ho. by apply elem_of_list_singleton in Ho as ->.
  - destruct (ws s !! v) as [x|] eqn:Ev; [|by left]. destruct (w_writer x) eqn:Ex; [by left| |by left].
    destruct (idle s); [|by left]. destruct (step _ _ _); [|by left..]. cbn [log] in Hin. destruct (decide (v = w)) as [->|Hn].
    + right. eauto.
    + left. apply Hno in Hin; [done|]. intros o Ho. apply elem_of_list_singleton in Ho as ->. congruence.
  - left. unfold millisecond in Hin. cbv zeta in Hin.
    set (s0 := Sys (clock s + 1) _ _ _ _ _ _ _) in *. pose proof (write_timeout_log s0) as H1.
    set (s1 := write_timeout s0) in *. set (s1' := Sys (clock s1) _ _ _ _ _ _ _) in *.
    pose proof (settle_log s1') as H2. set (s2 := settle s1') in *. unfold s1' in H2. cbn [log] in H2.
    assert (log s2 = log s) as Hl by (rewrite H2; by rewrite H1).
    clearbody s2. clear H2 s1'. clear H1 s1. clear s0.
    destruct (clash s2); [cbn [log] in Hin; by rewrite Hl in Hin|].
    destruct (ticks (clock s2) rf 0 (ws s2)) as [l o] eqn:Et. cbn [log] in Hin. unfold note in Hin.
    apply elem_of_app in Hin as [Hin|Hin]; [by rewrite Hl in Hin|].
    apply elem_of_list_fmap in Hin as (p & Hp & Hip). injection Hp as _ <-.
    exfalso. apply (ticks_no_unsub (clock s2) rf (ws s2) 0 w). by rewrite Et.
Qed.

Lemma trace_never_unsubscribed srt acts s w x ns pod ctr t : sort_contract srt -> wrun srt start acts s ->
  ws s !! w = Some x -> w_ask x = AskTrace ns pod ctr -> (t, Unsubscribed w) ∉ log s.
Proof.
  intros Hsrt. revert s x. induction acts as [|a acts IH] using rev_ind; intros s x Hr Hx Ha Hin.
  - inversion Hr; subst. done.
  - apply wrun_snoc in Hr as (s1 & Hr & Hst). pose proof (inv_reach _ _ _ Hsrt Hr) as [_ Hso Hl].
    destruct (step_back _ _ _ _ _ _ Hso Hst Hx) as [(x1 & Hx1 & He)|(Hn & k & d & _ & _ & _ & Hlog)].
    + assert (w_ask x1 = AskTrace ns pod ctr) as Ha1 by (by rewrite <- (evolves_ask _ _ _ _ _ _ He)).
      destruct (step_unsubscribed _ _ _ _ _ _ Hst Hin) as [Hin1|(y & Hy & Hyw)]; [by apply (IH _ _ Hr Hx1 Ha1)|].
      destruct (Hl w y Hy Hyw) as [id Hid]. rewrite Hx1 in Hy. injection Hy as <-. by rewrite Ha1 in Hid.
    + destruct (step_unsubscribed _ _ _ _ _ _ Hst Hin) as [Hin1|(y & Hy & _)]; [|by rewrite Hn in Hy].
      clear -Hsrt Hr Hn Hin1. revert s1 Hr Hn Hin1.
      induction acts as [|a acts IH] using rev_ind; intros s1 Hr Hn Hin1; [inversion Hr; subst; by apply elem_of_nil in Hin1|].
      apply wrun_snoc in Hr as (s0 & Hr & Hst). pose proof (inv_reach _ _ _ Hsrt Hr) as [_ Hso Hl].
      destruct (step_unsubscribed _ _ _ _ _ _ Hst Hin1) as [Hin0|(y & Hy & _)].
      * apply (IH s0 Hr); [|done]. destruct (ws s0 !! w) as [z|] eqn:Ez; [|done].
        destruct (step_evolves _ _ _ _ _ _ Hso Hst Ez) as (z' & Hz' & _). by rewrite Hn in Hz'.
      * destruct (step_evolves _ _ _ _ _ _ Hso Hst Hy) as (z' & Hz' & _). by rewrite Hn in Hz'.
Qed.

(** * Timers *)
Definition timely (s : sys) : Prop := crashed s = false -> forall w x, ws s !! w = Some x ->
  (w_open x = true -> clock s < w_deadline x) /\ (w_writer x = Pinging -> clock s < w_due x <= clock s + ping_period) /\
  w_deadline x <= clock s + pong_wait.

Lemma tick_facts c r y : w_open (tick c r y).1 = true -> w_open y = true.
Proof.
  unfold tick. destruct (w_writer y); try done. destruct (_ <=? _); [|done].
  destruct (w_open y) eqn:E; [done|]. cbn. done.
Qed.
Lemma tick_deadline c r y : w_deadline (tick c r y).1 = w_deadline y.
Proof. unfold tick. destruct (w_writer y); try done. destruct (_ <=? _); [|done]. by destruct (_ && _). Qed.
Lemma tick_due c r y : w_writer (tick c r y).1 = Pinging ->
  w_writer y = Pinging /\
  (c < w_due y /\ (tick c r y) = (y, false) \/
   w_due y <= c /\ w_open y = true /\ w_broken y = false /\ r = false /\ w_due (tick c r y).1 = w_due y + ping_period /\ (tick c r y).2 = true).
Proof.
  unfold tick. destruct (w_writer y) eqn:Ew; try (cbn; congruence).
  destruct (w_due y <=? c) eqn:Ed.
  - apply Z.leb_le in Ed. destruct (w_open y && negb (w_broken y) && negb r) eqn:E; cbn [fst snd w_writer w_due].
    + intros _. split; [done|]. right. apply andb_prop in E as [E Er]. apply andb_prop in E as [Eo Eb].
      destruct (w_broken y), r; done.
    + by destruct (w_ask y).
  - apply Z.leb_gt in Ed. intros _. split; [done|]. left. done.
Qed.

Lemma crashed_before srt s a s' : wstep srt s a s' -> crashed s' = false -> crashed s = false.
Proof. intros H Hc. destruct (crashed s) eqn:E; [|done]. by rewrite (step_crashed _ _ _ _ H E), E in Hc. Qed.
Lemma timely_step srt s a s' : stall_ok s -> timely s -> wstep srt s a s' -> timely s'.
Proof.
  intros Hso Ht Hst Hcr w x' Hx'. pose proof (crashed_before _ _ _ _ Hst Hcr) as Hcr0.
  unfold ping_period, pong_wait in *.
  destruct (step_back _ _ _ _ _ _ Hso Hst Hx') as [(x & Hx & He)|(_ & k & d & _ & -> & _)].
  2:{ unfold fresh_watcher, ping_period, pong_wait. cbn [w_open w_deadline w_writer w_due]. repeat split; intros; lia. }
  destruct (Ht Hcr0 w x Hx) as (H1 & H2 & H3). unfold ping_period, pong_wait in *.
  destruct He as [Hc|b Ha Hc|Ha Hc Ho _|Ha Hc Hw|rf b1 b2 y Ha Hc _ Hy _|rf b1 b2 _ Hc].
  - by rewrite Hc.
  - rewrite Hc. autorewrite with fields. cbn [shut w_open w_writer w_due w_deadline]. done.
  - rewrite Hc. cbn [w_open w_writer w_due w_deadline]. unfold pong_wait. repeat split; intros; try lia; apply H2; done.
  - rewrite Hc. cbn [w_open w_writer w_due w_deadline]. done.
  - assert (w_writer y = w_writer x) as Hyw by (subst y; by autorewrite with fields).
    assert (w_due y = w_due x) as Hyd by (subst y; by autorewrite with fields).
    assert (w_deadline y = w_deadline x) as Hydl by (subst y; by autorewrite with fields).
    assert (w_open y = w_open x && (clock s' <? w_deadline x)) as Hyo by (subst y; by autorewrite with fields).
    clear Hy. split; [|split].
    + intros Ho. apply tick_facts in Ho. rewrite tick_deadline, Hydl. rewrite Hyo in Ho. apply andb_prop in Ho as [_ Ho].
      by apply Z.ltb_lt in Ho.
    + intros Hw. destruct (tick_due _ _ _ Hw) as [Hwp [[Hlt Heq]|(Hle & _ & _ & _ & Heq & _)]].
      * rewrite Heq. cbn [fst]. rewrite Hyw in Hwp. specialize (H2 Hwp). lia.
      * rewrite Heq. unfold ping_period. rewrite Hyw in Hwp. specialize (H2 Hwp). lia.
    + rewrite tick_deadline. lia.
  - by rewrite Hc in Hcr.
Qed.
Lemma timely_reach srt acts s : sort_contract srt -> wrun srt start acts s -> timely s.
Proof.
  intros Hsrt. revert s. induction acts as [|a acts IH] using rev_ind; intros s Hr.
  - inversion Hr; subst. intros _ w x H. done.
  - apply wrun_snoc in Hr as (s1 & Hr & Hst). pose proof (inv_reach _ _ _ Hsrt Hr) as [_ Hso _].
    apply (timely_step srt s1 a); [done|by apply IH|done].
Qed.

(** A client that stops answering: after pong_wait the connection is closed, and by
    the next tick its writer has returned. *)
Definition expires (D : Z) (x : watcher) : Prop :=
  (w_open x = true -> w_deadline x <= D) /\ (w_writer x = Pinging -> w_due x <= D + ping_period).
Lemma expires_step srt s a s' w x D : stall_ok s -> timely s -> wstep srt s a s' -> crashed s' = false ->
  a <> Pong w -> ws s !! w = Some x -> expires D x ->
  exists x', ws s' !! w = Some x' /\ expires D x'.
Proof.
  intros Hso Ht Hst Hcr Hna Hx [H1 H2]. destruct (step_evolves _ _ _ _ _ _ Hso Hst Hx) as (x' & Hx' & He).
  exists x'. split; [done|]. unfold expires, ping_period in *.
  destruct He as [Hc|b Ha Hc|Ha Hc Ho _|Ha Hc Hw|rf b1 b2 y Ha Hc _ Hy _|rf b1 b2 _ Hc].
  - done.
  - autorewrite with fields. cbn [shut w_open w_writer w_due w_deadline]. done.
  - done.
  - cbn [w_open w_writer w_due w_deadline]. done.
  - assert (w_writer y = w_writer x) as Hyw by (subst y; by autorewrite with fields).
    assert (w_due y = w_due x) as Hyd by (subst y; by autorewrite with fields).
    assert (w_deadline y = w_deadline x) as Hydl by (subst y; by autorewrite with fields).
    assert (w_open y = w_open x && (clock s' <? w_deadline x)) as Hyo by (subst y; by autorewrite with fields).
    clear Hy. split.
    + intros Ho. apply tick_facts in Ho. rewrite tick_deadline, Hydl. rewrite Hyo in Ho. apply andb_prop in Ho as [Ho _].
      by apply H1.
    + intros Hw. destruct (tick_due _ _ _ Hw) as [Hwp [[Hlt Heq]|(Hle & Ho & _ & _ & Heq & _)]].
      * rewrite Heq. cbn [fst]. rewrite Hyd. apply H2. congruence.
      * rewrite Heq. unfold ping_period. rewrite Hyo in Ho. apply andb_prop in Ho as [Ho Hlt].
        apply Z.ltb_lt in Hlt. specialize (H1 Ho). lia.
  - by rewrite Hc in Hcr.
Qed.
Lemma crashed_run srt s acts s' : wrun srt s acts s' -> crashed s' = false -> crashed s = false.
Proof. intros H. induction H as [|s a s1 acts s2 Hst _ IH]; [done|]. intros Hc. by apply (crashed_before _ _ _ _ Hst), IH. Qed.
Lemma expires_run srt s acts s' w D : sort_contract srt -> wrun srt s acts s' -> forall x, inv srt s -> timely s -> crashed s' = false ->
  ~ In (Pong w) acts -> ws s !! w = Some x -> expires D x ->
  exists x', ws s' !! w = Some x' /\ expires D x'.
Proof.
  intros Hsrt H. induction H as [|s a s1 acts s2 Hst Hr IH]; intros x HI Ht Hcr Hn Hx He; [eauto|].
  pose proof (crashed_run _ _ _ _ Hr Hcr) as Hcr1.
  destruct (expires_step _ _ _ _ w x D (i_stall _ _ HI) Ht Hst Hcr1) as (x1 & Hx1 & He1); [|done|done|].
  { intros ->. apply Hn. by left. }
  apply (IH x1); [by apply (inv_step srt s a)|by apply (timely_step srt s a); [apply HI|..]|done| |done|done].
  intros Hin. apply Hn. by right.
Qed.
Lemma wrun_app srt s a s1 b s2 : wrun srt s a s1 -> wrun srt s1 b s2 -> wrun srt s (a ++ b) s2.
Proof. intros H1 H2. induction H1; [done|]. cbn [app]. by econstructor; [|apply IHwrun]. Qed.

Lemma silent_client srt acts0 s acts s' w x : sort_contract srt -> wrun srt start acts0 s -> wrun srt s acts s' ->
  crashed s' = false -> ws s !! w = Some x -> ~ In (Pong w) acts -> clock s + pong_wait + ping_period <= clock s' ->
  exists x', ws s' !! w = Some x' /\ w_open x' = false /\ w_writer x' <> Pinging.
Proof.
  intros Hsrt Hr0 Hr Hcr Hx Hn Hclk. pose proof (timely_reach _ _ _ Hsrt Hr0) as Ht.
  pose proof (inv_reach _ _ _ Hsrt Hr0) as HI. pose proof (crashed_run _ _ _ _ Hr Hcr) as Hcr0.
  destruct (Ht Hcr0 w x Hx) as (T1 & T2 & T3).
  destruct (expires_run _ _ _ _ w (clock s + pong_wait) Hsrt Hr x HI Ht Hcr Hn Hx) as (x' & Hx' & E1 & E2).
  { split; [done|]. intros Hw. specialize (T2 Hw). unfold ping_period, pong_wait in *. lia. }
  exists x'. split; [done|].
  pose proof (timely_reach _ _ _ Hsrt (wrun_app _ _ _ _ _ _ Hr0 Hr) Hcr w x' Hx') as (U1 & U2 & U3).
  unfold ping_period, pong_wait in *. split.
  - destruct (w_open x'); [|done]. specialize (U1 eq_refl). specialize (E1 eq_refl). lia.
  - intros Hw. specialize (U2 Hw). specialize (E2 Hw). lia.
Qed.
Lemma departed_client srt acts0 s acts s' w x : sort_contract srt -> wrun srt start acts0 s -> wrun srt s acts s' ->
  crashed s' = false -> ws s !! w = Some x -> w_open x = false -> clock s + ping_period <= clock s' ->
  exists x', ws s' !! w = Some x' /\ w_open x' = false /\ w_writer x' <> Pinging.
Proof.
  intros Hsrt Hr0 Hr Hcr Hx Hxo Hclk. pose proof (timely_reach _ _ _ Hsrt Hr0) as Ht.
  pose proof (inv_reach _ _ _ Hsrt Hr0) as HI. pose proof (crashed_run _ _ _ _ Hr Hcr) as Hcr0.
  destruct (Ht Hcr0 w x Hx) as (T1 & T2 & T3).
  assert (exists x', ws s' !! w = Some x' /\ w_open x' = false /\ (w_writer x' = Pinging -> w_due x' <= clock s + ping_period)) as (x' & Hx' & Ho & Hd).
  { assert (w_writer x = Pinging -> w_due x <= clock s + ping_period) as T2' by (intros Hw; specialize (T2 Hw); lia).
    clear T1 T2 T3 Hclk. generalize (clock s + ping_period), T2'. clear T2'. intros D T2'. clear Hr0. revert x Hx Hxo T2'.
    induction Hr as [|s a s1 b s2 Hst Hr IH]; intros x Hx Hxo T2; [eauto|].
    pose proof (crashed_run _ _ _ _ Hr Hcr) as Hcr1.
    destruct (step_evolves _ _ _ _ _ _ (i_stall _ _ HI) Hst Hx) as (x1 & Hx1 & He).
    apply (IH Hcr (timely_step _ _ _ _ (i_stall _ _ HI) Ht Hst) (inv_step _ _ _ _ Hsrt HI Hst) Hcr1 x1 Hx1).
    - destruct He as [Hc|c Ha Hc|Ha Hc Ho _|Ha Hc Hw|rf b1 b2 y Ha Hc _ Hy _|rf b1 b2 _ Hc].
      + done.
      + by autorewrite with fields.
      + by rewrite Hxo in Ho.
      + done.
      + destruct (w_open (tick _ _ y).1) eqn:E; [|done]. apply tick_facts in E. subst y. autorewrite with fields in E.
        by rewrite Hxo in E.
      + autorewrite with fields. by rewrite Hxo.
    - destruct He as [Hc|c Ha Hc|Ha Hc Ho _|Ha Hc Hw|rf b1 b2 y Ha Hc _ Hy _|rf b1 b2 _ Hc].
      + done.
      + by autorewrite with fields.
      + done.
      + done.
      + intros Hw. destruct (tick_due _ _ _ Hw) as [Hwp [[Hlt Heq]|(Hle & Ho & _)]].
        * rewrite Heq. cbn [fst]. subst y. autorewrite with fields in *. by apply T2.
        * subst y. autorewrite with fields in Ho. by rewrite Hxo in Ho.
      + by rewrite Hc in Hcr1. }
  exists x'. split; [done|]. split; [done|]. intros Hw.
  pose proof (timely_reach _ _ _ Hsrt (wrun_app _ _ _ _ _ _ Hr0 Hr) Hcr w x' Hx') as (U1 & U2 & U3).
  specialize (U2 Hw). specialize (Hd Hw). lia.
Qed.

(** * What a step writes down *)
Definition reason (s s' : sys) (a : act) (o : obs) : Prop :=
  match o with
  | Ponged w => a = Pong w /\ exists x, ws s' !! w = Some x /\ w_deadline x = clock s' + pong_wait
  | Got w _ => exists x, ws s !! w = Some x /\ alive x = true
  | _ => True
  end.
Lemma step_notes srt s a s' : stall_ok s -> wstep srt s a s' ->
  exists l, log s' = (log s ++ map (pair (clock s')) l)%list /\ forall o, o ∈ l -> reason s s' a o.
Proof.
  intros Hso H. destruct H as [s e path h cs _ _ _|s a Hne].
  { exists [Published e path]. split; [done|]. intros o Ho. by apply elem_of_list_singleton in Ho as ->. }
  assert (log s = log s ++ map (pair (clock s)) [])%list as Hnil by (by rewrite app_nil_r).
  destruct (crashed s); [exists []; split; [done|]; intros o Ho; by apply elem_of_nil in Ho|].
  destruct a as [a d|v|v|e p|tk| |v|rf]; cbn [do_act].
  - destruct (idle s); [destruct (step _ _ _)|]; [|exists []; (split; [done|]); intros o Ho; by apply elem_of_nil in Ho..].
    eexists. split; [done|]. intros o Ho. by apply elem_of_list_singleton in Ho as ->.
  - exists []. rewrite settle_log, settle_clock. split; [done|]. intros o Ho. by apply elem_of_nil in Ho.
  - destruct (ws s !! v) as [x|] eqn:Ev; [destruct (w_open x)|]; [|exists []; (split; [done|]); intros o Ho; by apply elem_of_nil in Ho..].
    eexists. split; [done|]. intros o Ho. apply elem_of_list_singleton in Ho as ->. cbn. split; [done|].
    eexists. split; [apply list_lookup_insert; by apply lookup_lt_Some in Ev|done].
  - exists []. split; [done|]. intros o Ho. by apply elem_of_nil in Ho.
  - destruct (stall s) eqn:Es, (todo s) as [|u r] eqn:Et; try (exists []; (split; [done|]); intros o Ho; by apply elem_of_nil in Ho).
    destruct (ws s !! u) as [x|] eqn:Eu; [|exists []; (split; [done|]); intros o Ho; by apply elem_of_nil in Ho].
    change (w_open x && negb (w_broken x)) with (alive x). destruct (alive x) eqn:Ea; [destruct tk|].
    + eexists. split; [done|]. intros o Ho. apply elem_of_cons in Ho as [->|Ho]; [done|].
      apply elem_of_list_singleton in Ho as ->. cbn. eauto.
    + eexists. split; [done|]. intros o Ho. by apply elem_of_list_singleton in Ho as ->.
    + eexists. split; [done|]. intros o Ho. by apply elem_of_list_singleton in Ho as ->.
  - destruct (stall s) as [t|] eqn:Es, (todo s) as [|u r] eqn:Et; try (exists []; (split; [done|]); intros o Ho; by apply elem_of_nil in Ho).
    eexists. split; [done|]. intros o Ho. apply elem_of_list_singleton in Ho as ->. cbn.
    destruct (Hso t Es) as (w & r' & x & Hd & Hw & Ha). rewrite Et in Hd. injection Hd as <- _. eauto.
  - destruct (ws s !! v) as [x|] eqn:Ev; [destruct (w_writer x)|]; try (exists []; (split; [done|]); intros o Ho; by apply elem_of_nil in Ho).
    destruct (idle s); [destruct (step _ _ _)|]; try (exists []; (split; [done|]); intros o Ho; by apply elem_of_nil in Ho).
    eexists. split; [done|]. intros o Ho. by apply elem_of_list_singleton in Ho as ->.
  - unfold millisecond. cbv zeta.
    set (s0 := Sys (clock s + 1) _ _ _ _ _ _ _). pose proof (write_timeout_log s0) as H1. cbn [log s0] in H1.
    set (s1 := write_timeout s0) in *. set (s1' := Sys (clock s1) _ _ _ _ _ _ _).
    pose proof (settle_log s1') as H2. set (s2 := settle s1') in *.
    assert (log s2 = log s) as Hl by (rewrite H2; unfold s1'; cbn [log]; by rewrite H1).
    clearbody s2. clear H2 s1'. clear H1 s1. clear s0.
    destruct (clash s2); [exists []; cbn [log clock]; split; [cbn [map]; by rewrite Hl, app_nil_r|]; intros o Ho; by apply elem_of_nil in Ho|].
    destruct (ticks (clock s2) rf 0 (ws s2)) as [l o] eqn:Et. exists o. cbn [log clock]. unfold note. rewrite Hl. split; [done|].
    intros p Hp. pose proof (ticks_neutral (clock s2) rf (ws s2) 0) as Hn. rewrite Et in Hn. cbn [snd] in Hn.
    assert (exists i, p = Pinged i) as [i ->]; [|done].
    clear Hl Hnil Hn. assert (forall l i, forall q, q ∈ (ticks (clock s2) rf i l).2 -> exists i, q = Pinged i) as Hq.
    { intros l0. induction l0 as [|y l0 IH]; intros i q Hq; [by apply elem_of_nil in Hq|]. cbn [ticks] in Hq.
      destruct (tick _ _ y) as [y' b]. specialize (IH (S i) q). destruct (ticks _ _ (S i) l0) as [l1 o1].
      cbn [snd] in *. destruct b; [|by apply IH]. apply elem_of_cons in Hq as [->|Hq]; [eauto|by apply IH]. }
    apply (Hq (ws s2) 0%nat). by rewrite Et.
Qed.

(** * Prompt clients *)
Lemma prompt_before srt s a s' w : wstep srt s a s' -> prompt w s' -> prompt w s.
Proof.
  intros Hst Hp t Hin Ht. destruct (step_log _ _ _ _ Hst) as (l & Hl & Hc).
  destruct (Hp t) as (t' & Hin' & Ht').
  - rewrite Hl. apply elem_of_app. by left.
  - lia.
  - exists t'. split; [|done]. rewrite Hl in Hin'. apply elem_of_app in Hin' as [Hin'|Hin']; [done|].
    apply elem_of_list_fmap in Hin' as (o & Ho & _). injection Ho as -> _. lia.
Qed.
Lemma tick_broken c r y : w_broken y = true -> w_broken (tick c r y).1 = true.
Proof.
  intros H. unfold tick. destruct (w_writer y); try done. destruct (_ <=? _); [|done]. rewrite H.
  by rewrite andb_false_r.
Qed.
Lemma evolves_broken s s' w a x x' : evolves s s' w a x x' -> w_broken x' = false -> w_broken x = false.
Proof.
  intros He Hb. destruct (w_broken x) eqn:E; [|done]. exfalso.
  assert (forall b y, w_broken y = true -> w_broken (maybe b break y) = true) as Hm by (intros [] y Hy; done).
  destruct He as [Hc|c Ha Hc|Ha Hc Ho _|Ha Hc Hw|rf b1 b2 y Ha Hc _ Hy _|rf b1 b2 _ Hc].
  - congruence.
  - rewrite Hm in Hb; done.
  - cbn in Hb. congruence.
  - cbn in Hb. congruence.
  - rewrite tick_broken in Hb; [done|]. subst y. apply Hm. rewrite expire_broken. by apply Hm.
  - rewrite Hm in Hb; [done|]. rewrite expire_broken. by apply Hm.
Qed.

Definition answered (w : nat) (s : sys) (x : watcher) : Prop :=
  w_open x = true /\ w_writer x = Pinging /\
  (forall t, (t, Ponged w) ∈ log s -> t + pong_wait <= w_deadline x) /\
  exists t0, w_due x = t0 + ping_period /\ t0 + 3000 <= w_deadline x /\
    (t0 + pong_wait <= w_deadline x \/ (t0, Pinged w) ∈ log s).

Lemma log_names srt acts s w t : sort_contract srt -> wrun srt start acts s -> ws s !! w = None -> (t, Ponged w) ∉ log s.
Proof.
  intros Hsrt. revert s. induction acts as [|a acts IH] using rev_ind; intros s Hr Hn Hin.
  - inversion Hr; subst. by apply elem_of_nil in Hin.
  - apply wrun_snoc in Hr as (s1 & Hr & Hst). pose proof (inv_reach _ _ _ Hsrt Hr) as [_ Hso _].
    destruct (step_notes _ _ _ _ Hso Hst) as (l & Hl & Hreason). rewrite Hl in Hin. apply elem_of_app in Hin as [Hin|Hin].
    + apply (IH s1 Hr); [|done]. destruct (ws s1 !! w) as [x|] eqn:E; [|done].
      destruct (step_evolves _ _ _ _ _ _ Hso Hst E) as (x' & Hx' & _). by rewrite Hn in Hx'.
    + apply elem_of_list_fmap in Hin as (q & Hq & Hin). injection Hq as _ <-.
      destruct (Hreason _ Hin) as (_ & x & Hx & _). by rewrite Hn in Hx.
Qed.

Lemma prompt_client srt acts s w x : sort_contract srt -> wrun srt start acts s -> crashed s = false ->
  ws s !! w = Some x -> w_broken x = false -> ~ In (Leave w) acts ->
  (forall rf, In (Millisecond rf) acts -> w ∉ rf) -> prompt w s -> answered w s x.
Proof.
  intros Hsrt. revert s x. induction acts as [|a acts IH] using rev_ind; intros s' x' Hr Hcr Hx' Hb Hnl Hnr Hp.
  - inversion Hr; subst. done.
  - apply wrun_snoc in Hr as (s & Hr & Hst). pose proof (inv_reach _ _ _ Hsrt Hr) as [_ Hso _].
    pose proof (crashed_before _ _ _ _ Hst Hcr) as Hcr0.
    destruct (step_notes _ _ _ _ Hso Hst) as (l & Hl & Hreason).
    assert (a <> Leave w) as Hal by (intros ->; apply Hnl, in_or_app; right; by left).
    destruct (step_back _ _ _ _ _ _ Hso Hst Hx') as [(x & Hx & He)|(Hn & k & d & _ & -> & _ & Hlog)].
    2:{ split; [done|]. split; [done|]. split.
        - intros t Ht. rewrite Hlog in Ht. apply elem_of_app in Ht as [Ht|Ht].
          + by destruct (log_names srt acts s w t Hsrt Hr Hn).
          + by apply elem_of_list_singleton in Ht.
        - exists (clock s'). unfold fresh_watcher, ping_period, pong_wait. cbn [w_due w_deadline]. split; [done|]. lia. }
    pose proof (evolves_broken _ _ _ _ _ _ He Hb) as Hb0.
    destruct (IH s x Hr Hcr0 Hx Hb0) as (Ho & Hw & Hpong & t0 & Hdue & Hdl & Hor); clear IH.
    { intros Hin. apply Hnl, in_or_app. by left. }
    { intros rf Hin. apply Hnr, in_or_app. by left. }
    { by apply (prompt_before srt s a s'). }
    pose proof (timely_reach _ _ _ Hsrt Hr Hcr0 w x Hx) as (T1 & T2 & T3). specialize (T2 Hw).
    unfold ping_period, pong_wait in *.
    assert (forall t, (t, Ponged w) ∈ log s' -> t + 30000 <= w_deadline x') as Hpong'.
    { intros t Ht. rewrite Hl in Ht. apply elem_of_app in Ht as [Ht|Ht].
      - specialize (Hpong t Ht). enough (w_deadline x <= w_deadline x') by lia.
        destruct He as [Hc|c Ha Hc|Ha Hc _ _|Ha Hc Hwr|rf b1 b2 y Ha Hc _ Hy _|rf b1 b2 _ Hc]; autorewrite with fields; cbn [w_deadline shut]; try lia.
        + rewrite Hc. unfold pong_wait in *. lia.
        + rewrite tick_deadline. subst y. autorewrite with fields. lia.
      - apply elem_of_list_fmap in Ht as (o & Ho' & Hin). injection Ho' as -> <-.
        destruct (Hreason _ Hin) as (_ & y & Hy & Hyd). rewrite Hx' in Hy. injection Hy as <-. unfold pong_wait in Hyd. lia. }
    destruct He as [Hc|c Ha Hc|Ha Hc _ _|Ha Hc Hwr|rf b1 b2 y Ha Hc _ Hy Hping|rf b1 b2 _ Hc].
    + split; [done|]. split; [done|]. split; [done|]. exists t0. unfold ping_period, pong_wait. split; [done|]. split; [done|].
      destruct Hor as [Hor|Hor]; [by left|]. right. rewrite Hl. apply elem_of_app. by left.
    + done.
    + split; [done|]. split; [done|]. split; [exact Hpong'|]. exists t0. unfold ping_period, pong_wait. cbn [w_due w_deadline].
      split; [done|]. split; [lia|]. left. lia.
    + congruence.
    + assert (w ∉ rf) as Hrf by (apply Hnr, in_or_app; right; left; by rewrite Ha).
      rewrite bool_decide_eq_false_2 in * by done.
      assert (t0 + 30000 <= w_deadline x \/ clock s' < t0 + 3000) as Hkey.
      { destruct Hor as [Hor|Hor]; [by left|]. destruct (Z.lt_ge_cases (clock s') (t0 + 3000)) as [Hlt|Hge]; [by right|]. left.
        destruct (Hp t0) as (t' & Hin' & Ht'); [rewrite Hl; apply elem_of_app; by left|lia|].
        rewrite Hl in Hin'. apply elem_of_app in Hin' as [Hin'|Hin'].
        - specialize (Hpong t' Hin'). lia.
        - apply elem_of_list_fmap in Hin' as (o & Ho' & Hin). injection Ho' as _ <-.
          destruct (Hreason _ Hin) as (Hap & _). by rewrite Ha in Hap. }
      assert (w_writer y = Pinging) as Hyw by (subst y; by autorewrite with fields).
      assert (w_due y = w_due x) as Hyd by (subst y; by autorewrite with fields).
      assert (w_deadline y = w_deadline x) as Hydl by (subst y; by autorewrite with fields).
      assert (w_open y = true) as Hyo.
      { subst y. autorewrite with fields. rewrite Ho. cbn [andb]. apply Z.ltb_lt. lia. }
      assert (w_broken y = false) as Hyb.
      { destruct (w_broken y) eqn:E; [|done]. by rewrite tick_broken in Hb. }
      clear Hy. unfold tick in *. rewrite Hyw, Hyo, Hyb in *. cbn [andb negb] in *.
      destruct (w_due y <=? clock s') eqn:Ed.
      * apply Z.leb_le in Ed. split; [done|]. split; [done|]. split; [exact Hpong'|]. cbn [fst w_due w_deadline].
        exists (w_due y). split; [done|]. rewrite Hyd, Hydl. unfold pong_wait. split; [lia|]. right.
        assert (w_due x = clock s') as -> by lia. by apply Hping.
      * apply Z.leb_gt in Ed. cbn [fst] in *. split; [done|]. split; [done|]. split; [exact Hpong'|].
        exists t0. rewrite Hyd, Hydl. unfold ping_period, pong_wait. split; [done|]. split; [done|].
        destruct Hor as [Hor|Hor]; [by left|]. right. rewrite Hl. apply elem_of_app. by left.
    + by rewrite Hc in Hcr.
Qed.
