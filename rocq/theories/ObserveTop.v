(** The observer's events, and the observer together with the cache. *)
From Coq Require Import ZArith String Lia.
From stdpp Require Import base list strings gmap.
From Verif Require Import TopoModel TopoSpec TopoProofs ObserveModel ObserveSpec ObserveProofs.

Local Open Scope string_scope.

Section One.
Variables (h : list (callback * cri)) (cb : callback) (answer : cri).
Hypotheses (O : Forall (fun e => ordinary (fst e)) h) (N : Forall (fun e => numeric (snd e)) h).
Hypotheses (Ocb : ordinary cb) (Na : numeric answer).
Variables (c1 : phased) (evs : list observation).
Hypothesis (E : observe ∅ h = Some (c1, evs)).

Lemma one_agrees : agrees c1 h.
Proof.
  destruct (observe_init h O N) as (c & E' & A). rewrite E in E'. injection E' as -> _. exact A.
Qed.

Lemma one_handled : exists c2, handle c1 cb answer
  = Some (c2, emitted match about cb with Some p => memory p h | None => None end cb answer).
Proof.
  destruct (handle_ok c1 h cb answer one_agrees Ocb Na) as (c2 & H & _). eauto.
Qed.

Lemma one_starts p : about cb = Some p -> announces cb ->
  exists c2 cs, handle c1 cb answer = Some (c2, starts cs)
    /\ answers answer (p_name p) (p_namespace p) cs.
Proof.
  intros Hp Ha. destruct one_handled as [c2 H]. exists c2, (now answer p).
  pose proof (ordinary_valid cb p Ocb Hp) as V. split; [|by apply now_answers].
  rewrite H. destruct cb as [q|old new|q|]; cbn in Hp, Ha; try done.
  - injection Hp as ->. reflexivity.
  - injection Hp as ->. destruct Ha as [Ha1 Ha2]. cbn [emitted]. rewrite Ha1, Ha2. reflexivity.
Qed.

Lemma one_stops p : cb = Delete p ->
  exists c2 cs, handle c1 cb answer = Some (c2, stops cs)
    /\ (remembered p h cs
        \/ (forall cs', ~ remembered p h cs') /\ answers answer (p_name p) (p_namespace p) cs).
Proof.
  intros Hp. destruct one_handled as [c2 H].
  assert (V : valid p) by (apply (ordinary_valid cb p Ocb); rewrite Hp; reflexivity).
  rewrite Hp in H. cbn [about emitted] in H. rewrite Hp.
  destruct (memory p h) as [cs|] eqn:Em.
  - exists c2, cs. split; [exact H|]. left. by apply memory_remembered.
  - exists c2, (now answer p). split; [exact H|]. right. split; [|by apply now_answers].
    intros cs' Hr. apply memory_remembered in Hr; [congruence|assumption..].
Qed.

Lemma one_silent : ~ announces cb -> (forall p, cb <> Delete p) ->
  exists c2, handle c1 cb answer = Some (c2, []).
Proof.
  intros Ha Hd. destruct one_handled as [c2 H]. exists c2. rewrite H.
  destruct cb as [q|old new|q|]; cbn in Ha |- *.
  - tauto.
  - destruct (String.eqb (p_phase old) Pending && String.eqb (p_phase new) Running) eqn:Ep; [|done].
    exfalso. apply Ha. apply andb_true_iff in Ep as [E1 E2].
    apply String.eqb_eq in E1, E2. auto.
  - by destruct (Hd q).
  - done.
Qed.

End One.

Lemma answers_own answer name ns cs : answers answer name ns cs ->
  Forall (fun c => c_pod c = name /\ c_namespace c = ns) cs.
Proof. destruct answer; cbn; [apply listed_own|]. intros ->. constructor. Qed.

Lemma remembered_own p h cs : remembered p h cs ->
  Forall (fun c => c_pod c = p_name p /\ c_namespace c = p_namespace p) cs.
Proof.
  intros (b & bt & e & a & _ & _ & _ & _ & (_ & _ & H & _)). exact (answers_own _ _ _ _ H).
Qed.

Lemma observe_own h cb answer c1 evs :
  Forall (fun e => ordinary (fst e)) h -> Forall (fun e => numeric (snd e)) h ->
  ordinary cb -> numeric answer -> observe ∅ h = Some (c1, evs) ->
  exists c2 out, handle c1 cb answer = Some (c2, out)
    /\ forall ev, In ev out -> exists ty c p, ev = OEvent ty (Some c) /\ about cb = Some p
         /\ c_pod c = p_name p /\ c_namespace c = p_namespace p.
Proof.
  intros O N Oc Na E.
  assert (D : announces cb \/ ~ announces cb).
  { destruct cb as [q|old new|q|]; cbn; try tauto.
    destruct (String.eqb_spec (p_phase old) "Pending"); [|tauto].
    destruct (String.eqb_spec (p_phase new) "Running"); tauto. }
  assert (Hev : forall ty cs p ev, about cb = Some p ->
    Forall (fun c => c_pod c = p_name p /\ c_namespace c = p_namespace p) cs ->
    In ev (map (fun c => OEvent ty (Some c)) cs) ->
    exists ty c p, ev = OEvent ty (Some c) /\ about cb = Some p
         /\ c_pod c = p_name p /\ c_namespace c = p_namespace p).
  { intros ty cs p ev Hp F Hin. apply in_map_iff in Hin as (c & <- & Hc).
    rewrite Forall_forall in F. apply elem_of_list_In in Hc. destruct (F c Hc). eauto 10. }
  destruct D as [Ha|Ha].
  - assert (exists p, about cb = Some p) as [p Hp] by (destruct cb; cbn in *; eauto; tauto).
    destruct (one_starts h cb answer O N Oc Na c1 evs E p Hp Ha) as (c2 & cs & H & Hcs).
    exists c2, (starts cs). split; [exact H|]. intros ev. apply (Hev _ cs p); [exact Hp|].
    exact (answers_own _ _ _ _ Hcs).
  - destruct cb as [q|old new|q|] eqn:Ecb.
    + destruct Ha. exact I.
    + destruct (one_silent h (Update old new) answer O N Oc Na c1 evs E Ha) as [c2 H]; [discriminate|].
      exists c2, []. split; [exact H|]. intros ev [].
    + destruct (one_stops h (Delete q) answer O N Oc Na c1 evs E q eq_refl) as (c2 & cs & H & Hcs).
      exists c2, (stops cs). split; [exact H|]. intros ev. apply (Hev _ cs q); [reflexivity|].
      destruct Hcs as [Hr|[_ Hn]]; [exact (remembered_own _ _ _ Hr)|exact (answers_own _ _ _ _ Hn)].
    + destruct Oc as [_ []].
Qed.

(** * No panics *)

Lemma observe_no_panic h : Forall (fun e => ordinary (fst e)) h -> Forall (fun e => numeric (snd e)) h ->
  observe ∅ h <> None.
Proof. intros O N. destruct (observe_init h O N) as (c & E & _). congruence. Qed.

Lemma observe_unknown h : In DeleteUnknown (map fst h) -> forall cache, observe cache h = None.
Proof.
  induction h as [|[cb answer] h IH]; intros Hin cache; [destruct Hin|].
  destruct Hin as [Hd|Hin].
  - cbn in Hd. subst cb. reflexivity.
  - cbn [observe]. destruct (handle cache cb answer) as [[c out]|]; [|done].
    by rewrite IH.
Qed.

(** * With the cache *)

Lemma observes_read_only evs : Forall read_only (map Observe evs).
Proof. induction evs; constructor; [exact I|assumption]. Qed.

Lemma resolve_known h c evs n : observe ∅ h = Some (c, evs) ->
  resolve h n = Some match known (map Observe evs) !! n with
                     | Some c => Found (Some c) | None => NotFound end.
Proof.
  intros E. unfold resolve. rewrite E. f_equal.
  destruct (run_init_ok _ (observes_read_only evs)) as (um & I & _).
  pose proof (inv_lookup _ _ um n I) as H. destruct (lookup_container _ n) as [s out].
  destruct H as [_ ->]. reflexivity.
Qed.

Lemma known_app past ops : known (past ++ ops) = foldl known1 (known past) ops.
Proof. unfold known. by rewrite foldl_app. Qed.

Lemma known_pidns past : forall n c, known past !! n = Some c -> c_pidns c = n /\ (0 < n)%Z.
Proof.
  intros n c H. apply known_last in H. destruct H as (b & o & a & _ & Ho & Hn & _).
  split; [exact Hn|]. subst n. unfold announce in Ho.
  destruct o as [[|ty [c'|]]| | |]; try discriminate; destruct ty as [|[]|]; try discriminate.
  - destruct (Z.ltb_spec 0 (c_pidns c')); [|discriminate]. congruence.
  - destruct (0 <? c_pidns c')%Z; discriminate.
Qed.

Lemma stops_known cs : forall k n,
  foldl known1 k (map Observe (stops cs)) !! n
  = if existsb (fun c => (0 <? c_pidns c) && (c_pidns c =? n))%Z cs then None else k !! n.
Proof.
  induction cs as [|c cs IH]; intros k n; [done|]. cbn [stops map foldl existsb].
  fold (stops cs). rewrite IH. unfold known1, announce, EventTypeStop.
  destruct (existsb _ cs) eqn:E; [by rewrite orb_true_r|]. rewrite orb_false_r.
  destruct (Z.ltb_spec 0 (c_pidns c)) as [Hp|Hp]; cbn [andb]; [|done].
  destruct (Z.eqb_spec (c_pidns c) n) as [<-|Hn]; [by rewrite lookup_delete|].
  by rewrite lookup_delete_ne.
Qed.

Lemma deleted_emits h p answer :
  ordinaries (h ++ [(Delete p, answer)]) -> numerics (h ++ [(Delete p, answer)]) ->
  exists c1 c2 evs cs, observe ∅ h = Some (c1, evs)
    /\ observe ∅ (h ++ [(Delete p, answer)]) = Some (c2, (evs ++ stops cs)%list)
    /\ cs = match memory p h with Some cs => cs | None => now answer p end.
Proof.
  intros O N. destruct (observe_snoc h (Delete p) answer O N) as (c1 & c2 & evs & E1 & E2).
  exists c1, c2, evs, (match memory p h with Some cs => cs | None => now answer p end).
  split; [exact E1|]. split; [exact E2|done].
Qed.

Lemma delete_forgets h p answer cs c :
  ordinaries (h ++ [(Delete p, answer)]) -> numerics (h ++ [(Delete p, answer)]) ->
  remembered p h cs -> In c cs ->
  resolve (h ++ [(Delete p, answer)]) (c_pidns c) = Some NotFound.
Proof.
  intros O N Hr Hc. destruct (deleted_emits h p answer O N) as (c1 & c2 & evs & cs' & E1 & E2 & Hcs).
  apply Forall_app in O as [O Od]. apply Forall_app in N as [N _]. inversion Od; subst.
  assert (V : valid p) by (eapply ordinary_valid; [eassumption|reflexivity]).
  apply memory_remembered in Hr; [|assumption..]. rewrite Hr in *.
  rewrite (resolve_known _ _ _ _ E2). f_equal.
  rewrite map_app, known_app, stops_known.
  destruct (existsb _ cs) eqn:E; [done|].
  destruct (known (map Observe evs) !! c_pidns c) as [c'|] eqn:Ek; [|done].
  apply known_pidns in Ek as [_ Hpos]. exfalso.
  assert (existsb (fun c0 => (0 <? c_pidns c0) && (c_pidns c0 =? c_pidns c))%Z cs = true) as E'.
  { apply existsb_exists. exists c. split; [exact Hc|]. apply andb_true_iff.
    split; [by apply Z.ltb_lt|apply Z.eqb_refl]. }
  congruence.
Qed.

Lemma delete_leaks h p answer cs n c :
  ordinaries (h ++ [(Delete p, answer)]) -> numerics (h ++ [(Delete p, answer)]) ->
  remembered p h cs -> (forall c', In c' cs -> c_pidns c' <> n) ->
  resolve h n = Some (Found (Some c)) ->
  resolve (h ++ [(Delete p, answer)]) n = Some (Found (Some c)).
Proof.
  intros O N Hr Hn. destruct (deleted_emits h p answer O N) as (c1 & c2 & evs & cs' & E1 & E2 & Hcs).
  apply Forall_app in O as [O Od]. apply Forall_app in N as [N _]. inversion Od; subst.
  assert (V : valid p) by (eapply ordinary_valid; [eassumption|reflexivity]).
  apply memory_remembered in Hr; [|assumption..]. rewrite Hr in *.
  rewrite (resolve_known _ _ _ _ E1), (resolve_known _ _ _ _ E2). intros H. rewrite <- H.
  do 2 f_equal. rewrite map_app, known_app, stops_known.
  destruct (existsb _ cs) eqn:E; [|done]. exfalso.
  apply existsb_exists in E as (c' & Hc' & E). apply andb_true_iff in E as [_ E].
  apply Z.eqb_eq in E. exact (Hn c' Hc' E).
Qed.

(** A namespace no announcing callback was told about is never resolved. *)
Lemma starts_known cs : forall k n, (forall c, In c cs -> c_pidns c <> n) ->
  foldl known1 k (map Observe (starts cs)) !! n = k !! n.
Proof.
  induction cs as [|c cs IH]; intros k n H; [done|]. cbn [starts map foldl].
  fold (starts cs). rewrite IH by (intros; apply H; by right).
  unfold known1, announce, EventTypeStart. destruct (0 <? c_pidns c)%Z; [|done].
  rewrite lookup_insert_ne; [done|]. apply H. by left.
Qed.

Lemma unannounced h n :
  ordinaries h -> numerics h ->
  Forall (fun e => announces (fst e) -> forall p cs c, about (fst e) = Some p ->
    answers (snd e) (p_name p) (p_namespace p) cs -> In c cs -> c_pidns c <> n) h ->
  resolve h n = Some NotFound.
Proof.
  intros O N F. destruct (observe_init h O N) as (c & E & _).
  rewrite (resolve_known _ _ _ _ E). do 2 f_equal.
  assert (Hg : forall past k, k !! n = None -> foldl known1 k (map Observe (emissions past h)) !! n = None).
  { clear E c. revert O N F. induction h as [|[cb answer] h IH]; intros O N F past k Hk; [done|].
    inversion O; inversion N; inversion F; subst. cbn [fst snd] in *. cbn [emissions].
    rewrite map_app, foldl_app. apply IH; [assumption..|].
    assert (Hst : forall p, about cb = Some p -> announces cb ->
      foldl known1 k (map Observe (starts (now answer p))) !! n = None).
    { intros p Hp Ha. rewrite starts_known; [exact Hk|]. intros c Hc.
      match goal with H : announces cb -> _ |- _ => apply (H Ha p (now answer p) c Hp); [|exact Hc] end.
      apply now_answers; [|assumption]. by apply (ordinary_valid cb p). }
    destruct cb as [p|old new|p|]; cbn [emitted].
    - apply Hst; [reflexivity|exact I].
    - destruct (String.eqb (p_phase old) Pending && String.eqb (p_phase new) Running) eqn:Ep; [|exact Hk].
      apply andb_true_iff in Ep as [E1 E2]. apply String.eqb_eq in E1, E2.
      apply Hst; [reflexivity|split; assumption].
    - rewrite stops_known. destruct (existsb _ _); [done|exact Hk].
    - exact Hk. }
  unfold known. rewrite (Hg [] ∅ (lookup_empty _)). reflexivity.
Qed.
