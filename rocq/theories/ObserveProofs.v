(** Proofs about the Kubernetes observer. *)
From Coq Require Import ZArith String Lia.
From stdpp Require Import base list strings gmap.
From Verif Require Import TopoModel TopoSpec TopoProofs ObserveModel ObserveSpec.

Local Open Scope string_scope.

(** * The CRI's answers *)

Lemma label_some l k v : v <> "" -> label l k = v <-> l !! k = Some v.
Proof.
  intros Hv. unfold label. destruct (l !! k); cbn; split; congruence.
Qed.

Lemma eqb_false_ne a b : String.eqb a b = false <-> a <> b.
Proof. apply String.eqb_neq. Qed.

Definition skips (name ns : string) (r : cri_container) : bool :=
  String.eqb (label (cri_labels r) pod_label) "" || String.eqb (label (cri_labels r) namespace_label) ""
  || negb (String.eqb name (label (cri_labels r) pod_label))
  || negb (String.eqb ns (label (cri_labels r) namespace_label)).

Lemma skips_belongs name ns r : name <> "" -> ns <> "" ->
  skips name ns r = false <-> belongs name ns r.
Proof.
  intros Hn Hs. unfold skips, belongs.
  change "io.kubernetes.pod.name" with pod_label.
  change "io.kubernetes.pod.namespace" with namespace_label.
  rewrite <- !label_some by assumption.
  rewrite !orb_false_iff, !negb_false_iff, !String.eqb_eq, !eqb_false_ne.
  split; [intros [[[? ?] ?] ?]; auto|]. intros [-> ->]. auto.
Qed.

Lemma cri_loop_listed name ns rs : name <> "" -> ns <> "" ->
  forall cs, cri_loop (Some (name, ns)) rs = Some cs -> listed name ns rs cs.
Proof.
  intros Hn Hs. induction rs as [|r rs IH]; intros cs; cbn [cri_loop].
  { intros H. apply (inj Some) in H. subst cs. constructor. }
  fold (skips name ns r). destruct (skips name ns r) eqn:E.
  { intros H. apply listed_skip; [|exact (IH cs H)]. intros [Hb _].
    apply (skips_belongs name ns r Hn Hs) in Hb. congruence. }
  apply (skips_belongs name ns r Hn Hs) in E.
  destruct (cri_pid r) as [|pid|] eqn:Ep; [|destruct (cri_pidns r) as [n|] eqn:En|discriminate].
  - intros H. apply listed_skip; [|exact (IH cs H)]. intros [_ [[pid Hp] _]]. congruence.
  - destruct (cri_loop (Some (name, ns)) rs) as [rest|]; [|discriminate].
    intros H. apply (inj Some) in H. subst cs. apply listed_take; [exact E| |exact (IH rest eq_refl)].
    unfold describes. cbn. unfold label. repeat split; assumption.
  - intros H. apply listed_skip; [|exact (IH cs H)]. intros [_ [_ [n Hp]]]. congruence.
Qed.

Lemma cri_loop_total name ns rs : Forall (fun r => cri_pid r <> PidOther) rs ->
  exists cs, cri_loop (Some (name, ns)) rs = Some cs.
Proof.
  induction 1 as [|r rs Hr _ [cs IH]]; cbn [cri_loop]; [eauto|].
  fold (skips name ns r). destruct (skips name ns r); [eauto|]. rewrite IH.
  destruct (cri_pid r); [eauto| |contradiction]. destruct (cri_pidns r); eauto.
Qed.

Lemma describes_resolvable r c : describes r c -> resolvable r.
Proof. intros (H1 & H2 & _). split; eauto. Qed.

Lemma describes_unique r c c' : describes r c -> describes r c' -> c = c'.
Proof.
  intros (A1 & A2 & A3 & A4 & A5 & A6 & A7 & A8 & A9) (B1 & B2 & B3 & B4 & B5 & B6 & B7 & B8 & B9).
  destruct c, c'; cbn in *. f_equal; congruence.
Qed.

Lemma listed_unique name ns rs cs : listed name ns rs cs ->
  forall cs', listed name ns rs cs' -> cs = cs'.
Proof.
  induction 1 as [|r rs cs Hs _ IH|r rs c cs Hb Hd _ IH]; intros cs' H'; inversion H'; subst.
  - reflexivity.
  - apply IH. assumption.
  - exfalso. apply Hs. split; [assumption|]. eapply describes_resolvable. eassumption.
  - exfalso. match goal with H : ~ _ |- _ => apply H end.
    split; [assumption|]. eapply describes_resolvable. eassumption.
  - f_equal; [eapply describes_unique; eassumption|]. apply IH. assumption.
Qed.

Lemma pod_containers answer p cs : p_name p <> "" -> p_namespace p <> "" -> numeric answer ->
  containers_for_pod answer p = Some cs <-> answers answer (p_name p) (p_namespace p) cs.
Proof.
  intros Hn Hs Hnum. destruct answer as [rs|]; cbn.
  - split; [apply cri_loop_listed; assumption|]. intros H.
    destruct (cri_loop_total (p_name p) (p_namespace p) rs Hnum) as [cs' E]. rewrite E. f_equal.
    apply (listed_unique (p_name p) (p_namespace p) rs); [|exact H].
    apply cri_loop_listed; assumption.
  - split; [intros [= <-]; reflexivity|intros ->; reflexivity].
Qed.

Lemma pod_containers_total answer p : numeric answer ->
  exists cs, containers_for_pod answer p = Some cs.
Proof.
  destruct answer as [rs|]; cbn; [apply cri_loop_total|eauto].
Qed.

Lemma listed_own name ns rs cs : listed name ns rs cs ->
  Forall (fun c => c_pod c = name /\ c_namespace c = ns) cs.
Proof.
  induction 1 as [|r rs cs Hs _ IH|r rs c cs [Hb1 Hb2] Hd _ IH]; [constructor|assumption|].
  constructor; [|assumption]. destruct Hd as (_ & _ & _ & _ & _ & H6 & H7 & _).
  rewrite Hb1 in H6. rewrite Hb2 in H7. cbn in *. auto.
Qed.

(** * Keys *)

Lemma key_inj n1 : forall n2 s1 s2, ~ dotted s1 -> ~ dotted s2 ->
  n1 ++ "." ++ s1 = n2 ++ "." ++ s2 -> n1 = n2 /\ s1 = s2.
Proof.
  induction n1 as [|c n1 IH]; intros n2 s1 s2 H1 H2 H.
  - destruct n2 as [|c2 n2].
    + cbn in H. injection H. auto.
    + exfalso. cbn in H. injection H as _ Hs. apply H1. exists n2, s2. exact Hs.
  - destruct n2 as [|c2 n2].
    + exfalso. cbn in H. injection H as _ Hs. apply H2. exists n1, s1. symmetry. exact Hs.
    + cbn in H. injection H as -> Hs. destruct (IH n2 s1 s2 H1 H2 Hs) as [-> ->]. auto.
Qed.

Definition valid (p : pod) : Prop :=
  p_name p <> "" /\ p_namespace p <> "" /\ ~ dotted (p_namespace p).

Lemma key_same p q : valid p -> valid q -> key p = key q <-> same_pod p q.
Proof.
  intros (_ & _ & Hp) (_ & _ & Hq). unfold key, same_pod. split.
  - apply key_inj; assumption.
  - intros [-> ->]. reflexivity.
Qed.

(** * Sightings *)

Definition still_runningb (cb : callback) : bool :=
  match cb with
  | Update old new => String.eqb (p_phase old) Running && String.eqb (p_phase new) Running
  | _ => false
  end.

Lemma still_runningb_spec cb : still_runningb cb = true <-> still_running cb.
Proof.
  destruct cb; cbn; try (split; [discriminate|tauto]).
  rewrite andb_true_iff, !String.eqb_eq. tauto.
Qed.

Definition same_podb (p q : pod) : bool :=
  String.eqb (p_name p) (p_name q) && String.eqb (p_namespace p) (p_namespace q).

Lemma same_podb_spec p q : same_podb p q = true <-> same_pod p q.
Proof. unfold same_podb, same_pod. rewrite andb_true_iff, !String.eqb_eq. tauto. Qed.

Definition sight (p : pod) (e : callback * cri) : option (list cval) :=
  if still_runningb (fst e) && match about (fst e) with Some q => same_podb p q | None => false end
  then match containers_for_pod (snd e) p with
       | Some [] | None => None
       | Some cs => Some cs
       end
  else None.

Lemma sight_spec p e cs : valid p -> numeric (snd e) -> sight p e = Some cs <-> sighted p e cs.
Proof.
  intros (Hn & Hs & _) Hnum. unfold sight, sighted.
  rewrite <- (pod_containers (snd e) p cs Hn Hs Hnum).
  destruct (still_runningb (fst e)) eqn:Er; cbn [andb].
  2: { split; [discriminate|]. intros [H _]. apply still_runningb_spec in H. congruence. }
  apply still_runningb_spec in Er.
  destruct (about (fst e)) as [q|] eqn:Ea.
  2: { split; [discriminate|]. intros (_ & (q & Hq & _) & _). discriminate. }
  destruct (same_podb p q) eqn:Es.
  2: { split; [discriminate|]. intros (_ & (q' & Hq & Hsame) & _). injection Hq as <-.
       apply same_podb_spec in Hsame. congruence. }
  apply same_podb_spec in Es.
  destruct (containers_for_pod (snd e) p) as [[|c cs']|].
  - split; [discriminate|]. intros (_ & _ & H & Hne). apply (inj Some) in H. congruence.
  - split.
    + intros H. apply (inj Some) in H. subst cs. repeat split; eauto; discriminate.
    + intros (_ & _ & H & _). exact H.
  - split; [discriminate|]. intros (_ & _ & H & _). discriminate.
Qed.

Definition deletesb (p : pod) (e : callback * cri) : bool :=
  match fst e with Delete q => same_podb p q | _ => false end.

Lemma deletesb_spec p e : deletesb p e = true <-> deletes p e.
Proof.
  unfold deletesb, deletes. destruct (fst e) as [q|o q|q|];
    try (split; [discriminate|intros (q' & H & _); discriminate]).
  rewrite same_podb_spec. split; [eauto|]. intros (q' & [= <-] & H). exact H.
Qed.

Definition memory1 (p : pod) (m : option (list cval)) (e : callback * cri) : option (list cval) :=
  if deletesb p e then None
  else match m with Some cs => Some cs | None => sight p e end.

Definition memory (p : pod) (h : list (callback * cri)) : option (list cval) :=
  foldl (memory1 p) None h.

Lemma memory_snoc p h e : memory p (h ++ [e]) = memory1 p (memory p h) e.
Proof. unfold memory. by rewrite foldl_app. Qed.

(** Since the last deletion. *)
Lemma memory_split p h : exists before since,
  h = (before ++ since)%list
  /\ (before = [] \/ exists b d, before = (b ++ [d])%list /\ deletes p d)
  /\ Forall (fun e => ~ deletes p e) since
  /\ memory p h = foldl (memory1 p) None since.
Proof.
  induction h as [|e h IH] using rev_ind.
  { exists [], []. repeat split; auto. }
  destruct IH as (b & s & -> & Hb & Hs & Hm). destruct (deletesb p e) eqn:E.
  - exists ((b ++ s) ++ [e])%list, []. rewrite app_nil_r. repeat split; auto.
    + right. exists (b ++ s)%list, e. split; [done|]. by apply deletesb_spec.
    + rewrite memory_snoc. unfold memory1. rewrite E. reflexivity.
  - exists b, (s ++ [e])%list. rewrite app_assoc. repeat split; auto.
    + apply Forall_app. split; [done|]. constructor; [|done].
      intros H. apply deletesb_spec in H. congruence.
    + rewrite memory_snoc, Hm, foldl_app. reflexivity.
Qed.

Lemma since_some p s : Forall (fun e => ~ deletes p e) s ->
  forall cs, foldl (memory1 p) (Some cs) s = Some cs.
Proof.
  induction 1 as [|e s He _ IH]; intros cs; [done|]. cbn [foldl].
  replace (memory1 p (Some cs) e) with (Some cs); [apply IH|].
  unfold memory1. destruct (deletesb p e) eqn:E; [|done]. apply deletesb_spec in E. contradiction.
Qed.

Lemma since_none p s : Forall (fun e => ~ deletes p e) s ->
  forall cs, foldl (memory1 p) None s = Some cs <->
  exists between e after, s = (between ++ e :: after)%list
    /\ Forall (fun e' => sight p e' = None) between /\ sight p e = Some cs.
Proof.
  induction 1 as [|e s He Hs IH]; intros cs.
  - split; [done|]. intros (b & e & a & H & _). by destruct b.
  - cbn [foldl]. assert (Hd : deletesb p e = false).
    { destruct (deletesb p e) eqn:E; [|done]. apply deletesb_spec in E. contradiction. }
    unfold memory1 at 2. rewrite Hd. destruct (sight p e) as [cs0|] eqn:E.
    + rewrite since_some by done. split.
      * intros [= ->]. exists [], e, s. auto.
      * intros (b & e' & a & H & Hb & He'). destruct b as [|x b].
        -- injection H as <- <-. congruence.
        -- injection H as <- ->. inversion Hb; congruence.
    + rewrite IH. split.
      * intros (b & e' & a & -> & Hb & He'). exists (e :: b), e', a. repeat split; auto.
      * intros (b & e' & a & H & Hb & He'). destruct b as [|x b].
        -- injection H as <- <-. congruence.
        -- injection H as <- ->. inversion Hb; subst. exists b, e', a. auto.
Qed.

(** The last deletion is where one would cut. *)
Lemma cut_unique p (b1 s1 b2 s2 : list (callback * cri)) :
  (b1 ++ s1 = b2 ++ s2)%list ->
  (b1 = [] \/ exists b d, b1 = (b ++ [d])%list /\ deletes p d) ->
  (b2 = [] \/ exists b d, b2 = (b ++ [d])%list /\ deletes p d) ->
  Forall (fun e => ~ deletes p e) s1 -> Forall (fun e => ~ deletes p e) s2 ->
  b1 = b2 /\ s1 = s2.
Proof.
  intros H H1 H2 F1 F2.
  assert (Haux : forall (x y s t : list (callback * cri)),
    (x ++ s = y ++ t)%list -> (length y <= length x)%nat ->
    (x = [] \/ exists b d, x = (b ++ [d])%list /\ deletes p d) ->
    Forall (fun e => ~ deletes p e) t -> x = y /\ s = t).
  { clear. intros x y s t H Hlen Hx Ft.
    destruct (app_eq_app x s y t H) as [k [[-> ->]|[-> ->]]].
    - destruct k as [|d k] using rev_ind; [by rewrite app_nil_r|].
      exfalso. destruct Hx as [Hx|(b & d' & Hx & Hd)].
      + apply (f_equal length) in Hx. rewrite !app_length in Hx. cbn in Hx. lia.
      + rewrite app_assoc in Hx. apply app_inj_tail in Hx as [_ ->].
        apply Forall_app in Ft as [Ft _]. apply Forall_app in Ft as [_ Ft].
        inversion Ft; subst. contradiction.
    - rewrite app_length in Hlen. assert (k = []) as ->.
      { destruct k; [done|]. cbn in Hlen. lia. }
      by rewrite app_nil_r. }
  destruct (le_lt_dec (length b2) (length b1)) as [Hl|Hl].
  - exact (Haux b1 b2 s1 s2 H Hl H1 F2).
  - destruct (Haux b2 b1 s2 s1 (eq_sym H) ltac:(lia) H2 F1). auto.
Qed.

Definition numerics (h : list (callback * cri)) : Prop := Forall (fun e => numeric (snd e)) h.

Lemma memory_remembered p h cs : valid p -> numerics h ->
  memory p h = Some cs <-> remembered p h cs.
Proof.
  intros Hv Hnum. destruct (memory_split p h) as (b & s & -> & Hb & Hs & ->).
  apply Forall_app in Hnum as [_ Hnum]. rewrite (since_none p s Hs). split.
  - intros (bt & e & a & -> & Hbt & He). exists b, bt, e, a.
    apply Forall_app in Hnum as [Hn1 Hn2]. inversion Hn2; subst.
    repeat split; auto; try (apply sight_spec in He; auto; destruct He as (? & ? & ? & ?); assumption).
    apply Forall_forall. intros e' He' cs' Hsi.
    rewrite Forall_forall in Hn1, Hbt. apply sight_spec in Hsi; [|assumption|apply Hn1; assumption].
    specialize (Hbt e' He'). congruence.
  - intros (b' & bt & e & a & H & Hb' & Hd & Hbt & He).
    destruct (cut_unique p b s b' (bt ++ e :: a) H Hb Hb' Hs Hd) as [<- ->].
    apply Forall_app in Hnum as [Hn1 Hn2]. inversion Hn2; subst.
    exists bt, e, a. split; [done|]. split; [|apply sight_spec; assumption].
    apply Forall_forall. intros e' He'. rewrite Forall_forall in Hn1, Hbt.
    destruct (sight p e') as [cs'|] eqn:E; [|done]. exfalso.
    apply sight_spec in E; [|assumption|apply Hn1; assumption]. exact (Hbt e' He' cs' E).
Qed.

(** * The observer's cache is that memory *)

Definition ordinaries (h : list (callback * cri)) : Prop := Forall (fun e => ordinary (fst e)) h.

Lemma ordinary_valid cb p : ordinary cb -> about cb = Some p -> valid p.
Proof. intros [_ H] E. rewrite E in H. exact H. Qed.

(** The containers the observer would report for [p] right now. *)
Definition now (answer : cri) (p : pod) : list cval := default [] (containers_for_pod answer p).

Lemma now_answers answer p : valid p -> numeric answer ->
  answers answer (p_name p) (p_namespace p) (now answer p).
Proof.
  intros (Hn & Hs & _) Hnum. destruct (pod_containers_total answer p Hnum) as [cs E].
  unfold now. rewrite E. cbn. by apply pod_containers.
Qed.

Definition emitted (m : option (list cval)) (cb : callback) (answer : cri) : list observation :=
  match cb with
  | Add p => starts (now answer p)
  | Update old new =>
      if String.eqb (p_phase old) Pending && String.eqb (p_phase new) Running
      then starts (now answer new) else []
  | Delete p => stops (match m with Some cs => cs | None => now answer p end)
  | DeleteUnknown => []
  end.

Definition agrees (cache : phased) (h : list (callback * cri)) : Prop :=
  forall p, valid p -> cache !! key p = memory p h.

Lemma handle_ok cache h cb answer :
  agrees cache h -> ordinary cb -> numeric answer ->
  exists cache',
    handle cache cb answer
    = Some (cache', emitted match about cb with Some p => memory p h | None => None end cb answer)
    /\ agrees cache' (h ++ [(cb, answer)]).
Proof.
  intros A O N. assert (Same : forall p e, deletesb p e = false -> sight p e = None ->
    memory p (h ++ [e]) = memory p h).
  { intros p e Hd Hs. rewrite memory_snoc. unfold memory1. rewrite Hd, Hs.
    by destruct (memory p h). }
  destruct cb as [p|old new|p|].
  - destruct (pod_containers_total answer p N) as [cs E]. exists cache.
    cbn [handle emitted]. unfold now. rewrite E. split; [done|].
    intros q Hq. rewrite Same; [by apply A| |]; done.
  - cbn [handle emitted]. destruct (pod_containers_total answer new N) as [cs E].
    destruct (String.eqb (p_phase old) Pending && String.eqb (p_phase new) Running) eqn:Ep.
    + exists cache. rewrite E. unfold now. rewrite E. split; [done|].
      intros q Hq. rewrite Same; [by apply A|done|].
      unfold sight. cbn [fst still_runningb]. apply andb_true_iff in Ep as [Ep _].
      apply String.eqb_eq in Ep. rewrite Ep. done.
    + destruct (String.eqb (p_phase old) Running && String.eqb (p_phase new) Running) eqn:Er.
      2: { exists cache. split; [done|]. intros q Hq. rewrite Same; [by apply A|done|].
           unfold sight. cbn [fst still_runningb]. rewrite Er. done. }
      assert (Vn : valid new) by (apply (ordinary_valid _ new O); reflexivity).
      assert (Hsight : forall q, valid q ->
        sight q (Update old new, answer)
        = if same_podb q new then match cs with [] => None | _ => Some cs end else None).
      { intros q Vq. unfold sight. cbn [fst snd still_runningb about]. rewrite Er. cbn [andb].
        destruct (same_podb q new) eqn:Es; [|done]. apply same_podb_spec in Es as [Es1 Es2].
        assert (containers_for_pod answer q = Some cs) as ->; [|by destruct cs].
        unfold containers_for_pod in *. by rewrite Es1, Es2. }
      assert (Hm : forall q, valid q ->
        memory q (h ++ [(Update old new, answer)])
        = match memory q h with
          | Some cs => Some cs
          | None => if same_podb q new then match cs with [] => None | _ => Some cs end else None
          end).
      { intros q Vq. rewrite memory_snoc. unfold memory1. cbn [deletesb fst].
        by rewrite Hsight. }
      pose proof (A new Vn) as An. destruct (cache !! key new) as [cs0|] eqn:Ec.
      * exists cache. split; [done|]. intros q Hq. rewrite Hm by done.
        rewrite (A q Hq). destruct (memory q h) eqn:Eq; [done|].
        destruct (same_podb q new) eqn:Es; [|done]. exfalso.
        apply same_podb_spec in Es. apply (key_same q new Hq Vn) in Es.
        pose proof (A q Hq) as Aq. rewrite Es, Ec, Eq in Aq. done.
      * rewrite E. destruct cs as [|c cs].
        -- exists cache. split; [done|]. intros q Hq. rewrite Hm by done.
           rewrite (A q Hq). destruct (memory q h); [done|]. by destruct (same_podb q new).
        -- exists (<[key new := c :: cs]> cache). split; [done|]. intros q Hq. rewrite Hm by done.
           destruct (same_podb q new) eqn:Es.
           ++ apply same_podb_spec in Es. apply (key_same q new Hq Vn) in Es.
              rewrite Es, lookup_insert. rewrite <- (A q Hq), Es, Ec. done.
           ++ rewrite lookup_insert_ne.
              ** rewrite (A q Hq). by destruct (memory q h).
              ** intros Hk. symmetry in Hk. apply (key_same q new Hq Vn) in Hk.
                 apply same_podb_spec in Hk. congruence.
  - cbn [handle emitted about]. destruct (pod_containers_total answer p N) as [cs E].
    assert (Vp : valid p) by (apply (ordinary_valid _ p O); reflexivity).
    rewrite <- (A p Vp).
    assert (Hm : forall q, valid q ->
      memory q (h ++ [(Delete p, answer)]) = if same_podb q p then None else memory q h).
    { intros q Vq. rewrite memory_snoc. unfold memory1. cbn [deletesb fst].
      destruct (same_podb q p); [done|]. unfold sight. cbn. by destruct (memory q h). }
    destruct (cache !! key p) as [cs0|] eqn:Ec.
    + exists (delete (key p) cache). split; [done|]. intros q Hq. rewrite Hm by done.
      destruct (same_podb q p) eqn:Es.
      * apply same_podb_spec in Es. apply (key_same q p Hq Vp) in Es. by rewrite Es, lookup_delete.
      * rewrite lookup_delete_ne; [by apply A|].
        intros Hk. symmetry in Hk. apply (key_same q p Hq Vp) in Hk.
        apply same_podb_spec in Hk. congruence.
    + exists cache. unfold now. rewrite E. split; [done|]. intros q Hq. rewrite Hm by done.
      destruct (same_podb q p) eqn:Es; [|by apply A].
      apply same_podb_spec in Es. apply (key_same q p Hq Vp) in Es. by rewrite Es.
  - destruct O as [_ []].
Qed.

(** All events of a history. *)
Fixpoint emissions (past h : list (callback * cri)) : list observation :=
  match h with
  | [] => []
  | (cb, answer) :: h' =>
      (emitted match about cb with Some p => memory p past | None => None end cb answer
       ++ emissions (past ++ [(cb, answer)]) h')%list
  end.

Lemma observe_ok h : forall cache past,
  agrees cache past -> ordinaries h -> numerics h ->
  exists cache', observe cache h = Some (cache', emissions past h) /\ agrees cache' (past ++ h).
Proof.
  induction h as [|[cb answer] h IH]; intros cache past A O N.
  - exists cache. rewrite app_nil_r. done.
  - inversion O; inversion N; subst. cbn [fst snd] in *.
    destruct (handle_ok cache past cb answer A) as (cache1 & E & A1); [assumption..|].
    destruct (IH cache1 _ A1) as (cache2 & E2 & A2); [assumption..|].
    exists cache2. cbn [observe emissions]. rewrite E, E2. rewrite <- app_assoc in A2. done.
Qed.

Lemma agrees_init : agrees ∅ [].
Proof. intros p _. apply lookup_empty. Qed.

Lemma observe_init h : ordinaries h -> numerics h ->
  exists cache, observe ∅ h = Some (cache, emissions [] h) /\ agrees cache h.
Proof. intros O N. exact (observe_ok h ∅ [] agrees_init O N). Qed.

(** The events of one more callback. *)
Lemma observe_snoc h cb answer : ordinaries (h ++ [(cb, answer)]) -> numerics (h ++ [(cb, answer)]) ->
  exists c1 c2 evs, observe ∅ h = Some (c1, evs)
    /\ observe ∅ (h ++ [(cb, answer)])
       = Some (c2, (evs ++ emitted match about cb with Some p => memory p h | None => None end cb answer)%list).
Proof.
  intros O N. pose proof O as O'. pose proof N as N'.
  apply Forall_app in O' as [O' _]. apply Forall_app in N' as [N' _].
  destruct (observe_init _ O' N') as (c1 & E1 & _). destruct (observe_init _ O N) as (c2 & E2 & _).
  exists c1, c2, (emissions [] h). split; [exact E1|]. rewrite E2. do 2 f_equal.
  clear. assert (Hg : forall past, emissions past (h ++ [(cb, answer)])
    = (emissions past h ++ emitted match about cb with Some p => memory p (past ++ h) | None => None end cb answer)%list).
  { induction h as [|[cb' a'] h IH]; intros past.
    - cbn. rewrite !app_nil_r. reflexivity.
    - cbn [emissions app]. rewrite IH. rewrite <- !app_assoc. reflexivity. }
  exact (Hg []).
Qed.
