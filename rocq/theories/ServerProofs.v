(** Proofs about the job API when requests are served one at a time. *)
From Coq Require Import ZArith String Lia.
From stdpp Require Import gmap strings list.
From Verif Require Import SyscallModel FilterModel HubModel HubSpec ServerModel ServerSpec.
Open Scope Z_scope.

(** Runs, snoc-wise. *)
Lemma srun_app J tbl s a1 a2 : srun J tbl s (a1 ++ a2) =
  match srun J tbl s a1 with
  | Ok (s1, e1) => match srun J tbl s1 a2 with Ok (s2, e2) => Ok (s2, (e1 ++ e2)%list) | Panic => Panic | Fatal => Fatal end
  | Panic => Panic | Fatal => Fatal end.
Proof.
  revert s. induction a1 as [|a a1 IH]; intros s; cbn.
  - destruct (srun J tbl s a2) as [[s2 e2]| |]; reflexivity.
  - destruct (sstep J tbl s a) as [[s1 e1]| |]; [|reflexivity..]. rewrite IH.
    destruct (srun J tbl s1 a1) as [[s2 e2]| |]; [|reflexivity..].
    destruct (srun J tbl s2 a2) as [[s3 e3]| |]; [|reflexivity..]. by rewrite app_assoc.
Qed.
Lemma srun_snoc J tbl s acts a s2 h : srun J tbl s (acts ++ [a]) = Ok (s2, h) ->
  exists s1 h1 e, srun J tbl s acts = Ok (s1, h1) /\ sstep J tbl s1 a = Ok (s2, e) /\ h = (h1 ++ e)%list.
Proof.
  rewrite srun_app. destruct (srun J tbl s acts) as [[s1 h1]| |]; [|discriminate..]. cbn.
  destruct (sstep J tbl s1 a) as [[s3 e]| |] eqn:E; [|discriminate..]. intros H. injection H as -> <-.
  exists s1, h1, e. rewrite app_nil_r. auto.
Qed.

(** An invariant of states and histories. *)
Lemma srun_inv (P : srv -> list sev -> Prop) J tbl s0 :
  P s0 [] ->
  (forall s h a s' e, P s h -> sstep J tbl s a = Ok (s', e) -> P s' (h ++ e)%list) ->
  forall acts s h, srun J tbl s0 acts = Ok (s, h) -> P s h.
Proof.
  intros H0 Hs acts. induction acts as [|a acts IH] using rev_ind; intros s h Hr.
  - cbn in Hr. injection Hr as <- <-. exact H0.
  - apply srun_snoc in Hr as (s1 & h1 & e & Hr & Hst & ->). eapply Hs; [|exact Hst]. exact (IH _ _ Hr).
Qed.

Lemma count_app {A} (f : A -> bool) l1 l2 : count f (l1 ++ l2) = (count f l1 + count f l2)%nat.
Proof. unfold count. rewrite List.filter_app, app_length. reflexivity. Qed.
Lemma live_app J id h1 h2 : live J id (h1 ++ h2) = fold_left (live_step J id) h2 (live J id h1).
Proof. unfold live. apply fold_left_app. Qed.
Lemma deleted_app id h1 h2 : deleted_ok id (h1 ++ h2) <-> deleted_ok id h1 \/ deleted_ok id h2.
Proof. unfold deleted_ok. setoid_rewrite elem_of_app. naive_solver. Qed.

(** Events of the hub's own doing, and requests, change nothing in the tables. *)
Definition plain (e : sev) : Prop := match e with EAnswer _ _ _ => False | EHub (ODelete _) (RDeleted true) => False | _ => True end.
Lemma live_plain J id e cur : plain e -> live_step J id cur e = cur.
Proof. destruct e as [t r|t r a|o out]; cbn; [done..|]. destruct o; try done. destruct out; try done. by destruct found. Qed.
Lemma hub_deleted_app id h1 h2 : hub_deleted id (h1 ++ h2) = (hub_deleted id h1 + hub_deleted id h2)%nat.
Proof. apply count_app. Qed.
Lemma hub_deleted_plain id e : plain e -> hub_deleted id [e] = 0%nat.
Proof. destruct e as [t r|t r a|o out]; cbn; [done..|]. destruct o; try done. destruct out; try done. by destruct found. Qed.
Lemma deleted_plain id e : plain e -> ~ deleted_ok id [e].
Proof. intros He [t Ht]. apply elem_of_list_singleton in Ht. by subst e. Qed.

Global Instance plain_dec e : Decision (plain e).
Proof. destruct e as [t r|t r a|o out]; cbn; try apply _. destruct o; try apply _. destruct out; try apply _. destruct found; apply _. Defined.

(** While one request is served: the hub's own doing and the request's deletion. *)
Definition no_answers (h : list sev) : Prop := Forall (fun e => is_answer e = false) h.
Lemma live_mid J id h0 hm : no_answers hm ->
  fold_left (live_step J id) hm (live J id h0) = if decide (hub_deleted id hm = 0%nat) then live J id h0 else None.
Proof.
  intros H. induction hm as [|e hm IH] using rev_ind; [by case_decide|].
  apply Forall_app in H as [H He]. apply Forall_cons in He as [He _]. rewrite fold_left_app. cbn [fold_left]. rewrite (IH H).
  rewrite hub_deleted_app.
  destruct (decide (plain e)) as [Hp|Hp].
  { rewrite (live_plain _ _ _ _ Hp), (hub_deleted_plain _ _ Hp), Nat.add_0_r. reflexivity. }
  destruct e as [t r|t r a|o out]; [by destruct Hp|discriminate He|].
  destruct o; try (by destruct Hp). destruct out; try (by destruct Hp). destruct found; [|by destruct Hp].
  cbn. unfold hub_deleted, count. cbn. case_bool_decide as Hid.
  - rewrite decide_True by done. cbn. rewrite decide_False by lia. reflexivity.
  - rewrite (decide_False (P := id0 = id)) by done. cbn. rewrite Nat.add_0_r. reflexivity.
Qed.
Lemma deleted_mid id h : no_answers h -> ~ deleted_ok id h.
Proof. intros H [t Ht]. eapply Forall_forall in H; [|exact Ht]. discriminate. Qed.

(** The tables as the history has them. *)
Definition tables (J : nat -> job) (h : list sev) (s : srv) : Prop :=
  (forall id, running s !! id = live J id h) /\ (forall id, is_Some (completed s !! id) <-> deleted_ok id h).
Definition running_without (J : nat -> job) (h0 : list sev) (id : string) (s : srv) : Prop :=
  (forall id', running s !! id' = if decide (id' = id) then None else live J id' h0) /\
  (forall id', is_Some (completed s !! id') <-> deleted_ok id' h0).
Definition hub_quiet (hm : list sev) : Prop := forall id, hub_deleted id hm = 0%nat.
Definition hub_did (id : string) (hm : list sev) : Prop :=
  EHub (ODelete id) (RDeleted true) ∈ hm /\ forall id', hub_deleted id' hm = if decide (id' = id) then 1%nat else 0%nat.

(** Where a request stands, given what happened before and since it came. *)
Definition stands (J : nat -> job) (h0 hm : list sev) (s : srv) (r : req) (p : pc) : Prop :=
  no_answers hm /\
  match p with
  | PCreateGet j => r = RCreate j /\ tables J h0 s /\ hub_quiet hm
  | PCreatePut j => r = RCreate j /\ tables J h0 s /\ hub_quiet hm /\ live J (j_id (J j)) h0 = None
  | PGet id => r = RGet id /\ tables J h0 s /\ hub_quiet hm
  | PDeleteGet id => r = RDelete id /\ tables J h0 s /\ hub_quiet hm
  | PDeleteHub id j => r = RDelete id /\ tables J h0 s /\ hub_quiet hm /\ live J id h0 = Some j /\ j_id (J j) = id
  | PRemoveGet id j | PRemove id j => r = RDelete id /\ tables J h0 s /\ hub_did id hm /\ live J id h0 = Some j /\ j_id (J j) = id
  | PDoneGet id j => r = RDelete id /\ running_without J h0 id s /\ hub_did id hm /\ live J id h0 = Some j /\ j_id (J j) = id
  | PDonePut id j => r = RDelete id /\ running_without J h0 id s /\ hub_did id hm /\ live J id h0 = Some j /\ j_id (J j) = id /\ ~ deleted_ok id h0
  | PList => r = RList /\ tables J h0 s /\ hub_quiet hm
  | PDone => False
  end.
Definition all_right (J : nat -> job) (h : list sev) : Prop :=
  forall h1 t r a h2, h = (h1 ++ EAnswer t r a :: h2)%list ->
    exists h0 hm, h1 = (h0 ++ EReq t r :: hm)%list /\ no_answers hm /\ right_answer J h0 hm r a.
Definition others_done (t : nat) (s : srv) : Prop := forall t' r p, t' <> t -> threads s !! t' = Some (r, p) -> p = PDone.

Definition idle (J : nat -> job) (s : srv) (h : list sev) : Prop :=
  count is_req h = count is_answer h /\ tables J h s /\ forall t r p, threads s !! t = Some (r, p) -> p = PDone.
Definition busy (J : nat -> job) (s : srv) (h : list sev) : Prop :=
  count is_req h = (count is_answer h + 1)%nat /\
  exists h0 t r hm p, h = (h0 ++ EReq t r :: hm)%list /\ threads s !! t = Some (r, p) /\ others_done t s /\ stands J h0 hm s r p.
Definition seq_inv (J : nat -> job) (s : srv) (h : list sev) : Prop :=
  one_at_a_time h -> all_right J h /\ (idle J s h \/ busy J s h).

Lemma live_id J id h j : live J id h = Some j -> j_id (J j) = id.
Proof.
  induction h as [|e h IH] using rev_ind; [discriminate|]. rewrite live_app. cbn [fold_left].
  unfold live_step. destruct e as [t r|t r a|o out]; [exact IH| |].
  - destruct r; try exact IH. destruct a; try exact IH. destruct c; try exact IH.
    repeat (match goal with |- context [match ?x with _ => _ end] => is_var x; destruct x end; try exact IH).
    case_decide as Hd; [|exact IH]. intros Hj. injection Hj as ->. exact Hd.
  - destruct o; try exact IH. destruct out; try exact IH. destruct found; try exact IH. case_decide; [discriminate|exact IH].
Qed.

Lemma prefix_one h h' : one_at_a_time (h ++ h')%list -> one_at_a_time h.
Proof. intros H l Hl. apply H. etrans; [exact Hl|]. by exists h'. Qed.

(** Adding events that are not answers keeps answered requests right. *)
Lemma all_right_app J h e : all_right J h -> Forall (fun x => is_answer x = false) e -> all_right J (h ++ e)%list.
Proof.
  intros H He h1 t r a h2 Heq. apply app_eq_inv in Heq as [(k & -> & Hk)|(k & -> & ->)].
  - destruct k as [|x k]; cbn in Hk.
    + subst e. apply Forall_cons in He as [He _]. discriminate He.
    + injection Hk as <- ->. exact (H h1 t r a k eq_refl).
  - apply Forall_app in He as [_ He]. apply Forall_cons in He as [He _]. discriminate He.
Qed.
Lemma all_right_answer J h t r a : all_right J h ->
  (exists h0 hm, h = (h0 ++ EReq t r :: hm)%list /\ no_answers hm /\ right_answer J h0 hm r a) -> all_right J (h ++ [EAnswer t r a])%list.
Proof.
  intros H Hr h1 t1 r1 a1 h2 Heq. apply app_eq_inv in Heq as [(k & -> & Hk)|(k & -> & Hk)].
  - destruct k as [|x k]; cbn in Hk.
    + injection Hk as -> -> -> _. rewrite app_nil_r in Hr. exact Hr.
    + injection Hk as <- ->. exact (H h1 t1 r1 a1 k eq_refl).
  - destruct k as [|x k]; cbn in Hk.
    + injection Hk as <- <- <- _. rewrite app_nil_r. exact Hr.
    + injection Hk as <- Hk. destruct k; discriminate Hk.
Qed.

(** What a state needs to show. *)
Lemma tables_ext J h s s' : running s' = running s -> completed s' = completed s -> tables J h s -> tables J h s'.
Proof. intros E1 E2 [H1 H2]. split; intros id; [rewrite E1|rewrite E2]; auto. Qed.
Lemma without_ext J h id s s' : running s' = running s -> completed s' = completed s -> running_without J h id s -> running_without J h id s'.
Proof. intros E1 E2 [H1 H2]. split; intros id'; [rewrite E1|rewrite E2]; auto. Qed.
Lemma stands_ext J h0 hm s s' r p : running s' = running s -> completed s' = completed s -> stands J h0 hm s r p -> stands J h0 hm s' r p.
Proof.
  intros E1 E2 [Hn H]. split; [exact Hn|].
  destruct p; destruct_and?; split_and?; eauto using tables_ext, without_ext.
Qed.
Lemma hub_quiet_plain hm e : hub_quiet hm -> plain e -> hub_quiet (hm ++ [e])%list.
Proof. intros H He id. rewrite hub_deleted_app, (H id), (hub_deleted_plain _ _ He). reflexivity. Qed.
Lemma hub_did_plain id hm e : hub_did id hm -> plain e -> hub_did id (hm ++ [e])%list.
Proof.
  intros [Hi H] He. split; [apply elem_of_app; by left|]. intros id'. rewrite hub_deleted_app, (H id'), (hub_deleted_plain _ _ He), Nat.add_0_r. reflexivity.
Qed.
Lemma stands_plain J h0 hm s r p e : plain e -> stands J h0 hm s r p -> stands J h0 (hm ++ [e])%list s r p.
Proof.
  intros He [Hn H]. split. { apply Forall_app. split; [exact Hn|]. apply Forall_singleton. by destruct e. }
  destruct p; destruct_and?; split_and?; eauto using hub_quiet_plain, hub_did_plain.
Qed.
Lemma tables_plain J h s e : plain e -> tables J h s -> tables J (h ++ [e])%list s.
Proof.
  intros He [H1 H2]. split; intros id.
  - rewrite live_app. cbn [fold_left]. rewrite (live_plain _ _ _ _ He). apply H1.
  - rewrite deleted_app, H2. pose proof (deleted_plain id e He). naive_solver.
Qed.
Lemma count_plain e : plain e -> is_req e = false -> count is_req [e] = 0%nat /\ count is_answer [e] = 0%nat.
Proof. destruct e; done. Qed.

(** The tables after the request. *)
Lemma live_after J id h0 t r hm : no_answers hm ->
  live J id (h0 ++ EReq t r :: hm)%list = if decide (hub_deleted id hm = 0%nat) then live J id h0 else None.
Proof. intros Hn. rewrite live_app. cbn [fold_left]. apply live_mid. exact Hn. Qed.
Lemma deleted_after id h0 t r hm : no_answers hm -> deleted_ok id (h0 ++ EReq t r :: hm)%list <-> deleted_ok id h0.
Proof.
  intros Hn. rewrite deleted_app. split; [|by left]. intros [H|H]; [exact H|]. exfalso.
  apply (deleted_mid id (EReq t r :: hm)); [|exact H]. by apply Forall_cons.
Qed.

Definition harmless (r : req) (a : answer) : Prop :=
  match a with ACode c => (c = 200 -> forall id, r <> RDelete id) /\ (c = 201 -> forall j, r <> RCreate j) | _ => True end.
Lemma tables_harmless J h0 t r hm a s : no_answers hm -> hub_quiet hm -> harmless r a -> tables J h0 s ->
  tables J ((h0 ++ EReq t r :: hm) ++ [EAnswer t r a])%list s.
Proof.
  intros Hn Hq Ha [H1 H2]. split; intros id.
  - rewrite live_app, live_after by exact Hn. rewrite decide_True by apply Hq. cbn [fold_left live_step].
    rewrite H1. destruct r; try reflexivity. destruct a as [c| |]; try reflexivity. destruct Ha as [_ Ha].
    destruct (decide (c = 201)) as [->|Hc]; [by destruct (Ha eq_refl j)|].
    destruct c; try reflexivity.
    repeat (match goal with |- context [match ?x with _ => _ end] => is_var x; destruct x end; try reflexivity). by destruct Hc.
  - rewrite deleted_app, deleted_after by exact Hn. rewrite H2. split; [by left|]. intros [H|[t' H]]; [exact H|].
    apply elem_of_list_singleton in H. injection H as -> <- <-. destruct Ha as [Ha _]. by destruct (Ha eq_refl id).
Qed.

(** A request that ends. *)
Lemma all_done_set s t r s' : others_done t s -> threads s' = threads (set_pc s t r PDone) ->
  forall t' r' p', threads s' !! t' = Some (r', p') -> p' = PDone.
Proof.
  intros Ho E t' r' p'. rewrite E. cbn. destruct (decide (t' = t)) as [->|Hne].
  - intros H. apply list_lookup_insert_Some in H as [(_ & H & _)|(Hc & _)]; [by injection H as _ <-|by destruct Hc].
  - rewrite list_lookup_insert_ne by done. apply Ho. exact Hne.
Qed.
Lemma others_done_set s t r p s' : others_done t s -> threads s' = threads (set_pc s t r p) -> others_done t s'.
Proof. intros Ho E t' r' p' Hne. rewrite E. cbn. rewrite list_lookup_insert_ne by done. apply Ho. exact Hne. Qed.
Lemma thread_set s t r p r' p' s' : threads s !! t = Some (r, p) -> threads s' = threads (set_pc s t r' p') -> threads s' !! t = Some (r', p').
Proof. intros H E. rewrite E. cbn. apply list_lookup_insert. eapply lookup_lt_Some. exact H. Qed.

Section step.
  Context (J : nat -> job) (s : srv) (h0 hm : list sev) (t : nat) (r : req) (p : pc).
  Local Notation h := (h0 ++ EReq t r :: hm)%list.
  Context (Hc : count is_req h = (count is_answer h + 1)%nat) (Ht : threads s !! t = Some (r, p)) (Ho : others_done t s)
    (Hall : all_right J h).

  Lemma finish_ok s' a : threads s' = threads (set_pc s t r PDone) -> no_answers hm -> right_answer J h0 hm r a ->
    tables J (h ++ [EAnswer t r a])%list s' ->
    all_right J (h ++ [EAnswer t r a])%list /\ (idle J s' (h ++ [EAnswer t r a])%list \/ busy J s' (h ++ [EAnswer t r a])%list).
  Proof using All.
    intros Et Hn Ha Htab. split; [apply all_right_answer; [exact Hall|]; exists h0, hm; auto|]. left. split_and!.
    - rewrite (count_app is_req h), (count_app is_answer h), Hc.
      change (count is_req [EAnswer t r a]) with 0%nat. change (count is_answer [EAnswer t r a]) with 1%nat. lia.
    - exact Htab.
    - eapply all_done_set; eassumption.
  Qed.
  Lemma goto_ok s' p' : threads s' = threads (set_pc s t r p') -> stands J h0 hm s' r p' ->
    all_right J (h ++ [])%list /\ (idle J s' (h ++ [])%list \/ busy J s' (h ++ [])%list).
  Proof using All.
    intros Et Hs. rewrite app_nil_r. split; [exact Hall|]. right. split; [exact Hc|].
    exists h0, t, r, hm, p'. split_and!; [reflexivity|eapply thread_set; eassumption|eapply others_done_set; eassumption|exact Hs].
  Qed.
End step.

Lemma arrive_ok J s h r f : all_right J h -> idle J s h \/ busy J s h -> one_at_a_time (h ++ (arrive s r f).2)%list ->
  all_right J (h ++ (arrive s r f).2)%list /\ (idle J (arrive s r f).1 (h ++ (arrive s r f).2)%list \/ busy J (arrive s r f).1 (h ++ (arrive s r f).2)%list).
Proof.
  unfold arrive. cbn [fst snd]. intros Hall Hib H1. specialize (H1 _ (reflexivity _)).
  rewrite !count_app in H1. change (count is_req [EReq (length (threads s)) r]) with 1%nat in H1. change (count is_answer [EReq (length (threads s)) r]) with 0%nat in H1.
  destruct Hib as [(Hc & Htab & Hd)|(Hc & _)]; [|lia].
  split; [apply all_right_app; [exact Hall|by repeat constructor]|]. right. split.
  - rewrite !count_app. change (count is_req [EReq (length (threads s)) r]) with 1%nat. change (count is_answer [EReq (length (threads s)) r]) with 0%nat. lia.
  - exists h, (length (threads s)), r, [], (entry r). split_and!; [reflexivity| | |].
    + cbn. rewrite lookup_app_r by lia. by rewrite Nat.sub_diag.
    + intros t' r' p' Hne H. cbn in H. apply lookup_app_Some in H as [H|[Hl H]]; [exact (Hd _ _ _ H)|].
      apply list_lookup_singleton_Some in H as [H _]. lia.
    + split; [constructor|]. destruct r; cbn; split_and?; try reflexivity; try (intros ?; reflexivity); destruct Htab; split; assumption.
Qed.

Lemma seq_step J tbl s h a s' e : seq_inv J s h -> sstep J tbl s a = Ok (s', e) -> seq_inv J s' (h ++ e)%list.
Proof.
  intros Hinv Hst H1. destruct (Hinv (prefix_one _ _ H1)) as [Hall Hib]. destruct a as [q|t|o]; cbn in Hst.
  - (* a request arrives *)
    destruct q; injection Hst as <- <-; by apply (arrive_ok J s h).
  - destruct (threads s !! t) as [[r p]|] eqn:Ht; [|injection Hst as <- <-; rewrite app_nil_r; auto].
    destruct Hib as [(Hc & Htab & Hd)|(Hc & h0 & t0 & r0 & hm & p0 & -> & Ht0 & Ho & Hs)].
    { rewrite (Hd _ _ _ Ht) in Hst. cbn in Hst. injection Hst as <- <-. rewrite app_nil_r. split; [exact Hall|]. left. split_and!; assumption. }
    destruct (decide (t = t0)) as [->|Hne]; cycle 1.
    { rewrite (Ho _ _ _ Hne Ht) in Hst. cbn in Hst. injection Hst as <- <-. rewrite app_nil_r. split; [exact Hall|]. right. split; [exact Hc|].
      exists h0, t0, r0, hm, p0. split_and!; auto. }
    rewrite Ht0 in Ht. injection Ht as <- <-. destruct Hs as [Hn Hs]. destruct p0; cbn in Hst.
    + (* create: get *) destruct Hs as (-> & Htab & Hq). pose proof (proj1 Htab (j_id (J j))) as Hr.
      destruct (running s !! j_id (J j)) as [j'|] eqn:Er; injection Hst as <- <-.
      * eapply finish_ok; try eassumption; try reflexivity.
        { cbn. rewrite <- Hr. reflexivity. }
        { apply tables_harmless; first [assumption|by split]. }
      * eapply goto_ok; try eassumption; try reflexivity. split; [exact Hn|]. split_and!; first [assumption|reflexivity|by symmetry].
    + (* create: insert *) destruct Hs as (-> & Htab & Hq & Hl). injection Hst as <- <-.
      eapply finish_ok; try eassumption; try reflexivity.
      { cbn. rewrite Hl. reflexivity. }
      destruct Htab as [H2 H3]. split; intros id; cbn.
      * rewrite live_app, live_after by exact Hn. rewrite decide_True by apply Hq. cbn. case_decide as Hid.
        { subst id. by rewrite lookup_insert. } { rewrite lookup_insert_ne by done. apply H2. }
      * rewrite deleted_app, deleted_after by exact Hn. rewrite H3. split; [by left|]. intros [H|[t' H]]; [exact H|].
        apply elem_of_list_singleton in H. discriminate H.
    + (* get *) destruct Hs as (-> & Htab & Hq). pose proof (proj1 Htab id) as Hr.
      destruct (running s !! id) as [j'|] eqn:Er; injection Hst as <- <-; (eapply finish_ok; try eassumption; try reflexivity;
        [cbn; rewrite <- Hr; reflexivity|apply tables_harmless; first [assumption|by split|done]]).
    + (* delete: get *) destruct Hs as (-> & Htab & Hq). pose proof (proj1 Htab id) as Hr.
      destruct (running s !! id) as [j'|] eqn:Er; injection Hst as <- <-.
      * eapply goto_ok; try eassumption; try reflexivity. split; [exact Hn|]. split_and!; first [assumption|reflexivity|by symmetry|eapply live_id; symmetry; exact Hr].
      * eapply finish_ok; try eassumption; try reflexivity.
        { cbn. rewrite <- Hr. split; [reflexivity|apply Hq]. }
        { apply tables_harmless; first [assumption|by split]. }
    + (* delete: the hub *) destruct Hs as (-> & Htab & Hq & Hl & Hid). rewrite Hid in Hst.
      destruct (delete_trace tbl (hubst s) id) as [[hb b]| |]; [|discriminate Hst..]. destruct b; injection Hst as <- <-.
      * split; [apply all_right_app; [exact Hall|by repeat constructor]|]. right. split.
        { rewrite (count_app is_req (h0 ++ _)), (count_app is_answer (h0 ++ _)), Hc.
          change (count is_req [EHub (ODelete id) (RDeleted true)]) with 0%nat. change (count is_answer [EHub (ODelete id) (RDeleted true)]) with 0%nat. lia. }
        exists h0, t0, (RDelete id), (hm ++ [EHub (ODelete id) (RDeleted true)])%list, (PRemoveGet id j). split_and!.
        { by rewrite <- app_assoc. } { eapply thread_set; [exact Ht0|reflexivity]. } { eapply others_done_set; [exact Ho|reflexivity]. }
        split. { apply Forall_app. split; [exact Hn|by repeat constructor]. }
        split_and!; try first [assumption|reflexivity].
        split; [apply elem_of_app; right; by left|]. intros id'. rewrite hub_deleted_app, Hq. unfold hub_deleted, count. cbn.
        case_bool_decide as Hb; [rewrite decide_True by done|rewrite decide_False by done]; reflexivity.
      * (* not found *)
        assert (Hn' : no_answers (hm ++ [EHub (ODelete id) (RDeleted false)])%list) by (apply Forall_app; split; [exact Hn|by repeat constructor]).
        assert (Hq' : hub_quiet (hm ++ [EHub (ODelete id) (RDeleted false)])%list) by (apply hub_quiet_plain; [exact Hq|done]).
        replace ((h0 ++ EReq t0 (RDelete id) :: hm) ++ [EHub (ODelete id) (RDeleted false); EAnswer t0 (RDelete id) (ACode 500)])%list
          with ((h0 ++ EReq t0 (RDelete id) :: (hm ++ [EHub (ODelete id) (RDeleted false)])) ++ [EAnswer t0 (RDelete id) (ACode 500)])%list
          by (rewrite <- !app_assoc; cbn; by rewrite <- app_assoc).
        eapply (finish_ok J s); try eassumption; try reflexivity.
        { replace (h0 ++ EReq t0 (RDelete id) :: hm ++ [EHub (ODelete id) (RDeleted false)])%list
            with ((h0 ++ EReq t0 (RDelete id) :: hm) ++ [EHub (ODelete id) (RDeleted false)])%list by (by rewrite <- app_assoc).
          rewrite (count_app is_req (h0 ++ _)), (count_app is_answer (h0 ++ _)), Hc.
          change (count is_req [EHub (ODelete id) (RDeleted false)]) with 0%nat. change (count is_answer [EHub (ODelete id) (RDeleted false)]) with 0%nat. lia. }
        { replace (h0 ++ EReq t0 (RDelete id) :: hm ++ [EHub (ODelete id) (RDeleted false)])%list
            with ((h0 ++ EReq t0 (RDelete id) :: hm) ++ [EHub (ODelete id) (RDeleted false)])%list by (by rewrite <- app_assoc).
          apply all_right_app; [exact Hall|by repeat constructor]. }
        { cbn. rewrite Hl. left. split_and!; [apply elem_of_app; right; by left|apply Hq'|reflexivity]. }
        { apply tables_harmless; first [assumption|by split]. }
    + (* remove: get *) destruct Hs as (-> & Htab & Hdid & Hl & Hid). rewrite Hid in Hst. rewrite (proj1 Htab id), Hl in Hst. injection Hst as <- <-.
      eapply goto_ok; try eassumption; try reflexivity. split; [exact Hn|]. split_and!; first [assumption|reflexivity].
    + (* remove *) destruct Hs as (-> & Htab & Hdid & Hl & Hid). rewrite Hid in Hst. injection Hst as <- <-.
      eapply goto_ok; try eassumption; try reflexivity. split; [exact Hn|]. split_and!; auto.
      destruct Htab as [H2 H3]. split; [|exact H3]. intros id'. cbn. case_decide as Hd; [subst id'; apply lookup_delete|].
      rewrite lookup_delete_ne by done. apply H2.
    + (* completed: get *) destruct Hs as (-> & Htab & Hdid & Hl & Hid). rewrite Hid in Hst. pose proof (proj2 Htab id) as Hcd.
      destruct (completed s !! id) as [j'|] eqn:Ec; injection Hst as <- <-.
      * assert (deleted_ok id h0) as Hdel by (apply Hcd; eauto).
        eapply finish_ok; try eassumption; try reflexivity.
        { cbn. rewrite Hl. right. split_and!; [apply Hdid| |]. { rewrite (proj2 Hdid id). by rewrite decide_True. } by right. }
        destruct Htab as [H2 H3]. split; intros id'; cbn.
        { rewrite live_app, live_after by exact Hn. cbn. rewrite (proj2 Hdid id'), H2. repeat case_decide; done. }
        { rewrite deleted_app, deleted_after by exact Hn. rewrite H3. split; [by left|]. intros [H|[t' H]]; [exact H|].
          apply elem_of_list_singleton in H. discriminate H. }
      * assert (~ deleted_ok id h0) as Hdel by (intros H; apply Hcd in H as [? H]; discriminate H).
        eapply goto_ok; try eassumption; try reflexivity. split; [exact Hn|]. split_and!; first [assumption|reflexivity].
    + (* completed: insert *) destruct Hs as (-> & Htab & Hdid & Hl & Hid & Hdel). rewrite Hid in Hst. injection Hst as <- <-.
      eapply finish_ok; try eassumption; try reflexivity.
      { cbn. rewrite Hl. right. split_and!; [apply Hdid| |]. { rewrite (proj2 Hdid id). by rewrite decide_True. } by left. }
      destruct Htab as [H2 H3]. split; intros id'; cbn.
      * rewrite live_app, live_after by exact Hn. cbn. rewrite (proj2 Hdid id'), H2. repeat case_decide; done.
      * rewrite deleted_app, deleted_after by exact Hn. rewrite <- H3. destruct (decide (id' = id)) as [->|Hne].
        { rewrite lookup_insert. split; [|eauto]. intros _. right. exists t0. by left. }
        rewrite lookup_insert_ne by done. split; [by left|]. intros [H|[t' H]]; [exact H|].
        apply elem_of_list_singleton in H. injection H as _ H. by destruct Hne.
    + (* list *) destruct Hs as (-> & Htab & Hq). injection Hst as <- <-. eapply finish_ok; try eassumption; try reflexivity.
      { cbn. exists (running s), (completed s). split; [reflexivity|]. exact Htab. }
      { apply tables_harmless; first [assumption|done]. }
    + destruct Hs.
  - (* the hub by itself *)
    destruct (own s o) eqn:Eo; [|injection Hst as <- <-; rewrite app_nil_r; auto].
    destruct (hstep J tbl (hubst s) o) as [[hb out]| |] eqn:Eh; [|discriminate Hst..]. injection Hst as <- <-.
    assert (plain (EHub o out)) as Hp by (destruct o; try done; discriminate Eo).
    assert (is_answer (EHub o out) = false /\ is_req (EHub o out) = false) as [Ha Hrq] by done.
    assert (count is_req [EHub o out] = 0%nat /\ count is_answer [EHub o out] = 0%nat) as [Hc1 Hc2] by done.
    split; [apply all_right_app; [exact Hall|by repeat constructor]|].
    destruct Hib as [(Hc & Htab & Hd)|(Hc & h0 & t0 & r0 & hm & p0 & -> & Ht0 & Ho & Hs)]; [left|right].
    + split_and!; [rewrite !count_app; lia| |exact Hd]. apply tables_plain; [exact Hp|]. exact (tables_ext _ _ _ _ eq_refl eq_refl Htab).
    + split. { rewrite (count_app is_req (h0 ++ _)), (count_app is_answer (h0 ++ _)), Hc, Hc1, Hc2. lia. }
      exists h0, t0, r0, (hm ++ [EHub o out])%list, p0. split_and!; [by rewrite <- app_assoc|exact Ht0|exact Ho|].
      apply stands_plain; [exact Hp|]. exact (stands_ext _ _ _ _ _ _ _ eq_refl eq_refl Hs).
Qed.

Lemma new_server_idle J tbl s0 : new_server tbl = Some s0 -> seq_inv J s0 [].
Proof.
  unfold new_server. destruct (new_hub tbl) as [hb|]; [|discriminate]. intros H. injection H as <-. intros _. split.
  - intros h1 t r a h2 H. destruct h1; discriminate H.
  - left. split_and!; [reflexivity| |]. { split; intros id; cbn; [by rewrite lookup_empty|]. rewrite lookup_empty. split; [by intros [? H]|]. intros [t H]. by apply elem_of_nil in H. }
    intros t r p H. cbn in H. discriminate H.
Qed.
Lemma seq_run J tbl s0 acts s h : new_server tbl = Some s0 -> srun J tbl s0 acts = Ok (s, h) -> seq_inv J s h.
Proof. intros H0. apply srun_inv; [eapply new_server_idle; exact H0|]. intros *. apply seq_step. Qed.

Lemma answers_right J tbl s0 acts s h : new_server tbl = Some s0 -> srun J tbl s0 acts = Ok (s, h) -> one_at_a_time h ->
  forall h1 t r a h2, h = (h1 ++ EAnswer t r a :: h2)%list ->
    exists h0 hm, h1 = (h0 ++ EReq t r :: hm)%list /\ no_answers hm /\ right_answer J h0 hm r a.
Proof. intros H0 Hr H1. exact (proj1 (seq_run J tbl s0 acts s h H0 Hr H1)). Qed.
