(** Proofs about the job API under every schedule. *)
From Coq Require Import ZArith String Lia.
From stdpp Require Import gmap strings list.
From Verif Require Import SyscallModel FilterModel HubModel HubSpec HubProofs HubTop ServerModel ServerSpec ServerProofs.
Open Scope Z_scope.

(** Counting in a list that changes at one place. *)
Lemma count_insert {A} (f : A -> bool) (l : list A) t x y : l !! t = Some x ->
  (count f (<[t := y]> l) + (if f x then 1 else 0) = count f l + (if f y then 1 else 0))%nat.
Proof.
  revert t. induction l as [|z l IH]; intros t H; [discriminate|]. destruct t as [|t]; cbn in H.
  - injection H as ->. change (<[0%nat := y]> (x :: l)) with (y :: l). unfold count. cbn [List.filter]. destruct (f x), (f y); cbn [length]; lia.
  - change (<[S t := y]> (z :: l)) with (z :: <[t := y]> l). specialize (IH _ H). unfold count in *. cbn [List.filter] in *. destruct (f z), (f x), (f y); cbn [length] in *; lia.
Qed.
Lemma count_pos {A} (f : A -> bool) (l : list A) t x : l !! t = Some x -> f x = true -> (1 <= count f l)%nat.
Proof.
  revert t. induction l as [|z l IH]; intros t H Hf; [discriminate|]. destruct t as [|t]; cbn in H; unfold count in *; cbn.
  - injection H as ->. rewrite Hf. cbn. lia.
  - specialize (IH _ H Hf). destruct (f z); cbn; lia.
Qed.
Lemma count_two {A} (f : A -> bool) (l : list A) t t' x y :
  l !! t = Some x -> l !! t' = Some y -> f x = true -> f y = true -> t <> t' -> (2 <= count f l)%nat.
Proof.
  revert t t'. induction l as [|z l IH]; intros t t' H H' Hx Hy Hne; [discriminate|].
  destruct t as [|t], t' as [|t']; cbn in H, H'; unfold count in *; cbn.
  - by destruct Hne.
  - injection H as ->. rewrite Hx. pose proof (count_pos f l t' y H' Hy) as Hp. unfold count in Hp. cbn. lia.
  - injection H' as ->. rewrite Hy. pose proof (count_pos f l t x H Hx) as Hp. unfold count in Hp. cbn. lia.
  - specialize (IH t t' H H' Hx Hy). destruct (f z); cbn; lia.
Qed.

(** What every state keeps: the table is keyed by ids, requests stand where their
    kind can stand. *)
Definition fits (J : nat -> job) (r : req) (p : pc) : Prop :=
  match p with
  | PCreateGet j | PCreatePut j => r = RCreate j
  | PGet id => r = RGet id
  | PDeleteGet id => r = RDelete id
  | PDeleteHub id j | PRemoveGet id j | PRemove id j | PDoneGet id j | PDonePut id j => r = RDelete id /\ j_id (J j) = id
  | PList => r = RList
  | PDone => True
  end.
Definition past_hub (p : pc) : option string :=
  match p with PRemoveGet id _ | PRemove id _ | PDoneGet id _ | PDonePut id _ => Some id | _ => None end.
Record wf (J : nat -> job) (s : srv) (h : list sev) : Prop := {
  wf_key : forall id j, running s !! id = Some j -> j_id (J j) = id /\ exists t, EAnswer t (RCreate j) (ACode 201) ∈ h;
  wf_fits : forall t r p, threads s !! t = Some (r, p) -> fits J r p;
  wf_past : forall t r p id, threads s !! t = Some (r, p) -> past_hub p = Some id -> EHub (ODelete id) (RDeleted true) ∈ h;
  wf_spawned : forall j, j ∈ spawned s <-> exists t, EAnswer t (RCreate j) (ACode 201) ∈ h;
  wf_answers : forall h1 t r a h2, h = (h1 ++ EAnswer t r a :: h2)%list ->
    match r, a with
    | RGet id, AAttached j => j_id (J j) = id /\ exists t', EAnswer t' (RCreate j) (ACode 201) ∈ h1
    | RDelete id, ACode 200 => EHub (ODelete id) (RDeleted true) ∈ h1
    | _, _ => True
    end }.

Lemma wf_answers_app (P : list sev -> req -> answer -> Prop) h e :
  (forall h1 t r a h2, h = (h1 ++ EAnswer t r a :: h2)%list -> P h1 r a) ->
  (forall e1 t r a e2, e = (e1 ++ EAnswer t r a :: e2)%list -> P (h ++ e1)%list r a) ->
  forall h1 t r a h2, (h ++ e)%list = (h1 ++ EAnswer t r a :: h2)%list -> P h1 r a.
Proof.
  intros H He h1 t r a h2 Heq. apply app_eq_inv in Heq as [(k & Eh & Hk)|(k & Eh & Hk)].
  - destruct k as [|x k]; cbn in Hk.
    + rewrite app_nil_r in Eh. subst h1. rewrite <- (app_nil_r h). eapply (He []). symmetry. exact Hk.
    + injection Hk as <- _. eapply H. exact Eh.
  - subst h1. eapply He. exact Hk.
Qed.

Definition answer_fine (J : nat -> job) (h1 : list sev) (r : req) (a : answer) : Prop :=
  match r, a with
  | RGet id, AAttached j => j_id (J j) = id /\ exists t', EAnswer t' (RCreate j) (ACode 201) ∈ h1
  | RDelete id, ACode 200 => EHub (ODelete id) (RDeleted true) ∈ h1
  | _, _ => True
  end.
Lemma elem_201 j h e : Forall (fun x => forall t j', x <> EAnswer t (RCreate j') (ACode 201)) e ->
  (exists t, EAnswer t (RCreate j) (ACode 201) ∈ (h ++ e)%list) <-> exists t, EAnswer t (RCreate j) (ACode 201) ∈ h.
Proof.
  intros He. split; intros [t Ht]; exists t.
  - apply elem_of_app in Ht as [Ht|Ht]; [exact Ht|]. eapply Forall_forall in He; [|exact Ht]. by destruct (He t j).
  - apply elem_of_app. by left.
Qed.
Lemma wf_upd J s h s' e t r p p' : wf J s h -> threads s !! t = Some (r, p) -> threads s' = <[t := (r, p')]> (threads s) ->
  fits J r p' -> (forall id, past_hub p' = Some id -> EHub (ODelete id) (RDeleted true) ∈ (h ++ e)%list) ->
  (forall id j, running s' !! id = Some j -> running s !! id = Some j \/ (j_id (J j) = id /\ exists t, EAnswer t (RCreate j) (ACode 201) ∈ (h ++ e)%list)) ->
  (forall j, j ∈ spawned s' <-> exists t, EAnswer t (RCreate j) (ACode 201) ∈ (h ++ e)%list) ->
  (forall e1 t r a e2, e = (e1 ++ EAnswer t r a :: e2)%list -> answer_fine J (h ++ e1)%list r a) -> wf J s' (h ++ e)%list.
Proof.
  intros [H1 H2 H3 H4 H5] Ht Et Hf Hp Hr Hsp Ha. constructor.
  - intros id j H. apply Hr in H as [H|H]; [|exact H]. apply H1 in H as [Hid [t' Ht']]. split; [exact Hid|]. exists t'. apply elem_of_app. by left.
  - intros t' r' p1. rewrite Et. intros H. apply list_lookup_insert_Some in H as [(<- & H & _)|(_ & H)]; [by injection H as <- <-|exact (H2 _ _ _ H)].
  - intros t' r' p1 id. rewrite Et. intros H. apply list_lookup_insert_Some in H as [(<- & H & _)|(_ & H)]; [injection H as <- <-; apply Hp|].
    intros Hid. apply elem_of_app. left. exact (H3 _ _ _ _ H Hid).
  - exact Hsp.
  - apply (wf_answers_app (answer_fine J)); [exact H5|exact Ha].
Qed.
Lemma no_events {A} (P : list sev -> req -> answer -> A -> Prop) (e1 : list sev) t r a e2 : [] = (e1 ++ EAnswer t r a :: e2)%list -> False.
Proof. destruct e1; discriminate. Qed.
Lemma one_event x e1 t r a e2 : [x] = (e1 ++ EAnswer t r a :: e2)%list -> e1 = [] /\ x = EAnswer t r a.
Proof. destruct e1 as [|y e1]; cbn; intros H; [injection H as -> _; auto|]. injection H as _ H. destruct e1; discriminate H. Qed.
Lemma wf_goto J s h t r p p' s' : wf J s h -> threads s !! t = Some (r, p) -> s' = set_pc s t r p' -> fits J r p' ->
  (forall id, past_hub p' = Some id -> EHub (ODelete id) (RDeleted true) ∈ h) -> wf J s' (h ++ [])%list.
Proof.
  intros W Ht -> Hf Hp. eapply wf_upd; [exact W|exact Ht|reflexivity|exact Hf| | | |]; rewrite ?app_nil_r.
  - exact Hp. - intros id j H. by left. - apply W. - intros e1 t' r' a e2 H. destruct e1; discriminate H.
Qed.
Lemma wf_finish J s h t r p a s' : wf J s h -> threads s !! t = Some (r, p) -> s' = set_pc s t r PDone ->
  (forall j, r = RCreate j -> a <> ACode 201) -> answer_fine J h r a -> wf J s' (h ++ [EAnswer t r a])%list.
Proof.
  intros W Ht -> Hn Ha. eapply wf_upd; [exact W|exact Ht|reflexivity|exact I|discriminate| | |].
  - intros id j H. by left.
  - intros j. rewrite elem_201; [apply W|]. apply Forall_singleton. intros t' j' H. injection H as -> -> ->. by apply (Hn j').
  - intros e1 t' r' a' e2 H. apply one_event in H as [-> H]. injection H as <- <- <-. by rewrite app_nil_r.
Qed.
Lemma wf_plain J s h e s' : wf J s h -> running s' = running s -> threads s' = threads s -> spawned s' = spawned s ->
  Forall (fun x => is_answer x = false) e -> wf J s' (h ++ e)%list.
Proof.
  intros [H1 H2 H3 H4 H5] E1 E2 E3 He. constructor.
  - intros id j. rewrite E1. intros H. apply H1 in H as [Hid [t' Ht']]. split; [exact Hid|]. exists t'. apply elem_of_app. by left.
  - rewrite E2. exact H2.
  - rewrite E2. intros. apply elem_of_app. left. eauto.
  - intros j. rewrite E3, elem_201; [apply H4|]. eapply Forall_impl; [exact He|]. intros x Hx t j' ->. discriminate Hx.
  - apply (wf_answers_app (answer_fine J)); [exact H5|]. intros e1 t r a e2 ->. apply Forall_app in He as [_ He]. apply Forall_cons in He as [He _]. discriminate He.
Qed.
Lemma wf_arrive J s h r f : wf J s h -> wf J (arrive s r f).1 (h ++ (arrive s r f).2)%list.
Proof.
  intros [H1 H2 H3 H4 H5]. constructor; cbn.
  - intros id j H. apply H1 in H as [Hid [t' Ht']]. split; [exact Hid|]. exists t'. apply elem_of_app. by left.
  - intros t r' p H. apply lookup_app_Some in H as [H|[_ H]]; [eauto|]. apply list_lookup_singleton_Some in H as [_ H]. injection H as <- <-. by destruct r.
  - intros t r' p id H Hp. apply elem_of_app. left. apply lookup_app_Some in H as [H|[_ H]]; [eauto|].
    apply list_lookup_singleton_Some in H as [_ H]. injection H as <- <-. by destruct r.
  - intros j. rewrite elem_201; [apply H4|]. by apply Forall_singleton.
  - apply (wf_answers_app (answer_fine J)); [exact H5|]. intros e1 t r' a e2 H. by apply one_event in H as [_ H].
Qed.

Lemma wf_step J tbl s h a s' e : wf J s h -> sstep J tbl s a = Ok (s', e) -> wf J s' (h ++ e)%list.
Proof.
  intros W Hst. destruct a as [q|t|o]; cbn in Hst.
  - destruct q; injection Hst as <- <-; by apply (wf_arrive J s h).
  - destruct (threads s !! t) as [[r p]|] eqn:Ht; [|injection Hst as <- <-; rewrite app_nil_r; exact W].
    pose proof (wf_fits J s h W _ _ _ Ht) as Hf. destruct p; cbn in Hst, Hf.
    + subst r. destruct (running s !! j_id (J j)); injection Hst as <- <-.
      * eapply wf_finish; [exact W|exact Ht|reflexivity|discriminate|exact I].
      * eapply wf_goto; [exact W|exact Ht|reflexivity|reflexivity|discriminate].
    + subst r. injection Hst as <- <-. eapply wf_upd; [exact W|exact Ht|reflexivity|exact I|discriminate| | |]; cbn.
      * intros id j' H. apply lookup_insert_Some in H as [[<- <-]|[_ H]]; [right|by left]. split; [reflexivity|].
        exists t. apply elem_of_app. right. by left.
      * intros j'. rewrite elem_of_union, elem_of_singleton, (wf_spawned J s h W). split.
        { intros [->|[t' H]]; [exists t; apply elem_of_app; right; by left|exists t'; apply elem_of_app; by left]. }
        { intros [t' H]. apply elem_of_app in H as [H|H]; [right; eauto|]. apply elem_of_list_singleton in H. injection H as -> ->. by left. }
      * intros e1 t' r' a' e2 H. apply one_event in H as [-> H]. injection H as <- <- <-. exact I.
    + subst r. destruct (running s !! id) as [j|] eqn:Er; injection Hst as <- <-; (eapply wf_finish; [exact W|exact Ht|reflexivity|discriminate|]).
      * exact (wf_key J s h W _ _ Er). * exact I.
    + subst r. destruct (running s !! id) as [j|] eqn:Er; injection Hst as <- <-.
      * eapply wf_goto; [exact W|exact Ht|reflexivity| |discriminate]. split; [reflexivity|]. apply (wf_key J s h W _ _ Er).
      * eapply wf_finish; [exact W|exact Ht|reflexivity|discriminate|exact I].
    + destruct Hf as [-> Hid]. rewrite Hid in Hst. destruct (delete_trace tbl (hubst s) id) as [[hb b]| |]; [|discriminate Hst..].
      destruct b; injection Hst as <- <-.
      * eapply wf_upd; [exact W|exact Ht|reflexivity| | | | |]; cbn.
        { auto. } { intros id' H. injection H as <-. apply elem_of_app. right. by left. } { intros id' j' H. by left. }
        { intros j'. rewrite elem_201; [apply W|]. by apply Forall_singleton. }
        { intros e1 t' r' a' e2 H. by apply one_event in H as [_ H]. }
      * eapply wf_upd; [exact W|exact Ht|reflexivity| | | | |]; cbn.
        { exact I. } { discriminate. } { intros id' j' H. by left. }
        { intros j'. rewrite elem_201; [apply W|]. by repeat constructor. }
        { intros e1 t' r' a' e2 H. destruct e1 as [|x e1]; cbn in H; [discriminate H|]. injection H as _ H. apply one_event in H as [-> H]. injection H as <- <- <-. exact I. }
    + destruct Hf as [-> Hid]. pose proof (wf_past J s h W _ _ _ id Ht eq_refl) as Hp. destruct (running s !! j_id (J j)); injection Hst as <- <-.
      * eapply wf_goto; [exact W|exact Ht|reflexivity|by split|]. intros id' H. injection H as <-. exact Hp.
      * eapply wf_finish; [exact W|exact Ht|reflexivity|discriminate|exact I].
    + destruct Hf as [-> Hid]. pose proof (wf_past J s h W _ _ _ id Ht eq_refl) as Hp. injection Hst as <- <-.
      eapply wf_upd; [exact W|exact Ht|reflexivity| | | | |]; rewrite ?app_nil_r; cbn.
      * by split. * intros id' H. injection H as <-. exact Hp.
      * intros id' j' H. apply lookup_delete_Some in H as [_ H]. by left.
      * apply W.
      * intros e1 t' r' a' e2 H. destruct e1; discriminate H.
    + destruct Hf as [-> Hid]. pose proof (wf_past J s h W _ _ _ id Ht eq_refl) as Hp. destruct (completed s !! j_id (J j)); injection Hst as <- <-.
      * eapply wf_finish; [exact W|exact Ht|reflexivity|discriminate|exact I].
      * eapply wf_goto; [exact W|exact Ht|reflexivity|by split|]. intros id' H. injection H as <-. exact Hp.
    + destruct Hf as [-> Hid]. pose proof (wf_past J s h W _ _ _ id Ht eq_refl) as Hp. injection Hst as <- <-.
      eapply wf_upd; [exact W|exact Ht|reflexivity|exact I|discriminate| | |]; cbn.
      * intros id' j' H. by left.
      * intros j'. rewrite elem_201; [apply W|]. by apply Forall_singleton.
      * intros e1 t' r' a' e2 H. apply one_event in H as [-> H]. injection H as <- <- <-. rewrite app_nil_r. exact Hp.
    + subst r. injection Hst as <- <-. eapply wf_finish; [exact W|exact Ht|reflexivity|discriminate|exact I].
    + injection Hst as <- <-. rewrite app_nil_r. exact W.
  - destruct (own s o) eqn:Eo; [|injection Hst as <- <-; rewrite app_nil_r; exact W].
    destruct (hstep J tbl (hubst s) o) as [[hb out]| |] eqn:Eh; [|discriminate Hst..]. injection Hst as <- <-.
    eapply wf_plain; [exact W|reflexivity..|by apply Forall_singleton].
Qed.
Lemma new_server_wf J tbl s0 : new_server tbl = Some s0 -> wf J s0 [].
Proof.
  unfold new_server. destruct (new_hub tbl) as [hb|]; [|discriminate]. intros H. injection H as <-. constructor; cbn.
  - intros id j H. by rewrite lookup_empty in H.
  - intros t r p H. discriminate H.
  - intros t r p id H. discriminate H.
  - intros j. split; [by intros H%elem_of_empty|]. intros [t H]. by apply elem_of_nil in H.
  - intros h1 t r a h2 H. destruct h1; discriminate H.
Qed.
Lemma wf_run J tbl s0 acts s h : new_server tbl = Some s0 -> srun J tbl s0 acts = Ok (s, h) -> wf J s h.
Proof. intros H0. apply srun_inv; [eapply new_server_wf; exact H0|]. intros *. apply wf_step. Qed.

(** The hub's part of a history is a run of the hub. *)
Lemma hub_history_app h e : hub_history (h ++ e) = (hub_history h ++ hub_history e)%list.
Proof. unfold hub_history. apply omap_app. Qed.
Definition hub_ran (J : nat -> job) (tbl : syscalls) (hb : hub) (s : srv) (h : list sev) : Prop :=
  hrun J tbl hb (map fst (hub_history h)) = Ok (hubst s, map snd (hub_history h)).
Lemma hub_ran_step J tbl hb s h a s' e : hub_ran J tbl hb s h -> sstep J tbl s a = Ok (s', e) -> hub_ran J tbl hb s' (h ++ e)%list.
Proof.
  unfold hub_ran. intros W Hst. rewrite hub_history_app, !map_app.
  assert (Hno : hub_history e = [] -> hubst s' = hubst s -> hrun J tbl hb (map fst (hub_history h) ++ map fst (hub_history e)) = Ok (hubst s', (map snd (hub_history h) ++ map snd (hub_history e))%list)).
  { intros -> ->. cbn. rewrite !app_nil_r. exact W. }
  destruct a as [q|t|o]; cbn in Hst.
  - apply Hno; destruct q; injection Hst as <- <-; reflexivity.
  - destruct (threads s !! t) as [[r p]|] eqn:Ht; [|injection Hst as <- <-; by apply Hno].
    destruct p; cbn in Hst; try (repeat case_match; injection Hst as <- <-; by apply Hno).
    destruct (delete_trace tbl (hubst s) (j_id (J j))) as [[hb' b]| |] eqn:Eh; [|discriminate Hst..].
    assert (hstep J tbl (hubst s) (ODelete (j_id (J j))) = Ok (hb', RDeleted b)) as Ehs by (cbn; by rewrite Eh).
    destruct b; injection Hst as <- <-; cbn; exact (hrun_snoc _ _ _ _ _ _ _ _ _ W Ehs).
  - destruct (own s o) eqn:Eo; [|injection Hst as <- <-; by apply Hno].
    destruct (hstep J tbl (hubst s) o) as [[hb' out]| |] eqn:Eh; [|discriminate Hst..]. injection Hst as <- <-.
    cbn. exact (hrun_snoc _ _ _ _ _ _ _ _ _ W Eh).
Qed.
Lemma hub_ran_run J tbl s0 acts s h : new_server tbl = Some s0 -> srun J tbl s0 acts = Ok (s, h) ->
  exists hb, new_hub tbl = Some hb /\ hub_ran J tbl hb s h.
Proof.
  unfold new_server. destruct (new_hub tbl) as [hb|]; [|discriminate]. intros H. injection H as <-. intros Hr. exists hb. split; [reflexivity|].
  revert Hr. apply srun_inv; [reflexivity|]. intros *. apply hub_ran_step.
Qed.

Lemma hrun_middle J tbl : forall os1 h o os2 h' rs, hrun J tbl h (os1 ++ o :: os2) = Ok (h', rs) ->
  exists h1 rs1 h2 r rs2, hrun J tbl h os1 = Ok (h1, rs1) /\ hstep J tbl h1 o = Ok (h2, r) /\ rs = (rs1 ++ r :: rs2)%list.
Proof.
  induction os1 as [|o1 os1 IH]; intros h o os2 h' rs; cbn [hrun app].
  - destruct (hstep J tbl h o) as [[h1 r]| |] eqn:E; [|discriminate..]. destruct (hrun J tbl h1 os2) as [[h2 rs2]| |]; [|discriminate..].
    intros H. injection H as <- <-. exists h, [], h1, r, rs2. auto.
  - destruct (hstep J tbl h o1) as [[h1 r]| |] eqn:E; [|discriminate..]. destruct (hrun J tbl h1 (os1 ++ o :: os2)) as [[h2 rs2]| |] eqn:E2; [|discriminate..].
    intros H. injection H as <- <-. apply IH in E2 as (h3 & rs3 & h4 & r4 & rs4 & E3 & E4 & ->).
    exists h3, (r :: rs3), h4, r4, rs4. rewrite E3. auto.
Qed.
Lemma hub_answer J tbl s0 acts s h h1 id b h2 : new_server tbl = Some s0 -> srun J tbl s0 acts = Ok (s, h) ->
  h = (h1 ++ EHub (ODelete id) (RDeleted b) :: h2)%list -> b = true <-> regs_of J id (hub_regs J tbl h1) <> [].
Proof.
  intros H0 Hr ->. destruct (hub_ran_run _ _ _ _ _ _ H0 Hr) as (hb & Hb & Hran). unfold hub_ran in Hran.
  rewrite hub_history_app in Hran. cbn in Hran. rewrite !map_app in Hran. cbn in Hran.
  destruct (hrun_middle _ _ _ _ _ _ _ _ Hran) as (hb1 & rs1 & hb2 & r & rs2 & E1 & E2 & E3).
  assert (length rs1 = length (map snd (hub_history h1))) as Hl by (rewrite (hrun_length _ _ _ _ _ _ E1), !map_length; reflexivity).
  apply app_inj_1 in E3 as [E3 E4]; [|by rewrite Hl]. injection E4 as <- _. subst rs1.
  destruct (delete_exact J tbl hb _ _ _ id Hb E1) as (hb' & b' & E5 & Hb' & _). rewrite E5 in E2. injection E2 as _ ->.
  unfold hub_regs. destruct b; naive_solver.
Qed.

(** Only the observers of jobs register anything. *)
Lemma no_push J tbl s0 acts s h : new_server tbl = Some s0 -> srun J tbl s0 acts = Ok (s, h) ->
  forall j ns nr out, EHub (OPush j ns nr) out ∉ h.
Proof.
  intros _. apply (srun_inv (fun _ h => forall j ns nr out, EHub (OPush j ns nr) out ∉ h)); [intros *; apply not_elem_of_nil|].
  clear. intros s h a s' e IH Hst j ns nr out H. apply elem_of_app in H as [H|H]; [exact (IH _ _ _ _ H)|].
  destruct a as [q|t|o]; cbn in Hst.
  - destruct q; injection Hst as <- <-; apply elem_of_list_singleton in H; discriminate H.
  - destruct (threads s !! t) as [[r p]|] eqn:Ht; [|injection Hst as <- <-; by apply elem_of_nil in H].
    destruct p; cbn in Hst;
      repeat (match type of Hst with context [match ?x with _ => _ end] => destruct x end; try discriminate Hst);
      injection Hst as <- <-; repeat (apply elem_of_cons in H as [H|H]; [discriminate H|]); by apply elem_of_nil in H.
  - destruct (own s o) eqn:Eo; [|injection Hst as <- <-; by apply elem_of_nil in H].
    destruct (hstep J tbl (hubst s) o) as [[hb' out']| |] eqn:Eh; [|discriminate Hst..]. injection Hst as <- <-.
    apply elem_of_list_singleton in H. injection H as <- <-. discriminate Eo.
Qed.
Lemma registered_by J tbl h id : (forall j ns nr out, EHub (OPush j ns nr) out ∉ h) -> regs_of J id (hub_regs J tbl h) <> [] ->
  exists j c n ok, EHub (OStart j c) (RStarted n ok) ∈ h /\ j_id (J j) = id /\ selects (J j) (ct_name c) /\ job_nrs tbl (J j) <> [].
Proof.
  intros Hno Hne. assert (exists g, g ∈ hub_regs J tbl h /\ j_id (J (g_job g)) = id) as (g & Hg & Hid).
  { destruct (regs_of J id (hub_regs J tbl h)) as [|g l] eqn:E; [done|]. exists g.
    assert (g ∈ regs_of J id (hub_regs J tbl h)) as H by (rewrite E; left). apply elem_of_list_filter in H as [H1 H2]. auto. }
  clear Hne. induction h as [|e h IH] using rev_ind; [by apply elem_of_nil in Hg|].
  assert (Hno' : forall j ns nr out, EHub (OPush j ns nr) out ∉ h) by (intros * H; eapply Hno; apply elem_of_app; left; exact H).
  assert (g ∈ hub_regs J tbl h -> exists j c n ok, EHub (OStart j c) (RStarted n ok) ∈ (h ++ [e])%list /\ j_id (J j) = id /\ selects (J j) (ct_name c) /\ job_nrs tbl (J j) <> []) as Hrec.
  { intros H. destruct (IH Hno' H) as (j & c & n & ok & H1 & H2). exists j, c, n, ok. split; [apply elem_of_app; by left|exact H2]. }
  clear IH. unfold hub_regs in Hg, Hrec. rewrite hub_history_app, !map_app in Hg. destruct e as [t r|t r a|o out]; cbn in Hg; [rewrite !app_nil_r in Hg; auto..|].
  rewrite registrations_snoc in Hg by (rewrite !map_length; reflexivity).
  destruct o; cbn in Hg; try (apply Hrec; exact Hg).
  - destruct out; try (apply Hrec; exact Hg). case_decide as Hs; [|auto]. apply elem_of_app in Hg as [Hg|Hg]; [auto|].
    exists j, c, pushed, ok. split; [apply elem_of_app; right; by left|].
    apply elem_of_list_fmap in Hg as (nr & -> & Hnr). split; [exact Hid|]. split; [exact Hs|]. intros E. rewrite E in Hnr.
    destruct ok; [|rewrite take_nil in Hnr]; by apply elem_of_nil in Hnr.
  - exfalso. eapply (Hno j ns nr out). apply elem_of_app. right. by left.
  - apply elem_of_list_filter in Hg as [_ Hg]. auto.
Qed.

(** Creates that do not overlap. *)
Definition active_create (J : nat -> job) (id : string) (x : req * pc) : bool :=
  create_of J id x.1 && match x.2 with PDone => false | _ => true end.
Definition removing (id : string) (x : req * pc) : bool :=
  match x.2 with PRemoveGet id' _ | PRemove id' _ => bool_decide (id' = id) | _ => false end.
Definition present (s : srv) (id : string) : nat := match running s !! id with Some _ => 1 | None => 0 end.
Record balance (J : nat -> job) (id : string) (s : srv) (h : list sev) : Prop := {
  b_active : count (is_create_req J id) h = (count (is_create_answer J id) h + count (active_create J id) (threads s))%nat;
  b_put : forall t r j, threads s !! t = Some (r, PCreatePut j) -> j_id (J j) = id -> running s !! id = None;
  b_sum : (created J id h + count (removing id) (threads s) <= hub_deleted id h + present s id)%nat }.
Definition balanced (J : nat -> job) (id : string) (s : srv) (h : list sev) : Prop :=
  wf J s h /\ (creates_one_at_a_time J id h -> balance J id s h).

Lemma prefix_creates J id h h' : creates_one_at_a_time J id (h ++ h')%list -> creates_one_at_a_time J id h.
Proof. intros H l Hl. apply H. etrans; [exact Hl|]. by exists h'. Qed.

(** One thread moves on: what has to be checked. *)
Lemma balance_upd J id s h s' e t r p p' : balance J id s h -> threads s !! t = Some (r, p) -> threads s' = <[t := (r, p')]> (threads s) ->
  p <> PDone ->
  count (is_create_req J id) e = 0%nat ->
  (count (is_create_answer J id) e = if create_of J id r then match p' with PDone => 1 | _ => 0 end else 0)%nat ->
  (forall t' r' j, t' <> t -> threads s !! t' = Some (r', PCreatePut j) -> j_id (J j) = id -> running s' !! id = None) ->
  (forall j, p' = PCreatePut j -> j_id (J j) = id -> running s' !! id = None) ->
  (created J id e + present s id + (if removing id (r, p') then 1 else 0) <=
   hub_deleted id e + present s' id + (if removing id (r, p) then 1 else 0))%nat ->
  balance J id s' (h ++ e)%list.
Proof.
  intros [H1 H2 H3] Ht Et Hnd E1 E2 Hput Hput' Hsum. constructor.
  - rewrite !count_app, E1, E2, Et. pose proof (count_insert (active_create J id) _ t _ (r, p') Ht) as Hc. unfold active_create at 2 4 in Hc. cbn in Hc.
    destruct (create_of J id r); cbn in Hc; [|lia]. destruct p; [..|by destruct Hnd]; destruct p'; lia.
  - intros t' r' j. rewrite Et. intros H. apply list_lookup_insert_Some in H as [(<- & H & _)|(Hne & H)].
    + injection H as <- ->. by apply Hput'.
    + eapply (Hput t'); [done|exact H].
  - unfold created, hub_deleted in *. rewrite !count_app, Et. pose proof (count_insert (removing id) _ t _ (r, p') Ht) as Hc. lia.
Qed.

Ltac small := unfold created, hub_deleted, present, count; cbn; repeat (case_bool_decide || case_match); subst; cbn; try done; try lia.
Lemma balance_step J tbl id s h a s' e : balanced J id s h -> sstep J tbl s a = Ok (s', e) -> balanced J id s' (h ++ e)%list.
Proof.
  intros [W Hb] Hst. split; [by eapply wf_step|]. intros H1. specialize (Hb (prefix_creates _ _ _ _ H1)).
  destruct a as [q|t|o]; cbn in Hst.
  - assert (forall r f, balance J id (arrive s r f).1 (h ++ (arrive s r f).2)%list) as Harr.
    { intros r f. destruct Hb as [B1 B2 B3]. constructor; cbn [arrive fst snd threads running].
      - rewrite !count_app, B1.
        assert (count (active_create J id) [(r, entry r)] = count (is_create_req J id) [EReq (length (threads s)) r]) as ->.
        { unfold count, active_create. cbn. destruct r; cbn; rewrite ?andb_true_r; try case_bool_decide; reflexivity. }
        change (count (is_create_answer J id) [EReq (length (threads s)) r]) with 0%nat. lia.
      - intros t r' j H. apply lookup_app_Some in H as [H|[_ H]]; [by eapply B2|]. apply list_lookup_singleton_Some in H as [_ H]. by destruct r.
      - unfold created, hub_deleted, present in *. rewrite !count_app. cbn [running].
        assert (count (removing id) [(r, entry r)] = 0%nat) as -> by (by destruct r).
        etrans; [|etrans; [exact B3|]]; unfold count; cbn; lia. }
    destruct q; injection Hst as <- <-; apply Harr.
  - destruct (threads s !! t) as [[r p]|] eqn:Ht; [|injection Hst as <- <-; rewrite app_nil_r; exact Hb].
    pose proof (wf_fits J s h W _ _ _ Ht) as Hf. pose proof (b_put _ _ _ _ Hb) as Hput.
    destruct p; cbn in Hst, Hf.
    + subst r. destruct (running s !! j_id (J j)) eqn:Er; injection Hst as <- <-; (eapply balance_upd; [exact Hb|exact Ht|reflexivity|discriminate|..]);
        try (intros t' r' j' _ Ht' Hj'; exact (Hput _ _ _ Ht' Hj')); try discriminate; try (by small).
      intros j' H Hj'. injection H as <-. cbn. by rewrite <- Hj'.
    + subst r. injection Hst as <- <-. eapply balance_upd; [exact Hb|exact Ht|reflexivity|discriminate|..]; try discriminate.
      * by small.
      * by small.
      * (* no other create of id is under way *)
        intros t' r' j' Hne Ht' Hj'. cbn. destruct (decide (j_id (J j) = id)) as [Hj|Hj]; cycle 1.
        { rewrite lookup_insert_ne by done. by eapply Hput. }
        exfalso. assert (2 <= count (active_create J id) (threads s))%nat as H2.
        { pose proof (wf_fits J s h W _ _ _ Ht') as Hf'. cbn in Hf'. subst r'.
          eapply (count_two _ _ t t'); [exact Ht|exact Ht'| | |done]; unfold active_create; cbn; by rewrite bool_decide_true. }
        pose proof (b_active _ _ _ _ Hb) as B1. pose proof (prefix_creates _ _ _ _ H1 h (reflexivity _)) as B2. lia.
      * pose proof (Hput _ _ _ Ht) as Hn. unfold created, hub_deleted, present, count. cbn. case_bool_decide as Hj; cbn.
        { rewrite (Hn Hj). rewrite <- Hj, lookup_insert. lia. } { rewrite lookup_insert_ne by done. lia. }
    + subst r. destruct (running s !! id0) eqn:Er; injection Hst as <- <-; (eapply balance_upd; [exact Hb|exact Ht|reflexivity|discriminate|..]);
        try (intros t' r' j' _ Ht' Hj'; exact (Hput _ _ _ Ht' Hj')); try discriminate; by small.
    + subst r. destruct (running s !! id0) eqn:Er; injection Hst as <- <-; (eapply balance_upd; [exact Hb|exact Ht|reflexivity|discriminate|..]);
        try (intros t' r' j' _ Ht' Hj'; exact (Hput _ _ _ Ht' Hj')); try discriminate; by small.
    + destruct Hf as [-> Hid]. rewrite Hid in Hst. destruct (delete_trace tbl (hubst s) id0) as [[hb b]| |]; [|discriminate Hst..].
      destruct b; injection Hst as <- <-; (eapply balance_upd; [exact Hb|exact Ht|reflexivity|discriminate|..]);
        try (intros t' r' j' _ Ht' Hj'; exact (Hput _ _ _ Ht' Hj')); try discriminate; by small.
    + destruct Hf as [-> Hid]. destruct (running s !! j_id (J j)); injection Hst as <- <-; (eapply balance_upd; [exact Hb|exact Ht|reflexivity|discriminate|..]);
        try (intros t' r' j' _ Ht' Hj'; exact (Hput _ _ _ Ht' Hj')); try discriminate; by small.
    + destruct Hf as [-> Hid]. injection Hst as <- <-. eapply balance_upd; [exact Hb|exact Ht|reflexivity|discriminate|..]; try discriminate.
      * by small. * by small.
      * intros t' r' j' _ Ht' Hj'. cbn. apply lookup_delete_None. right. exact (Hput _ _ _ Ht' Hj').
      * rewrite Hid. unfold created, hub_deleted, present, count. cbn. case_bool_decide as Hj; cbn.
        { subst id0. rewrite Hj, lookup_delete. destruct (running s !! id); lia. } { rewrite lookup_delete_ne by done. lia. }
    + destruct Hf as [-> Hid]. destruct (completed s !! j_id (J j)); injection Hst as <- <-; (eapply balance_upd; [exact Hb|exact Ht|reflexivity|discriminate|..]);
        try (intros t' r' j' _ Ht' Hj'; exact (Hput _ _ _ Ht' Hj')); try discriminate; by small.
    + destruct Hf as [-> Hid]. injection Hst as <- <-. eapply balance_upd; [exact Hb|exact Ht|reflexivity|discriminate|..];
        try (intros t' r' j' _ Ht' Hj'; exact (Hput _ _ _ Ht' Hj')); try discriminate; by small.
    + subst r. injection Hst as <- <-. eapply balance_upd; [exact Hb|exact Ht|reflexivity|discriminate|..];
        try (intros t' r' j' _ Ht' Hj'; exact (Hput _ _ _ Ht' Hj')); try discriminate; by small.
    + injection Hst as <- <-. rewrite app_nil_r. exact Hb.
  - destruct (own s o) eqn:Eo; [|injection Hst as <- <-; rewrite app_nil_r; exact Hb].
    destruct (hstep J tbl (hubst s) o) as [[hb out]| |] eqn:Eh; [|discriminate Hst..]. injection Hst as <- <-.
    assert (hub_deleted id [EHub o out] = 0%nat /\ created J id [EHub o out] = 0%nat /\ count (is_create_req J id) [EHub o out] = 0%nat /\
      count (is_create_answer J id) [EHub o out] = 0%nat) as (E1 & E2 & E3 & E4) by (destruct o; try done; discriminate Eo).
    destruct Hb as [B1 B2 B3]. constructor; [|exact B2|].
    + rewrite !count_app, B1, E3, E4. cbn [set_hub threads]. lia.
    + rewrite hub_deleted_app, E1. unfold created in E2 |- *. rewrite count_app, E2. unfold present in *. cbn [set_hub threads running]. fold (created J id h). lia.
Qed.
Lemma creates_bounded J tbl s0 acts s h id : new_server tbl = Some s0 -> srun J tbl s0 acts = Ok (s, h) ->
  creates_one_at_a_time J id h -> (created J id h <= hub_deleted id h + 1)%nat.
Proof.
  intros H0 Hr H1. assert (balanced J id s h) as [_ Hb].
  { revert Hr. apply srun_inv; [|intros *; apply balance_step]. split; [by eapply new_server_wf|]. intros _.
    unfold new_server in H0. destruct (new_hub tbl) as [hb|]; [|discriminate]. injection H0 as <-. constructor; cbn; [reflexivity|intros t r j H; discriminate H|lia]. }
  pose proof (b_sum _ _ _ _ (Hb H1)) as H. unfold present in H. destruct (running s !! id); lia.
Qed.

Lemma deleted_once J tbl s0 acts s h id : new_server tbl = Some s0 -> srun J tbl s0 acts = Ok (s, h) -> one_at_a_time h ->
  (count (fun e => match e with EAnswer _ (RDelete id') (ACode 200) => bool_decide (id' = id) | _ => false end) h <= 1)%nat.
Proof.
  intros H0 Hr H1. pose proof (answers_right J tbl s0 acts s h H0 Hr H1) as Hall. clear Hr H1.
  set (f := fun e => match e with EAnswer _ (RDelete id') (ACode 200) => bool_decide (id' = id) | _ => false end).
  assert (forall h1 h2, h = (h1 ++ h2)%list -> (count f h1 <= 1 /\ (count f h1 = 1%nat -> deleted_ok id h1))%nat) as Hp; [|by apply (Hp h []); rewrite app_nil_r].
  intros h1. induction h1 as [|e h1 IH] using rev_ind; intros h2 Eh; [cbn; split; [lia|discriminate]|].
  rewrite <- app_assoc in Eh. cbn in Eh. destruct (IH _ Eh) as [Hle Hdel]. rewrite count_app.
  destruct (f e) eqn:Ef; cycle 1.
  { assert (count f [e] = 0%nat) as -> by (unfold count; cbn; by rewrite Ef). rewrite Nat.add_0_r. split; [exact Hle|].
    intros H. apply deleted_app. left. auto. }
  assert (exists t, e = EAnswer t (RDelete id) (ACode 200)) as [t ->].
  { unfold f in Ef. destruct e as [|t r a|]; try discriminate Ef. destruct r; try discriminate Ef. destruct a as [c| |]; try discriminate Ef.
    destruct (decide (c = 200)) as [->|Hc]. { apply bool_decide_eq_true_1 in Ef. subst id0. eauto. }
    exfalso. revert Ef. destruct c; try discriminate. repeat (match goal with |- context [match ?x with _ => _ end] => is_var x; destruct x end; try discriminate). by destruct Hc. }
  assert (~ deleted_ok id h1) as Hnot.
  { destruct (Hall _ _ _ _ _ Eh) as (h0 & hm & -> & Hn & Hra). cbn in Hra. rewrite deleted_after by exact Hn.
    destruct (live J id h0); [|by destruct Hra]. naive_solver. }
  assert (count f h1 = 0%nat) as -> by (destruct (decide (count f h1 = 1%nat)) as [E|E]; [by destruct (Hnot (Hdel E))|lia]).
  assert (count f [EAnswer t (RDelete id) (ACode 200)] = 1%nat) as -> by (unfold count; cbn; by rewrite bool_decide_true).
  split; [lia|]. intros _. apply deleted_app. right. exists t. by left.
Qed.

Lemma delete_had_match J tbl s0 acts s h h1 t id h2 : new_server tbl = Some s0 -> srun J tbl s0 acts = Ok (s, h) ->
  h = (h1 ++ EAnswer t (RDelete id) (ACode 200) :: h2)%list ->
  exists j c n ok, EHub (OStart j c) (RStarted n ok) ∈ h1 /\ j_id (J j) = id /\ selects (J j) (ct_name c) /\ job_nrs tbl (J j) <> [].
Proof.
  intros H0 Hr Eh. pose proof (wf_answers J s h (wf_run J tbl s0 acts s h H0 Hr) _ _ _ _ _ Eh) as H. cbn in H.
  apply elem_of_list_split in H as (ha & hb & ->).
  assert (h = (ha ++ EHub (ODelete id) (RDeleted true) :: (hb ++ EAnswer t (RDelete id) (ACode 200) :: h2))%list) as Eh' by (rewrite Eh, <- app_assoc; reflexivity).
  pose proof (proj1 (hub_answer J tbl s0 acts s h _ _ _ _ H0 Hr Eh') eq_refl) as Hne.
  destruct (registered_by J tbl ha id) as (j & c & n & ok & Hin & Hrest); [|exact Hne|].
  - intros j ns nr out Hin. eapply (no_push J tbl s0 acts s h H0 Hr). rewrite Eh'. apply elem_of_app. left. exact Hin.
  - exists j, c, n, ok. split; [apply elem_of_app; by left|exact Hrest].
Qed.

Lemma unmatched_stays J tbl s0 acts s h h1 t id a h2 : new_server tbl = Some s0 -> srun J tbl s0 acts = Ok (s, h) -> one_at_a_time h ->
  h = (h1 ++ EAnswer t (RDelete id) a :: h2)%list ->
  (forall j c n ok, EHub (OStart j c) (RStarted n ok) ∈ h1 -> j_id (J j) <> id) ->
  a = ACode (match live J id h1 with Some _ => 500 | None => 404 end) /\ live J id (h1 ++ [EAnswer t (RDelete id) a])%list = live J id h1.
Proof.
  intros H0 Hr H1 Eh Hnot. destruct (answers_right J tbl s0 acts s h H0 Hr H1 _ _ _ _ _ Eh) as (h0 & hm & E1 & Hn & Hra).
  assert (hub_deleted id hm = 0%nat) as Hz.
  { assert (EHub (ODelete id) (RDeleted true) ∉ h1) as Hin.
    - intros Hin. apply elem_of_list_split in Hin as (ha & hb & Ha).
      assert (h = (ha ++ EHub (ODelete id) (RDeleted true) :: (hb ++ EAnswer t (RDelete id) a :: h2))%list) as Eh' by (rewrite Eh, Ha, <- app_assoc; reflexivity).
      pose proof (proj1 (hub_answer J tbl s0 acts s h _ _ _ _ H0 Hr Eh') eq_refl) as Hne.
      destruct (registered_by J tbl ha id) as (j & c & n & ok & Hs & Hj & _); [|exact Hne|].
      + intros j ns nr out Hs. eapply (no_push J tbl s0 acts s h H0 Hr). rewrite Eh'. apply elem_of_app. left. exact Hs.
      + apply (Hnot j c n ok); [|exact Hj]. rewrite Ha. apply elem_of_app. by left.
    - cbn in Hra. destruct (live J id h0); [|tauto]. destruct Hra as [(_ & Hz & _)|(Hd & _)]; [exact Hz|]. exfalso. apply Hin. rewrite E1.
      apply elem_of_app. right. by right. }
  assert (live J id h1 = live J id h0) as El by (rewrite E1, live_after by exact Hn; by rewrite decide_True).
  split.
  - rewrite El. cbn in Hra. destruct (live J id h0); [|tauto]. destruct Hra as [(_ & _ & ->)|(_ & H & _)]; [reflexivity|]. lia.
  - rewrite live_app. reflexivity.
Qed.

Lemma lives_on J tbl s0 acts s h id j t c s' h' : new_server tbl = Some s0 -> srun J tbl s0 acts = Ok (s, h) -> one_at_a_time h ->
  count is_req h = count is_answer h -> live J id h = None -> EAnswer t (RCreate j) (ACode 201) ∈ h ->
  let t' := length (threads s) in
  selects (J j) (ct_name c) ->
  srun J tbl s [SHub (OStart j c); SReq (QDelete id); SStep t'] = Ok (s', h') ->
  exists n ok, h' = [EHub (OStart j c) (RStarted n ok); EReq t' (RDelete id); EAnswer t' (RDelete id) (ACode 404)] /\
    (ok = true -> forall nr, nr ∈ job_nrs tbl (J j) -> Reg j (ct_ns c) nr ∈ hub_regs J tbl (h ++ h')%list).
Proof.
  intros H0 Hr H1 Hc Hl Ha t' Hsel H. destruct (seq_run J tbl s0 acts s h H0 Hr H1) as [_ [(_ & [Ht _] & _)|(Hc' & _)]]; [|lia].
  specialize (Ht id). rewrite Hl in Ht. unfold srun in H. cbn [sstep own] in H.
  assert (bool_decide (j ∈ spawned s) = true) as Hsp by (apply bool_decide_true, (wf_spawned J s h (wf_run J tbl s0 acts s h H0 Hr)); eauto).
  rewrite Hsp in H. destruct (hstep J tbl (hubst s) (OStart j c)) as [[hb out]| |] eqn:Eh; [|discriminate H..].
  cbn [hstep] in Eh. destruct (on_start J tbl (hubst s) j c) as [[hb' [n ok]]| |]; [|discriminate Eh..]. injection Eh as <- <-.
  cbn [arrive threads set_hub] in H. rewrite lookup_app_r in H by (unfold t'; lia). unfold t' in H at 1. rewrite Nat.sub_diag in H. cbn in H. rewrite Ht in H. cbn in H.
  injection H as _ <-. exists n, ok. split; [reflexivity|]. intros -> nr Hnr.
  unfold hub_regs. rewrite hub_history_app, !map_app. cbn. rewrite registrations_snoc by (rewrite !map_length; reflexivity). cbn.
  rewrite decide_True by exact Hsel. apply elem_of_app. right. apply elem_of_list_fmap. eauto.
Qed.
