(** Proofs about commands over several endpoints: servers in a fleet are servers,
    and what a command has done so far. *)
From Coq Require Import ZArith String Lia.
From stdpp Require Import gmap strings list.
From Verif Require Import SyscallModel FilterModel HubModel HubSpec ServerModel ServerSpec ServerProofs FleetModel FleetSpec.
Open Scope Z_scope.

Lemma at_server_app i l1 l2 : at_server i (l1 ++ l2) = (at_server i l1 ++ at_server i l2)%list.
Proof. unfold at_server. apply omap_app. Qed.
Lemma asked_app l1 l2 : asked (l1 ++ l2) = (asked l1 ++ asked l2)%list.
Proof. unfold asked. apply omap_app. Qed.
Lemma succeeded_app l1 l2 : succeeded (l1 ++ l2) = (succeeded l1 ++ succeeded l2)%list.
Proof. unfold succeeded. apply omap_app. Qed.
Lemma at_server_own i es : at_server i (map (VServer i) es) = es.
Proof. induction es as [|e es IH]; [reflexivity|]. unfold at_server in *. cbn. rewrite decide_True by reflexivity. by rewrite IH. Qed.
Lemma at_server_other i i' es : i' <> i -> at_server i (map (VServer i') es) = [].
Proof. intros H. induction es as [|e es IH]; [reflexivity|]. unfold at_server in *. cbn. by rewrite decide_False. Qed.
Lemma asked_map i es : asked (map (VServer i) es) = [].
Proof. by induction es as [|e es IH]. Qed.
Lemma succeeded_map i es : succeeded (map (VServer i) es) = [].
Proof. by induction es as [|e es IH]. Qed.
Lemma elem_at_server i e l : e ∈ at_server i l <-> VServer i e ∈ l.
Proof.
  unfold at_server. rewrite elem_of_list_omap. split.
  - intros (x & Hx & E). destruct x as [i' e'| | | |]; try discriminate E. destruct (decide (i' = i)); [|discriminate E]. injection E as <-. by subst.
  - intros H. exists (VServer i e). split; [exact H|]. by rewrite decide_True.
Qed.

(** The requests of a server and its answers to them. *)
Definition talk (s : srv) (h : list sev) : Prop :=
  (forall t r, EReq t r ∈ h -> exists p, threads s !! t = Some (r, p)) /\
  (forall t r a, EAnswer t r a ∈ h -> exists p, threads s !! t = Some (r, p)).
Lemma advance_talk J tbl s t r p s' e : advance J tbl s t r p = Ok (s', e) -> threads s !! t = Some (r, p) ->
  (exists p', threads s' = <[t := (r, p')]> (threads s)) /\ (forall t' r', EReq t' r' ∉ e) /\ (forall t' r' a, EAnswer t' r' a ∈ e -> t' = t /\ r' = r).
Proof.
  intros H Ht.
  assert (forall s1 a, threads s1 = threads s -> finish s1 t r a = Ok (s', e) ->
    (exists p', threads s' = <[t := (r, p')]> (threads s)) /\ (forall t' r', EReq t' r' ∉ e) /\ (forall t' r' a, EAnswer t' r' a ∈ e -> t' = t /\ r' = r)) as Hf.
  { intros s1 a E1 E. unfold finish in E. injection E as <- <-. split; [exists PDone; cbn; by rewrite E1|]. split.
    - intros t' r' Hin. apply elem_of_list_singleton in Hin. discriminate Hin.
    - intros t' r' a' Hin. apply elem_of_list_singleton in Hin. by injection Hin as -> -> _. }
  assert (forall s1 p', threads s1 = threads s -> goto s1 t r p' = Ok (s', e) ->
    (exists p', threads s' = <[t := (r, p')]> (threads s)) /\ (forall t' r', EReq t' r' ∉ e) /\ (forall t' r' a, EAnswer t' r' a ∈ e -> t' = t /\ r' = r)) as Hg.
  { intros s1 p' E1 E. unfold goto in E. injection E as <- <-. split; [exists p'; cbn; by rewrite E1|]. split; [intros ? ? Hin; by apply not_elem_of_nil in Hin|intros ? ? ? Hin; by apply not_elem_of_nil in Hin]. }
  destruct p as [j|j|id|id|id j|id j|id j|id j|id j| |]; cbn [advance] in H.
  - destruct (running s !! _); [eapply Hf|eapply Hg]; [|exact H| |exact H]; reflexivity.
  - eapply Hf; [|exact H]. reflexivity.
  - destruct (running s !! id); (eapply Hf; [|exact H]); reflexivity.
  - destruct (running s !! id); [eapply Hg|eapply Hf]; [|exact H| |exact H]; reflexivity.
  - destruct (hstep J tbl (hubst s) _) as [[h out]| |]; [|discriminate H..].
    assert (forall p' es, Ok (set_pc (set_hub s h) t r p', es) = Ok (s', e) -> (forall t' r', EReq t' r' ∉ es) -> (forall t' r' a, EAnswer t' r' a ∈ es -> t' = t /\ r' = r) ->
      (exists p', threads s' = <[t := (r, p')]> (threads s)) /\ (forall t' r', EReq t' r' ∉ e) /\ (forall t' r' a, EAnswer t' r' a ∈ e -> t' = t /\ r' = r)) as Ho.
    { intros p' es E H1 H2. injection E as <- <-. split; [by exists p'|]. by split. }
    destruct out as [| |ok| |]; [| |destruct ok| |]; eapply Ho; try exact H; intros; try (intros Hin);
      repeat match goal with
      | Hin : _ ∈ [] |- _ => by apply not_elem_of_nil in Hin
      | Hin : _ ∈ _ :: _ |- _ => apply elem_of_cons in Hin as [Hin|Hin]; try discriminate Hin; try (injection Hin as -> -> _; by split)
      end.
  - destruct (running s !! _); [eapply Hg|eapply Hf]; [|exact H| |exact H]; reflexivity.
  - eapply Hg; [|exact H]. reflexivity.
  - destruct (completed s !! _); [eapply Hf|eapply Hg]; [|exact H| |exact H]; reflexivity.
  - eapply Hf; [|exact H]. reflexivity.
  - eapply Hf; [|exact H]. reflexivity.
  - injection H as <- <-. split; [exists PDone; by rewrite list_insert_id|]. split; [intros ? ? Hin; by apply not_elem_of_nil in Hin|intros ? ? ? Hin; by apply not_elem_of_nil in Hin].
Qed.
Lemma talk_step J tbl s h a s' e : talk s h -> sstep J tbl s a = Ok (s', e) -> talk s' (h ++ e)%list.
Proof.
  intros [H1 H2] Hs.
  assert (forall r f, Ok (arrive s r f) = Ok (s', e) -> talk s' (h ++ e)%list) as Ha.
  { intros r f E. unfold arrive in E. injection E as <- <-. split; cbn.
    - intros t r0 Hin. apply elem_of_app in Hin as [Hin|Hin].
      + destruct (H1 _ _ Hin) as [p Hp]. exists p. by apply lookup_app_l_Some.
      + apply elem_of_list_singleton in Hin. injection Hin as -> ->. exists (entry r). by rewrite lookup_app_r, Nat.sub_diag by lia.
    - intros t r0 a0 Hin. apply elem_of_app in Hin as [Hin|Hin]; [|apply elem_of_list_singleton in Hin; discriminate Hin].
      destruct (H2 _ _ _ Hin) as [p Hp]. exists p. by apply lookup_app_l_Some. }
  destruct a as [q|t|o]; cbn [sstep] in Hs.
  - destruct q; eapply Ha; exact Hs.
  - destruct (threads s !! t) as [[r p]|] eqn:Et; cycle 1.
    { injection Hs as <- <-. rewrite app_nil_r. by split. }
    destruct (advance_talk _ _ _ _ _ _ _ _ Hs Et) as ([p' Ep] & Hn & Han).
    assert (forall t1 r1 p1, threads s !! t1 = Some (r1, p1) -> exists p2, threads s' !! t1 = Some (r1, p2)) as Hk.
    { intros t1 r1 p1 Hp. rewrite Ep. destruct (decide (t1 = t)) as [->|Hne].
      - rewrite list_lookup_insert by (by eapply lookup_lt_Some). rewrite Et in Hp. injection Hp as -> _. eauto.
      - rewrite list_lookup_insert_ne by done. eauto. }
    split.
    + intros t1 r1 Hin. apply elem_of_app in Hin as [Hin|Hin]; [|by apply Hn in Hin]. destruct (H1 _ _ Hin) as [p1 Hp]. eauto.
    + intros t1 r1 a1 Hin. apply elem_of_app in Hin as [Hin|Hin]; [destruct (H2 _ _ _ Hin) as [p1 Hp]; eauto|].
      apply Han in Hin as [-> ->]. eauto.
  - destruct (own s o); cycle 1. { injection Hs as <- <-. rewrite app_nil_r. by split. }
    destruct (hstep J tbl (hubst s) o) as [[hb out]| |]; [|discriminate Hs..]. injection Hs as <- <-. split; cbn.
    + intros t r Hin. apply elem_of_app in Hin as [Hin|Hin]; [eauto|]. apply elem_of_list_singleton in Hin. discriminate Hin.
    + intros t r a Hin. apply elem_of_app in Hin as [Hin|Hin]; [eauto|]. apply elem_of_list_singleton in Hin. discriminate Hin.
Qed.
Lemma talk_run J tbl s0 acts s h : new_server tbl = Some s0 -> srun J tbl s0 acts = Ok (s, h) -> talk s h.
Proof.
  intros H0. revert s h. induction acts as [|a acts IH] using rev_ind; intros s h Hr.
  - injection Hr as <- <-. split; [intros ? ? Hin; by apply not_elem_of_nil in Hin|intros ? ? ? Hin; by apply not_elem_of_nil in Hin].
  - apply srun_snoc in Hr as (s1 & h1 & e & Hr & Hs & ->). eapply talk_step; [|exact Hs]. by apply IH.
Qed.

(** Servers of a fleet are servers. *)
Definition served_at (J : nat -> nat -> job) (tbl : syscalls) (s0 : srv) (i : nat) (s : srv) (h : list sev) : Prop :=
  exists acts, srun (J i) tbl s0 acts = Ok (s, h).
Definition servers (J : nat -> nat -> job) (tbl : syscalls) (s0 : srv) (f : fleet) : Prop :=
  forall i, exists s, served_at J tbl s0 i s (at_server i (f_log f)) /\ (forall s', f_srv f !! i = Some (Some s') -> s' = s).
Lemma served_step J tbl s0 i s h a s' e : served_at J tbl s0 i s h -> sstep (J i) tbl s a = Ok (s', e) -> served_at J tbl s0 i s' (h ++ e)%list.
Proof. intros [acts Hr] Hs. exists (acts ++ [a])%list. rewrite srun_app, Hr. cbn. rewrite Hs. by rewrite app_nil_r. Qed.

Lemma servers_same J tbl s0 f f' l : servers J tbl s0 f -> f_srv f' = f_srv f -> f_log f' = (f_log f ++ l)%list -> (forall i, at_server i l = []) -> servers J tbl s0 f'.
Proof.
  intros H E1 E2 Hl i. destruct (H i) as (s & Hs & Hi). exists s. rewrite E1, E2, at_server_app, Hl, app_nil_r. by split.
Qed.
Lemma servers_upd J tbl s0 f i s a s' es pre c : servers J tbl s0 f -> f_srv f !! i = Some (Some s) -> sstep (J i) tbl s a = Ok (s', es) -> (forall i, at_server i pre = []) ->
  servers J tbl s0 (Fleet (<[i := Some s']> (f_srv f)) (f_log f ++ pre ++ map (VServer i) es) c).
Proof.
  intros H Hi Hs Hpre k. cbn [f_log f_srv]. rewrite !at_server_app, Hpre. cbn [app]. destruct (H k) as (sk & Hk & Ek). destruct (decide (k = i)) as [->|Hne].
  - assert (s = sk) as <- by (by apply Ek). exists s'. rewrite at_server_own. split; [by eapply served_step|].
    intros s1 E1. rewrite list_lookup_insert in E1 by (by eapply lookup_lt_Some). by injection E1.
  - exists sk. rewrite at_server_other, app_nil_r by done. split; [exact Hk|]. intros s1 E1. rewrite list_lookup_insert_ne in E1 by done. by apply Ek.
Qed.
Lemma servers_step J tbl s0 f a : servers J tbl s0 f -> servers J tbl s0 (fstep J tbl f a).
Proof.
  intros H. assert (forall st, servers J tbl s0 (exits f st)) as Hx.
  { intros st. eapply (servers_same _ _ _ f _ [VExit st]); [exact H|reflexivity..]. }
  destruct a as [i a|c eps| |]; cbn [fstep].
  - destruct (f_srv f !! i) as [[s|]|] eqn:Ei; [|exact H..].
    destruct (sstep (J i) tbl s a) as [[s' es]| |] eqn:Es.
    + eapply (servers_upd _ _ _ f i s a s' es []); [exact H|exact Ei|exact Es|reflexivity].
    + intros k. destruct (H k) as (sk & Hk & Ek). exists sk. split; [exact Hk|]. cbn [f_srv]. intros s1 E1. destruct (decide (k = i)) as [->|Hne].
      * rewrite list_lookup_insert in E1 by (by eapply lookup_lt_Some). discriminate E1.
      * rewrite list_lookup_insert_ne in E1 by done. by apply Ek.
    + intros k. destruct (H k) as (sk & Hk & Ek). exists sk. split; [exact Hk|]. cbn [f_srv]. intros s1 E1. destruct (decide (k = i)) as [->|Hne].
      * rewrite list_lookup_insert in E1 by (by eapply lookup_lt_Some). discriminate E1.
      * rewrite list_lookup_insert_ne in E1 by done. by apply Ek.
  - destruct (f_cmd f); [exact H|]. eapply (servers_same _ _ _ f _ [VStart c eps]); [exact H|reflexivity..].
  - destruct (f_cmd f) as [p|]; [|exact H]. unfold fgo. destruct (p_todo p) as [|i rest]; [apply Hx|].
    destruct (p_wait p) as [t|].
    + destruct (answer_of i t (f_log f)) as [a|]; [|exact H]. destruct (wanted (p_cmd p) a); [|apply Hx].
      eapply (servers_same _ _ _ f _ [VDone i]); [exact H|reflexivity..].
    + destruct (f_srv f !! i) as [[s|]|] eqn:Ei; [|apply Hx..]. destruct (meant (J i) s (p_cmd p)); [|exact H].
      destruct (sstep (J i) tbl s _) as [[s' es]| |] eqn:Es; [|exact H..].
      eapply (servers_upd _ _ _ f i s _ s' es [VSend i _]); [exact H|exact Ei|exact Es|reflexivity].
  - destruct (f_cmd f) as [[c [|i rest] w]|]; [exact H|apply Hx|exact H].
Qed.
Lemma frun_inv (P : fleet -> Prop) J tbl f acts : P f -> (forall f a, P f -> P (fstep J tbl f a)) -> P (frun J tbl f acts).
Proof. intros H0 Hs. revert f H0. induction acts as [|a acts IH]; intros f H0; [exact H0|]. apply IH. by apply Hs. Qed.
Lemma new_servers J tbl s0 n : new_server tbl = Some s0 -> servers J tbl s0 (new_fleet tbl n).
Proof.
  intros H0 i. exists s0. split; [by exists []|]. cbn. intros s' E. apply elem_of_list_lookup_2 in E. 
  assert (forall k x, x ∈ repeat (new_server tbl) k -> x = new_server tbl) as Hrep.
  { induction k as [|k IH]; cbn; intros x Hx; [by apply not_elem_of_nil in Hx|]. apply elem_of_cons in Hx as [->|Hx]; [done|by apply IH]. }
  apply Hrep in E. rewrite H0 in E. by injection E.
Qed.
Lemma run_servers J tbl s0 n acts : new_server tbl = Some s0 -> servers J tbl s0 (frun J tbl (new_fleet tbl n) acts).
Proof. intros H0. apply frun_inv; [by apply new_servers|intros; by apply servers_step]. Qed.

(** Finding an answer. *)
Lemma answer_of_Some i t l a : answer_of i t l = Some a -> exists l1 r l2, l = (l1 ++ VServer i (EAnswer t r a) :: l2)%list.
Proof.
  induction l as [|e l IH]; cbn; [discriminate|]. destruct (answer_in i t e) as [a'|] eqn:E.
  - intros [= ->]. unfold answer_in in E. destruct e as [i' [| t' r' a''|]| | | |]; try discriminate E.
    destruct (decide (i' = i /\ t' = t)) as [[-> ->]|]; [|discriminate E]. injection E as ->. by exists [], r', l.
  - intros H. destruct (IH H) as (l1 & r & l2 & ->). by exists (e :: l1), r, l2.
Qed.
Lemma answer_of_app i t l1 l2 : answer_of i t l1 = None -> answer_of i t (l1 ++ l2) = answer_of i t l2.
Proof. induction l1 as [|e l1 IH]; cbn; [done|]. destruct (answer_in i t e); [discriminate|exact IH]. Qed.
Lemma no_answer i t l : (forall r a, EAnswer t r a ∉ at_server i l) -> answer_of i t l = None.
Proof.
  intros H. destruct (answer_of i t l) as [a|] eqn:E; [|done]. apply answer_of_Some in E as (l1 & r & l2 & ->).
  destruct (H r a). apply elem_at_server. apply elem_of_app. right. by left.
Qed.
