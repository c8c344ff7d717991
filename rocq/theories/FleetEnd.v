(** When a command over several endpoints can and cannot end well. *)
From Coq Require Import ZArith String Lia.
From stdpp Require Import gmap strings list.
From Verif Require Import SyscallModel FilterModel HubModel HubSpec ServerModel ServerSpec ServerProofs ServerTop FleetModel FleetSpec FleetProofs FleetTop.
Open Scope Z_scope.

Lemma elem_succeeded i l : i ∈ succeeded l -> exists la lb, l = (la ++ VDone i :: lb)%list.
Proof.
  unfold succeeded. rewrite elem_of_list_omap. intros (x & Hx & E). destruct x; try discriminate E. injection E as ->.
  apply elem_of_list_split in Hx as (la & lb & ->). by exists la, lb.
Qed.
(** The history of server [i] around a success of the command there. *)
Lemma success_at J c l1 i : each_success J c l1 -> i ∈ succeeded l1 ->
  exists lx ly lz, l1 = (lx ++ ly ++ VDone i :: lz)%list /\ did J c i (at_server i ly).
Proof.
  intros H Hi. destruct (elem_succeeded _ _ Hi) as (la & lb & E). destruct (H _ _ _ E) as (lx & t & ly & -> & _ & Hd).
  exists (lx ++ [VSend i t])%list, ly, lb. split; [|exact Hd]. rewrite E, <- !app_assoc. reflexivity.
Qed.
Lemma at_ran i log l0 c eps l1 st : ran log l0 c eps l1 st -> exists h2, at_server i log = (at_server i l0 ++ at_server i l1 ++ h2)%list.
Proof.
  intros (l2 & -> & _). exists (at_server i l2).
  change (l0 ++ VStart c eps :: l1 ++ VExit st :: l2)%list with (l0 ++ [VStart c eps] ++ l1 ++ [VExit st] ++ l2)%list. by rewrite !at_server_app.
Qed.

Section run.
  Context (J : nat -> nat -> job) (tbl : syscalls) (s0 : srv) (n : nat) (acts : list fact) (l0 : list fev) (c : command) (eps : list nat) (l1 : list fev) (st : Z).
  Context (H0 : new_server tbl = Some s0) (Hran : ran (f_log (frun J tbl (new_fleet tbl n) acts)) l0 c eps l1 st).
  Notation log := (f_log (frun J tbl (new_fleet tbl n) acts)).

  Lemma ends : ended_ok J c eps l1 st.
  Proof using H0 Hran. eapply command_ends; [exact H0|exact Hran]. Qed.
  Lemma ran_at i : exists acts s h2, srun (J i) tbl s0 acts = Ok (s, (at_server i l0 ++ at_server i l1 ++ h2)%list).
  Proof using H0 Hran.
    destruct (run_servers J tbl s0 n acts H0 i) as (s & [acts' Hr] & _). destruct (at_ran i _ _ _ _ _ _ Hran) as [h2 E]. rewrite E in Hr. by exists acts', s, h2.
  Qed.

  (** An endpoint that cannot give the answer stops the command. *)
  Lemma stopped i before rest : eps = (before ++ i :: rest)%list -> i ∉ succeeded l1 -> st = 1 /\ asked l1 `prefix_of` (before ++ [i])%list.
  Proof using H0 Hran.
    intros He Hi. destruct ends as [_ [(-> & E & _)|(-> & k & rest' & E & Ha)]].
    { destruct Hi. rewrite E, He. apply elem_of_app. right. by left. }
    split; [done|]. rewrite He in E.
    assert (exists m, before ++ [i] = (succeeded l1 ++ k :: m))%list as [m Em].
    { clear Ha He. revert E Hi. generalize (succeeded l1). clear. induction before as [|b before IH]; intros sx E Hi; cbn in *.
      - destruct sx as [|x sx]; [exists []; by injection E as -> _|]. destruct Hi. injection E as -> _. by left.
      - destruct sx as [|x sx]; [exists (before ++ [i])%list; by injection E as -> _|]. injection E as -> E.
        destruct (IH sx E) as [m Em]; [|exists m; by rewrite Em]. intros Hin. apply Hi. by right. }
    rewrite Em. destruct Ha as [-> | ->].
    - by exists (k :: m).
    - exists m. by rewrite <- app_assoc.
  Qed.

  Lemma all_did : st = 0 -> forall i, i ∈ eps -> did J c i (at_server i l1).
  Proof using H0 Hran.
    intros E i Hi. destruct ends as [Hs [(_ & E1 & _)|(E1 & _)]]; [|rewrite E in E1; discriminate E1].
    rewrite <- E1 in Hi. destruct (success_at _ _ _ _ Hs Hi) as (lx & ly & lz & -> & Hd).
    destruct Hd as (t & h1 & h2 & h3 & Hd). exists t, (at_server i lx ++ h1)%list, h2, (h3 ++ at_server i (VDone i :: lz))%list.
    rewrite !at_server_app. destruct c as [id|id].
    - destruct Hd as (j & Hj & ->). exists j. split; [exact Hj|]. rewrite <- !app_assoc. cbn. by rewrite <- !app_assoc.
    - rewrite Hd, <- !app_assoc. cbn. by rewrite <- !app_assoc.
  Qed.
End run.

Lemma unmatched_stops J tbl s0 n acts l0 id before i rest l1 st : new_server tbl = Some s0 ->
  ran (f_log (frun J tbl (new_fleet tbl n) acts)) l0 (CDelete id) (before ++ i :: rest) l1 st ->
  ~ matched J tbl i id (at_server i (l0 ++ l1)) -> st = 1 /\ asked l1 `prefix_of` (before ++ [i])%list.
Proof.
  intros H0 Hran Hm. eapply stopped; [exact H0|exact Hran|reflexivity|]. intros Hi. apply Hm.
  destruct (ends _ _ _ _ _ _ _ _ _ _ H0 Hran) as [Hs _]. destruct (success_at _ _ _ _ Hs Hi) as (lx & ly & lz & -> & t & h1 & h2 & h3 & Hd).
  destruct (ran_at _ _ _ _ _ _ _ _ _ _ H0 Hran i) as (acts' & s & h4 & Hr). rewrite !at_server_app, Hd in Hr.
  destruct (delete_had_match (J i) tbl s0 acts' s _ (at_server i l0 ++ at_server i lx ++ h1 ++ EReq t (RDelete id) :: h2) t id (h3 ++ at_server i (VDone i :: lz) ++ h4) H0 Hr) as (j & ct & k & ok & Hin & Hrest).
  { rewrite <- !app_assoc. cbn. by rewrite <- !app_assoc. }
  exists j, ct, k, ok. split; [|exact Hrest]. rewrite !at_server_app, Hd. rewrite !elem_of_app in *. cbn in *. rewrite !elem_of_cons in *.
  destruct Hin as [Hin|[Hin|[Hin|[Hin|Hin]]]]; [by left|by right; left|right; right; left; by left|discriminate Hin|].
  right; right; left; right; right. rewrite elem_of_app. by left.
Qed.

(** One deletion of an id per server. *)
Definition is_deletion (id : string) (e : sev) : bool := match e with EAnswer _ (RDelete id') (ACode 200) => bool_decide (id' = id) | _ => false end.
Lemma deletion_counts id h : deleted_ok id h -> (1 <= count (is_deletion id) h)%nat.
Proof.
  intros [t Hin]. apply elem_of_list_split in Hin as (h1 & h2 & ->). rewrite count_app. unfold count at 2. cbn. rewrite bool_decide_true by done. cbn. lia.
Qed.
Lemma did_deleted J id i h : did J (CDelete id) i h -> deleted_ok id h.
Proof. intros (t & h1 & h2 & h3 & ->). exists t. rewrite elem_of_app, elem_of_cons, elem_of_app. right; right; right. by left. Qed.
Lemma deleted_stops J tbl s0 n acts l0 id before i rest l1 st : new_server tbl = Some s0 ->
  ran (f_log (frun J tbl (new_fleet tbl n) acts)) l0 (CDelete id) (before ++ i :: rest) l1 st ->
  one_at_a_time (at_server i (f_log (frun J tbl (new_fleet tbl n) acts))) -> deleted_ok id (at_server i l0) ->
  st = 1 /\ asked l1 `prefix_of` (before ++ [i])%list.
Proof.
  intros H0 Hran H1 Hd0. eapply stopped; [exact H0|exact Hran|reflexivity|]. intros Hi.
  destruct (ends _ _ _ _ _ _ _ _ _ _ H0 Hran) as [Hs _]. destruct (success_at _ _ _ _ Hs Hi) as (lx & ly & lz & -> & Hd).
  destruct (run_servers J tbl s0 n acts H0 i) as (s & [acts' Hr] & _). pose proof (deleted_once _ _ _ _ _ _ id H0 Hr H1) as Hc.
  destruct (at_ran i _ _ _ _ _ _ Hran) as [h2 E]. rewrite E in Hc. rewrite !at_server_app, !count_app in Hc.
  apply did_deleted in Hd. apply deletion_counts in Hd. apply deletion_counts in Hd0. unfold is_deletion in *. lia.
Qed.
Lemma twice_stops J tbl s0 n acts l0 id before i mid rest l1 st : new_server tbl = Some s0 ->
  ran (f_log (frun J tbl (new_fleet tbl n) acts)) l0 (CDelete id) (before ++ i :: mid ++ i :: rest) l1 st ->
  one_at_a_time (at_server i (f_log (frun J tbl (new_fleet tbl n) acts))) -> st = 1.
Proof.
  intros H0 Hran H1. destruct (ends _ _ _ _ _ _ _ _ _ _ H0 Hran) as [Hs [(-> & E & _)|(-> & _)]]; [exfalso|done].
  assert (exists la lb lc, l1 = la ++ VDone i :: lb ++ VDone i :: lc)%list as (la & lb & lc & El).
  { clear - E.
    assert (forall k l x ys, succeeded l = (k ++ x :: ys)%list -> exists la lb, l = (la ++ VDone x :: lb)%list /\ succeeded lb = ys) as Hsp.
    { clear. intros k l. revert k. induction l as [|e l IH]; intros k x ys E; [by destruct k|].
      assert (forall k', succeeded l = (k' ++ x :: ys)%list -> exists la lb, (e :: l)%list = (la ++ VDone x :: lb)%list /\ succeeded lb = ys) as Hk.
      { intros k' E'. destruct (IH _ _ _ E') as (la & lb & -> & Hl). by exists (e :: la), lb. }
      destruct e as [| | |i'|]; try (by eapply Hk). change (succeeded (VDone i' :: l)) with (i' :: succeeded l) in E.
      destruct k as [|y k]; injection E as -> E; [by exists [], l|by eapply Hk]. }
    destruct (Hsp _ _ _ _ E) as (la & lb & -> & E2). destruct (Hsp _ _ _ _ E2) as (lb1 & lc & -> & _).
    by exists la, lb1, lc. }
  destruct (Hs la i (lb ++ VDone i :: lc) El) as (x1 & t1 & y1 & -> & _ & D1).
  destruct (Hs ((x1 ++ VSend i t1 :: y1) ++ VDone i :: lb) i lc) as (x2 & t2 & y2 & E2 & Hn & D2). { rewrite El, <- !app_assoc. reflexivity. }
  assert (exists z, lb = z ++ y2)%list as [z ->].
  { apply app_eq_inv in E2 as [(k & E3 & E4)|(k & E3 & E4)].
    - destruct (Hn i). assert (VDone i ∈ (VSend i t2 :: y2)) as Hin by (rewrite E4; apply elem_of_app; right; by left). apply elem_of_cons in Hin as [Hin|Hin]; [discriminate Hin|exact Hin].
    - destruct k as [|v k]; cbn in E4.
      + injection E4 as E4. discriminate E4.
      + injection E4 as _ ->. exists (k ++ [VSend i t2])%list. by rewrite <- app_assoc. }
  destruct (run_servers J tbl s0 n acts H0 i) as (s & [acts' Hr] & _). pose proof (deleted_once _ _ _ _ _ _ id H0 Hr H1) as Hc.
  destruct (at_ran i _ _ _ _ _ _ Hran) as [h2 Eh]. rewrite Eh, El in Hc.
  replace ((x1 ++ VSend i t1 :: y1) ++ VDone i :: (z ++ y2) ++ VDone i :: lc)%list with ((x1 ++ [VSend i t1]) ++ y1 ++ ([VDone i] ++ z) ++ y2 ++ VDone i :: lc)%list in Hc
    by (by rewrite <- !app_assoc).
  rewrite !(at_server_app i) in Hc. rewrite !count_app in Hc.
  apply did_deleted in D1. apply did_deleted in D2. apply deletion_counts in D1. apply deletion_counts in D2. unfold is_deletion in *. lia.
Qed.

(** The requests of a server are numbered in turn. *)
Definition numbers (h : list sev) : list nat := omap (fun e => match e with EReq t _ => Some t | _ => None end) h.
Lemma numbers_app h1 h2 : numbers (h1 ++ h2) = (numbers h1 ++ numbers h2)%list.
Proof. unfold numbers. apply omap_app. Qed.
Lemma no_numbers h : (forall t r, EReq t r ∉ h) -> numbers h = [].
Proof.
  intros H. destruct (numbers h) as [|x l] eqn:E; [done|]. assert (x ∈ numbers h) as Hx by (rewrite E; by left).
  unfold numbers in Hx. apply elem_of_list_omap in Hx as (e & He & Ex). destruct e; try discriminate Ex. by apply H in He.
Qed.
Lemma numbered J tbl s0 acts s h : new_server tbl = Some s0 -> srun J tbl s0 acts = Ok (s, h) -> numbers h = seq 0 (length (threads s)).
Proof.
  intros H0. revert s h. induction acts as [|a acts IH] using rev_ind; intros s h Hr.
  - injection Hr as <- <-. unfold new_server in H0. destruct (new_hub tbl); [|discriminate H0]. by injection H0 as <-.
  - apply srun_snoc in Hr as (s1 & h1 & e & Hr & Hs & ->). rewrite numbers_app, (IH _ _ Hr).
    assert (forall r f, Ok (arrive s1 r f) = Ok (s, e) -> (seq 0 (length (threads s1)) ++ numbers e)%list = seq 0 (length (threads s))) as Ha.
    { intros r f E. unfold arrive in E. injection E as <- <-. cbn. rewrite app_length, Nat.add_1_r, seq_S. done. }
    destruct a as [q|t|o]; cbn [sstep] in Hs.
    + destruct q; eapply Ha; exact Hs.
    + destruct (threads s1 !! t) as [[r p]|] eqn:Et; [|injection Hs as <- <-; by rewrite app_nil_r].
      destruct (advance_talk _ _ _ _ _ _ _ _ Hs Et) as ([p' ->] & Hn & _). rewrite insert_length, no_numbers, app_nil_r by exact Hn. done.
    + destruct (own s1 o); [|injection Hs as <- <-; by rewrite app_nil_r].
      destruct (hstep J tbl (hubst s1) o) as [[hb out]| |]; [|discriminate Hs..]. injection Hs as <- <-. cbn. by rewrite app_nil_r.
Qed.
Lemma same_request J tbl s0 acts s h t r a b a' b' tail : new_server tbl = Some s0 -> srun J tbl s0 acts = Ok (s, h) -> no_answers b ->
  h = ((a ++ EReq t r :: b) ++ tail)%list -> h = (a' ++ EReq t r :: b' ++ tail)%list -> a = a' /\ b = b' /\ no_answers b'.
Proof.
  intros H0 Hr Hb E1 E2. pose proof (numbered _ _ _ _ _ _ H0 Hr) as Hn.
  assert (NoDup (numbers h)) as Hd by (rewrite Hn; apply NoDup_seq).
  rewrite E1 in E2. rewrite app_comm_cons, app_assoc in E2. apply app_inv_tail in E2.
  assert (NoDup (numbers (a ++ EReq t r :: b))) as Hd1.
  { rewrite E1, numbers_app in Hd. by apply NoDup_app in Hd as [Hd _]. }
  assert (forall x y, numbers (x ++ EReq t r :: y) = (numbers x ++ t :: numbers y)%list) as Hx by (intros x y; by rewrite numbers_app).
  assert (a = a' /\ b = b') as [-> ->]; [|by split_and!].
  assert (forall x y k z, x ++ EReq t r :: y = (x ++ EReq t r :: k) ++ EReq t r :: z -> NoDup (numbers (x ++ EReq t r :: y)) -> False)%list as Hno.
  { intros x y k z E Hdd. rewrite E, numbers_app, Hx in Hdd. apply NoDup_app in Hdd as (_ & Hdd & _). apply (Hdd t).
    - apply elem_of_app. right. by left.
    - by left. }
  pose proof E2 as E3. apply app_eq_inv in E2 as [(k & Ea & E2)|(k & Ea & E2)]; destruct k as [|x k]; cbn in E2.
  - rewrite app_nil_r in Ea. subst. by injection E2 as ->.
  - injection E2 as <- E2. subst a b'. exfalso. eapply (Hno a' (k ++ EReq t r :: b) k b).
    + rewrite <- app_assoc. reflexivity.
    + rewrite <- app_assoc in Hd1. exact Hd1.
  - rewrite app_nil_r in Ea. subst. by injection E2 as ->.
  - injection E2 as <- E2. subst a' b. exfalso. eapply (Hno a (k ++ EReq t r :: b') k b').
    + rewrite <- app_assoc. reflexivity.
    + exact Hd1.
Qed.

(** When a create or a delete ends well there was a moment, at every endpoint, at
    which the job ran or did not. *)
Lemma created_moment J tbl s0 n acts l0 id eps l1 i : new_server tbl = Some s0 ->
  ran (f_log (frun J tbl (new_fleet tbl n) acts)) l0 (CCreate id) eps l1 0 -> i ∈ eps ->
  exists hm, hm `prefix_of` at_server i l1 /\ is_Some (live (J i) id (at_server i l0 ++ hm)).
Proof.
  intros H0 Hran Hi. destruct (all_did _ _ _ _ _ _ _ _ _ _ H0 Hran eq_refl i Hi) as (t & h1 & h2 & h3 & j & Hj & E).
  exists (h1 ++ EReq t (RCreate j) :: h2 ++ [EAnswer t (RCreate j) (ACode 201)])%list. split.
  - exists h3. rewrite E, <- app_assoc. cbn. by rewrite <- app_assoc.
  - change (h1 ++ EReq t (RCreate j) :: h2 ++ [EAnswer t (RCreate j) (ACode 201)])%list with (h1 ++ [EReq t (RCreate j)] ++ h2 ++ [EAnswer t (RCreate j) (ACode 201)])%list.
    rewrite !app_assoc, live_app. cbn. rewrite decide_True by exact Hj. by eexists.
Qed.
Lemma deleted_moment J tbl s0 n acts l0 id eps l1 i : new_server tbl = Some s0 ->
  ran (f_log (frun J tbl (new_fleet tbl n) acts)) l0 (CDelete id) eps l1 0 -> i ∈ eps ->
  one_at_a_time (at_server i (f_log (frun J tbl (new_fleet tbl n) acts))) ->
  exists h1 h2, at_server i l1 = (h1 ++ h2)%list /\ is_Some (live (J i) id (at_server i l0 ++ h1)) /\
  exists hm, hm `prefix_of` h2 /\ live (J i) id (at_server i l0 ++ h1 ++ hm) = None.
Proof.
  intros H0 Hran Hi H1. destruct (all_did _ _ _ _ _ _ _ _ _ _ H0 Hran eq_refl i Hi) as (t & h1 & h2 & h3 & E).
  destruct (run_servers J tbl s0 n acts H0 i) as (s & [acts' Hr] & _). destruct (at_ran i _ _ _ _ _ _ Hran) as [h4 Eh].
  pose proof (answers_right _ _ _ _ _ _ H0 Hr H1) as Hall.
  assert (at_server i (f_log (frun J tbl (new_fleet tbl n) acts)) = (at_server i l0 ++ h1 ++ EReq t (RDelete id) :: h2) ++ EAnswer t (RDelete id) (ACode 200) :: (h3 ++ h4))%list as E1.
  { rewrite Eh, E, <- !app_assoc. cbn. by rewrite <- !app_assoc. }
  destruct (Hall _ _ _ _ _ E1) as (k0 & km & Ek & Hn & Hra).
  (* the request is the one of the command *)
  assert (no_answers h2 /\ k0 = (at_server i l0 ++ h1)%list /\ km = h2) as (Hn2 & -> & ->).
  { apply (same_request (J i) tbl s0 acts' s _ t (RDelete id) k0 km (at_server i l0 ++ h1) h2 (EAnswer t (RDelete id) (ACode 200) :: h3 ++ h4) H0 Hr) in Hn.
    - destruct Hn as (-> & -> & Hn). by split_and!.
    - rewrite E1. by rewrite Ek.
    - rewrite E1, <- !app_assoc. reflexivity. }
  cbn in Hra. destruct (live (J i) id (at_server i l0 ++ h1)) as [j|] eqn:El; [|by destruct Hra].
  destruct Hra as [(_ & _ & Hx)|(Hin & _)]; [discriminate Hx|].
  exists h1, (EReq t (RDelete id) :: h2 ++ EAnswer t (RDelete id) (ACode 200) :: h3)%list. split; [exact E|]. split; [rewrite El; by eexists|].
  apply elem_of_list_split in Hin as (m1 & m2 & ->).
  exists (EReq t (RDelete id) :: m1 ++ [EHub (ODelete id) (RDeleted true)])%list. split.
  - exists (m2 ++ EAnswer t (RDelete id) (ACode 200) :: h3)%list. cbn. by rewrite <- !app_assoc.
  - change (EReq t (RDelete id) :: m1 ++ [EHub (ODelete id) (RDeleted true)])%list with ([EReq t (RDelete id)] ++ m1 ++ [EHub (ODelete id) (RDeleted true)])%list.
    rewrite !app_assoc, live_app. cbn. by rewrite decide_True.
Qed.
