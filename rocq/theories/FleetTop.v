(** What a command over several endpoints has done when it ends. *)
From Coq Require Import ZArith String Lia.
From stdpp Require Import gmap strings list.
From Verif Require Import SyscallModel FilterModel HubModel HubSpec ServerModel ServerSpec ServerProofs ServerTop FleetModel FleetSpec FleetProofs.
Open Scope Z_scope.

Definition calm (l : list fev) : Prop := (forall st, VExit st ∉ l) /\ (forall c eps, VStart c eps ∉ l).
Definition reqok (J : nat -> nat -> job) (c : command) (i : nat) (r : req) : Prop :=
  match c with CCreate id => exists j, r = RCreate j /\ j_id (J i j) = id | CDelete id => r = RDelete id end.
Definition ended_ok (J : nat -> nat -> job) (c : command) (eps : list nat) (l1 : list fev) (st : Z) : Prop :=
  each_success J c l1 /\
  ((st = 0 /\ succeeded l1 = eps /\ asked l1 = eps) \/
   (st = 1 /\ exists i rest, eps = (succeeded l1 ++ i :: rest)%list /\ (asked l1 = succeeded l1 \/ asked l1 = (succeeded l1 ++ [i])%list))).
Definition waits (J : nat -> nat -> job) (before l1 : list fev) (p : proc) : Prop :=
  match p_wait p with
  | None => asked l1 = succeeded l1
  | Some t => exists i rest lx ly r, p_todo p = i :: rest /\ asked l1 = (succeeded l1 ++ [i])%list /\
      l1 = (lx ++ VSend i t :: VServer i (EReq t r) :: ly)%list /\ (forall k, VDone k ∉ ly) /\ reqok J (p_cmd p) i r /\
      answer_of i t (before ++ lx) = None
  end.
Definition inv (J : nat -> nat -> job) (log : list fev) (o : option proc) : Prop :=
  (forall l0 c eps l1 st, ran log l0 c eps l1 st -> ended_ok J c eps l1 st) /\
  match o with
  | None => forall l0 c eps l1, log = (l0 ++ VStart c eps :: l1)%list -> exists st, VExit st ∈ l1
  | Some p => exists l0 eps l1, log = (l0 ++ VStart (p_cmd p) eps :: l1)%list /\ calm l1 /\
      eps = (succeeded l1 ++ p_todo p)%list /\ each_success J (p_cmd p) l1 /\ waits J (l0 ++ [VStart (p_cmd p) eps]) l1 p
  end.

Lemma snoc_split {A} (log : list A) x l0 y l1 : (log ++ [x])%list = (l0 ++ y :: l1)%list ->
  (l1 = [] /\ x = y /\ log = l0) \/ (exists l1', l1 = (l1' ++ [x])%list /\ log = (l0 ++ y :: l1')%list).
Proof.
  intros E. destruct l1 as [|z l1 _] using rev_ind.
  - apply app_inj_tail in E as [-> ->]. by left.
  - rewrite app_comm_cons, app_assoc in E. apply app_inj_tail in E as [-> ->]. right. by exists l1.
Qed.
Lemma ran_snoc log x l0 c eps l1 st : ran (log ++ [x]) l0 c eps l1 st ->
  (x = VExit st /\ log = (l0 ++ VStart c eps :: l1)%list /\ calm l1) \/ ran log l0 c eps l1 st.
Proof.
  intros (l2 & E & H1 & H2). replace (l0 ++ VStart c eps :: l1 ++ VExit st :: l2)%list with ((l0 ++ VStart c eps :: l1) ++ VExit st :: l2)%list in E by (by rewrite <- app_assoc).
  apply snoc_split in E as [(_ & -> & ->)|(l2' & -> & ->)].
  - left. by split_and!.
  - right. exists l2'. split_and!; [by rewrite <- app_assoc|done..].
Qed.
(** Where the last command started. *)
Lemma last_start l0 c eps l1 l0' c' eps' l1' : (l0 ++ VStart c eps :: l1)%list = (l0' ++ VStart c' eps' :: l1')%list -> calm l1 -> calm l1' ->
  l0 = l0' /\ c = c' /\ eps = eps' /\ l1 = l1'.
Proof.
  intros E [_ H] [_ H']. apply app_eq_inv in E as [(k & E1 & E2)|(k & E1 & E2)]; destruct k as [|x k]; cbn in E2.
  - rewrite app_nil_r in E1. subst. injection E2 as -> -> ->. by split_and!.
  - injection E2 as _ E2. destruct (H' c eps). rewrite E2. apply elem_of_app. right. by left.
  - rewrite app_nil_r in E1. subst. injection E2 as -> -> ->. by split_and!.
  - injection E2 as _ E2. destruct (H c' eps'). rewrite E2. apply elem_of_app. right. by left.
Qed.
Lemma calm_snoc l x : calm l -> match x with VExit _ | VStart _ _ => False | _ => True end -> calm (l ++ [x]).
Proof.
  intros [H1 H2] Hx. split.
  - intros st Hin. apply elem_of_app in Hin as [Hin|Hin]; [by eapply H1|]. apply elem_of_list_singleton in Hin. by subst.
  - intros c eps Hin. apply elem_of_app in Hin as [Hin|Hin]; [by eapply H2|]. apply elem_of_list_singleton in Hin. by subst.
Qed.
Lemma each_snoc J c l x : each_success J c l -> (forall i, x <> VDone i) -> each_success J c (l ++ [x]).
Proof.
  intros H Hx la i lb E. apply snoc_split in E as [(_ & -> & _)|(lb' & -> & ->)]; [by destruct (Hx i)|]. by eapply H.
Qed.

Lemma inv_ran J log o x : inv J log o -> (forall st, x <> VExit st) ->
  forall l0 c eps l1 st, ran (log ++ [x]) l0 c eps l1 st -> ended_ok J c eps l1 st.
Proof. intros [H _] Hx l0 c eps l1 st Hr. apply ran_snoc in Hr as [(-> & _)|Hr]; [by destruct (Hx st)|by eapply H]. Qed.

Lemma inv_server J log o i e : inv J log o -> inv J (log ++ [VServer i e]) o.
Proof.
  intros H. split; [by eapply inv_ran|]. destruct H as [_ H]. destruct o as [p|].
  - destruct H as (l0 & eps & l1 & -> & Hc & He & Hs & Hw). exists l0, eps, (l1 ++ [VServer i e])%list.
    split_and!; [by rewrite <- app_assoc|by apply calm_snoc|by rewrite succeeded_app, app_nil_r|by apply each_snoc|].
    unfold waits in *. destruct (p_wait p) as [t|].
    + destruct Hw as (k & rest & lx & ly & r & Ht & Ha & El & Hn & Hr & Hno). exists k, rest, lx, (ly ++ [VServer i e])%list, r.
      split_and!; [exact Ht| | | |exact Hr|exact Hno].
      * rewrite asked_app, succeeded_app. cbn. by rewrite !app_nil_r.
      * rewrite El, <- app_assoc. reflexivity.
      * intros j Hin. apply elem_of_app in Hin as [Hin|Hin]; [by eapply Hn|]. apply elem_of_list_singleton in Hin. discriminate Hin.
    + rewrite asked_app, succeeded_app. cbn. by rewrite !app_nil_r.
  - intros l0 c eps l1 E. apply snoc_split in E as [(_ & E & _)|(l1' & -> & ->)]; [discriminate E|].
    destruct (H _ _ _ _ eq_refl) as [st Hst]. exists st. apply elem_of_app. by left.
Qed.
Lemma inv_servers J log o i es : inv J log o -> inv J (log ++ map (VServer i) es) o.
Proof.
  revert log. induction es as [|e es IH]; intros log H; cbn [map]; [by rewrite app_nil_r|].
  replace (log ++ VServer i e :: map (VServer i) es)%list with ((log ++ [VServer i e]) ++ map (VServer i) es)%list by (by rewrite <- app_assoc).
  apply IH. by apply inv_server.
Qed.
Lemma inv_start J log c eps : inv J log None -> inv J (log ++ [VStart c eps]) (Some (Proc c eps None)).
Proof.
  intros H. split; [by eapply inv_ran|]. exists log, eps, []. split_and!; [reflexivity| |reflexivity| |reflexivity].
  - split; intros; by apply not_elem_of_nil.
  - intros la i lb E. by destruct la.
Qed.
Lemma inv_send J log c i rest t r : inv J log (Some (Proc c (i :: rest) None)) -> reqok J c i r -> answer_of i t log = None ->
  inv J (log ++ [VSend i t; VServer i (EReq t r)]) (Some (Proc c (i :: rest) (Some t))).
Proof.
  intros H Hr Hno. replace (log ++ [VSend i t; VServer i (EReq t r)])%list with ((log ++ [VSend i t]) ++ [VServer i (EReq t r)])%list by (by rewrite <- app_assoc).
  split.
  { intros l0 c' eps l1 st Hran. apply ran_snoc in Hran as [(E & _)|Hran]; [discriminate E|]. eapply inv_ran; [exact H| |exact Hran]. discriminate. }
  destruct H as [_ (l0 & eps & l1 & E & Hc & He & Hs & Hw)]. cbn [p_cmd p_todo] in *. unfold waits in Hw; cbn [p_wait] in Hw.
  exists l0, eps, ((l1 ++ [VSend i t]) ++ [VServer i (EReq t r)])%list. split_and!.
  - rewrite E, <- !app_assoc. reflexivity.
  - by do 2 (apply calm_snoc; [|done]).
  - by rewrite !succeeded_app, !app_nil_r.
  - by do 2 (apply each_snoc; [|done]).
  - unfold waits; cbn [p_wait p_todo p_cmd]. exists i, rest, l1, [], r. split_and!; [reflexivity| |by rewrite <- app_assoc| |exact Hr|].
    + rewrite !asked_app, !succeeded_app, Hw. cbn. by rewrite !app_nil_r.
    + intros k. apply not_elem_of_nil.
    + rewrite E in Hno. by rewrite <- app_assoc.
Qed.
Lemma inv_done J log c i rest t a : inv J log (Some (Proc c (i :: rest) (Some t))) -> answer_of i t log = Some a -> wanted c a = true ->
  (forall r r' a', EReq t r ∈ at_server i log -> EAnswer t r' a' ∈ at_server i log -> r' = r) ->
  inv J (log ++ [VDone i]) (Some (Proc c rest None)).
Proof.
  intros H Ha Hwant Hsame. split; [by eapply inv_ran|].
  destruct H as [_ (l0 & eps & l1 & E & Hc & He & Hs & Hw)]. cbn [p_cmd p_todo] in *. unfold waits in Hw; cbn [p_wait p_todo p_cmd] in Hw.
  destruct Hw as (i' & rest' & lx & ly & r & Ht & Hask & El & Hn & Hr & Hno). injection Ht as <- <-.
  exists l0, eps, (l1 ++ [VDone i])%list. split_and!.
  - rewrite E, <- app_assoc. reflexivity.
  - by apply calm_snoc.
  - rewrite succeeded_app. rewrite He. cbn. by rewrite <- app_assoc.
  - intros la k lb E1. apply snoc_split in E1 as [(_ & [= <-] & <-)|(lb' & -> & E1)]; [|by eapply Hs].
    exists lx, t, (VServer i (EReq t r) :: ly). split_and!; [exact El| |].
    { intros k Hin. apply elem_of_cons in Hin as [Hin|Hin]; [discriminate Hin|by eapply Hn]. }
    assert (log = ((l0 ++ [VStart c eps]) ++ lx) ++ (VSend i t :: VServer i (EReq t r) :: ly))%list as E2.
    { rewrite E, El, <- !app_assoc. reflexivity. }
    rewrite E2, answer_of_app in Ha by exact Hno. cbn in Ha. apply answer_of_Some in Ha as (y1 & r' & y2 & ->).
    assert (r' = r) as ->.
    { eapply Hsame; apply elem_at_server; rewrite E2, !elem_of_app; right; right.
      - by left.
      - right. apply elem_of_app. right. by left. }
    assert (at_server i (VServer i (EReq t r) :: y1 ++ VServer i (EAnswer t r a) :: y2) =
      ([] ++ EReq t r :: at_server i y1 ++ EAnswer t r a :: at_server i y2)%list) as ->.
    { change (VServer i (EReq t r) :: y1 ++ VServer i (EAnswer t r a) :: y2)%list with ([VServer i (EReq t r)] ++ y1 ++ [VServer i (EAnswer t r a)] ++ y2)%list.
      rewrite !at_server_app. pose proof (at_server_own i [EReq t r]) as Eo1. pose proof (at_server_own i [EAnswer t r a]) as Eo2. cbn [map] in Eo1, Eo2. by rewrite Eo1, Eo2. }
    unfold did. exists t, [], (at_server i y1), (at_server i y2).
    unfold wanted in Hwant. destruct a as [s| |]; [|discriminate Hwant..]. apply Z.eqb_eq in Hwant. subst s. destruct c; cbn in Hr.
    + destruct Hr as (j & -> & Hj). by exists j.
    + by subst r.
  - unfold waits; cbn [p_wait]. rewrite asked_app, succeeded_app, Hask. cbn. by rewrite app_nil_r.
Qed.
Lemma inv_exit J log p st : inv J log (Some p) -> st = match p_todo p with [] => 0 | _ => 1 end -> inv J (log ++ [VExit st]) None.
Proof.
  intros [H (l0 & eps & l1 & E & Hc & He & Hs & Hw)] Hst. split.
  - intros l0' c' eps' l1' st' Hran. apply ran_snoc in Hran as [(E1 & E2 & Hc')|Hran]; [|by eapply H].
    injection E1 as <-. rewrite E in E2. apply last_start in E2 as (<- & <- & <- & <-); [|done..].
    split; [exact Hs|]. unfold waits in Hw. destruct (p_todo p) as [|i rest].
    + left. rewrite app_nil_r in He. split_and!; [exact Hst|done|]. destruct (p_wait p).
      * by destruct Hw as (? & ? & ? & ? & ? & ? & _).
      * by rewrite Hw.
    + right. split; [exact Hst|]. exists i, rest. split; [exact He|]. destruct (p_wait p).
      * destruct Hw as (i' & rest' & ? & ? & ? & Ht & Ha & _). injection Ht as <- _. by right.
      * by left.
  - intros l0' c eps' l1' E1. apply snoc_split in E1 as [(_ & E1 & _)|(l2 & -> & _)]; [discriminate E1|]. exists st. apply elem_of_app. right. by left.
Qed.

Lemma inv_step J tbl s0 f a : new_server tbl = Some s0 -> servers J tbl s0 f -> inv J (f_log f) (f_cmd f) ->
  inv J (f_log (fstep J tbl f a)) (f_cmd (fstep J tbl f a)).
Proof.
  intros H0 Hsv H. destruct a as [i a|c eps| |]; cbn [fstep].
  - destruct (f_srv f !! i) as [[s|]|]; [|exact H..]. destruct (sstep (J i) tbl s a) as [[s' es]| |]; [by apply inv_servers|exact H..].
  - destruct (f_cmd f) eqn:Ec; [by rewrite Ec|]. by apply inv_start.
  - destruct (f_cmd f) as [p|] eqn:Ec; [|by rewrite Ec]. unfold fgo. destruct p as [c todo w]; cbn [p_cmd p_todo p_wait].
    destruct todo as [|i rest]; [by eapply inv_exit|]. destruct w as [t|].
    + destruct (answer_of i t (f_log f)) as [a|] eqn:Ea; [|by rewrite Ec]. destruct (wanted c a) eqn:Ew; [|by eapply inv_exit].
      eapply inv_done; [exact H|exact Ea|exact Ew|]. intros r r' a' Hq Han.
      destruct (Hsv i) as (s & [acts Hrun] & _). pose proof (talk_run _ _ _ _ _ _ H0 Hrun) as [T1 T2].
      destruct (T1 _ _ Hq) as [p1 E1]. destruct (T2 _ _ _ Han) as [p2 E2]. rewrite E1 in E2. by injection E2.
    + destruct (f_srv f !! i) as [[s|]|] eqn:Ei; [|by eapply inv_exit..]. destruct (meant (J i) s c) eqn:Em; [|by rewrite Ec].
      assert (answer_of i (length (threads s)) (f_log f) = None) as Hno.
      { apply no_answer. intros r a Hin. destruct (Hsv i) as (s1 & [acts Hrun] & Hs1). pose proof (talk_run _ _ _ _ _ _ H0 Hrun) as [T1 T2].
        destruct (T2 _ _ _ Hin) as [p2 E2]. rewrite <- (Hs1 s Ei) in E2. apply lookup_lt_Some in E2. lia. }
      destruct c as [id|id]; cbn [ask_of sstep arrive f_log f_cmd map].
      * eapply inv_send; [exact H| |exact Hno]. exists (fresh s). split; [done|]. cbn in Em. by apply bool_decide_eq_true_1 in Em.
      * eapply inv_send; [exact H|reflexivity|exact Hno].
  - destruct (f_cmd f) as [p|] eqn:Ec; [|by rewrite Ec]. destruct p as [c [|i rest] w]; [by rewrite Ec|]. by eapply inv_exit.
Qed.
Lemma run_inv J tbl s0 n acts : new_server tbl = Some s0 ->
  inv J (f_log (frun J tbl (new_fleet tbl n) acts)) (f_cmd (frun J tbl (new_fleet tbl n) acts)).
Proof.
  intros H0. apply (frun_inv (fun f => servers J tbl s0 f /\ inv J (f_log f) (f_cmd f))).
  - split; [by apply new_servers|]. split.
    + intros l0 c eps l1 st (l2 & E & _). by destruct l0.
    + intros l0 c eps l1 E. by destruct l0.
  - intros f a [H1 H2]. split; [by apply servers_step|by eapply inv_step].
Qed.
Lemma command_ends J tbl s0 n acts l0 c eps l1 st : new_server tbl = Some s0 ->
  ran (f_log (frun J tbl (new_fleet tbl n) acts)) l0 c eps l1 st -> ended_ok J c eps l1 st.
Proof. intros H0. destruct (run_inv J tbl s0 n acts H0) as [H _]. apply H. Qed.
