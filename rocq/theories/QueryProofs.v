(** Proofs about the list commands. *)
From Coq Require Import ZArith String Ascii Lia.
From stdpp Require Import gmap strings list.
From Verif Require Import SyscallModel FilterModel HubModel HubSpec ServerModel ServerSpec ServerProofs FleetModel FleetSpec FleetProofs QueryModel QuerySpec.
From Verif Require ClientModel ClientSpec ClientJobs.
Open Scope Z_scope.

(** * A server and one of its requests *)

(** The first answer to request [t]. *)
Fixpoint replied (t : nat) (h : list sev) : option answer :=
  match h with
  | [] => None
  | EAnswer t' _ a :: h => if decide (t' = t) then Some a else replied t h
  | _ :: h => replied t h
  end.
Lemma answer_replied i t l : answer_of i t l = replied t (at_server i l).
Proof.
  induction l as [|e l IH]; [reflexivity|]. cbn [answer_of]. destruct e as [i' e| | | |]; cbn [answer_in]; try exact IH.
  unfold at_server. cbn [omap list_omap]. fold (at_server i l). destruct (decide (i' = i)) as [->|N].
  - destruct e as [t' r|t' r a|o out]; cbn [replied]; try exact IH. destruct (decide (i = i /\ t' = t)) as [[_ ->]|M]; [by rewrite decide_True|].
    rewrite decide_False by (intros ->; by apply M). exact IH.
  - destruct e as [t' r|t' r a|o out]; try exact IH. rewrite decide_False by (intros [? _]; done). exact IH.
Qed.
Lemma replied_app t h1 h2 : replied t (h1 ++ h2) = match replied t h1 with Some a => Some a | None => replied t h2 end.
Proof. induction h1 as [|[t' r|t' r a|o out] h1 IH]; cbn; [done|done| |done]. destruct (decide (t' = t)); [done|exact IH]. Qed.
Lemma replied_in t h a : replied t h = Some a -> exists r, EAnswer t r a ∈ h.
Proof.
  induction h as [|[t' r|t' r a'|o out] h IH]; cbn; [done| | |].
  - intros H. destruct (IH H) as [r' Hr]. exists r'. by right.
  - destruct (decide (t' = t)) as [->|]; [intros [= ->]; exists r; by left|]. intros H. destruct (IH H) as [r' Hr]. exists r'. by right.
  - intros H. destruct (IH H) as [r' Hr]. exists r'. by right.
Qed.
Lemma not_replied t h : (forall r a, EAnswer t r a ∉ h) -> replied t h = None.
Proof. intros H. destruct (replied t h) as [a|] eqn:E; [|done]. destruct (replied_in _ _ _ E) as [r Hr]. by destruct (H r a). Qed.

(** One step of a server that has a list request waiting. *)
Lemma list_step J tbl s t b s' es : threads s !! t = Some (RList, PList) -> sstep J tbl s b = Ok (s', es) ->
  (replied t es = None /\ threads s' !! t = Some (RList, PList)) \/ replied t es = Some (ATables (running s) (completed s)).
Proof.
  intros Ht Hs. destruct b as [q|t'|o]; cbn [sstep] in Hs.
  - left. assert (forall r f, Ok (arrive s r f) = Ok (s', es) -> replied t es = None /\ threads s' !! t = Some (RList, PList)) as Ha.
    { intros r f E. unfold arrive in E. injection E as <- <-. split; [reflexivity|]. cbn. by apply lookup_app_l_Some. }
    destruct q; eapply Ha; exact Hs.
  - destruct (decide (t' = t)) as [->|N].
    + right. rewrite Ht in Hs. cbn [advance] in Hs. unfold finish in Hs. injection Hs as <- <-. cbn [replied]. by rewrite decide_True.
    + left. destruct (threads s !! t') as [[r p]|] eqn:Et; [|injection Hs as <- <-; by split].
      destruct (advance_talk _ _ _ _ _ _ _ _ Hs Et) as ([p' Ep] & _ & Han). split.
      * apply not_replied. intros r' a Hin. apply Han in Hin as [E _]. congruence.
      * rewrite Ep, list_lookup_insert_ne by done. exact Ht.
  - left. destruct (own s o); [|injection Hs as <- <-; by split]. destruct (hstep J tbl (hubst s) o) as [[hb out]| |]; [|discriminate Hs..].
    injection Hs as <- <-. by split.
Qed.

(** * What a step of the fleet does to one server *)

Inductive moves (J : nat -> nat -> job) (tbl : syscalls) (i : nat) (f f' : fleet) : Prop :=
  | stays : f_srv f' !! i = f_srv f !! i -> at_server i (f_log f') = at_server i (f_log f) -> moves J tbl i f f'
  | ends : (forall s, f_srv f' !! i <> Some (Some s)) -> at_server i (f_log f') = at_server i (f_log f) -> moves J tbl i f f'
  | works s b s' es : f_srv f !! i = Some (Some s) -> sstep (J i) tbl s b = Ok (s', es) -> f_srv f' !! i = Some (Some s') ->
      at_server i (f_log f') = (at_server i (f_log f) ++ es)%list -> moves J tbl i f f'.
Lemma moves_log J tbl i f l c : (forall k, at_server k l = []) -> moves J tbl i f (Fleet (f_srv f) (f_log f ++ l) c).
Proof. intros H. apply stays; [reflexivity|]. cbn [f_log]. by rewrite at_server_app, H, app_nil_r. Qed.
Lemma moves_upd J tbl i f k s a s' es pre c : f_srv f !! k = Some (Some s) -> sstep (J k) tbl s a = Ok (s', es) -> (forall k, at_server k pre = []) ->
  moves J tbl i f (Fleet (<[k := Some s']> (f_srv f)) (f_log f ++ pre ++ map (VServer k) es) c).
Proof.
  intros Hk Hs Hp. destruct (decide (k = i)) as [->|N].
  - eapply works; [exact Hk|exact Hs| |]; cbn [f_log f_srv].
    + apply list_lookup_insert. by eapply lookup_lt_Some.
    + by rewrite !at_server_app, Hp, at_server_own.
  - apply stays; cbn [f_log f_srv]; [by rewrite list_lookup_insert_ne|]. by rewrite !at_server_app, Hp, at_server_other, !app_nil_r by done.
Qed.
Lemma fstep_moves J tbl i f a : moves J tbl i f (fstep J tbl f a).
Proof.
  assert (moves J tbl i f f) as Hid by (by apply stays).
  assert (forall st, moves J tbl i f (exits f st)) as Hx by (intros st; by apply moves_log).
  destruct a as [k a|c eps| |]; cbn [fstep].
  - destruct (f_srv f !! k) as [[s|]|] eqn:Ek; [|exact Hid..]. assert (moves J tbl i f (Fleet (<[k := None]> (f_srv f)) (f_log f) (f_cmd f))) as Hn.
    { destruct (decide (k = i)) as [->|N]; [|apply stays; cbn [f_log f_srv]; [by rewrite list_lookup_insert_ne|done]].
      apply ends; [|done]. cbn [f_srv]. intros s'. by rewrite list_lookup_insert by (by eapply lookup_lt_Some). }
    destruct (sstep (J k) tbl s a) as [[s' es]| |] eqn:Es; [|exact Hn..].
    by apply (moves_upd J tbl i f k s a s' es []).
  - destruct (f_cmd f); [exact Hid|]. by apply moves_log.
  - destruct (f_cmd f) as [p|]; [|exact Hid]. unfold fgo. destruct (p_todo p) as [|k rest]; [apply Hx|]. destruct (p_wait p) as [t|].
    + destruct (answer_of k t (f_log f)) as [a|]; [|exact Hid]. destruct (wanted (p_cmd p) a); [|apply Hx]. by apply moves_log.
    + destruct (f_srv f !! k) as [[s|]|] eqn:Ek; [|apply Hx..]. destruct (meant (J k) s (p_cmd p)); [|exact Hid].
      destruct (sstep (J k) tbl s _) as [[s' es]| |] eqn:Es; [|exact Hid..].
      by apply (moves_upd J tbl i f k s (SReq (ask_of (p_cmd p))) s' es [VSend k (length (threads s))]).
  - destruct (f_cmd f) as [[c [|k rest] w]|]; [exact Hid|apply Hx|exact Hid].
Qed.
(** A server that is not up never is again. *)
Lemma down_stays J tbl i f a : ~ up f i -> ~ up (fstep J tbl f a) i.
Proof.
  intros N [s' E]. destruct (fstep_moves J tbl i f a) as [E1 _|E1 _|s b s1 es E1 _ _ _].
  - rewrite E1 in E. apply N. by exists s'.
  - by destruct (E1 s').
  - apply N. by exists s.
Qed.

(** * The command *)

Section QUERY.
  Context (J : nat -> nat -> job) (tbl : syscalls) (s0 : srv) (walk : nat -> order) (completed : bool) (q0 : query).
  Hypothesis new : new_server tbl = Some s0.
  Hypothesis W : orders walk.
  Notation run acts := (qrun J tbl walk completed q0 acts).

  (** A moment at which a server answered with its tables. *)
  Definition moment (acts : list qact) (i : nat) (a : answer) : Prop :=
    exists early late s, acts = (early ++ late)%list /\ f_srv (q_fleet (run early)) !! i = Some (Some s) /\ a = ATables (running s) (ServerModel.completed s).
  Lemma moment_more acts x i a : moment acts i a -> moment (acts ++ [x]) i a.
  Proof. intros (e & l & s & -> & H). exists e, (l ++ [x])%list, s. by rewrite app_assoc. Qed.
  Definition waiting (acts : list qact) (q : query) : Prop :=
    forall t, q_wait q = Some t -> exists i rest, q_todo q = i :: rest /\
      match answer_of i t (f_log (q_fleet q)) with
      | Some a => moment acts i a
      | None => forall s, f_srv (q_fleet q) !! i = Some (Some s) -> threads s !! t = Some (RList, PList)
      end.
  Definition true_reports (acts : list qact) (q : query) : Prop :=
    forall i l, (i, Jobs l) ∈ q_out q -> were_the_jobs J tbl walk completed q0 acts i l.
  Definition failures (acts : list qact) (q : query) : Prop :=
    forall i, (i, Failed) ∈ q_out q -> QBreak ∈ acts \/ ~ up (q_fleet q) i.
  Definition inv (acts : list qact) (q : query) : Prop :=
    servers J tbl s0 (q_fleet q) /\ waiting acts q /\ true_reports acts q /\ failures acts q
    /\ ((q_out q).*1 ++ q_todo q)%list = ((q_out q0).*1 ++ q_todo q0)%list
    /\ (q_exit q = None \/ (q_exit q = Some 0 /\ q_todo q = [])).

  Lemma reports_more acts x q : true_reports acts q -> true_reports (acts ++ [x]) q.
  Proof. intros H i l Hin. destruct (H i l Hin) as (e & la & s & -> & H'). exists e, (la ++ [x])%list, s. by rewrite app_assoc. Qed.
  Lemma moment_jobs acts i a k l : moment acts i a -> listed (walk k) completed a = Jobs l -> were_the_jobs J tbl walk completed q0 acts i l.
  Proof.
    intros (e & la & s & E & Hs & ->) Hl. cbn [listed] in Hl. injection Hl as <-. exists e, la, s. fold (table_of completed s).
    split_and!; [exact E|exact Hs|..].
    - intros P. apply ClientJobs.jobs_exact; [apply W|exact P].
    - intros x Hx. apply (ClientJobs.jobs_real (walk k)); [apply W|by apply elem_of_list_In].
    - apply ClientJobs.jobs_at_most. apply W.
  Qed.
  (** A step of the fleet. *)
  Lemma fleet_waiting acts a : waiting acts (run acts) -> waiting (acts ++ [QFleet a])
    (Query (fstep J tbl (q_fleet (run acts)) a) (q_todo (run acts)) (q_wait (run acts)) (q_out (run acts)) (q_exit (run acts))).
  Proof.
    intros H t Ht. cbn [q_wait q_todo q_fleet] in *. destruct (H t Ht) as (i & rest & Et & Ha). exists i, rest. split; [exact Et|].
    rewrite answer_replied in *. destruct (fstep_moves J tbl i (q_fleet (run acts)) a) as [E1 E2|E1 E2|s b s' es E1 Es E2 E3].
    - rewrite E2. destruct (replied t _); [by apply moment_more|]. by rewrite E1.
    - rewrite E2. destruct (replied t _); [by apply moment_more|]. intros s Hs. by destruct (E1 s).
    - rewrite E3, replied_app. destruct (replied t (at_server i _)) as [a'|]; [by apply moment_more|].
      destruct (list_step _ _ _ _ _ _ _ (Ha s E1) Es) as [[-> Hth]| ->].
      + intros s1 Hs1. rewrite E2 in Hs1. by injection Hs1 as <-.
      + exists acts, [QFleet a], s. by split_and!.
  Qed.
  Lemma fleet_failures acts a q : failures acts q -> failures (acts ++ [QFleet a]) (Query (fstep J tbl (q_fleet q) a) (q_todo q) (q_wait q) (q_out q) (q_exit q)).
  Proof.
    intros H i Hin. destruct (H i Hin) as [Hb|Hd]; [left; apply elem_of_app; by left|]. right. cbn [q_fleet]. by apply down_stays.
  Qed.
  Lemma print_report acts x q i r rest : inv acts q -> q_exit q = None -> q_todo q = i :: rest ->
    (forall l, r = Jobs l -> were_the_jobs J tbl walk completed q0 acts i l) -> (r = Failed -> x = QBreak \/ ~ up (q_fleet q) i) ->
    inv (acts ++ [x]) (prints q i r rest).
  Proof.
    intros (Hs & _ & Ht & Hf & He & _) Hx Et Hr Hd. unfold prints. split_and!; cbn [q_fleet q_wait q_out q_todo q_exit].
    - exact Hs.
    - intros t E. discriminate E.
    - intros k l Hin. cbn [q_out] in Hin. apply elem_of_app in Hin as [Hin|Hin]; [exact (reports_more acts x q Ht k l Hin)|]. apply elem_of_list_singleton in Hin. injection Hin as -> <-.
      destruct (Hr l eq_refl) as (e & la & s & -> & H'). exists e, (la ++ [x])%list, s. by rewrite app_assoc.
    - intros k Hin. cbn [q_out q_fleet] in *. apply elem_of_app in Hin as [Hin|Hin].
      + destruct (Hf k Hin) as [Hb|Hb]; [left; apply elem_of_app; by left|by right].
      + apply elem_of_list_singleton in Hin. injection Hin as -> <-. destruct (Hd eq_refl) as [->|Hn]; [left; apply elem_of_app; right; by left|by right].
    - rewrite fmap_app. cbn. rewrite <- app_assoc. cbn. rewrite <- Et. exact He.
    - by left.
  Qed.
  Lemma inv_more acts x q : inv acts q -> inv (acts ++ [x]) q.
  Proof.
    intros (Hs & Hw & Ht & Hf & He & Hx). split_and!; [exact Hs| |by apply reports_more| |exact He|exact Hx].
    - intros t Et. destruct (Hw t Et) as (i & rest & E1 & Ha). exists i, rest. split; [exact E1|]. destruct (answer_of i t _); [by apply moment_more|exact Ha].
    - intros i Hin. destruct (Hf i Hin) as [Hb|Hb]; [left; apply elem_of_app; by left|by right].
  Qed.
  Lemma inv_step acts x : inv acts (run acts) -> inv (acts ++ [x]) (run (acts ++ [x])).
  Proof.
    intros I. unfold qrun. rewrite fold_left_app. cbn [fold_left]. fold (run acts). destruct x as [a| |]; cbn [qstep].
    - destruct I as (Hs & Hw & Ht & Hf & He & Hx). split_and!; cbn [q_fleet q_wait q_out q_todo q_exit].
      + by apply servers_step.
      + by apply fleet_waiting.
      + intros i l Hin. exact (reports_more acts _ _ Ht i l Hin).
      + by apply fleet_failures.
      + exact He.
      + exact Hx.
    - unfold qgo. destruct (q_exit (run acts)) as [st|] eqn:Ex; [by apply inv_more|].
      destruct (q_todo (run acts)) as [|i rest] eqn:Et.
      + destruct (inv_more acts QGo _ I) as (Hs & Hw & Ht & Hf & He & Hx). split_and!; cbn [q_fleet q_wait q_out q_todo q_exit]; [exact Hs| |exact Ht|exact Hf|by rewrite <- Et|by right].
        intros t E. discriminate E.
      + destruct (q_wait (run acts)) as [t|] eqn:Ew.
        * destruct (answer_of i t (f_log (q_fleet (run acts)))) as [a|] eqn:Ea; [|by apply inv_more].
          assert (moment acts i a) as Hm.
          { destruct I as (_ & Hw & _). destruct (Hw t Ew) as (i' & rest' & E1 & Ha). rewrite Et in E1. injection E1 as <- <-. by rewrite Ea in Ha. }
          apply print_report; [exact I|exact Ex|exact Et|intros l; by apply moment_jobs|].
          destruct Hm as (e & la & s & _ & _ & ->). discriminate.
        * destruct (f_srv (q_fleet (run acts)) !! i) as [[s|]|] eqn:Ei; cycle 1.
          { apply print_report; [exact I|exact Ex|exact Et|discriminate|]. intros _. right. intros [s E]. congruence. }
          { apply print_report; [exact I|exact Ex|exact Et|discriminate|]. intros _. right. intros [s E]. congruence. }
          rewrite <- Et. destruct (inv_more acts QGo _ I) as (Hs & Hw & Ht & Hf & He & Hx). split_and!; cbn [q_fleet q_wait q_out q_todo q_exit].
          -- by apply servers_step.
          -- intros t E. cbn [q_wait] in E. injection E as <-. exists i, rest. cbn [q_todo q_fleet]. split; [exact Et|].
             rewrite answer_replied. cbn [fstep]. rewrite Ei. cbn [sstep]. unfold arrive. cbn [f_log f_srv map].
             rewrite at_server_app, replied_app.
             destruct (Hs i) as (s1 & [acts1 Hr] & E1). specialize (E1 s Ei) as <-. destruct (talk_run _ _ _ _ _ _ new Hr) as [_ Hans].
             rewrite not_replied; cycle 1.
             { intros r a Hin. destruct (Hans _ _ _ Hin) as [p Hp]. apply lookup_lt_Some in Hp. lia. }
             change [VServer i (EReq (length (threads s)) RList)] with (map (VServer i) [EReq (length (threads s)) RList]). rewrite at_server_own. cbn [replied].
             intros s' E. rewrite list_lookup_insert in E by (by eapply lookup_lt_Some). injection E as <-. cbn. by rewrite lookup_app_r, Nat.sub_diag by lia.
          -- exact Ht.
          -- intros k Hin. cbn [q_fleet q_out] in *. destruct (Hf k Hin) as [Hb|Hb]; [by left|right; by apply down_stays].
          -- exact He.
          -- by left.
    - destruct (q_exit (run acts)) as [st|] eqn:Ex; [by apply inv_more|]. destruct (q_todo (run acts)) as [|i rest] eqn:Et; [by apply inv_more|].
      apply print_report; [exact I|exact Ex|exact Et|discriminate|by left].
  Qed.
End QUERY.

Lemma query_inv J tbl s0 walk completed f eps acts : new_server tbl = Some s0 -> orders walk -> servers J tbl s0 f ->
  inv J tbl s0 walk completed (start_query f eps) acts (qrun J tbl walk completed (start_query f eps) acts).
Proof.
  intros new W Hs. induction acts as [|x acts IH] using rev_ind.
  - split_and!; cbn; [exact Hs|intros t E; discriminate E|intros i l Hin; by apply not_elem_of_nil in Hin|intros i Hin; by apply not_elem_of_nil in Hin|reflexivity|by left].
  - by apply inv_step.
Qed.
