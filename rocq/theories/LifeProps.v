(** Property C117: how the server ends. *)
From Coq Require Import List Arith Lia.
From stdpp Require Import base gmap list.
From Verif Require Import LifeModel.

(** How many seconds pass in a history. *)
Definition is_second (a : lact) : bool := match a with Second => true | _ => false end.
Definition seconds (h : list lact) : nat := length (filter (fun a => is_second a = true) h).
Definition ended (s : life) : Prop := exists st, l_phase s = Gone st.

Lemma lrun_app s h1 h2 : lrun s (h1 ++ h2) = lrun (lrun s h1) h2.
Proof. unfold lrun. apply fold_left_app. Qed.
Lemma seconds_app h1 h2 : seconds (h1 ++ h2) = (seconds h1 + seconds h2)%nat.
Proof. unfold seconds. by rewrite filter_app, app_length. Qed.
Lemma gone_stays s h st : l_phase s = Gone st -> lrun s h = s.
Proof. intros E. induction h as [|a h IH]; [reflexivity|]. cbn [lrun fold_left]. unfold lstep at 2. rewrite E. exact IH. Qed.

(** The history behind the phase, and what is known of a request that was never answered. *)
Definition told (listens : bool) (h : list lact) (s : life) : Prop :=
  match l_phase s with
  | Serving => Interrupt ∉ h
  | Closing n => (0 < n)%nat /\ exists h1 h2, h = (h1 ++ Interrupt :: h2)%list /\ (seconds h2 + n = 15)%nat
  | Gone st => st = 0%nat /\ Interrupt ∈ h
  end.
Definition kept (h : list lact) (s : life) : Prop :=
  forall id, id ∈ l_taken s -> Answer id ∉ h -> Upgrade id ∉ h ->
  id ∈ l_busy s /\ (ended s -> exists h1 h2, h = (h1 ++ Interrupt :: h2)%list /\ (15 <= seconds h2)%nat).
Lemma not_snoc {A} (x y : A) l : x ∉ (l ++ [y])%list -> x ∉ l /\ x <> y.
Proof. intros H. split; [intros I|intros ->]; apply H, elem_of_app; [by left|right; by left]. Qed.
Lemma life_inv listens h : let s := lrun (new_life listens) h in
  told listens h s /\ kept h s /\ l_listens s = listens /\ (listens = false -> l_taken s = []).
Proof.
  induction h as [|a h IH] using rev_ind; cbv zeta in *.
  - split_and!; [intros H; by apply not_elem_of_nil in H|intros id H; by apply not_elem_of_nil in H|reflexivity|reflexivity].
  - rewrite lrun_app. set (s := lrun (new_life listens) h) in *. change (lrun s [a]) with (lstep s a). destruct IH as (T & K & L & N).
    unfold lstep. destruct (gone (l_phase s)) eqn:G.
    { split_and!; [..|exact L|exact N].
      - unfold told in *. destruct (l_phase s); try discriminate G. destruct T as [-> T]. split; [done|]. apply elem_of_app. by left.
      - intros id I A U. apply not_snoc in A as [A _]. apply not_snoc in U as [U _]. destruct (K id I A U) as [B E]. split; [exact B|].
        intros X. destruct (E X) as (h1 & h2 & -> & S). exists h1, (h2 ++ [a])%list. split; [by rewrite <- app_assoc|]. rewrite seconds_app. lia. }
    (* what does not end the server *)
    assert (D : forall s', l_phase s' = l_phase s -> is_second a = false -> (l_phase s = Serving -> a <> Interrupt) ->
      told listens (h ++ [a]) s').
    { intros s' E Ns Ni. unfold told in *. rewrite E. destruct (l_phase s) as [|n|st].
      - intros I. apply elem_of_app in I as [I|I]; [by apply T|]. apply elem_of_list_singleton in I. by apply Ni.
      - destruct T as (P & h1 & h2 & -> & S). split; [exact P|]. exists h1, (h2 ++ [a])%list. split; [by rewrite <- app_assoc|]. rewrite seconds_app.
        unfold seconds at 2. rewrite filter_cons, Ns. rewrite decide_False by discriminate. cbn. lia.
      - destruct T as [-> T]. split; [done|]. apply elem_of_app. by left. }
    assert (Q : forall s', ~ ended s' -> (forall id, id ∈ l_taken s' -> Answer id ∉ (h ++ [a])%list -> Upgrade id ∉ (h ++ [a])%list -> id ∈ l_busy s') -> kept (h ++ [a]) s').
    { intros s' E B id I A U. split; [by apply B|]. intros X. by destruct (E X). }
    assert (NE : forall s', l_phase s' = l_phase s -> ~ ended s') by (intros s' E [st X]; rewrite E in X; rewrite X in G; discriminate G).
    assert (KB : forall id, id ∈ l_taken s -> Answer id ∉ (h ++ [a])%list -> Upgrade id ∉ (h ++ [a])%list -> id ∈ l_busy s).
    { intros id I A U. apply not_snoc in A as [A _]. apply not_snoc in U as [U _]. by apply K. }
    assert (SAME : is_second a = false -> (l_phase s = Serving -> a <> Interrupt) -> told listens (h ++ [a]) s /\ kept (h ++ [a]) s /\ l_listens s = listens /\ (listens = false -> l_taken s = [])).
    { intros Ns Ni. split_and!; [by apply D|apply Q; [by apply NE|exact KB]|exact L|exact N]. }
    destruct a as [id|id|id|id| | |].
    + destruct (l_phase s) as [|n|st] eqn:P; [|apply SAME; [reflexivity|discriminate]|apply SAME; [reflexivity|discriminate]].
      destruct (l_listens s && negb (bool_decide (id ∈ l_taken s))) eqn:C; [|apply SAME; [reflexivity|discriminate]].
      apply andb_true_iff in C as [Cl _]. split_and!; cbn [l_listens l_taken].
      * apply D; [reflexivity|reflexivity|discriminate].
      * apply Q; [by apply NE|]. cbn [l_taken l_busy]. intros k I A U. apply elem_of_app in I as [I|I]; [apply elem_of_union; right; by apply KB|].
        apply elem_of_list_singleton in I as ->. apply elem_of_union. left. by apply elem_of_singleton.
      * congruence.
      * congruence.
    + split_and!; cbn [l_listens l_taken]; [apply D; [reflexivity|reflexivity|discriminate]| |exact L|exact N].
      apply Q; [by apply NE|]. cbn [l_taken l_busy]. intros k I A U. apply elem_of_difference. split; [by apply KB|]. intros X. apply elem_of_singleton in X as ->.
      apply A, elem_of_app. right. by left.
    + destruct (bool_decide (id ∈ l_busy s)); [|apply SAME; [reflexivity|discriminate]].
      split_and!; cbn [l_listens l_taken]; [apply D; [reflexivity|reflexivity|discriminate]| |exact L|exact N].
      apply Q; [by apply NE|]. cbn [l_taken l_busy]. intros k I A U. apply elem_of_difference. split; [by apply KB|]. intros X. apply elem_of_singleton in X as ->.
      apply U, elem_of_app. right. by left.
    + split_and!; cbn [l_listens l_taken]; [apply D; [reflexivity|reflexivity|discriminate]| |exact L|exact N].
      apply Q; [by apply NE|exact KB].
    + destruct (l_phase s) as [|n|st] eqn:P; [|apply SAME; [reflexivity|discriminate]|apply SAME; [reflexivity|discriminate]].
      split_and!; cbn [l_listens l_taken]; [|apply Q; [intros [st X]; discriminate X|exact KB]|exact L|exact N].
      unfold told. cbn [l_phase]. split; [lia|]. exists h, []. split; [reflexivity|reflexivity].
    + destruct (l_phase s) as [|[|[|n]]|st] eqn:P; try discriminate G.
      * split_and!; [|apply Q; [by apply NE|exact KB]|exact L|exact N].
        unfold told in *. rewrite P in *. intros I. apply elem_of_app in I as [I|I]; [by apply T|]. apply elem_of_list_singleton in I. discriminate I.
      * unfold told in T. rewrite P in T. lia.
      * unfold told in T. rewrite P in T. destruct T as (_ & h1 & h2 & -> & S). split_and!; cbn [l_listens l_taken]; [| |exact L|exact N].
        -- unfold told. cbn [l_phase]. split; [done|]. apply elem_of_app. left. apply elem_of_app. right. by left.
        -- intros id I A U. split; [by apply KB|]. intros _. exists h1, (h2 ++ [Second])%list. split; [by rewrite <- app_assoc|]. rewrite seconds_app. change (seconds [Second]) with 1%nat. lia.
      * unfold told in T. rewrite P in T. destruct T as (_ & h1 & h2 & -> & S). split_and!; cbn [l_listens l_taken]; [| |exact L|exact N].
        -- unfold told. cbn [l_phase]. split; [lia|]. exists h1, (h2 ++ [Second])%list. split; [by rewrite <- app_assoc|]. rewrite seconds_app. change (seconds [Second]) with 1%nat. lia.
        -- apply Q; [intros [st X]; discriminate X|exact KB].
    + destruct (l_phase s) as [|n|st] eqn:P; [apply SAME; [reflexivity|discriminate]| |apply SAME; [reflexivity|discriminate]].
      destruct (bool_decide (l_busy s = ∅)) eqn:B; [|apply SAME; [reflexivity|discriminate]]. apply bool_decide_eq_true in B.
      split_and!; cbn [l_listens l_taken]; [| |exact L|exact N].
      * unfold told in *. rewrite P in T. cbn [l_phase]. split; [done|]. destruct T as (_ & h1 & h2 & -> & _). apply elem_of_app. left. apply elem_of_app. right. by left.
      * intros id I A U. exfalso. pose proof (KB id I A U) as X. rewrite B in X. by apply elem_of_empty in X.
Qed.

(** C117: an interrupted server has ended after fifteen seconds, with status 0, whatever its
    clients do. *)
Theorem C117_ends_in_time : forall listens h more, (15 <= seconds more)%nat ->
  l_phase (lrun (new_life listens) (h ++ Interrupt :: more)) = Gone 0.
Proof.
  intros listens h more S.
  assert (H : forall n s more, l_phase s = Closing n -> (0 < n <= seconds more)%nat -> l_phase (lrun s more) = Gone 0).
  { clear. intros n s more. revert n s. induction more as [|a more IH]; intros n s P [S1 S2]; [cbn in S2; lia|].
    change (lrun s (a :: more)) with (lrun (lstep s a) more).
    assert (G : forall s', l_phase s' = Gone 0 -> l_phase (lrun s' more) = Gone 0) by (intros s' E; by rewrite (gone_stays s' more 0 E)).
    assert (C : is_second a = false -> l_phase (lstep s a) = Closing n -> l_phase (lrun (lstep s a) more) = Gone 0).
    { intros Ns E. apply (IH n); [exact E|]. split; [exact S1|]. unfold seconds in *. rewrite filter_cons, Ns in S2. rewrite decide_False in S2 by discriminate. exact S2. }
    unfold lstep in *. rewrite P in *. cbn [gone] in *. destruct a as [id|id|id|id| | |].
    - by apply C.
    - by apply C.
    - apply C; [reflexivity|]. destruct (bool_decide (id ∈ l_busy s)); [reflexivity|exact P].
    - by apply C.
    - by apply C.
    - destruct n as [|[|n]]; [lia|by apply G|]. apply (IH (S n)); [reflexivity|]. unfold seconds in *. rewrite filter_cons in S2. cbn [is_second] in S2. rewrite decide_True in S2 by done. cbn in S2. lia.
    - destruct (bool_decide (l_busy s = ∅)); [by apply G|by apply C]. }
  rewrite lrun_app. change (Interrupt :: more) with ([Interrupt] ++ more)%list. rewrite lrun_app. set (s := lrun (new_life listens) h).
  destruct (life_inv listens h) as (T & _). fold s in T. unfold told in T. change (lrun s [Interrupt]) with (lstep s Interrupt). unfold lstep. destruct (l_phase s) as [|n|st] eqn:P; cbn [gone].
  - apply (H 15); [reflexivity|lia].
  - destruct T as (Pn & h1 & h2 & _ & E). apply (H n); [exact P|lia].
  - destruct T as [-> _]. rewrite (gone_stays s more 0 P). exact P.
Qed.
Print Assumptions C117_ends_in_time.
(** It ends only when interrupted (the failures that end the process elsewhere are in
    ServeProps.v and HubProps.v). *)
Theorem C117_ends_when_interrupted : forall listens h, ended (lrun (new_life listens) h) -> Interrupt ∈ h /\ l_phase (lrun (new_life listens) h) = Gone 0.
Proof. intros listens h [st E]. destruct (life_inv listens h) as (T & _). unfold told in T. rewrite E in *. destruct T as [-> T]. by split. Qed.
Print Assumptions C117_ends_when_interrupted.
(** From the interrupt on no new request is taken. *)
Theorem C117_nothing_new : forall listens h more,
  l_taken (lrun (new_life listens) (h ++ Interrupt :: more)) = l_taken (lrun (new_life listens) h).
Proof.
  intros listens h more. change (Interrupt :: more) with ([Interrupt] ++ more)%list. rewrite lrun_app, lrun_app. set (s := lrun (new_life listens) h). change (lrun s [Interrupt]) with (lstep s Interrupt).
  assert (H : forall more s, l_phase s <> Serving -> l_taken (lrun s more) = l_taken s).
  { clear. induction more as [|a more IH]; intros s N; [reflexivity|]. change (lrun s (a :: more)) with (lrun (lstep s a) more).
    assert (X : l_phase (lstep s a) <> Serving /\ l_taken (lstep s a) = l_taken s); [|destruct X as [X1 X2]; rewrite (IH _ X1); exact X2].
    unfold lstep. destruct (gone (l_phase s)); [by split|]. destruct a as [id|id|id|id| | |]; destruct (l_phase s) as [|[|[|n]]|st] eqn:P; try done; cbn [l_phase l_taken];
      try (split; [rewrite ?P; done|done]); try (destruct (bool_decide _); cbn [l_phase l_taken]; rewrite ?P; by split). }
  rewrite H; unfold lstep; destruct (l_phase s) as [|n|st] eqn:P; cbn [gone l_phase l_taken]; try done; rewrite P; done.
Qed.
Print Assumptions C117_nothing_new.
(** A request that was taken is given fifteen seconds from the interrupt: if the server has
    ended and the request was neither answered nor made a websocket, so much time has
    passed. *)
Theorem C117_requests_get_their_time : forall listens h id,
  id ∈ l_taken (lrun (new_life listens) h) -> Answer id ∉ h -> Upgrade id ∉ h -> ended (lrun (new_life listens) h) ->
  exists h1 h2, h = (h1 ++ Interrupt :: h2)%list /\ (15 <= seconds h2)%nat.
Proof. intros listens h id I A U E. destruct (life_inv listens h) as (_ & K & _). exact (proj2 (K id I A U) E). Qed.
Print Assumptions C117_requests_get_their_time.

(** A server that has nothing left to answer does not wait: if every request sent was answered
    or made a websocket, the first look after the interrupt ends it. *)
Lemma busy_sent listens h id : gone (l_phase (lrun (new_life listens) h)) = false -> id ∈ l_busy (lrun (new_life listens) h) ->
  exists h1 h2, h = (h1 ++ Send id :: h2)%list /\ Answer id ∉ h2 /\ Upgrade id ∉ h2.
Proof.
  induction h as [|a h IH] using rev_ind; [intros _ H; by apply elem_of_empty in H|]. rewrite lrun_app. set (s := lrun (new_life listens) h) in *. change (lrun s [a]) with (lstep s a).
  intros Gn B. destruct (gone (l_phase s)) eqn:G; [unfold lstep in Gn; rewrite G in Gn; congruence|]. specialize (IH eq_refl).
  assert (OLD : id ∈ l_busy s -> a <> Answer id -> a <> Upgrade id -> exists h1 h2, (h ++ [a])%list = (h1 ++ Send id :: h2)%list /\ Answer id ∉ h2 /\ Upgrade id ∉ h2).
  { intros B' N1 N2. destruct (IH B') as (h1 & h2 & -> & A & U). exists h1, (h2 ++ [a])%list. rewrite <- app_assoc. split; [reflexivity|].
    split; intros X; apply elem_of_app in X as [X|X]; [by apply A| |by apply U|]; apply elem_of_list_singleton in X; congruence. }
  destruct (decide (id ∈ l_busy s)) as [I|I].
  - apply OLD; [exact I| |]; intros ->; unfold lstep in B; rewrite G in B.
    + cbn [l_busy] in B. apply elem_of_difference in B as [_ B]. apply B. by apply elem_of_singleton.
    + rewrite bool_decide_eq_true_2 in B by exact I. cbn [l_busy] in B. apply elem_of_difference in B as [_ B]. apply B. by apply elem_of_singleton.
  - unfold lstep in B. rewrite G in B. destruct a as [k|k|k|k| | |].
    + destruct (l_phase s); [|by destruct I|by destruct I]. destruct (l_listens s && _); [|by destruct I]. cbn [l_busy] in B.
      apply elem_of_union in B as [B|B]; [|by destruct I]. apply elem_of_singleton in B as ->. exists h, []. split; [reflexivity|]. split; apply not_elem_of_nil.
    + cbn [l_busy] in B. apply elem_of_difference in B as [B _]. by destruct I.
    + destruct (bool_decide _); [|by destruct I]. cbn [l_busy] in B. apply elem_of_difference in B as [B _]. by destruct I.
    + by destruct I.
    + destruct (l_phase s); by destruct I.
    + destruct (l_phase s) as [|[|[|n]]|]; by destruct I.
    + destruct (l_phase s); [by destruct I| |by destruct I]. destruct (bool_decide _); by destruct I.
Qed.
Theorem C117_nothing_left_nothing_waited : forall listens h, Interrupt ∈ h ->
  (forall id h1 h2, h = (h1 ++ Send id :: h2)%list -> Answer id ∈ h2 \/ Upgrade id ∈ h2) ->
  ended (lrun (new_life listens) (h ++ [Look])).
Proof.
  intros listens h I A. rewrite lrun_app. destruct (life_inv listens h) as (T & _). pose proof (busy_sent listens h) as B. set (s := lrun (new_life listens) h) in *. change (lrun s [Look]) with (lstep s Look).
  unfold lstep. unfold told in T. destruct (l_phase s) as [|n|st] eqn:P; [by destruct T| |exists st; exact P]. cbn [gone].
  assert (E : l_busy s = ∅).
  { apply set_eq. intros id. split; [|intros X; by apply elem_of_empty in X]. intros X. destruct (B id eq_refl X) as (h1 & h2 & E & N1 & N2). destruct (A id h1 h2 E); contradiction. }
  rewrite bool_decide_eq_true_2 by exact E. by exists 0%nat.
Qed.
Print Assumptions C117_nothing_left_nothing_waited.

(** Streams are not waited for: however many are open, and without a second to finish, the
    server ends under them. *)
Lemma streams_open n : let s := lrun (new_life true) (concat (map (fun id => [Send id; Upgrade id]) (seq 0 n))) in
  l_phase s = Serving /\ l_listens s = true /\ l_busy s = ∅ /\ l_taken s = seq 0 n /\ forall id, (id < n)%nat -> id ∈ l_streams s.
Proof.
  induction n as [|n IH]; cbv zeta in *; [split_and!; try reflexivity; intros id H; lia|].
  rewrite seq_S, map_app, concat_app, lrun_app. cbn [map concat app Nat.add]. set (s := lrun _ _) in *. destruct IH as (P & L & B & T & S).
  change (lrun s [Send n; Upgrade n]) with (lstep (lstep s (Send n)) (Upgrade n)). unfold lstep at 2 4 6 8 10. rewrite P. cbn [gone]. rewrite L.
  rewrite (bool_decide_eq_false_2 (n ∈ l_taken s)) by (rewrite T; rewrite elem_of_list_In, in_seq; lia). cbn [andb negb].
  unfold lstep. cbn [l_phase gone l_busy]. rewrite bool_decide_eq_true_2 by set_solver. cbn [l_phase l_listens l_busy l_taken l_streams].
  split_and!; [reflexivity|reflexivity|rewrite B; set_solver|by rewrite T|].
  intros id H. destruct (decide (id = n)) as [->|]; [set_solver|]. apply elem_of_union. right. apply S. lia.
Qed.
Theorem C117_streams_are_finished_refuted : forall n, exists h, seconds h = 0%nat /\
  ended (lrun (new_life true) h) /\ forall id, (id < n)%nat -> id ∈ l_streams (lrun (new_life true) h).
Proof.
  intros n. exists (concat (map (fun id => [Send id; Upgrade id]) (seq 0 n)) ++ [Interrupt; Look])%list. split.
  { rewrite seconds_app. change (seconds [Interrupt; Look]) with 0%nat. generalize 0%nat at 1. induction n as [|n IH]; intros k; [reflexivity|]. cbn [seq map concat]. rewrite seconds_app, <- Nat.add_assoc, IH. reflexivity. }
  rewrite lrun_app. destruct (streams_open n) as (P & _ & B & _ & S). set (s := lrun (new_life true) _) in *.
  change (lrun s [Interrupt; Look]) with (lstep (lstep s Interrupt) Look).
  assert (E : lstep s Interrupt = Life (Closing 15) (l_listens s) (l_busy s) (l_streams s) (l_taken s)) by (unfold lstep; rewrite P; reflexivity).
  rewrite E. unfold lstep. cbn [l_phase gone l_busy]. rewrite bool_decide_eq_true_2 by exact B. split; [by exists 0%nat|exact S].
Qed.
Print Assumptions C117_streams_are_finished_refuted.
(** A server that could not open its address goes on as if it had, and nobody can ever ask
    it anything. *)
Theorem C117_running_servers_listen_refuted : forall h, Interrupt ∉ h ->
  l_phase (lrun (new_life false) h) = Serving /\ l_taken (lrun (new_life false) h) = [].
Proof.
  intros h N. destruct (life_inv false h) as (T & _ & _ & X). split; [|by apply X]. unfold told in T. destruct (l_phase _) as [|n|st]; [reflexivity| |].
  - destruct T as (_ & h1 & h2 & -> & _). destruct N. apply elem_of_app. right. by left.
  - destruct T as [_ T]. by destruct N.
Qed.
Print Assumptions C117_running_servers_listen_refuted.

Example C117_nonvacuous :
  let h := ([Send 1; Send 2; Answer 1; Interrupt; Send 3; Look] ++ replicate 15 Second)%list in
  ended (lrun (new_life true) h) /\ l_taken (lrun (new_life true) h) = [1; 2]%nat /\ Answer 2 ∉ h /\ Upgrade 2 ∉ h
  /\ ~ ended (lrun (new_life true) (take 20 h)).
Proof.
  cbv zeta. split; [exists 0%nat; vm_compute; reflexivity|]. split; [vm_compute; reflexivity|].
  split; [|split].
  - intros H. apply elem_of_list_In in H. cbn in H. intuition discriminate.
  - intros H. apply elem_of_list_In in H. cbn in H. intuition discriminate.
  - intros [st H]. vm_compute in H. discriminate H.
Qed.
