(** Proofs about the client's side of a watched job. *)
From Coq Require Import ZArith List Lia.
From stdpp Require Import base list numbers.
From Verif Require Import StreamModel StreamSpec.

Local Open Scope list_scope.
Local Open Scope Z_scope.

Local Opaque max_message_size pong_wait ping_period.

Section Event.
Context {A : Type}.
Implicit Types (s : stream A) (is : list (input A)).

Lemma run_app is1 : forall is2 s, run (is1 ++ is2) s = run is2 (run is1 s).
Proof. induction is1 as [|i is1 IH]; intros is2 s; [reflexivity|]. apply IH. Qed.

Lemma arrived_app is1 is2 : arrived (is1 ++ is2) = arrived is1 ++ arrived is2.
Proof. apply flat_map_app. Qed.
Lemma events_app (f1 f2 : list (frame A)) : events (f1 ++ f2) = events f1 ++ events f2.
Proof. apply flat_map_app. Qed.
Lemma elapsed_app is1 is2 : elapsed (is1 ++ is2) = elapsed is1 + elapsed is2.
Proof. induction is1 as [|i is1 IH]; [reflexivity|]. cbn. unfold elapsed in *. rewrite IH. lia. Qed.
Lemma elapsed_nonneg is : 0 <= elapsed is.
Proof. induction is as [|i is IH]; cbn; [lia|]. unfold elapsed in *. destruct i; lia. Qed.
Lemma frames_app is1 : forall is2 s, frames_read (is1 ++ is2) s = frames_read is1 s ++ frames_read is2 (run is1 s).
Proof.
  induction is1 as [|i is1 IH]; intros is2 s; [reflexivity|].
  cbn [app frames_read run]. rewrite IH, app_assoc. reflexivity.
Qed.

(** * Nothing is invented, reordered or repeated *)

(** One step keeps the account of events. *)
Lemma step_account i s : (forall f, i <> Reset f) ->
  (ended (step i s) = None ->
     shown (step i s) ++ waiting (held (step i s)) ++ events (queue (step i s))
     = shown s ++ waiting (held s) ++ events (queue s) ++ events (arrived [i]))
  /\ shown (step i s) `prefix_of` shown s ++ waiting (held s).
Proof.
  intros Hr. destruct i as [f|b|b| |d| |]; cbn [step arrived flat_map app].
  - cbn [set_queue ended shown held queue]. split.
    + intros _. rewrite events_app. reflexivity.
    + apply prefix_app_r. reflexivity.
  - exfalso. exact (Hr b eq_refl).
  - cbn [events flat_map]. rewrite app_nil_r. unfold read. destruct (ended s) eqn:Ee.
    { rewrite Ee. split; [discriminate|]. apply prefix_app_r. reflexivity. }
    destruct (held s) as [a|] eqn:Eh.
    { split; [intros _; rewrite Eh; reflexivity|]. apply prefix_app_r. reflexivity. }
    cbn [waiting app]. rewrite app_nil_r.
    destruct (negb b && (deadline s <=? now s)); [split; [discriminate|reflexivity]|].
    destruct (queue s) as [|f q] eqn:Eq; [split; [intros _; rewrite Eh, Eq; reflexivity|reflexivity]|].
    destruct f as [n ev| | | |w]; cbn [events flat_map app].
    + destruct (max_message_size <? n)%nat; [split; [discriminate|reflexivity]|].
      split; [|reflexivity]. intros _. cbn. destruct ev; reflexivity.
    + split; [|reflexivity]. intros _. cbn. rewrite Eh. reflexivity.
    + split; [|reflexivity]. intros _. cbn. rewrite Eh. reflexivity.
    + split; [discriminate|reflexivity].
    + split; [discriminate|reflexivity].
  - destruct (held s) as [a|] eqn:Eh.
    + cbn [show ended shown held queue waiting]. rewrite app_nil_r, <- app_assoc.
      split; [reflexivity|]. reflexivity.
    + rewrite Eh. cbn [waiting]. rewrite !app_nil_r. split; reflexivity.
  - cbn [sleep ended shown held queue events flat_map]. rewrite app_nil_r.
    split; [reflexivity|apply prefix_app_r; reflexivity].
  - cbn [events flat_map]. rewrite app_nil_r. unfold tick.
    destruct (writer s && (next_ping s <=? now s)); [destruct (ended s) eqn:Ee|].
    + split; [cbn; rewrite Ee; discriminate|apply prefix_app_r; reflexivity].
    + split; [reflexivity|apply prefix_app_r; reflexivity].
    + split; [reflexivity|apply prefix_app_r; reflexivity].
  - cbn [events flat_map]. rewrite app_nil_r. destruct (ended s) eqn:Ee.
    + split; [cbn; rewrite Ee; discriminate|apply prefix_app_r; reflexivity].
    + split; [discriminate|apply prefix_app_r; reflexivity].
Qed.

Lemma step_ended i s r : ended s = Some r -> held s = None ->
  ended (step i s) = Some r /\ held (step i s) = None /\ shown (step i s) = shown s.
Proof.
  intros He Hh. destruct i as [f|b|b| |d| |]; cbn [step]; try (cbn; auto; fail).
  - unfold read. rewrite He. auto.
  - rewrite Hh. auto.
  - unfold tick. rewrite He. destruct (writer s && (next_ping s <=? now s)); cbn; auto.
  - rewrite He. cbn. auto.
Qed.

Lemma run_ended is : forall s r, ended s = Some r -> held s = None ->
  ended (run is s) = Some r /\ held (run is s) = None /\ shown (run is s) = shown s.
Proof.
  induction is as [|i is IH]; intros s r He Hh; [auto|]. cbn [run].
  destruct (step_ended i s r He Hh) as (H1 & H2 & H3).
  destruct (IH _ r H1 H2) as (H4 & H5 & H6). rewrite H3 in H6. auto.
Qed.

Lemma ended_held i s : (ended s <> None -> held s = None) -> ended (step i s) <> None -> held (step i s) = None.
Proof.
  intros H He. destruct (ended s) as [r|] eqn:E.
  { apply (step_ended i s r E). apply H. discriminate. }
  clear H. destruct i as [f|b|b| |d| |]; cbn [step] in *; try (cbn in *; congruence).
  - unfold read in *. rewrite E in *. destruct (held s) eqn:Eh; [congruence|].
    destruct (negb b && (deadline s <=? now s)); [reflexivity|].
    destruct (queue s) as [|f q]; [congruence|].
    destruct f as [n ev| | | |w]; try reflexivity; try (cbn in *; congruence).
    destruct (max_message_size <? n)%nat; [reflexivity|cbn in *; congruence].
  - destruct (held s); cbn in *; congruence.
  - unfold tick in *. rewrite E in *. destruct (writer s && (next_ping s <=? now s)); cbn in *; congruence.
  - rewrite E. reflexivity.
Qed.

Lemma run_ended_held is : forall s, (ended s <> None -> held s = None) ->
  ended (run is s) <> None -> held (run is s) = None.
Proof.
  induction is as [|i is IH]; intros s H; [exact H|]. cbn [run]. apply IH. apply ended_held, H.
Qed.

Lemma after_end t is1 is2 : ended (run is1 (dial t)) <> None ->
  shown (run (is1 ++ is2) (dial t)) = shown (run is1 (dial t)).
Proof.
  intros H. rewrite run_app.
  assert (Hh := run_ended_held is1 (dial t) ltac:(cbn; congruence) H).
  destruct (ended (run is1 (dial t))) as [r|] eqn:E; [|congruence].
  apply (run_ended is2 _ r E Hh).
Qed.

Definition no_reset (i : input A) : Prop := forall f, i <> Reset f.

(** With everything up to now accounted for, or the stream over and a prefix shown. *)
Definition account (all : list A) s : Prop :=
  (ended s = None -> shown s ++ waiting (held s) ++ events (queue s) = all) /\
  (shown s `prefix_of` all) /\ (ended s <> None -> held s = None).

Lemma step_keeps_account all i s : no_reset i -> account all s ->
  account (all ++ events (arrived [i])) (step i s).
Proof.
  intros Hr (H1 & H2 & H3). destruct (step_account i s Hr) as [S1 S2].
  assert (H3' : ended (step i s) <> None -> held (step i s) = None) by (apply ended_held, H3).
  destruct (ended s) as [r|] eqn:Ee.
  - destruct (step_ended i s r Ee ltac:(apply H3; discriminate)) as (E1 & E2 & E3).
    split; [rewrite E1; discriminate|]. split; [rewrite E3; apply prefix_app_r, H2|exact H3'].
  - specialize (H1 eq_refl). split; [|split; [|exact H3']].
    + intros He. rewrite (S1 He), <- H1, <- !app_assoc. reflexivity.
    + etransitivity; [exact S2|]. rewrite <- H1, <- !app_assoc.
      rewrite app_assoc. apply prefix_app_r. reflexivity.
Qed.

Lemma run_account is : forall all s, Forall no_reset is -> account all s ->
  account (all ++ events (arrived is)) (run is s).
Proof.
  induction is as [|i is IH]; intros all s Hr Ha; [cbn; rewrite app_nil_r; exact Ha|].
  inversion Hr; subst. cbn [run].
  change (i :: is) with ([i] ++ is). rewrite arrived_app, events_app, app_assoc.
  apply IH; [assumption|]. apply step_keeps_account; assumption.
Qed.

Lemma dial_account t : account [] (dial t).
Proof. split; [reflexivity|]. split; [reflexivity|]. cbn. congruence. Qed.

Lemma in_order t is : Forall no_reset is ->
  shown (run is (dial t)) `prefix_of` events (arrived is) /\
  (ended (run is (dial t)) = None ->
   shown (run is (dial t)) ++ waiting (held (run is (dial t))) ++ events (queue (run is (dial t)))
   = events (arrived is)).
Proof.
  intros H. destruct (run_account is [] (dial t) H (dial_account t)) as (H1 & H2 & _).
  cbn [app] in *. split; [exact H2|exact H1].
Qed.

Lemma no_reset_all is : (forall f, Reset f ∉ is) -> Forall no_reset is.
Proof.
  intros H. apply Forall_forall. intros i Hi f ->. apply (H f), elem_of_list_In, Hi.
Qed.

Lemma in_order_reset t is : (forall f, Reset f ∉ is) ->
  shown (run is (dial t)) `prefix_of` events (arrived is) /\
  (ended (run is (dial t)) = None ->
   shown (run is (dial t)) ++ waiting (held (run is (dial t))) ++ events (queue (run is (dial t)))
   = events (arrived is)).
Proof. intros H. exact (in_order t is (no_reset_all is H)). Qed.

(** After a reset only what was read before can still be shown. *)
Definition down (all : list A) s : Prop :=
  (ended s <> None -> held s = None) /\ shown s ++ waiting (held s) `prefix_of` all /\
  (ended s = None -> exists b q, queue s = Broken b :: q).

Lemma step_down all i s : down all s -> down all (step i s).
Proof.
  intros (H1 & H2 & H3). split; [apply ended_held, H1|].
  destruct (ended s) as [r|] eqn:Ee.
  { destruct (step_ended i s r Ee ltac:(apply H1; discriminate)) as (E1 & E2 & E3).
    rewrite E1, E2, E3. rewrite H1 in H2 by discriminate. split; [exact H2|discriminate]. }
  destruct (H3 eq_refl) as (b0 & q0 & Hq).
  destruct i as [f|b|b| |d| |]; cbn [step].
  - split; [exact H2|]. intros _. cbn. rewrite Hq. exists b0, (q0 ++ [f]). reflexivity.
  - split; [exact H2|]. intros _. cbn. exists b, []. reflexivity.
  - unfold read. rewrite Ee. destruct (held s) eqn:Eh; [rewrite Eh; split; [exact H2|auto]|].
    destruct (negb b && (deadline s <=? now s)); [split; [exact H2|discriminate]|].
    rewrite Hq. split; [exact H2|discriminate].
  - destruct (held s) as [a|] eqn:Eh; [|rewrite Eh; split; [exact H2|auto]].
    cbn [show shown held waiting queue ended]. rewrite app_nil_r. split; [exact H2|]. intros _.
    exists b0, q0. exact Hq.
  - split; [exact H2|]. intros _. exists b0, q0. exact Hq.
  - unfold tick. rewrite Ee. destruct (writer s && (next_ping s <=? now s)); (split; [exact H2|]); intros _;
      exists b0, q0; exact Hq.
  - rewrite Ee. split; [|discriminate]. cbn. rewrite app_nil_r.
    etransitivity; [|exact H2]. apply prefix_app_r. reflexivity.
Qed.

Lemma run_down is : forall all s, down all s -> down all (run is s).
Proof. induction is as [|i is IH]; intros all s H; [exact H|]. apply IH, step_down, H. Qed.

Lemma torn_down t is1 f is2 : (forall f, Reset f ∉ is1) ->
  shown (run (is1 ++ Reset f :: is2) (dial t)) `prefix_of` events (arrived is1).
Proof.
  intros H. destruct (run_account is1 [] (dial t) (no_reset_all is1 H) (dial_account t)) as (H1 & H2 & H3).
  rewrite run_app. cbn [run].
  assert (D : down (events (arrived is1)) (step (Reset f) (run is1 (dial t)))).
  { split; [exact H3|]. split; [|intros _; exists f, []; reflexivity].
    cbn [step set_queue shown held]. destruct (ended (run is1 (dial t))) eqn:E.
    - rewrite H3 by congruence. cbn [waiting]. rewrite app_nil_r. exact H2.
    - specialize (H1 eq_refl). cbn [app] in H1. rewrite <- H1, app_assoc. apply prefix_app_r. reflexivity. }
  destruct (run_down is2 _ _ D) as (_ & D2 & _).
  etransitivity; [|exact D2]. apply prefix_app_r. reflexivity.
Qed.

(** * Staying alive *)

Lemma run_now is : forall s, now (run is s) = now s + elapsed is.
Proof.
  induction is as [|i is IH]; intros s; [cbn; lia|]. cbn [run elapsed foldr]. rewrite IH.
  change (foldr (fun i n => match i with Wait d => Z.max 0 d | _ => 0 end + n) 0 is) with (elapsed is).
  destruct i as [f|b|b| |d| |]; cbn [step]; try (cbn; lia).
  - unfold read. destruct (ended s), (held s); try lia.
    destruct (negb b && (deadline s <=? now s)); [cbn; lia|].
    destruct (queue s) as [|[n ev| | | |w] q]; try (cbn; lia).
    destruct (max_message_size <? n)%nat; cbn; lia.
  - destruct (held s); cbn; lia.
  - unfold tick. destruct (writer s && (next_ping s <=? now s)); [destruct (ended s)|]; cbn; lia.
  - destruct (ended s); cbn; lia.
Qed.

(** The deadline is a minute after the last answer read, or the start. *)
Lemma step_deadline i s :
  deadline (step i s) = deadline s \/
  (Pong ∈ frames_read [i] s /\ deadline (step i s) = now (step i s) + pong_wait).
Proof.
  destruct i as [f|b|b| |d| |]; cbn [step]; try (left; reflexivity).
  - cbn [frames_read]. cbn [step]. unfold read. destruct (ended s); [left; reflexivity|].
    destruct (held s); [left; reflexivity|].
    destruct (negb b && (deadline s <=? now s)); [left; reflexivity|].
    destruct (queue s) as [|[n ev| | | |w] q] eqn:Eq; try (left; reflexivity).
    + destruct (max_message_size <? n)%nat; left; reflexivity.
    + right. cbn [set_deadline set_queue queue deadline now length].
      assert ((length q <? S (length q))%nat = true) as -> by (apply Nat.ltb_lt; lia).
      split; [left|reflexivity].
  - destruct (held s); left; reflexivity.
  - unfold tick. destruct (writer s && (next_ping s <=? now s)); [destruct (ended s)|]; left; reflexivity.
  - destruct (ended s); left; reflexivity.
Qed.

Lemma deadline_from is : forall s,
  (Pong ∉ frames_read is s /\ deadline (run is s) = deadline s) \/
  (exists is1 is2, is = is1 ++ is2 /\ is1 <> [] /\ Pong ∉ frames_read is2 (run is1 s)
    /\ deadline (run is s) = now (run is1 s) + pong_wait).
Proof.
  induction is as [|i is IH] using rev_ind; intros s; [left; split; [cbn; apply not_elem_of_nil|reflexivity]|].
  rewrite run_app. cbn [run].
  destruct (step_deadline i (run is s)) as [E|[Hp E]].
  - rewrite E.
    assert (Hone : Pong ∈ frames_read [i] (run is s) \/ Pong ∉ frames_read [i] (run is s)).
    { cbn [frames_read]. rewrite app_nil_r. destruct i; try (right; apply not_elem_of_nil).
      destruct (queue (run is s)) as [|g q]; [right; apply not_elem_of_nil|].
      destruct (_ <? _)%nat; [|right; apply not_elem_of_nil].
      destruct g; try (right; rewrite elem_of_list_singleton; discriminate). left. left. }
    destruct Hone as [Hp|Hp].
    + (* a pong read with an equal deadline *)
      right. exists (is ++ [i]), []. rewrite app_nil_r. split; [reflexivity|].
      split; [destruct is; discriminate|]. split; [apply not_elem_of_nil|].
      rewrite run_app. cbn [run]. rewrite <- E.
      clear -Hp. cbn [frames_read] in Hp. rewrite app_nil_r in Hp.
      destruct i as [f|b|b| |d| |]; try (apply elem_of_nil in Hp; contradiction).
      destruct (queue (run is s)) as [|g q] eqn:Eq; [apply elem_of_nil in Hp; contradiction|].
      destruct (_ <? _)%nat eqn:El in Hp; [|apply elem_of_nil in Hp; contradiction].
      apply elem_of_list_singleton in Hp. subst g. apply Nat.ltb_lt in El.
      cbn [step] in *. unfold read in *.
      destruct (ended (run is s)); [rewrite Eq in El; lia|].
      destruct (held (run is s)); [rewrite Eq in El; lia|].
      destruct (negb b && (deadline (run is s) <=? now (run is s))); [cbn in El; rewrite Eq in El; cbn in El; lia|].
      rewrite Eq. reflexivity.
    + destruct (IH s) as [[H1 H2]|(is1 & is2 & H1 & H2 & H3 & H4)].
      * left. split; [|exact H2]. rewrite frames_app. rewrite not_elem_of_app. split; assumption.
      * right. exists is1, (is2 ++ [i]). split; [rewrite H1, app_assoc; reflexivity|]. split; [exact H2|].
        split; [|exact H4]. rewrite frames_app. rewrite not_elem_of_app. split; [exact H3|].
        rewrite <- run_app, <- H1. exact Hp.
  - right. exists (is ++ [i]), []. rewrite app_nil_r. split; [reflexivity|].
    split; [destruct is; discriminate|]. split; [apply not_elem_of_nil|].
    rewrite run_app. cbn [run]. exact E.
Qed.

(** The deadline has passed: a minute without an answer. *)
Lemma silence t is : deadline (run is (dial t)) <= now (run is (dial t)) ->
  exists is1 is2, is = is1 ++ is2 /\ Pong ∉ frames_read is2 (run is1 (dial t)) /\ pong_wait <= elapsed is2.
Proof.
  intros H. destruct (deadline_from is (dial t)) as [[H1 H2]|(is1 & is2 & H1 & _ & H3 & H4)].
  - exists [], is. split; [reflexivity|]. split; [exact H1|]. rewrite H2, run_now in H. cbn in H. lia.
  - exists is1, is2. split; [exact H1|]. split; [exact H3|].
    rewrite H4, H1, run_app, (run_now is2) in H. lia.
Qed.

Lemma timed_out t is : ended (run is (dial t)) = Some TimedOut ->
  exists is1 is2 is3, is = is1 ++ is2 ++ is3 /\ Pong ∉ frames_read is2 (run is1 (dial t))
    /\ pong_wait <= elapsed is2.
Proof.
  induction is as [|i is IH] using rev_ind; [discriminate|]. rewrite run_app. cbn [run]. intros H.
  destruct (ended (run is (dial t))) as [r|] eqn:E.
  - assert (Hh := run_ended_held is (dial t) ltac:(cbn; congruence) ltac:(rewrite E; discriminate)).
    destruct (step_ended i _ r E Hh) as (H1 & _). assert (r = TimedOut) as -> by congruence.
    destruct (IH eq_refl) as (is1 & is2 & is3 & -> & H2 & H3).
    exists is1, is2, (is3 ++ [i]). rewrite <- !app_assoc. auto.
  - assert (Hd : deadline (run is (dial t)) <= now (run is (dial t))).
    { destruct i as [f|b|b| |d| |]; cbn [step] in H; try (cbn in H; congruence).
      - unfold read in H. rewrite E in H. destruct (held (run is (dial t))); [congruence|].
        destruct (negb b && (deadline (run is (dial t)) <=? now (run is (dial t)))) eqn:Ed.
        + apply andb_true_iff in Ed. apply Z.leb_le, Ed.
        + destruct (queue (run is (dial t))) as [|[n ev| | | |w] q]; try (cbn in H; congruence).
          destruct (max_message_size <? n)%nat; cbn in H; congruence.
      - destruct (held (run is (dial t))); cbn in H; congruence.
      - unfold tick in H. rewrite E in H.
        destruct (writer (run is (dial t)) && (next_ping (run is (dial t)) <=? now (run is (dial t)))); cbn in H; congruence.
      - rewrite E in H. cbn in H. congruence. }
    destruct (silence t is Hd) as (is1 & is2 & -> & H1 & H2).
    exists is1, is2, [i]. rewrite <- app_assoc. auto.
Qed.

(** A minute without an answer, and the next read from the network ends the stream. *)
Lemma deadline_le is : forall s, deadline s <= now s + pong_wait -> deadline (run is s) <= now (run is s) + pong_wait.
Proof.
  induction is as [|i is IH]; intros s H; [exact H|]. cbn [run]. apply IH.
  assert (Hn : now s <= now (step i s)).
  { change (step i s) with (run [i] s). rewrite run_now. pose proof (elapsed_nonneg [i]). lia. }
  destruct (step_deadline i s) as [E|[_ E]]; rewrite E; lia.
Qed.

Lemma no_pong_deadline is : forall s, Pong ∉ frames_read is s -> deadline (run is s) = deadline s.
Proof.
  induction is as [|i is IH]; intros s H; [reflexivity|].
  change (i :: is) with ([i] ++ is) in H. rewrite frames_app in H.
  rewrite not_elem_of_app in H. destruct H as [H1 H2].
  cbn [run]. cbn [run] in H2. rewrite (IH _ H2).
  destruct (step_deadline i s) as [E|[Hp _]]; [exact E|contradiction].
Qed.

Lemma silence_ends t is1 is2 : Pong ∉ frames_read is2 (run is1 (dial t)) -> pong_wait <= elapsed is2 ->
  held (run (is1 ++ is2) (dial t)) = None -> ended (run (is1 ++ is2 ++ [Read false]) (dial t)) <> None.
Proof.
  intros Hp He Hh. rewrite app_assoc, (run_app (is1 ++ is2)). cbn [run step]. unfold read.
  destruct (ended (run (is1 ++ is2) (dial t))) eqn:E; [congruence|]. rewrite Hh.
  assert (Hd : deadline (run (is1 ++ is2) (dial t)) <= now (run (is1 ++ is2) (dial t))).
  { rewrite run_app, (no_pong_deadline _ _ Hp), run_now.
    pose proof (deadline_le is1 (dial t) ltac:(cbn; lia)). lia. }
  apply Z.leb_le in Hd. rewrite Hd. discriminate.
Qed.

(** * Oversized messages *)

Lemma read_step i s f : f ∈ frames_read [i] s ->
  exists b q, i = Read b /\ queue s = f :: q /\ ended s = None /\ held s = None /\
    negb b && (deadline s <=? now s) = false.
Proof.
  cbn [frames_read]. rewrite app_nil_r. intros H.
  destruct i as [g|b|b| |d| |]; try (apply elem_of_nil in H; contradiction).
  destruct (queue s) as [|g q] eqn:Eq; [apply elem_of_nil in H; contradiction|].
  destruct (_ <? _)%nat eqn:El in H; [|apply elem_of_nil in H; contradiction].
  apply elem_of_list_singleton in H. subst g. apply Nat.ltb_lt in El.
  exists b, q. cbn [step] in El. unfold read in El.
  destruct (ended s); [rewrite Eq in El; lia|].
  destruct (held s); [rewrite Eq in El; lia|].
  destruct (negb b && (deadline s <=? now s)); [cbn in El; rewrite Eq in El; cbn in El; lia|]. auto.
Qed.

Lemma read_split is : forall s f, f ∈ frames_read is s ->
  exists is1 i is2, is = is1 ++ i :: is2 /\ f ∈ frames_read [i] (run is1 s).
Proof.
  induction is as [|i is IH]; intros s f H; [apply elem_of_nil in H; contradiction|].
  change (i :: is) with ([i] ++ is) in H. rewrite frames_app, elem_of_app in H.
  destruct H as [H|H].
  - exists [], i, is. split; [reflexivity|exact H].
  - cbn [run] in H. destruct (IH _ _ H) as (is1 & j & is2 & -> & H2).
    exists (i :: is1), j, is2. split; [reflexivity|exact H2].
Qed.

Lemma oversized t is n ev : Data n ev ∈ frames_read is (dial t) -> (max_message_size < n)%nat ->
  ended (run is (dial t)) = Some Oversized /\ ReadWarning ∈ notices (run is (dial t)).
Proof.
  intros H Hn. destruct (read_split _ _ _ H) as (is1 & i & is2 & -> & H2).
  destruct (read_step _ _ _ H2) as (b & q & -> & Hq & He & Hh & Hd).
  rewrite run_app. cbn [run].
  assert (Es : step (Read b) (run is1 (dial t)) = finish Oversized [ReadWarning] (set_queue q (run is1 (dial t)))).
  { cbn [step]. unfold read. rewrite He, Hh, Hd, Hq. apply Nat.ltb_lt in Hn. rewrite Hn. reflexivity. }
  rewrite Es. split.
  - apply (run_ended is2 _ Oversized); reflexivity.
  - assert (Hm : forall is s (nt : notice), nt ∈ notices s -> nt ∈ notices (run is s)).
    { clear. induction is as [|i is IH]; intros s nt H; [exact H|]. cbn [run]. apply IH.
      destruct i as [f|b|b| |d| |]; cbn [step]; try exact H.
      - unfold read. destruct (ended s), (held s); try exact H.
        destruct (negb b && (deadline s <=? now s)); [cbn; apply elem_of_app; left; exact H|].
        destruct (queue s) as [|[n ev| | | |w] q]; try exact H; try (cbn; apply elem_of_app; left; exact H).
        destruct (max_message_size <? n)%nat; [cbn; apply elem_of_app; left; exact H|exact H].
      - destruct (held s); exact H.
      - unfold tick. destruct (writer s && (next_ping s <=? now s)); [destruct (ended s)|exact H];
          cbn; apply elem_of_app; left; exact H.
      - destruct (ended s); cbn; rewrite ?elem_of_app; auto. }
    apply Hm. cbn. apply elem_of_app. right. left.
Qed.

(** * A healthy stream *)

Lemma healthy_alive is : forall t, Forall harmless is -> answered is (dial t) -> ended (run is (dial t)) = None.
Proof.
  intros t Hf Ha.
  assert (Hq : forall is s, Forall harmless is -> Forall harmless (map Arrive (queue s)) ->
    Forall harmless (map Arrive (queue (run is s)))).
  { clear. induction is as [|i is IH]; intros s Hf Hq; [exact Hq|]. inversion Hf as [|? ? Hi Hr]; subst.
    cbn [run]. apply IH; [exact Hr|]. destruct i as [f|b|b| |d| |]; cbn [step]; try exact Hq.
    - cbn. rewrite map_app. apply Forall_app. split; [exact Hq|]. constructor; [exact Hi|constructor].
    - destruct Hi.
    - unfold read. destruct (ended s), (held s); try exact Hq.
      destruct (negb b && (deadline s <=? now s)); [exact Hq|].
      destruct (queue s) as [|f q] eqn:Eq; [rewrite Eq; exact Hq|].
      assert (Hq' : Forall harmless (map Arrive q)) by (inversion Hq; assumption).
      destruct f as [n ev| | | |w]; try exact Hq'.
      destruct (max_message_size <? n)%nat; exact Hq'.
    - destruct (held s); exact Hq.
    - unfold tick. destruct (writer s && (next_ping s <=? now s)); [destruct (ended s)|]; exact Hq.
    - destruct Hi. }
  induction is as [|i is IH] using rev_ind; [reflexivity|].
  apply Forall_app in Hf. destruct Hf as [Hf Hi]. inversion Hi as [|? ? Hi' _]; subst.
  assert (He : ended (run is (dial t)) = None).
  { apply IH; [exact Hf|]. intros is1 is2 is3 Hs Hp. apply (Ha is1 is2 (is3 ++ [i])); [|exact Hp].
    rewrite Hs, <- !app_assoc. reflexivity. }
  specialize (Hq is (dial t) Hf ltac:(constructor)).
  rewrite run_app. cbn [run].
  destruct i as [f|b|b| |d| |]; cbn [step]; try exact He.
  - unfold read. rewrite He. destruct (held (run is (dial t))); [exact He|].
    destruct (negb b && (deadline (run is (dial t)) <=? now (run is (dial t)))) eqn:Ed.
    + exfalso. apply andb_true_iff in Ed. destruct Ed as [_ Ed]. apply Z.leb_le in Ed.
      destruct (silence t is Ed) as (is1 & is2 & Hs & Hp & Hl).
      specialize (Ha is1 is2 [Read b] ltac:(rewrite Hs, <- app_assoc; reflexivity) Hp). lia.
    + destruct (queue (run is (dial t))) as [|f q]; [exact He|]. inversion Hq as [|? ? Hh _]; subst.
      destruct f as [n ev| | | |w]; [|exact He|exact He|destruct Hh|destruct Hh].
      cbn in Hh. assert ((max_message_size <? n)%nat = false) as -> by (apply Nat.ltb_ge; exact Hh).
      exact He.
  - destruct (held (run is (dial t))); exact He.
  - unfold tick. rewrite He.
    destruct (writer (run is (dial t)) && (next_ping (run is (dial t)) <=? now (run is (dial t)))); exact He.
  - destruct Hi'.
Qed.

Lemma harmless_no_reset i : harmless i -> no_reset i.
Proof. intros H f ->. exact H. Qed.

Lemma healthy t is : Forall harmless is -> answered is (dial t) ->
  ended (run is (dial t)) = None /\
  shown (run is (dial t)) ++ waiting (held (run is (dial t))) ++ events (queue (run is (dial t)))
  = events (arrived is).
Proof.
  intros Hf Ha. pose proof (healthy_alive is t Hf Ha) as He. split; [exact He|].
  apply in_order; [|exact He]. exact (List.Forall_impl no_reset harmless_no_reset Hf).
Qed.

(** * Being told *)

Lemma next_ping_le is : forall s, next_ping s <= now s + ping_period ->
  next_ping (run is s) <= now (run is s) + ping_period.
Proof.
  induction is as [|i is IH]; intros s H; [exact H|]. cbn [run]. apply IH.
  destruct i as [f|b|b| |d| |]; cbn [step]; try exact H.
  - unfold read. destruct (ended s), (held s); try exact H.
    destruct (negb b && (deadline s <=? now s)); [exact H|].
    destruct (queue s) as [|[n ev| | | |w] q]; try exact H.
    destruct (max_message_size <? n)%nat; exact H.
  - destruct (held s); exact H.
  - cbn. lia.
  - unfold tick. destruct (writer s && (next_ping s <=? now s)) eqn:E; [destruct (ended s); [exact H|]|exact H].
    cbn [set_ticker next_ping now].
    assert (Hp : 0 < ping_period) by reflexivity.
    pose proof (Z.div_mod (now s - next_ping s) ping_period ltac:(lia)).
    pose proof (Z.mod_pos_bound (now s - next_ping s) ping_period Hp). lia.
  - destruct (ended s); exact H.
Qed.

Lemma writer_runs is : forall s, Cancel ∉ is -> (writer s = true \/ PingWarning ∈ notices s) ->
  writer (run is s) = true \/ PingWarning ∈ notices (run is s).
Proof.
  induction is as [|i is IH]; intros s Hc H; [exact H|]. cbn [run].
  rewrite not_elem_of_cons in Hc. destruct Hc as [Hc1 Hc2].
  apply IH; [exact Hc2|].
  destruct i as [f|b|b| |d| |]; cbn [step]; try exact H.
  - unfold read. destruct (ended s), (held s); try exact H.
    destruct (negb b && (deadline s <=? now s)); [cbn; rewrite elem_of_app; tauto|].
    destruct (queue s) as [|[n ev| | | |w] q]; try exact H; try (cbn; rewrite elem_of_app; tauto).
    destruct (max_message_size <? n)%nat; [cbn; rewrite elem_of_app; tauto|exact H].
  - destruct (held s); exact H.
  - unfold tick. destruct (writer s && (next_ping s <=? now s)) eqn:E; [destruct (ended s)|exact H].
    + right. cbn. rewrite elem_of_app. right. left.
    + left. reflexivity.
  - congruence.
Qed.

Lemma next_ping_ended is : forall s r, ended s = Some r -> held s = None -> next_ping (run is s) = next_ping s.
Proof.
  induction is as [|i is IH]; intros s r He Hh; [reflexivity|]. cbn [run].
  destruct (step_ended i s r He Hh) as (H1 & H2 & _). rewrite (IH _ r H1 H2).
  destruct i as [f|b|b| |d| |]; cbn [step]; try reflexivity.
  - unfold read. rewrite He. reflexivity.
  - rewrite Hh. reflexivity.
  - unfold tick. rewrite He. destruct (writer s && (next_ping s <=? now s)); reflexivity.
  - rewrite He. reflexivity.
Qed.

Lemma notices_kept is : forall s (nt : notice), nt ∈ notices s -> nt ∈ notices (run is s).
Proof.
  induction is as [|i is IH]; intros s nt H; [exact H|]. cbn [run]. apply IH.
  destruct i as [f|b|b| |d| |]; cbn [step]; try exact H.
  - unfold read. destruct (ended s), (held s); try exact H.
    destruct (negb b && (deadline s <=? now s)); [cbn; apply elem_of_app; left; exact H|].
    destruct (queue s) as [|[n ev| | | |w] q]; try exact H; try (cbn; apply elem_of_app; left; exact H).
    destruct (max_message_size <? n)%nat; [cbn; apply elem_of_app; left; exact H|exact H].
  - destruct (held s); exact H.
  - unfold tick. destruct (writer s && (next_ping s <=? now s)); [destruct (ended s)|exact H];
      cbn; apply elem_of_app; left; exact H.
  - destruct (ended s); cbn; rewrite ?elem_of_app; auto.
Qed.

Lemma told t is1 is2 is3 : ended (run is1 (dial t)) <> None -> Cancel ∉ is1 ++ is2 -> ping_period <= elapsed is2 ->
  PingWarning ∈ notices (run (is1 ++ is2 ++ Tick :: is3) (dial t)).
Proof.
  intros He Hc Hl. rewrite app_assoc, run_app. cbn [run]. apply notices_kept.
  assert (Hh := run_ended_held is1 (dial t) ltac:(cbn; congruence) He).
  destruct (ended (run is1 (dial t))) as [r|] eqn:E; [|congruence].
  destruct (writer_runs (is1 ++ is2) (dial t) Hc ltac:(left; reflexivity)) as [Hw|Hw].
  2: { change (step Tick (run (is1 ++ is2) (dial t))) with (run [Tick] (run (is1 ++ is2) (dial t))).
       apply notices_kept, Hw. }
  rewrite run_app in *. destruct (run_ended is2 _ r E Hh) as (E2 & _ & _).
  cbn [step]. unfold tick. rewrite Hw, E2.
  assert (next_ping (run is2 (run is1 (dial t))) <=? now (run is2 (run is1 (dial t))) = true) as ->.
  { apply Z.leb_le. rewrite (next_ping_ended is2 _ r E Hh), (run_now is2).
    pose proof (next_ping_le is1 (dial t) ltac:(cbn; lia)). lia. }
  cbn. rewrite elem_of_app. right. left.
Qed.

Lemma pings_kept is : forall s p, p ∈ pings s -> p ∈ pings (run is s).
Proof.
  induction is as [|i is IH]; intros s p H; [exact H|]. cbn [run]. apply IH.
  destruct i as [f|b|b| |d| |]; cbn [step]; try exact H.
  - unfold read. destruct (ended s), (held s); try exact H.
    destruct (negb b && (deadline s <=? now s)); [exact H|].
    destruct (queue s) as [|[n ev| | | |w] q]; try exact H.
    destruct (max_message_size <? n)%nat; exact H.
  - destruct (held s); exact H.
  - unfold tick. destruct (writer s && (next_ping s <=? now s)); [destruct (ended s)|exact H];
      cbn; apply elem_of_app; left; exact H.
  - destruct (ended s); cbn; rewrite ?elem_of_app; auto.
Qed.

Lemma alive_writer i s : (ended s = None -> writer s = true) -> ended (step i s) = None -> writer (step i s) = true.
Proof.
  intros H. destruct i as [f|b|b| |d| |]; cbn [step]; try exact H.
  - unfold read. destruct (ended s) eqn:E; [intros He; rewrite E in He; discriminate|].
    destruct (held s); [intros _; apply H; reflexivity|].
    destruct (negb b && (deadline s <=? now s)); [discriminate|].
    destruct (queue s) as [|[n ev| | | |w] q]; try discriminate; try (intros _; apply H; reflexivity).
    destruct (max_message_size <? n)%nat; [discriminate|]. intros _; apply H; reflexivity.
  - destruct (held s); exact H.
  - unfold tick. destruct (writer s && (next_ping s <=? now s)); [destruct (ended s) eqn:E|exact H].
    + cbn. rewrite E. discriminate.
    + reflexivity.
  - destruct (ended s) eqn:E; [cbn; rewrite E|]; discriminate.
Qed.

Lemma run_alive_writer is : forall s, (ended s = None -> writer s = true) -> ended (run is s) = None ->
  writer (run is s) = true.
Proof. induction is as [|i is IH]; intros s H; [exact H|]. cbn [run]. apply IH, alive_writer, H. Qed.

Lemma no_tick_next is : forall s, Tick ∉ is -> next_ping (run is s) = next_ping s.
Proof.
  induction is as [|i is IH]; intros s H; [reflexivity|]. rewrite not_elem_of_cons in H. destruct H as [H1 H2].
  cbn [run]. rewrite (IH _ H2). destruct i as [f|b|b| |d| |]; cbn [step]; try reflexivity.
  - unfold read. destruct (ended s), (held s); try reflexivity.
    destruct (negb b && (deadline s <=? now s)); [reflexivity|].
    destruct (queue s) as [|[n ev| | | |w] q]; try reflexivity.
    destruct (max_message_size <? n)%nat; reflexivity.
  - destruct (held s); reflexivity.
  - congruence.
  - destruct (ended s); reflexivity.
Qed.

Lemma pings_leave t is1 is2 is3 : ended (run (is1 ++ is2) (dial t)) = None -> ping_period <= elapsed is2 ->
  Tick ∉ is2 -> t + elapsed (is1 ++ is2) ∈ pings (run (is1 ++ is2 ++ Tick :: is3) (dial t)).
Proof.
  intros He Hl Hn. rewrite app_assoc, run_app. cbn [run]. apply pings_kept.
  assert (Hw := run_alive_writer (is1 ++ is2) (dial t) ltac:(reflexivity) He).
  assert (Hnow := run_now (is1 ++ is2) (dial t)). cbn [dial now] in Hnow.
  cbn [step]. unfold tick. rewrite Hw, He.
  assert (next_ping (run (is1 ++ is2) (dial t)) <=? now (run (is1 ++ is2) (dial t)) = true) as ->.
  { apply Z.leb_le. rewrite run_app, (no_tick_next is2 _ Hn), (run_now is2).
    pose proof (next_ping_le is1 (dial t) ltac:(cbn; lia)). lia. }
  cbn [andb set_ticker pings]. rewrite elem_of_app, Hnow. right. left.
Qed.

(** * Several endpoints *)

Implicit Types (w : watch A) (ws : list (winput A)).

Lemma wrun_stopped ws : forall w, w_running w = false -> wrun ws w = w.
Proof.
  induction ws as [|i ws IH]; intros w H; [reflexivity|]. cbn [wrun].
  assert (wstep i w = w) as -> by (unfold wstep; rewrite H; reflexivity). apply IH, H.
Qed.

Lemma wrun_streams ep ws : forall w s, w_running w = true -> w_streams w !! ep = Some s ->
  w_streams (wrun ws w) !! ep = Some (run (seen_by ep ws) s) /\
  (printed_of ep (w_out w) = shown s -> printed_of ep (w_out (wrun ws w)) = shown (run (seen_by ep ws) s)).
Proof.
  induction ws as [|i ws IH]; intros w s Hr Hs; [split; [exact Hs|auto]|].
  cbn [wrun]. destruct i as [e j|d|].
  - cbn [seen_by]. destruct (Nat.eqb_spec e ep) as [->|Hne].
    + unfold wstep. rewrite Hr, Hs. cbn [app run].
      match goal with |- context [wrun ws ?w0] => destruct (IH w0 (step j s) eq_refl) as [H1 H2] end.
      { cbn [w_streams]. apply list_lookup_insert. apply lookup_lt_Some in Hs. exact Hs. }
      split; [exact H1|]. intros Hp. apply H2. cbn [w_out]. unfold printed_of in *.
      rewrite flat_map_app, Hp.
      destruct j as [f|b|b| |d| |]; cbn [step flat_map]; rewrite ?app_nil_r; try reflexivity.
      * unfold read. destruct (ended s), (held s); try reflexivity.
        destruct (negb b && (deadline s <=? now s)); [reflexivity|].
        destruct (queue s) as [|[n ev| | | |x] q]; try reflexivity.
        destruct (max_message_size <? n)%nat; reflexivity.
      * destruct (held s); cbn; rewrite ?Nat.eqb_refl, ?app_nil_r; reflexivity.
      * unfold tick. destruct (writer s && (next_ping s <=? now s)); [destruct (ended s)|]; reflexivity.
      * destruct (ended s); reflexivity.
    + cbn [app]. unfold wstep. rewrite Hr. destruct (w_streams w !! e) as [s'|] eqn:Ee; [|apply IH; assumption].
      match goal with |- context [wrun ws ?w0] => destruct (IH w0 s eq_refl) as [H1 H2] end.
      { cbn [w_streams]. rewrite list_lookup_insert_ne by exact Hne. exact Hs. }
      split; [exact H1|]. intros Hp. apply H2. cbn [w_out]. unfold printed_of in *.
      rewrite flat_map_app, Hp.
      assert (Hz : forall a : A, (if (e =? ep)%nat then [a] else []) = []).
      { intros a. destruct (Nat.eqb_spec e ep); [contradiction|reflexivity]. }
      destruct j; cbn [flat_map]; rewrite ?app_nil_r; try reflexivity.
      destruct (held s'); cbn [flat_map fst snd]; rewrite ?Hz, ?app_nil_r; reflexivity.
  - cbn [seen_by run step]. unfold wstep. rewrite Hr.
    match goal with |- context [wrun ws ?w0] => destruct (IH w0 (sleep d s) eq_refl) as [H1 H2] end.
    { cbn [w_streams]. change (map (sleep d) (w_streams w)) with (sleep d <$> w_streams w).
      rewrite list_lookup_fmap, Hs. reflexivity. }
    split; [exact H1|]. intros Hp. apply H2. exact Hp.
  - cbn [seen_by run]. unfold wstep. rewrite Hr. rewrite wrun_stopped by reflexivity. cbn [w_streams w_out].
    split.
    + change (map (step Cancel) (w_streams w)) with (step Cancel <$> w_streams w).
      rewrite list_lookup_fmap, Hs. reflexivity.
    + intros Hp. rewrite Hp. cbn [step]. destruct (ended s); reflexivity.
Qed.

Lemma dial_all_lookup t n ep : (ep < n)%nat -> w_streams (dial_all (A := A) t n) !! ep = Some (dial t).
Proof. intros H. cbn. apply lookup_replicate. auto. Qed.

Lemma endpoints_apart t n ws ep : (ep < n)%nat ->
  w_streams (wrun ws (dial_all t n)) !! ep = Some (run (seen_by ep ws) (dial t)) /\
  printed_of ep (w_out (wrun ws (dial_all t n))) = shown (run (seen_by ep ws) (dial t)).
Proof.
  intros H. destruct (wrun_streams ep ws (dial_all t n) (dial t) eq_refl (dial_all_lookup t n ep H)) as [H1 H2].
  split; [exact H1|]. apply H2. reflexivity.
Qed.

Lemma wrun_running ws : forall w, w_running w = true -> (w_running (wrun ws w) = true <-> Signal ∉ ws).
Proof.
  induction ws as [|i ws IH]; intros w H; [split; [intros _; apply not_elem_of_nil|auto]|].
  cbn [wrun]. rewrite not_elem_of_cons. destruct i as [e j|d|].
  - assert (Hw : w_running (wstep (At e j) w) = true)
      by (unfold wstep; rewrite H; destruct (w_streams w !! e); [reflexivity|exact H]).
    rewrite (IH _ Hw). split; [intros Hn; split; [discriminate|exact Hn]|tauto].
  - assert (Hw : w_running (wstep (Clock d) w) = true) by (unfold wstep; rewrite H; reflexivity).
    rewrite (IH _ Hw). split; [intros Hn; split; [discriminate|exact Hn]|tauto].
  - assert (Hw : w_running (wstep Signal w) = false) by (unfold wstep; rewrite H; reflexivity).
    rewrite (wrun_stopped _ _ Hw), Hw. split; [discriminate|]. intros [Hn _]. congruence.
Qed.

Lemma printed_from_gen n ws : forall w, length (w_streams w) = n -> (forall ep a, (ep, a) ∈ w_out w -> (ep < n)%nat) ->
  forall ep a, (ep, a) ∈ w_out (wrun ws w) -> (ep < n)%nat.
Proof.
  induction ws as [|i ws IH]; intros w Hl H; [exact H|]. cbn [wrun].
  apply IH; unfold wstep; destruct (w_running w); try assumption.
  - destruct i as [e j|d|]; cbn [w_streams]; [|rewrite map_length; exact Hl..].
    destruct (w_streams w !! e); [|exact Hl]. cbn [w_streams]. rewrite insert_length. exact Hl.
  - destruct i as [e j|d|]; try exact H.
    destruct (w_streams w !! e) as [s|] eqn:E; [|exact H]. cbn [w_out]. intros ep a Hin.
    rewrite elem_of_app in Hin. destruct Hin as [Hin|Hin]; [exact (H ep a Hin)|].
    destruct j; try (apply elem_of_nil in Hin; contradiction).
    destruct (held s); [|apply elem_of_nil in Hin; contradiction].
    apply elem_of_list_singleton in Hin. assert (ep = e) as -> by congruence.
    apply lookup_lt_Some in E. rewrite Hl in E. exact E.
Qed.

Lemma printed_from t n ws ep a : (ep, a) ∈ w_out (wrun ws (dial_all t n)) -> (ep < n)%nat.
Proof.
  apply printed_from_gen; [cbn; apply replicate_length|]. intros e b H. apply elem_of_nil in H. contradiction.
Qed.

(** All ways to cut a history in three, by computation. *)
Definition all_cuts (P : list (input A) -> list (input A) -> bool) is : bool :=
  forallb (fun i => forallb (fun j => P (take i is) (take j (drop i is))) (seq 0 (S (length is))))
    (seq 0 (S (length is))).

Lemma cuts P is : all_cuts P is = true -> forall is1 is2 is3, is = is1 ++ is2 ++ is3 -> P is1 is2 = true.
Proof.
  intros H is1 is2 is3 E. unfold all_cuts in H. rewrite forallb_forall in H.
  assert (L : (length is = length is1 + length is2 + length is3)%nat) by (rewrite E, !app_length; lia).
  specialize (H (length is1) ltac:(apply in_seq; lia)). rewrite forallb_forall in H.
  specialize (H (length is2) ltac:(apply in_seq; lia)).
  rewrite E, take_app, drop_app, take_app in H. exact H.
Qed.

Definition harmlessb (i : input A) : bool :=
  match i with
  | Arrive (Data n _) => (n <=? max_message_size)%nat
  | Arrive Close | Arrive (Broken _) | Reset _ | Cancel => false
  | _ => true
  end.

Lemma harmless_all is : forallb harmlessb is = true -> Forall harmless is.
Proof.
  intros H. apply Forall_forall. intros i Hi. rewrite forallb_forall in H.
  specialize (H i Hi). destruct i as [[n ev| | | |w]| | | | | |]; try exact I; try discriminate.
  apply Nat.leb_le, H.
Qed.

End Event.
