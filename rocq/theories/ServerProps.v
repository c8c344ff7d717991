(** Properties C49, C50 and C67: the job API. *)
From Coq Require Import ZArith String Lia.
From stdpp Require Import gmap strings list.
From Verif Require Import SyscallModel FilterModel HubModel HubSpec HubProps ServerModel ServerSpec ServerProofs ServerTop.
Open Scope Z_scope.

(** Jobs for the examples: jobs 0 to 2 share one id. *)
Definition sx_jobs (j : nat) : job :=
  match j with
  | 3%nat => Job "bbbbbbbb" 0 ["read"] ["db"]
  | _ => Job "aaaaaaaa" 0 ["openat"] []
  end.
Definition served (acts : list sact) : option (srv * list sev) :=
  match new_server ex_table with
  | Some s0 => match srun sx_jobs ex_table s0 acts with Ok r => Some r | _ => None end
  | None => None
  end.
Definition watched {A} (f : srv -> list sev -> A) (acts : list sact) : option A :=
  match served acts with Some (s, h) => Some (f s h) | None => None end.
Lemma watched_exists {A} (f : srv -> list sev -> A) acts a : watched f acts = Some a ->
  exists s0 s h, new_server ex_table = Some s0 /\ srun sx_jobs ex_table s0 acts = Ok (s, h) /\ f s h = a.
Proof.
  unfold watched, served. destruct (new_server ex_table) as [s0|]; [|discriminate].
  destruct (srun sx_jobs ex_table s0 acts) as [[s h]| |] eqn:E; [|discriminate..]. intros H. injection H as <-. exists s0, s, h. auto.
Qed.

(** C49: whatever the hub does meanwhile, requests served one at a time are answered
    as ServerSpec.right_answer says. *)
Theorem C49_answers_are_right : forall J tbl s0 acts s h, new_server tbl = Some s0 -> srun J tbl s0 acts = Ok (s, h) -> one_at_a_time h ->
  forall h1 t r a h2, h = (h1 ++ EAnswer t r a :: h2)%list ->
    exists h0 hm, h1 = (h0 ++ EReq t r :: hm)%list /\ right_answer J h0 hm r a.
Proof.
  intros J tbl s0 acts s h H0 Hr H1 h1 t r a h2 Eh. destruct (answers_right J tbl s0 acts s h H0 Hr H1 _ _ _ _ _ Eh) as (h0 & hm & E & _ & Ha). eauto.
Qed.
Print Assumptions C49_answers_are_right.
(** An id is deleted with answer 200 at most once, ever: later deletions of a job
    created under it again take it away and answer 500. *)
Theorem C49_an_id_is_deleted_once : forall J tbl s0 acts s h id, new_server tbl = Some s0 -> srun J tbl s0 acts = Ok (s, h) -> one_at_a_time h ->
  (count (fun e => match e with EAnswer _ (RDelete id') (ACode 200) => bool_decide (id' = id) | _ => false end) h <= 1)%nat.
Proof. exact deleted_once. Qed.
Print Assumptions C49_an_id_is_deleted_once.
(** Create, refused create, start, get, delete, create again, start, delete, get, list. *)
Definition ex_seq : list sact :=
  [SReq QCreate; SStep 0; SStep 0; SReq QCreate; SStep 1; SHub (OStart 0 ex_web); SReq (QGet "aaaaaaaa"); SStep 2;
   SReq (QDelete "aaaaaaaa"); SStep 3; SStep 3; SStep 3; SStep 3; SStep 3; SStep 3;
   SReq QCreate; SStep 4; SStep 4; SHub (OStart 2 ex_web);
   SReq (QDelete "aaaaaaaa"); SStep 5; SStep 5; SStep 5; SStep 5; SStep 5;
   SReq (QGet "aaaaaaaa"); SStep 6].
Definition codes (h : list sev) : list (nat * answer) := omap (fun e => match e with EAnswer t _ a => Some (t, a) | _ => None end) h.
Fixpoint in_turn (n : nat) (h : list sev) : bool :=
  match h with
  | [] => true
  | EReq _ _ :: h => match n with 0%nat => in_turn 1 h | _ => false end
  | EAnswer _ _ _ :: h => in_turn 0 h
  | _ :: h => in_turn n h
  end.
Lemma in_turn_one n h : (n <= 1)%nat -> in_turn n h = true -> forall h', h' `prefix_of` h -> (n + count is_req h' <= count is_answer h' + 1)%nat.
Proof.
  revert n. induction h as [|e h IH]; intros n Hn H h' [k Hk]; destruct h' as [|e' h']; try discriminate Hk; try (cbn; lia).
  injection Hk as <- ->. assert (h' `prefix_of` (h' ++ k)%list) as Hp by (by exists k).
  destruct e as [t r|t r a|o out]; cbn in H.
  - destruct n as [|n]; [|discriminate H]. specialize (IH 1%nat (le_n 1) H h' Hp). unfold count in *. cbn. lia.
  - specialize (IH 0%nat (le_S _ _ (le_n 0)) H h' Hp). unfold count in *. cbn. lia.
  - specialize (IH n Hn H h' Hp). unfold count in *. cbn. lia.
Qed.
Example C49_nonvacuous : exists s0 s h, new_server ex_table = Some s0 /\ srun sx_jobs ex_table s0 ex_seq = Ok (s, h) /\ one_at_a_time h /\
  codes h = [(0%nat, ACode 201); (1%nat, ACode 500); (2%nat, AAttached 0); (3%nat, ACode 200); (4%nat, ACode 201); (5%nat, ACode 500); (6%nat, ACode 404)].
Proof.
  assert (watched (fun s h => (in_turn 0 h, codes h)) ex_seq =
    Some (true, [(0%nat, ACode 201); (1%nat, ACode 500); (2%nat, AAttached 0); (3%nat, ACode 200); (4%nat, ACode 201); (5%nat, ACode 500); (6%nat, ACode 404)])) as E by (vm_compute; reflexivity).
  apply watched_exists in E as (s0 & s & h & E0 & E1 & E2). injection E2 as Ei Ec. exists s0, s, h. split_and!; [exact E0|exact E1| |exact Ec].
  exact (in_turn_one 0 h (le_S _ _ (le_n 0)) Ei).
Qed.

(** C50: creates of an id that do not overlap succeed once, and once more for every
    time the hub deleted the id - whatever else is served at the same time. *)
Theorem C50_creates_in_turn_succeed_once : forall J tbl s0 acts s h id, new_server tbl = Some s0 -> srun J tbl s0 acts = Ok (s, h) ->
  creates_one_at_a_time J id h -> (created J id h <= hub_deleted id h + 1)%nat.
Proof. exact creates_bounded. Qed.
Print Assumptions C50_creates_in_turn_succeed_once.
(** Overlapping creates do not: both are answered 201, nothing was deleted, and the
    first job is no longer in the table. *)
Theorem C50_overlapping_creates_refuted : exists s0 s h, new_server ex_table = Some s0 /\
  srun sx_jobs ex_table s0 [SReq QCreate; SReq QCreate; SStep 0; SStep 1; SStep 0; SStep 1; SReq QList; SStep 2] = Ok (s, h) /\
  created sx_jobs "aaaaaaaa" h = 2%nat /\ hub_deleted "aaaaaaaa" h = 0%nat /\
  exists h', h = (h' ++ [EAnswer 2 RList (ATables {["aaaaaaaa"%string := 1%nat]} ∅)])%list.
Proof.
  assert (watched (fun s h => (created sx_jobs "aaaaaaaa" h, hub_deleted "aaaaaaaa" h,
      match last h with Some (EAnswer 2 RList (ATables a b)) => bool_decide (a = {["aaaaaaaa"%string := 1%nat]}) && bool_decide (b = ∅) | _ => false end))
    [SReq QCreate; SReq QCreate; SStep 0; SStep 1; SStep 0; SStep 1; SReq QList; SStep 2] = Some (2%nat, 0%nat, true)) as E by (vm_compute; reflexivity).
  apply watched_exists in E as (s0 & s & h & E0 & E1 & E2). injection E2 as Ec Ed El. exists s0, s, h. split_and!; [exact E0|exact E1|exact Ec|exact Ed|].
  destruct (last h) as [x|] eqn:Elast; [|discriminate El]. apply last_Some in Elast as [h' ->].
  destruct x as [| |]; try discriminate El. destruct t as [|[|[|]]]; try discriminate El. destruct r; try discriminate El. destruct a; try discriminate El.
  apply andb_true_iff in El as [El1 El2]. apply bool_decide_eq_true_1 in El1, El2. subst run comp. eauto.
Qed.
Print Assumptions C50_overlapping_creates_refuted.
(** Under every schedule a client is attached to a job of the id it asked for, whose
    creation was answered 201. *)
Theorem C50_get_attaches_to_a_created_job : forall J tbl s0 acts s h h1 t id j h2, new_server tbl = Some s0 -> srun J tbl s0 acts = Ok (s, h) ->
  h = (h1 ++ EAnswer t (RGet id) (AAttached j) :: h2)%list -> j_id (J j) = id /\ exists t', EAnswer t' (RCreate j) (ACode 201) ∈ h1.
Proof. intros J tbl s0 acts s h h1 t id j h2 H0 Hr Eh. exact (wf_answers J s h (wf_run J tbl s0 acts s h H0 Hr) _ _ _ _ _ Eh). Qed.
Print Assumptions C50_get_attaches_to_a_created_job.
(** A deletion can take away a job created after the deletion was asked for: two
    deletions of job 0 overlap, one finishes, the id is created again, and the other
    one removes the new job. No deletion arrives after the second create. *)
Definition ex_late : list sact :=
  [SReq QCreate; SStep 0; SStep 0; SHub (OStart 0 ex_web); SReq (QDelete "aaaaaaaa"); SStep 1;
   SReq (QDelete "aaaaaaaa"); SStep 2; SStep 2; SStep 2; SStep 2; SStep 2; SStep 2;
   SReq QCreate; SStep 3; SStep 3; SHub (OStart 1 ex_web); SStep 1; SStep 1; SStep 1; SStep 1;
   SReq (QGet "aaaaaaaa"); SStep 4].
Theorem C50_late_deletion_refuted : exists s0 s h, new_server ex_table = Some s0 /\ srun sx_jobs ex_table s0 ex_late = Ok (s, h) /\
  codes h = [(0%nat, ACode 201); (2%nat, ACode 200); (3%nat, ACode 201); (1%nat, ACode 500); (4%nat, ACode 404)].
Proof.
  assert (watched (fun s h => codes h) ex_late = Some [(0%nat, ACode 201); (2%nat, ACode 200); (3%nat, ACode 201); (1%nat, ACode 500); (4%nat, ACode 404)]) as E by (vm_compute; reflexivity).
  apply watched_exists in E as (s0 & s & h & E0 & E1 & E2). exists s0, s, h. auto.
Qed.
Print Assumptions C50_late_deletion_refuted.
Definition creates_checked (h : list sev) : bool :=
  forallb (fun n => Nat.leb (count (is_create_req sx_jobs "aaaaaaaa") (take n h)) (count (is_create_answer sx_jobs "aaaaaaaa") (take n h) + 1)) (seq 0 (S (length h))).
Example C50_nonvacuous : exists s0 s h, new_server ex_table = Some s0 /\ srun sx_jobs ex_table s0 ex_late = Ok (s, h) /\
  creates_one_at_a_time sx_jobs "aaaaaaaa" h /\ created sx_jobs "aaaaaaaa" h = 2%nat /\ hub_deleted "aaaaaaaa" h = 2%nat.
Proof.
  assert (watched (fun s h => (creates_checked h,
    created sx_jobs "aaaaaaaa" h, hub_deleted "aaaaaaaa" h)) ex_late = Some (true, 2%nat, 2%nat)) as E by (vm_compute; reflexivity).
  apply watched_exists in E as (s0 & s & h & E0 & E1 & E2). injection E2 as Ea Eb Ec. exists s0, s, h. split_and!; [exact E0|exact E1| |exact Eb|exact Ec].
  intros h' [k ->]. unfold creates_checked in Ea. rewrite forallb_forall in Ea. specialize (Ea (length h')). apply Nat.leb_le. rewrite take_app in Ea. apply Ea. apply in_seq. rewrite app_length. lia.
Qed.

(** C67: deleting through the API. A deletion is answered 200 only if a container
    was started for a job of that id, under every schedule. *)
Theorem C67_deleted_jobs_had_matched : forall J tbl s0 acts s h h1 t id h2, new_server tbl = Some s0 -> srun J tbl s0 acts = Ok (s, h) ->
  h = (h1 ++ EAnswer t (RDelete id) (ACode 200) :: h2)%list ->
  exists j c n ok, EHub (OStart j c) (RStarted n ok) ∈ h1 /\ j_id (J j) = id /\ selects (J j) (ct_name c) /\ job_nrs tbl (J j) <> [].
Proof. exact delete_had_match. Qed.
Print Assumptions C67_deleted_jobs_had_matched.
(** A running job no container was started for cannot be deleted: the answer is 500
    and it runs on, however often one asks. *)
Theorem C67_unmatched_jobs_cannot_be_deleted : forall J tbl s0 acts s h h1 t id a h2,
  new_server tbl = Some s0 -> srun J tbl s0 acts = Ok (s, h) -> one_at_a_time h ->
  h = (h1 ++ EAnswer t (RDelete id) a :: h2)%list ->
  (forall j c n ok, EHub (OStart j c) (RStarted n ok) ∈ h1 -> j_id (J j) <> id) ->
  a = ACode (match live J id h1 with Some _ => 500 | None => 404 end) /\
  live J id (h1 ++ [EAnswer t (RDelete id) a])%list = live J id h1.
Proof. exact unmatched_stays. Qed.
Print Assumptions C67_unmatched_jobs_cannot_be_deleted.
(** A job that was deleted comes back with the next container: it is registered in
    the hub again, and the API says there is no such job. *)
Theorem C67_deleted_jobs_live_on : forall J tbl s0 acts s h id j t c s' h',
  new_server tbl = Some s0 -> srun J tbl s0 acts = Ok (s, h) -> one_at_a_time h -> count is_req h = count is_answer h ->
  live J id h = None -> EAnswer t (RCreate j) (ACode 201) ∈ h ->
  let t' := length (threads s) in
  selects (J j) (ct_name c) -> srun J tbl s [SHub (OStart j c); SReq (QDelete id); SStep t'] = Ok (s', h') ->
  exists n ok, h' = [EHub (OStart j c) (RStarted n ok); EReq t' (RDelete id); EAnswer t' (RDelete id) (ACode 404)] /\
    (ok = true -> forall nr, nr ∈ job_nrs tbl (J j) -> Reg j (ct_ns c) nr ∈ hub_regs J tbl (h ++ h')%list).
Proof. exact lives_on. Qed.
Print Assumptions C67_deleted_jobs_live_on.
(** The whole story: an event of the deleted job's container is still published on
    the job's stream. *)
Definition ex_story : list sact :=
  [SReq QCreate; SStep 0; SStep 0; SReq (QDelete "aaaaaaaa"); SStep 1; SStep 1; SHub (OStart 0 ex_web);
   SReq (QDelete "aaaaaaaa"); SStep 2; SStep 2; SStep 2; SStep 2; SStep 2; SStep 2;
   SHub (OStart 0 ex_web); SHub (OEvent (ex_open ex_web)); SReq (QDelete "aaaaaaaa"); SStep 3].
Example C67_nonvacuous : exists s0 s h, new_server ex_table = Some s0 /\ srun sx_jobs ex_table s0 ex_story = Ok (s, h) /\ one_at_a_time h /\
  codes h = [(0%nat, ACode 201); (1%nat, ACode 500); (2%nat, ACode 200); (3%nat, ACode 404)] /\
  live sx_jobs "aaaaaaaa" h = None /\
  published_total 0 (map snd (hub_history h)) = 1.
Proof.
  assert (watched (fun s h => (in_turn 0 h, codes h, live sx_jobs "aaaaaaaa" h, published_total 0 (map snd (hub_history h)))) ex_story =
    Some (true, [(0%nat, ACode 201); (1%nat, ACode 500); (2%nat, ACode 200); (3%nat, ACode 404)], None, 1)) as E by (vm_compute; reflexivity).
  apply watched_exists in E as (s0 & s & h & E0 & E1 & E2). injection E2 as Ei Ec El Ep. exists s0, s, h. split_and!; try assumption.
  exact (in_turn_one 0 h (le_S _ _ (le_n 0)) Ei).
Qed.
