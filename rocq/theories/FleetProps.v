(** Property C114: commands over several endpoints. *)
From Coq Require Import ZArith String Lia.
From stdpp Require Import gmap strings list.
From Verif Require Import SyscallModel FilterModel HubModel HubSpec HubProps ServerModel ServerSpec ServerProofs ServerTop ServerProps
  FleetModel FleetSpec FleetProofs FleetTop FleetEnd.
Open Scope Z_scope.

(** Three servers; a job is created on all, a container it matches is started on the
    first and on the last; then it is deleted, twice. *)
Definition fx_id : string := "aaaaaaaa".
Definition fx_jobs (i : nat) : nat -> job := sx_jobs.
Definition fx_create (i t : nat) : list fact := [FGo; FServer i (SStep t); FServer i (SStep t); FGo].
Definition fx_delete (i t : nat) : list fact := [FGo; FServer i (SStep t); FServer i (SStep t); FServer i (SStep t); FServer i (SStep t); FServer i (SStep t); FServer i (SStep t); FGo].
Definition fx_acts : list fact :=
  ([FStart (CCreate fx_id) [0; 1; 2]%nat] ++ fx_create 0 0 ++ fx_create 1 0 ++ fx_create 2 0 ++ [FGo] ++
   [FServer 0 (SHub (OStart 0 ex_web)); FServer 2 (SHub (OStart 0 ex_web))] ++
   [FStart (CDelete fx_id) [0; 1; 2]%nat] ++ fx_delete 0 1 ++ fx_delete 1 1 ++
   [FStart (CDelete fx_id) [0; 1; 2]%nat] ++ fx_delete 0 2)%list.
(** On one server whose job has matched, a delete ends well. *)
Definition fx_good : list fact :=
  ([FStart (CCreate fx_id) [0]%nat] ++ fx_create 0 0 ++ [FGo] ++ [FServer 0 (SHub (OStart 0 ex_web))] ++
   [FStart (CDelete fx_id) [0]%nat] ++ fx_delete 0 1 ++ [FGo] ++
   [FStart (CDelete fx_id) [0; 0]%nat] ++ fx_delete 0 2)%list.
Definition fx_log (acts : list fact) : list fev := f_log (frun fx_jobs ex_table (new_fleet ex_table 3) acts).

Definition calmb (l : list fev) : bool := forallb (fun e => match e with VExit _ | VStart _ _ => false | _ => true end) l.
Lemma ran_check log a m c eps st : log !! a = Some (VStart c eps) -> log !! (S a + m)%nat = Some (VExit st) -> calmb (take m (drop (S a) log)) = true ->
  ran log (take a log) c eps (take m (drop (S a) log)) st.
Proof.
  intros H1 H2 H3. exists (drop (S m) (drop (S a) log)). split; [|split].
  - assert (take m (drop (S a) log) ++ VExit st :: drop (S m) (drop (S a) log) = drop (S a) log)%list as -> by (apply take_drop_middle; by rewrite lookup_drop).
    symmetry. by apply take_drop_middle.
  - intros st' Hin. unfold calmb in H3. rewrite forallb_forall in H3. apply elem_of_list_In in Hin. by apply H3 in Hin.
  - intros c' eps' Hin. unfold calmb in H3. rewrite forallb_forall in H3. apply elem_of_list_In in Hin. by apply H3 in Hin.
Qed.
Notation fleet_log J tbl n acts := (f_log (frun J tbl (new_fleet tbl n) acts)).
Definition window (log : list fev) (a m : nat) : list fev := take m (drop (S a) log).

(** C114: a command asks its endpoints one after the other, in the order given. It
    ends with 0 if all of them did what it asked, and then it has asked them all. If
    not, it ends with 1 at the first that did not, and has sent nothing to those
    behind it. Whatever the servers do in between. *)
Theorem C114_endpoints_are_asked_in_turn : forall J tbl s0 n acts l0 c eps l1 st, new_server tbl = Some s0 ->
  ran (fleet_log J tbl n acts) l0 c eps l1 st ->
  each_success J c l1 /\
  ((st = 0 /\ succeeded l1 = eps /\ asked l1 = eps) \/
   (st = 1 /\ exists i rest, eps = (succeeded l1 ++ i :: rest)%list /\ (asked l1 = succeeded l1 \/ asked l1 = (succeeded l1 ++ [i])%list))).
Proof. exact command_ends. Qed.
Print Assumptions C114_endpoints_are_asked_in_turn.
(** So it ends with 0 only if every endpoint got the request and gave the answer. *)
Theorem C114_success_is_everywhere : forall J tbl s0 n acts l0 c eps l1, new_server tbl = Some s0 ->
  ran (fleet_log J tbl n acts) l0 c eps l1 0 -> forall i, i ∈ eps -> did J c i (at_server i l1).
Proof. intros J tbl s0 n acts l0 c eps l1 H0 Hran. exact (all_did J tbl s0 n acts l0 c eps l1 0 H0 Hran eq_refl). Qed.
Print Assumptions C114_success_is_everywhere.
(** When create has ended with 0 the job has run on every endpoint. *)
Theorem C114_created_everywhere : forall J tbl s0 n acts l0 id eps l1 i, new_server tbl = Some s0 ->
  ran (fleet_log J tbl n acts) l0 (CCreate id) eps l1 0 -> i ∈ eps ->
  exists hm, hm `prefix_of` at_server i l1 /\ is_Some (live (J i) id (at_server i l0 ++ hm)).
Proof. exact created_moment. Qed.
Print Assumptions C114_created_everywhere.
(** When delete has ended with 0, every endpoint ran the job and then did not any
    more. *)
Theorem C114_deleted_everywhere : forall J tbl s0 n acts l0 id eps l1 i, new_server tbl = Some s0 ->
  ran (fleet_log J tbl n acts) l0 (CDelete id) eps l1 0 -> i ∈ eps -> one_at_a_time (at_server i (fleet_log J tbl n acts)) ->
  exists h1 h2, at_server i l1 = (h1 ++ h2)%list /\ is_Some (live (J i) id (at_server i l0 ++ h1)) /\
  exists hm, hm `prefix_of` h2 /\ live (J i) id (at_server i l0 ++ h1 ++ hm) = None.
Proof. exact deleted_moment. Qed.
Print Assumptions C114_deleted_everywhere.
(** An endpoint at which no container has matched the job stops every delete: it ends
    with 1 and asks no endpoint behind that one. *)
Theorem C114_unmatched_endpoint_stops_delete : forall J tbl s0 n acts l0 id before i rest l1 st, new_server tbl = Some s0 ->
  ran (fleet_log J tbl n acts) l0 (CDelete id) (before ++ i :: rest) l1 st ->
  ~ matched J tbl i id (at_server i (l0 ++ l1)) -> st = 1 /\ asked l1 `prefix_of` (before ++ [i])%list.
Proof. exact unmatched_stops. Qed.
Print Assumptions C114_unmatched_endpoint_stops_delete.
(** So does an endpoint at which the id was deleted before: a delete that has failed
    half way cannot be completed by repeating it. *)
Theorem C114_deleted_endpoint_stops_delete : forall J tbl s0 n acts l0 id before i rest l1 st, new_server tbl = Some s0 ->
  ran (fleet_log J tbl n acts) l0 (CDelete id) (before ++ i :: rest) l1 st ->
  one_at_a_time (at_server i (fleet_log J tbl n acts)) -> deleted_ok id (at_server i l0) ->
  st = 1 /\ asked l1 `prefix_of` (before ++ [i])%list.
Proof. exact deleted_stops. Qed.
Print Assumptions C114_deleted_endpoint_stops_delete.
(** A delete that lists an endpoint twice never ends well. *)
Theorem C114_endpoint_listed_twice : forall J tbl s0 n acts l0 id before i mid rest l1 st, new_server tbl = Some s0 ->
  ran (fleet_log J tbl n acts) l0 (CDelete id) (before ++ i :: mid ++ i :: rest) l1 st ->
  one_at_a_time (at_server i (fleet_log J tbl n acts)) -> st = 1.
Proof. exact twice_stops. Qed.
Print Assumptions C114_endpoint_listed_twice.

(** Delete does not stop a job everywhere: created on three endpoints, with nothing to
    watch on the second one, it is left running on the second and on the third, and
    asking again asks the first one only. *)
Theorem C114_delete_stops_the_job_refuted : exists s0, new_server ex_table = Some s0 /\
  (forall i, (i < 3)%nat -> one_at_a_time (at_server i (fx_log fx_acts))) /\
  (exists l0 l1, ran (fx_log fx_acts) l0 (CCreate fx_id) [0; 1; 2]%nat l1 0) /\
  (exists l0 l1, ran (fx_log fx_acts) l0 (CDelete fx_id) [0; 1; 2]%nat l1 1 /\ succeeded l1 = [0%nat] /\ asked l1 = [0; 1]%nat) /\
  (exists l0 l1, ran (fx_log fx_acts) l0 (CDelete fx_id) [0; 1; 2]%nat l1 1 /\ succeeded l1 = [] /\ asked l1 = [0]%nat) /\
  map (fun i => live (fx_jobs i) fx_id (at_server i (fx_log fx_acts))) [0; 1; 2]%nat = [None; Some 0; Some 0]%nat.
Proof.
  assert (exists s0, new_server ex_table = Some s0) as [s0 H0].
  { assert (match new_server ex_table with Some _ => true | None => false end = true) as E by (vm_compute; reflexivity).
    destruct (new_server ex_table) as [s0|]; [by exists s0|discriminate E]. }
  exists s0. split; [exact H0|]. split_and!.
  - intros i Hi. refine (in_turn_one 0 (at_server i (fx_log fx_acts)) (le_S _ _ (le_n 0)) _). destruct i as [|[|[|i]]]; [vm_compute; reflexivity..|lia].
  - exists (take 0 (fx_log fx_acts)), (window (fx_log fx_acts) 0 12). apply (ran_check _ 0 12); vm_compute; reflexivity.
  - exists (take 16 (fx_log fx_acts)), (window (fx_log fx_acts) 16 9). split; [apply (ran_check _ 16 9); vm_compute; reflexivity|split; vm_compute; reflexivity].
  - exists (take 27 (fx_log fx_acts)), (window (fx_log fx_acts) 27 3). split; [apply (ran_check _ 27 3); vm_compute; reflexivity|split; vm_compute; reflexivity].
  - vm_compute. reflexivity.
Qed.
Print Assumptions C114_delete_stops_the_job_refuted.

Example C114_nonvacuous : 
  ran (fx_log fx_good) (take 7 (fx_log fx_good)) (CDelete fx_id) [0]%nat (window (fx_log fx_good) 7 5) 0 /\
  ran (fx_log fx_good) (take 14 (fx_log fx_good)) (CDelete fx_id) ([] ++ 0 :: [] ++ 0 :: [])%nat (window (fx_log fx_good) 14 3) 1 /\
  one_at_a_time (at_server 0 (fx_log fx_good)) /\ deleted_ok fx_id (at_server 0 (take 14 (fx_log fx_good))) /\
  ran (fx_log fx_acts) (take 16 (fx_log fx_acts)) (CDelete fx_id) ([0] ++ 1 :: [2])%nat (window (fx_log fx_acts) 16 9) 1 /\
  ~ matched fx_jobs ex_table 1 fx_id (at_server 1 (take 16 (fx_log fx_acts) ++ window (fx_log fx_acts) 16 9)).
Proof.
  split_and!.
  - apply (ran_check _ 7 5); vm_compute; reflexivity.
  - apply (ran_check _ 14 3); vm_compute; reflexivity.
  - refine (in_turn_one 0 (at_server 0 (fx_log fx_good)) (le_S _ _ (le_n 0)) _). vm_compute. reflexivity.
  - exists 1%nat. apply elem_of_list_lookup. exists 5%nat. vm_compute. reflexivity.
  - apply (ran_check _ 16 9); vm_compute; reflexivity.
  - intros (j & c & k & ok & Hin & _).
    assert (forallb (fun e => match e with EHub (OStart _ _) _ => false | _ => true end) (at_server 1 (take 16 (fx_log fx_acts) ++ window (fx_log fx_acts) 16 9)) = true) as E by (vm_compute; reflexivity).
    rewrite forallb_forall in E. apply elem_of_list_In in Hin. apply E in Hin. discriminate Hin.
Qed.
