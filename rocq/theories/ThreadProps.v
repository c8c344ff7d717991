(** Property C56: start callbacks interleaved with each other and with the hub. *)
From stdpp Require Import gmap strings list.
From Coq Require Import ZArith Lia.
From Verif Require Import SyscallTable SyscallModel SyscallSpec SyscallProofs FilterModel FilterSpec HashModel HubModel HubSpec HubProps ThreadModel ThreadSpec ThreadProofs.
Open Scope Z_scope.

(** The two indexes agree with the PushJobs and DeleteTraces that happened, in
    their order, whatever the schedule. *)
Theorem C56_indexes_agree_under_every_schedule : forall J tbl h0 l s rs,
  new_hub tbl = Some h0 -> trun J tbl (TState h0 []) l = Ok (s, rs) ->
  (forall ns nr, bucket (t_hub s) ns nr = regs_at ns nr (tregistrations J tbl l rs)) /\
  (forall id, job_list (t_hub s) id = regs_of J id (tregistrations J tbl l rs)) /\
  (forall ns nr, find_list (t_hub s) ns nr <> Some []).
Proof. exact threads_indexes. Qed.
Print Assumptions C56_indexes_agree_under_every_schedule.

(** At every point of every schedule, what is registered has its kernel rule or a
    callback in flight that will still install it. *)
Theorem C56_registered_is_filtered_or_in_flight : forall J tbl h0 l s rs ns nr,
  go_table tbl -> new_hub tbl = Some h0 -> Forall plain_op l ->
  trun J tbl (TState h0 []) l = Ok (s, rs) -> tupdates_ok rs ->
  regs_at ns nr (tregistrations J tbl l rs) <> [] -> has_rule (t_hub s) ns nr \/ in_flight s ns nr.
Proof. exact registered_filtered. Qed.
Print Assumptions C56_registered_is_filtered_or_in_flight.
(** So once all callbacks have returned, no registration lacks its rule. *)
Theorem C56_registered_is_filtered_when_settled : forall J tbl h0 l s rs ns nr,
  go_table tbl -> new_hub tbl = Some h0 -> Forall plain_op l ->
  trun J tbl (TState h0 []) l = Ok (s, rs) -> tupdates_ok rs -> all_returned s ->
  regs_at ns nr (tregistrations J tbl l rs) <> [] -> has_rule (t_hub s) ns nr.
Proof.
  intros J tbl h0 l s rs ns nr Ht H0 Hp Hr Hok Hall Hreg.
  destruct (registered_filtered J tbl h0 l s rs ns nr Ht H0 Hp Hr Hok Hreg) as [H|(t & Hin & _ & Ha)]; [exact H|].
  rewrite (Hall t Hin) in Ha. by apply elem_of_nil in Ha.
Qed.
Print Assumptions C56_registered_is_filtered_when_settled.
(** The converse holds as long as no job is deleted while one of its callbacks
    runs. *)
Theorem C56_rule_is_registered_without_overlap : forall J tbl h0 l s rs ns nr,
  go_table tbl -> new_hub tbl = Some h0 -> Forall plain_op l ->
  trun J tbl (TState h0 []) l = Ok (s, rs) -> no_overlap J tbl (TState h0 []) l -> ~ (ns = 0 /\ nr = 218) ->
  has_rule (t_hub s) ns nr -> regs_at ns nr (tregistrations J tbl l rs) <> [].
Proof. exact filtered_registered. Qed.
Print Assumptions C56_rule_is_registered_without_overlap.

(** Every sequential start (HubModel.v) is a schedule: start the callback and run
    it to its end. *)
Theorem C56_sequential_start_is_a_schedule : forall J tbl h ths j c h' n ok, on_start J tbl h j c = Ok (h', (n, ok)) ->
  exists k rs ths', trun J tbl (TState h ths) (TStart j c :: repeat (TStep (length ths)) k) = Ok (TState h' ths', rs) /\
    (ths' = ths \/ ths' = (ths ++ [Thread j (ct_ns c) []])%list).
Proof. exact start_is_a_schedule. Qed.
Print Assumptions C56_sequential_start_is_a_schedule.

(** No schedule exits through log.Fatal. One that panics does so in a callback of a job
    that names an unknown call, or in an operation of the hub that panics by itself. *)
Theorem C56_only_unknown_calls_crash_callbacks : forall J tbl h0 l, new_hub tbl = Some h0 ->
  trun J tbl (TState h0 []) l <> Fatal /\
  (trun J tbl (TState h0 []) l = Panic ->
   exists l1 o l2 s1 rs1, l = (l1 ++ o :: l2)%list /\ trun J tbl (TState h0 []) l1 = Ok (s1, rs1)
     /\ ((exists i t, o = TStep i /\ t_threads s1 !! i = Some t /\ unknown_name tbl (J (t_job t)))
         \/ exists o', o = TOther o' /\ hstep J tbl (t_hub s1) o' = Panic)).
Proof. exact schedule_ends. Qed.
Print Assumptions C56_only_unknown_calls_crash_callbacks.
Example C56_an_unknown_call_crashes :
  match new_hub table with
  | Some h0 => match trun (fun _ => Job "aaaaaaaa" 0 ["nosuchcall"] []) table (TState h0 []) [TStart 0 ex_web; TStep 0] with Panic => true | _ => false end
  | None => false
  end = true.
Proof. vm_compute. reflexivity. Qed.

(** A schedule's outcome on a new hub, and observations of it. *)
Definition scheduled_of {A} (f : tstate -> list tout -> A) (tbl : syscalls) (J : nat -> job) (l : list top) : option A :=
  match new_hub tbl with Some h0 => match trun J tbl (TState h0 []) l with Ok (s, rs) => Some (f s rs) | _ => None end | None => None end.
Lemma scheduled_exists {A} (f : tstate -> list tout -> A) tbl J l a : scheduled_of f tbl J l = Some a ->
  exists h0 s rs, new_hub tbl = Some h0 /\ trun J tbl (TState h0 []) l = Ok (s, rs) /\ f s rs = a.
Proof.
  unfold scheduled_of. destruct (new_hub tbl) as [h0|]; [|discriminate]. destruct (trun J tbl (TState h0 []) l) as [[s rs]| |] eqn:E; [|discriminate..].
  intros [= <-]. exists h0, s, rs. split; [reflexivity|]. split; [exact E|reflexivity].
Qed.
(** Without the no-overlap condition the converse is false: DeleteTrace runs
    between a callback's PushJob and its AddSyscall. The job is gone, all callbacks
    have returned, and the kernel keeps the rule. *)
Definition ex_leak : list top := [TStart 0 ex_web; TStep 0; TOther (ODelete "aaaaaaaa"); TStep 0].
Theorem C56_leaked_rule_refuted : exists h0 s rs,
  new_hub table = Some h0 /\ trun ex_jobs table (TState h0 []) ex_leak = Ok (s, rs) /\
  Forall plain_op ex_leak /\ tupdates_ok rs /\ all_returned s /\
  tregistrations ex_jobs table ex_leak rs = [] /\ has_rule (t_hub s) 4026531900 257.
Proof.
  assert (scheduled_of (fun s rs => (rs, map t_prog (t_threads s), rule_on 4026531900 257 (t_hub s))) table ex_jobs ex_leak =
    Some ([TONone; TOPushed 0 4026531900 257; TOHub (RDeleted true); TOUpdate true], [[]], true)) as E by (vm_compute; reflexivity).
  apply scheduled_exists in E as (h0 & s & rs & H0 & Hr & Ef). injection Ef as E1 E2 E3. exists h0, s, rs.
  split; [exact H0|]. split; [exact Hr|]. split; [repeat constructor; unfold kernel_ns; cbn; lia|].
  subst rs. split.
  { intros H. repeat (apply elem_of_cons in H as [H|H]; [discriminate H|]). by apply elem_of_nil in H. }
  split.
  { intros t Hin. apply elem_of_list_In, (in_map t_prog), elem_of_list_In in Hin. rewrite E2 in Hin. by apply elem_of_list_singleton in Hin. }
  split; [reflexivity|]. unfold rule_on in E3. exact (bool_decide_eq_true_1 _ E3).
Qed.
Print Assumptions C56_leaked_rule_refuted.

(** A schedule with real interleaving that meets the hypotheses: two callbacks
    take turns, a third job's sampled callback drops and re-adds the rule. *)
Definition ex_turns : list top :=
  [TStart 0 ex_web; TStart 3 ex_web; TStep 0; TStep 1; TStep 1; TStep 0; TStep 1; TStep 1; TOther (ODelete "aaaaaaaa")].
Lemma ex_turns_fact : scheduled_of (fun s rs => (rs, map t_prog (t_threads s), rule_on 4026531900 257 (t_hub s), bucket (t_hub s) 4026531900 257)) table ex_jobs ex_turns =
  Some ([TONone; TONone; TOPushed 0 4026531900 257; TOPushed 3 4026531900 257; TONone; TOUpdate true; TOUpdate true; TOUpdate true; TOHub (RDeleted true)],
        [[]; []], true, [Reg 3 4026531900 257]).
Proof. vm_compute. reflexivity. Qed.
Example C56_nonvacuous : go_table table /\ exists h0 s rs,
  new_hub table = Some h0 /\ trun ex_jobs table (TState h0 []) ex_turns = Ok (s, rs) /\
  Forall plain_op ex_turns /\ tupdates_ok rs /\ all_returned s /\
  tregistrations ex_jobs table ex_turns rs = [Reg 3 4026531900 257].
Proof.
  split; [exact go_table_intro|].
  destruct (scheduled_exists _ _ _ _ _ ex_turns_fact) as (h0 & s & rs & H0 & Hr & Ef). injection Ef as E1 E2 E3 E4. exists h0, s, rs.
  split; [exact H0|]. split; [exact Hr|]. split; [repeat constructor; unfold kernel_ns; cbn; lia|].
  subst rs. split.
  { intros H. repeat (apply elem_of_cons in H as [H|H]; [discriminate H|]). by apply elem_of_nil in H. }
  split; [|reflexivity].
  intros t Hin. apply elem_of_list_In, (in_map t_prog), elem_of_list_In in Hin. rewrite E2 in Hin.
  apply elem_of_cons in Hin as [Hin|Hin]; [done|]. by apply elem_of_list_singleton in Hin.
Qed.
(** ... and in it no job is deleted while its callback runs. *)
Example C56_no_overlap_nonvacuous : exists h0, new_hub table = Some h0 /\ no_overlap ex_jobs table (TState h0 []) ex_turns.
Proof.
  assert (scheduled_of (fun s rs => map (fun t => (t_job t, length (t_prog t))) (t_threads s)) table ex_jobs (take 8 ex_turns) = Some [(0%nat, 0%nat); (3%nat, 0%nat)]) as E by (vm_compute; reflexivity).
  apply scheduled_exists in E as (h0 & s & rs & H0 & Hr & Ef). exists h0. split; [exact H0|].
  intros l1 id l2 s' rs' El Hr' t Hin Hne.
  assert (l1 = take 8 ex_turns) as ->.
  { do 8 (destruct l1 as [|? l1]; [discriminate El|]; injection El as <- El). destruct l1 as [|? l1]; [reflexivity|].
    injection El as _ El. destruct l1; discriminate El. }
  rewrite Hr in Hr'. injection Hr' as <- <-.
  apply elem_of_list_In, (in_map (fun t => (t_job t, length (t_prog t)))), elem_of_list_In in Hin. rewrite Ef in Hin.
  repeat (apply elem_of_cons in Hin as [Hin|Hin]; [injection Hin as _ Hlen; destruct Hne; exact (nil_length_inv _ Hlen)|]). destruct (not_elem_of_nil _ Hin).
Qed.
