(** The rules of the jobs fit the filter of `swoll server`. *)
From Coq Require Import ZArith String Lia.
From stdpp Require Import base list numbers strings pretty gmap.
From Verif Require Import SyscallTable SyscallModel SyscallSpec SyscallProofs FilterModel FilterSpec FilterProofs HubModel HubSpec HubProofs HubKernel HubTop
  KernelModel KernelSpec KernelProofs CodecModel RawModel DecodeModel CaptureModel CaptureSpec MsgModel PlainSpec PlainProofs LiveModel LiveSpec LiveProofs LiveTop ServeModel ServeSpec ServeFrame ServeProofs
  WalkModel WalkProofs ChartModel ChartSpec ChartProofs ScrapeModel ScrapeSpec.
From Verif Require Import ScrapeProofs.

Local Open Scope list_scope.
Local Open Scope Z_scope.
Local Opaque gSyscallMap gClassMap table emit kstep fstep.

Section fit.
Context (tbl : syscalls) (describe : HubModel.container -> TopoModel.container (list (string * string)))
  (srt : list PubSubModel.env -> list PubSubModel.env) (J : nat -> job).
Local Notation step := (sstep tbl describe srt J).
Local Notation run := (srun tbl describe srt J).
Context (G : go_table tbl).

Lemma held_add_sampled ks nr ns rate m : FilterSpec.kernel_ns ns -> SyscallSpec.known tbl nr -> held ks m -> syscall_rule ns nr ∈ ks -> (length ks < Z.to_nat 65535)%nat ->
  held ks (add_sampled_syscall tbl (ByInt nr) ns rate m).1 /\ (add_sampled_syscall tbl (ByInt nr) ns rate m).2 = true.
Proof.
  intros P K H Hk L. split.
  - eapply held_put; [exact Hk| |exact (add_sampled_puts tbl nr ns rate m G K P)|exact H]. right. left.
  - destruct (known_nr tbl nr G K) as (sc & Hl & Hn & R). destruct (held_room ks m H L) as [R1 R2].
    unfold add_sampled_syscall, with_rule. rewrite (sampled_new_rule tbl (ByInt nr) sc ns rate Hl R). unfold add_rule. rewrite (update_room config_max) by exact R1. rewrite (update_room nfilter_max) by exact R2. reflexivity.
Qed.
Lemma install_ok ks j h ns nr m b : FilterSpec.kernel_ns ns -> SyscallSpec.known tbl nr -> held ks (maps h) -> syscall_rule ns nr ∈ ks -> (length ks < Z.to_nat 65535)%nat ->
  install J tbl h j ns nr = Ok (m, b) -> held ks m /\ b = true.
Proof.
  intros P K H Hk L E. unfold install in E.
  assert (Add : forall m1, held ks m1 -> held ks (add_syscall tbl (ByInt nr) ns m1).1 /\ (add_syscall tbl (ByInt nr) ns m1).2 = true) by (intros m1 H1; apply held_add_syscall; assumption).
  destruct (0 <? j_rate (J j)).
  - destruct (lowest J h nr ns) as [low| |]; [|discriminate..].
    set (m1 := if (match low with Some l => j_rate (J (c_job l)) <? j_rate (J j) | None => false end) then (remove_syscall tbl (ByInt nr) ns (maps h)).1 else maps h) in E.
    assert (E1 : held ks m1).
    { unfold m1. match goal with |- context [if ?b then _ else _] => destruct b end; [|exact H]. destruct (remove_any tbl (ByInt nr) ns (maps h)) as [C F]. exact (held_delete ks _ _ C F H). }
    destruct (held_add_sampled ks nr ns (j_rate (J j)) m1 P K E1 Hk L) as [S1 S2]. destruct (add_sampled_syscall tbl (ByInt nr) ns (j_rate (J j)) m1) as [m2 ok]. cbn [fst snd] in S1, S2. subst ok.
    destruct (Add m2 S1) as [A1 A2]. destruct (add_syscall tbl (ByInt nr) ns m2) as [m3 ok3]. injection E as <- <-. split; [exact A1|exact A2].
  - destruct (Add _ H) as [A1 A2]. destruct (add_syscall tbl (ByInt nr) ns (maps h)) as [m3 ok3]. injection E as <- <-. split; [exact A1|exact A2].
Qed.
Lemma starts_ok ks j ns : FilterSpec.kernel_ns ns -> (length ks < Z.to_nat 65535)%nat -> (forall nr, 0 <= nr <= 332 -> syscall_rule ns nr ∈ ks) ->
  forall cs h n h' n' ok, (forall nr, Some nr ∈ cs -> SyscallSpec.known tbl nr /\ 0 <= nr <= 332) -> held ks (maps h) ->
  start_calls J tbl cs j ns h n = Ok (h', (n', ok)) -> ok = true.
Proof.
  intros P L A. induction cs as [|[nr|] cs IH]; intros h n h' n' ok K H S; cbn [start_calls] in S; [injection S as <- <- <-; reflexivity| |discriminate].
  destruct (K nr) as [K1 K2]; [left|]. destruct (install J tbl _ j ns nr) as [[m b]| |] eqn:E; [|discriminate..].
  destruct (install_ok ks j (push_job J h j ns nr) ns nr m b P K1 H (A nr K2) L E) as [H1 ->].
  refine (IH _ _ _ _ _ _ _ S); [intros nr' Hn; apply K; right; exact Hn|exact H1].
Qed.

Context (h0 : hub) (H0 : new_hub tbl = Some h0) (s0 : server) (E0 : start_server tbl = Some s0).
Lemma rules_fit : forall l s rs, Forall plausible l -> few_rules l -> run s0 l s rs -> everything_installed rs.
Proof.
  intros l. induction l as [|o l IH] using rev_ind; intros s rs F FR R; [apply srun_nil in R as [-> ->]; intros n X; apply elem_of_nil in X; exact X|].
  pose proof F as F'. apply Forall_app in F as [F Fo]. apply Forall_inv in Fo. apply srun_snoc in R as (s1 & rs1 & r & R & S & ->). pose proof (few_rules_app _ _ FR) as FR1.
  intros n X. apply elem_of_app in X as [X|X]; [exact (IH _ _ F FR1 R n X)|]. apply elem_of_list_singleton in X. subst r.
  assert (Jb : exists j c, o = SJob j true c /\ 0 < ct_ns c /\ exists h', on_start J tbl (w_hub (sv_world s1)) j c = Ok (h', (n, false))).
  { destruct o as [o su sc tr lost|start c|start ns|j start c|id|i| |p takes|a].
    - pose proof (step_do _ _ _ _ _ _ _ S ltac:(discriminate)) as E. cbn [sdo] in E. unfold task_step in E. destruct (kstep tbl _ o) as [ks kr]. apply Some_inj, pair_equal_spec in E as [_ E]. discriminate E.
    - pose proof (step_do _ _ _ _ _ _ _ S ltac:(discriminate)) as E. cbn [sdo] in E. apply Some_inj, pair_equal_spec in E as [_ E]. discriminate E.
    - pose proof (step_do _ _ _ _ _ _ _ S ltac:(discriminate)) as E. cbn [sdo] in E. destruct (meter_step _ _ _ _ _) as [[w' u]|]; [|discriminate E]. apply Some_inj, pair_equal_spec in E as [_ E]. discriminate E.
    - pose proof (step_do _ _ _ _ _ _ _ S ltac:(discriminate)) as E. cbn [sdo] in E. unfold job_step in E. destruct (Z.ltb_spec 0 (ct_ns c)) as [P|P]; cbn [andb] in E; [|apply Some_inj, pair_equal_spec in E as [_ E]; discriminate E].
      destruct (negb _); [|apply Some_inj, pair_equal_spec in E as [_ E]; discriminate E]. destruct start; cbn [hstep] in E.
      + destruct (on_start J tbl (w_hub (sv_world s1)) j c) as [[h2 [n2 ok]]| |] eqn:E2; [|discriminate..]. apply Some_inj, pair_equal_spec in E as [_ E]. injection E as -> ->. exists j, c. split; [reflexivity|]. split; [exact P|]. exists h2. exact E2.
      + destruct (on_stop J tbl (w_hub (sv_world s1)) j c) as [h2| |]; [|discriminate..]. apply Some_inj, pair_equal_spec in E as [_ E]. discriminate E.
    - pose proof (step_do _ _ _ _ _ _ _ S ltac:(discriminate)) as E. cbn [sdo] in E. unfold delete_step in E. destruct (busy s1); [apply Some_inj, pair_equal_spec in E as [_ E]; discriminate E|]. cbn [hstep] in E.
      destruct (delete_trace tbl (w_hub (sv_world s1)) id) as [[h2 b]| |]; [|discriminate..]. apply Some_inj, pair_equal_spec in E as [_ E]. discriminate E.
    - destruct (read_step_cases _ _ _ _ _ _ _ _ S) as (_ & [(_ & X & _)|(_ & k & bs & _ & [(_ & X & _)|(t & rw & h & ps & _ & _ & _ & _ & X & _)])]); discriminate X.
    - destruct (same_hub _ _ _ _ _ _ _ _ S) as (_ & X & _); [exact I|]. destruct (X _ _ eq_refl).
    - destruct (same_hub _ _ _ _ _ _ _ _ S) as (_ & X & _); [exact I|]. destruct (X _ _ eq_refl).
    - destruct (same_hub _ _ _ _ _ _ _ _ S) as (_ & X & _); [exact I|]. destruct (X _ _ eq_refl). }
  destruct Jb as (j & c & -> & P & h' & E2). unfold on_start in E2. destruct (host_selected _ _); [|discriminate E2].
  set (mns := elements (list_to_set (jobbed (l ++ [SJob j true c])) : gset Z)). set (kns := elements (list_to_set (switched (l ++ [SJob j true c])) : gset Z)).
  assert (X : false = true).
  { refine (starts_ok (all_keys mns kns) j (ct_ns c) _ _ _ _ _ _ _ _ _ (calls_range tbl G (J j)) _ E2).
    - destruct Fo as [_ Fo]. unfold kernel_ns. lia.
    - rewrite all_keys_length. unfold few_rules in FR. change (size (list_to_set (jobbed (l ++ [SJob j true c])) : gset Z)) with (length mns) in FR. change (size (list_to_set (switched (l ++ [SJob j true c])) : gset Z)) with (length kns) in FR. lia.
    - intros nr Rg. apply call_key_in; [|exact Rg]. apply elem_of_elements, elem_of_list_to_set. rewrite jobbed_app. apply elem_of_app. right. left.
    - refine (held_mono _ _ _ _ (rules_held tbl describe srt J G h0 H0 s0 E0 _ _ _ F R)). intros k. apply (all_keys_mono J); intros x Hx; apply elem_of_elements, elem_of_list_to_set; [rewrite jobbed_app|rewrite switched_app]; apply elem_of_app; left; [exact Hx|exact (proper_switched _ _ Hx)]. }
  discriminate X.
Qed.
End fit.
