(** C79: the self-test. *)
From Coq Require Import ZArith String Ascii Bool Lia.
From stdpp Require Import base list numbers strings gmap.
From Verif Require Import OffsetModel OffsetSpec SelfModel SelfSpec SelfProofs.

Local Open Scope string_scope.
Local Open Scope Z_scope.

(** It passes exactly if the process has CAP_SYS_ADMIN, the tracing file system is not known
    to be missing, perhaps after a mount that --fix asked for, and the kernel's options
    pass. *)
Theorem C79_passes_iff fix_ s :
  (self_test fix_ s).1 = true <-> sy_caps s = Some true /\ mounted fix_ s /\ features_pass s = true.
Proof. exact (self_test_iff fix_ s). Qed.
Print Assumptions C79_passes_iff.
(** The options pass exactly if there is no file that describes the running kernel, or all
    three are found in it. *)
Theorem C79_options_pass_iff s :
  features_pass s = true <-> exists f, config_file s f /\
    (sy_stat s f = NotExist \/
     (sy_stat s f = Gives () /\ (sy_open s f = NotExist \/ exists t, sy_open s f = Gives t /\ forall o, In o needed -> o ∈ config_names (scan t)))).
Proof. exact (features_pass_iff s). Qed.
Print Assumptions C79_options_pass_iff.
(** An option is found exactly if a line of its own switches it on, built in or as a module,
    in a file whose lines are all below 64 KiB. *)
Theorem C79_option_found_iff ls f :
  In f needed -> Forall one_line ls -> Forall fits ls -> (f ∈ config_names (scan (unlines ls)) <-> has_option f ls).
Proof. exact (has_option_iff ls f). Qed.
Print Assumptions C79_option_found_iff.
(** It is false of all files: what follows a longer line is not read, and the kernel fails
    the test although it has the option. *)
Theorem C79_options_are_found_refuted ls l rest f :
  In f needed -> Forall one_line (ls ++ l :: rest)%list -> Forall fits ls -> ~ fits l -> ~ has_option f ls ->
  f ∉ config_names (scan (unlines (ls ++ l :: rest)%list)).
Proof. exact (too_long ls l rest f). Qed.
Print Assumptions C79_options_are_found_refuted.
(** It mounts at most once, and only if --fix was given, the process has the capability and
    the tracing file system is missing. *)
Theorem C79_mounts_only_if_asked fix_ s :
  (self_test fix_ s).2 = 1%nat /\ fix_ = true /\ sy_caps s = Some true /\ sy_tracing s = NotExist
  \/ (self_test fix_ s).2 = 0%nat /\ ~ (fix_ = true /\ sy_caps s = Some true /\ sy_tracing s = NotExist).
Proof. exact (mounts_at_most fix_ s). Qed.
Print Assumptions C79_mounts_only_if_asked.
(** It is false that it passes only if the tracing file system can be used: any other error
    than that it is missing counts as present. *)
Theorem C79_pass_means_tracing_refuted fix_ s :
  sy_caps s = Some true -> sy_tracing s = OtherError -> features_pass s = true -> self_test fix_ s = (true, 0%nat).
Proof.
  intros C T F. unfold self_test, check_capabilities. rewrite C, T. cbn [negb check_mounts]. rewrite F. reflexivity.
Qed.
Print Assumptions C79_pass_means_tracing_refuted.

Definition ex_lines : list string := ["# config"; "CONFIG_BPF=y"; "CONFIG_BPF_JIT=m"; "CONFIG_FTRACE_SYSCALLS=y"].
Definition ex_system (ls : list string) (a : answer unit) : system :=
  System (Some true) a true (Gives ()) (Some [53; 46; 52; 0; 0])
    (fun f => if String.eqb f "/boot/config-5.4" then Gives () else NotExist)
    (fun f => if String.eqb f "/boot/config-5.4" then Gives (unlines ls) else NotExist).
Example C79_met :
  self_test false (ex_system ex_lines (Gives ())) = (true, 0%nat)
  /\ self_test true (ex_system ex_lines NotExist) = (true, 1%nat)
  /\ self_test false (ex_system ex_lines NotExist) = (false, 0%nat)
  /\ self_test true (ex_system (removelast ex_lines) (Gives ())) = (false, 0%nat)
  /\ self_test true (ex_system ex_lines OtherError) = (true, 0%nat)
  /\ Forall one_line ex_lines /\ Forall fits ex_lines.
Proof.
  repeat (split; [vm_compute; reflexivity|]).
  split; repeat (apply Forall_cons; split; [first [reflexivity|vm_compute; discriminate]|]); apply Forall_nil; exact I.
Qed.
Fixpoint rep (n : nat) : string := match n with O => "" | S n => String "#" (rep n) end.
Example C79_options_are_found_refuted_met : exists l,
  Forall one_line (["CONFIG_BPF=y"] ++ l :: ["CONFIG_BPF_JIT=y"])%list /\ Forall fits ["CONFIG_BPF=y"] /\ ~ fits l
  /\ ~ has_option "CONFIG_BPF_JIT" ["CONFIG_BPF=y"] /\ has_option "CONFIG_BPF_JIT" (["CONFIG_BPF=y"] ++ l :: ["CONFIG_BPF_JIT=y"])%list.
Proof.
  exists (rep (Z.to_nat 65536)).
  assert (L : forall n, String.length (rep n) = n) by (induction n as [|n IH]; [reflexivity|cbn [rep String.length]; rewrite IH; reflexivity]).
  assert (O : forall n, one_line (rep n)) by (unfold one_line; induction n as [|n IH]; [reflexivity|exact IH]).
  split; [apply Forall_cons; split; [reflexivity|]; apply Forall_cons; split; [apply O|apply Forall_cons; split; [reflexivity|apply Forall_nil; exact I]]|].
  split; [apply Forall_cons; split; [vm_compute; discriminate|apply Forall_nil; exact I]|].
  split; [unfold fits; rewrite L, Z2Nat.id by lia; lia|]. split.
  - intros (l & [<-|[]] & v & e & V & E & H). destruct V as [->| ->], E as [->| ->]; discriminate H.
  - exists "CONFIG_BPF_JIT=y". split; [right; right; left; reflexivity|]. exists "y", "". auto.
Qed.
