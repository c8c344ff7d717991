(** Property C121, for rules made with any options: what the text says. *)
From Coq Require Import ZArith String Ascii Lia.
From stdpp Require Import base list numbers strings pretty gmap.
From Verif Require Import SyscallTable SyscallModel SyscallSpec SyscallProofs FilterModel RuleModel RuleProps.

Local Open Scope string_scope.
Local Open Scope list_scope.
Local Open Scope Z_scope.
Local Opaque all syscall_nr gClassMap gSyscallMap.

(** * What the options say *)
(** The last option that says something wins. *)
Definition last_said {A} (f : ropt -> option A) (os : list ropt) (d : A) : A := fold_left (fun a o => default a (f o)) os d.
Definition said_ns (o : ropt) : option Z := match o with SetPidNamespace ns => if ns =? -1 then None else Some (ns mod 2 ^ 32) | _ => None end.
Definition said_pid (o : ropt) : option Z := match o with SetPid p => Some (p mod 2 ^ 32) | _ => None end.
Definition said_rate (o : ropt) : option Z := match o with SetSampleRate r => Some (r mod 2 ^ 32) | _ => None end.
Definition said_call (tbl : syscalls) (o : ropt) : option string :=
  match o with SetSyscall a => match lookup_sc tbl a with Some sc => Some (sc_name sc) | None => None end | _ => None end.
Definition said_action (o : ropt) : option string :=
  match o with SetActionDrop => Some "ACTION_DROP" | SetActionAllow => Some "ACTION_ALLOW" | _ => None end.
Definition some_said {A} (f : ropt -> option A) (os : list ropt) : bool := existsb (fun o => match f o with Some _ => true | None => false end) os.
Definition word (b : bool) (w : string) : list string := if b then [w] else [].
Definition said_syscall (o : ropt) : option unit := match o with SetSyscall _ => Some () | _ => None end.
Definition said_trace (o : ropt) : option unit := match o with SetModeSyscall => Some () | _ => None end.
Definition said_metrics (o : ropt) : option unit := match o with SetModeMetrics => Some () | _ => None end.
Definition words (os : list ropt) : list string :=
  word (some_said said_trace os) "FILTER_MODE_SYSCALL" ++ word (some_said said_metrics os) "FILTER_MODE_METRICS" ++
  word (some_said said_pid os) "FILTER_TYPE_PID" ++ word (some_said said_ns os) "FILTER_TYPE_PID_NS" ++
  word (some_said said_syscall os) "FILTER_TYPE_SYSCALL".

(** * Proofs *)
Lemma join_concat l : join_bar l = String.concat "|" l.
Proof. induction l as [|w [|w' l] IH]; [done|done|]. cbn [join_bar String.concat]. cbn [join_bar String.concat] in IH. by rewrite IH. Qed.
Definition on (f m : Z) : bool := negb (Z.land f m =? 0).
Lemma on_lor a b m : on (Z.lor a b) m = on a m || on b m.
Proof.
  unfold on. rewrite Z.land_lor_distr_l. destruct (Z.eqb_spec (Z.land a m) 0) as [E|E], (Z.eqb_spec (Z.land b m) 0) as [E'|E'], (Z.eqb_spec (Z.lor (Z.land a m) (Z.land b m)) 0) as [E2|E2]; try done;
    rewrite Z.lor_eq_0_iff in E2; tauto.
Qed.
Lemma call_of tbl a sc : go_table tbl -> lookup_sc tbl a = Some sc -> call_text tbl (s32 (sc_nr sc)) = sc_name sc.
Proof.
  intros Ht Hl. destruct (known_arg tbl a sc Ht Hl) as [-> [sc' Ek]]. unfold call_text.
  assert (sc' = sc) as ->; [|by rewrite Ek].
  destruct a as [v|n|n|]; [|pose proof (known_sc tbl n Ht)|pose proof (known_sc tbl n Ht)|discriminate Hl].
  - pose proof (lookup_string_known tbl v sc Ht Hl). congruence.
  - destruct H as (x & Hx & Ex & _); [by exists sc|]. change (lookup_sc tbl (ByUint32 n)) with (lookup_sc tbl (ByInt n)) in Hl. congruence.
  - destruct H as (x & Hx & Ex & _); [by exists sc|]. congruence.
Qed.
Lemma made tbl os : go_table tbl -> forall r r', apply_opts tbl os r = Some r' ->
  k_pidns (r_key r') = last_said said_ns os (k_pidns (r_key r)) /\ k_thrid (r_key r') = last_said said_pid os (k_thrid (r_key r)) /\
  v_rate (r_val r') = last_said said_rate os (v_rate (r_val r)) /\ v_count (r_val r') = v_count (r_val r) /\ v_hits (r_val r') = v_hits (r_val r) /\
  call_text tbl (k_syscall (r_key r')) = last_said (said_call tbl) os (call_text tbl (k_syscall (r_key r))) /\
  action_text (v_action (r_val r')) = last_said said_action os (action_text (v_action (r_val r))) /\
  on (k_flags (r_key r')) mode_syscall = on (k_flags (r_key r)) mode_syscall || some_said said_trace os /\
  on (k_flags (r_key r')) mode_metrics = on (k_flags (r_key r)) mode_metrics || some_said said_metrics os /\
  on (k_flags (r_key r')) type_pid = on (k_flags (r_key r)) type_pid || some_said said_pid os /\
  on (k_flags (r_key r')) type_pidns = on (k_flags (r_key r)) type_pidns || some_said said_ns os /\
  on (k_flags (r_key r')) type_syscall = on (k_flags (r_key r)) type_syscall || some_said said_syscall os.
Proof.
  intros Ht. induction os as [|o os IH]; intros r r' E.
  { cbn [apply_opts] in E. injection E as <-. rewrite !orb_false_r. split_and!; reflexivity. }
  cbn [apply_opts] in E. destruct (apply_opt tbl o r) as [r1|] eqn:E1; [|discriminate E]. apply IH in E. clear IH.
  destruct E as (A & B & C & D & F & G & H & I1 & I2 & I3 & I4 & I5). rewrite A, B, C, D, F, G, H, I1, I2, I3, I4, I5. clear A B C D F G H I1 I2 I3 I4 I5.
  destruct r as [[f n p c] [v1 v2 v3 v4]]. unfold apply_opt in E1. cbn [r_key r_val k_flags k_pidns k_thrid k_syscall v_rate v_count v_hits v_action] in *.
  unfold last_said, some_said. cbn [fold_left existsb].
  destruct o as [a|rate|ns|pid| | | |].
  1: destruct (lookup_sc tbl a) as [sc|] eqn:L; [|discriminate E1]; injection E1 as <-.
  3: destruct (ns =? -1) eqn:N.
  all: try (injection E1 as <-).
  all: unfold with_flag; cbn [r_key r_val k_flags k_pidns k_thrid k_syscall v_rate v_count v_hits v_action said_ns said_pid said_rate said_call said_action said_trace said_metrics said_syscall default].
  all: rewrite ?on_lor, ?N, ?L.
  all: rewrite ?(call_of tbl _ _ Ht L).
  all: split_and!; first [reflexivity|repeat match goal with |- context [on ?x ?m] => is_var x; destruct (on x m) end; reflexivity].
Qed.

(** C121: the text of a rule made with any options says, in this order, what they said:
    the last of several options for the same thing, the low 32 bits of a number, and
    sys_read if no system call was given. *)
Theorem C121_text_says_the_options : forall tbl os r, go_table tbl -> new_rule tbl os = Some r -> rule_text tbl (r_key r) (r_val r) =
  ("{flags=" ++ String.concat "|" (words os) ++ ", pid-namespace=" ++ pretty (last_said said_ns os 0) ++ ", thread-id=" ++ pretty (last_said said_pid os 0) ++
   ", syscall=" ++ last_said (said_call tbl) os "sys_read" ++ ", sample-rate=" ++ pretty (last_said said_rate os 0) ++
   ", current-sample-count=0, hits=0, action=" ++ last_said said_action os "ACTION_ALLOW" ++ "}")%string.
Proof.
  intros tbl os r Ht E. destruct (made tbl os Ht _ _ E) as (A & B & C & D & F & G & H & I1 & I2 & I3 & I4 & I5).
  assert (T0 : call_text tbl 0 = "sys_read"). { destruct (read_known tbl Ht) as (sc & Hs & Hn). unfold call_text. by rewrite Hs. }
  unfold rule_text, key_text, val_text. rewrite A, B, C, D, F, G, H. unfold zero_rule. cbn [r_key r_val k_pidns k_thrid k_syscall v_rate v_count v_hits v_action]. rewrite T0.
  assert (Fl : flag_text (k_flags (r_key r)) = String.concat "|" (words os)).
  { unfold flag_text, words. rewrite join_concat. f_equal. unfold on, zero_rule in *. cbn [r_key k_flags] in *. rewrite !Z.land_0_l in *. cbn [Z.eqb negb orb] in *.
    unfold bit, word. rewrite <- I1, <- I2, <- I3, <- I4, <- I5.
    repeat match goal with |- context [Z.land ?x ?y =? 0] => destruct (Z.land x y =? 0) end; reflexivity. }
  rewrite Fl. rewrite !append_right. reflexivity.
Qed.
Example C121_options_nonvacuous : go_table table /\ exists r, new_rule table [SetActionDrop; SetPid 7; SetModeSyscall; SetPidNamespace (-1); SetSyscall (ByString "openat")] = Some r /\
  rule_text table (r_key r) (r_val r)
    = "{flags=FILTER_MODE_SYSCALL|FILTER_TYPE_PID|FILTER_TYPE_SYSCALL, pid-namespace=0, thread-id=7, syscall=sys_openat, sample-rate=0, current-sample-count=0, hits=0, action=ACTION_DROP}".
Proof. split; [exact go_table_intro|]. eexists. split; vm_compute; reflexivity. Qed.

Print Assumptions C121_text_says_the_options.
