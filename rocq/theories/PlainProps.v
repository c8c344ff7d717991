(** C97: `swoll trace --no-containers`. *)
From Coq Require Import ZArith String Lia.
From stdpp Require Import base list numbers strings pretty gmap.
From Verif Require Import SyscallTable SyscallModel SyscallSpec SyscallProofs FilterModel FilterSpec KernelModel KernelSpec
  RawModel CaptureModel CaptureSpec LineModel LineSpec JsonSpec MsgModel MsgSpec DecodeModel PlainModel PlainSpec PlainProofs.

Local Open Scope string_scope.
Local Open Scope list_scope.
Local Open Scope Z_scope.

(** It starts, rather than ending with an error, exactly when every name on the
    command line is that of a call, with or without "sys_". *)
Theorem C97_starts_iff : forall tbl flag, go_table tbl ->
  (is_Some (install tbl flag) <-> forall name, wanted flag name -> exists nr, names_call name nr).
Proof. exact starts_iff. Qed.
Print Assumptions C97_starts_iff.

(** Whatever the tasks of the machine do, in whatever namespace: when a task leaves a
    system call other than execve, an event is sent exactly when the call is one of
    those on the command line and the task was seen entering it. It has what the task
    entered with, and what it left with. *)
Theorem C97_sent_at_exit : forall tbl flag m l s rs k tid t ret now cpu r ev,
  go_table tbl -> install tbl flag = Some m -> no_edits l -> few_threads l -> takes_turns l tid ->
  krun tbl (fresh_kernel m) l = (s, rs) -> l !! k = Some (KExit tid t ret now cpu) -> rs !! k = Some r ->
  (o_event r = Some ev <->
   cpu < 1024 /\ asked flag (t_id t mod 2 ^ 32) /\ t_id t mod 2 ^ 32 <> 59
   /\ exists i t' args ugid now', just_before l i k tid /\ l !! i = Some (KEnter tid t' args ugid now')
        /\ t_id t' = t_id t /\ ev = KEvent tid ugid (t_id t mod 2 ^ 32) now' now (t_pidns t) args ret).
Proof. exact sent_at_exit. Qed.
Print Assumptions C97_sent_at_exit.

(** Of execve, when it is on the command line, an event is sent at the entry of every
    call, with 0 as the result. *)
Theorem C97_sent_at_execve : forall tbl flag m l s rs k tid t args ugid now cpu r ev,
  go_table tbl -> install tbl flag = Some m -> no_edits l -> krun tbl (fresh_kernel m) l = (s, rs) ->
  l !! k = Some (KExecve tid t args ugid now cpu) -> t_id t = 59 -> rs !! k = Some r ->
  (o_event r = Some ev <-> cpu < 1024 /\ asked flag 59 /\ ev = KEvent tid ugid 59 now now (t_pidns t) args 0).
Proof. exact sent_at_execve. Qed.
Print Assumptions C97_sent_at_execve.

(** No metrics are kept. *)
Theorem C97_no_metrics : forall tbl flag m l s rs,
  go_table tbl -> install tbl flag = Some m -> no_edits l -> krun tbl (fresh_kernel m) l = (s, rs) ->
  forall r, r ∈ rs -> o_metric r = None.
Proof. exact nothing_else. Qed.
Print Assumptions C97_no_metrics.

(** One line is printed for each event, in the order they arrive, with the task's name
    and number and the call's name, until the first event of a call without decoder,
    which ends the program. *)
Theorem C97_output : forall json p tty evs msgs, Forall2 record_of evs msgs ->
  forall outs alive, print_loop json p "cli" tty msgs = (outs, alive) ->
  exists n, Forall2 (line_for tty) (take n evs) outs
    /\ Forall (fun x => decoder (ev_nr (fst x)) <> None) (take n evs)
    /\ (alive = true -> n = List.length evs)
    /\ (alive = false -> exists x, evs !! n = Some x /\ decoder (ev_nr (fst x)) = None).
Proof. exact prints_spec. Qed.
Print Assumptions C97_output.

(** Hence only calls on the command line are printed. *)
Theorem C97_only_listed_calls_are_printed : forall tbl flag m l s rs json p tty evs msgs outs alive j out,
  go_table tbl -> install tbl flag = Some m -> no_edits l -> few_threads l -> (forall tid, takes_turns l tid) ->
  (forall tid t args ugid now cpu, KExecve tid t args ugid now cpu ∈ l -> t_id t = 59) ->
  krun tbl (fresh_kernel m) l = (s, rs) -> Forall (was_sent rs) evs -> Forall2 record_of evs msgs ->
  print_loop json p "cli" tty msgs = (outs, alive) -> outs !! j = Some out ->
  exists x, evs !! j = Some x /\ asked flag (ev_nr (fst x)) /\ line_for tty x out.
Proof. exact listed_lines. Qed.
Print Assumptions C97_only_listed_calls_are_printed.

(** The program runs until it is stopped, whatever happens on the machine, exactly when
    every call on the command line has a decoder. *)
Theorem C97_survives_iff : forall tbl flag m json p tty, go_table tbl -> install tbl flag = Some m ->
  ((forall l s rs evs msgs outs alive,
      no_edits l -> few_threads l -> (forall tid, takes_turns l tid) ->
      (forall tid t args ugid now cpu, KExecve tid t args ugid now cpu ∈ l -> t_id t = 59) ->
      krun tbl (fresh_kernel m) l = (s, rs) -> Forall (was_sent rs) evs -> Forall2 record_of evs msgs ->
      print_loop json p "cli" tty msgs = (outs, alive) -> alive = true)
   <-> forall nr, asked flag nr -> decoder nr <> None).
Proof. exact survives_iff. Qed.
Print Assumptions C97_survives_iff.

(** Which is not so of every call it accepts: with -s getpid it starts, and ends at the
    first getpid on the machine. *)
Theorem C97_runs_until_stopped_refuted :
  ~ forall tbl flag m json p tty l s rs evs msgs outs alive,
      go_table tbl -> install tbl flag = Some m ->
      no_edits l -> few_threads l -> (forall tid, takes_turns l tid) ->
      (forall tid t args ugid now cpu, KExecve tid t args ugid now cpu ∈ l -> t_id t = 59) ->
      krun tbl (fresh_kernel m) l = (s, rs) -> Forall (was_sent rs) evs -> Forall2 record_of evs msgs ->
      print_loop json p "cli" tty msgs = (outs, alive) -> alive = true.
Proof.
  intros H.
  assert (N : exists nr, names_call "getpid" nr /\ decoder nr = None).
  { assert (C : match lookup_sc table (ByString "getpid") with Some sc => sc_nr sc =? 39 | None => false end = true) by (vm_compute; reflexivity).
    destruct (lookup_sc table (ByString "getpid")) as [sc|] eqn:L; [|discriminate]. apply Z.eqb_eq in C. exists (sc_nr sc).
    split; [exact (lookup_names _ _ L)|]. rewrite C. reflexivity. }
  destruct N as (nr & Hn & Hd).
  destruct (proj2 (starts_iff table ["getpid"] go_table_intro)) as (m & Hm).
  { intros name [[Hc _]|Hw]; [discriminate|]. apply elem_of_list_singleton in Hw. subst name. exists nr. exact Hn. }
  destruct (survives_iff table ["getpid"] m (fun _ _ => None) (fun _ _ => Printer (fun _ _ _ => []) (fun _ => [])) false go_table_intro Hm) as [S _].
  refine (S _ nr _ Hd).
  - intros l s rs evs msgs outs alive. intros. eapply H; eauto using go_table_intro.
  - exists "getpid". split; [right; left|exact Hn].
Qed.
Print Assumptions C97_runs_until_stopped_refuted.

(** With -o json it also ends at events of which no text can be made. *)
Theorem C97_json_ends_iff : forall indent jp tbl p tty evs msgs,
  Forall2 record_of evs msgs -> Forall bytes msgs -> forall outs alive,
  print_loop (fun t raw => indent <$> message jp (lookup_sc tbl (ByInt (t_syscall t))) None raw t) p "json" tty msgs = (outs, alive) ->
  (alive = false <->
   exists j x bs r, evs !! j = Some x /\ msgs !! j = Some bs /\ ingest_bytes bs = Some r
     /\ (decoder (ev_nr (fst x)) = None \/ ends_the_server jp (r_args r) (ev_nr (fst x)))).
Proof. intros indent jp tbl. exact (json_alive indent jp (fun t => lookup_sc tbl (ByInt (t_syscall t)))). Qed.
Print Assumptions C97_json_ends_iff.

(** ** A run *)

Definition demo_ops : list kop :=
  [ KEnter 7 (Task 5 1 3) [4] 0 1000; KEnter 8 (Task 6 2 0) [0; 0; 8] 0 1001;
    KExit 7 (Task 5 1 3) 0 6000 0; KExit 8 (Task 6 2 0) 8 6001 0;
    KExecve 9 (Task 5 3 59) [] 0 7000 1 ].
Definition demo_run : kstate * list kout :=
  match install table ["close"; "sys_execve"] with Some m => krun table (fresh_kernel m) demo_ops | None => (fresh_kernel (KMaps ∅ ∅), []) end.
Definition sh : surroundings := Surroundings 3 0 0 0 0 0 0 ([115; 104] ++ repeat 0 14) (fun _ => None).

Example C97_demo_events : map o_event demo_run.2 =
  [None; None; Some (KEvent 7 0 3 1000 6000 5 [4] 0); None; Some (KEvent 9 0 59 7000 7000 5 [] 0)].
Proof. vm_compute. reflexivity. Qed.
Example C97_demo_hypotheses : no_edits demo_ops /\ few_threads demo_ops /\ (forall tid, takes_turns demo_ops tid).
Proof.
  split; [|split].
  - intros o H. unfold demo_ops in H. repeat (apply elem_of_cons in H as [H|H]; [discriminate|]). apply not_elem_of_nil in H. exact H.
  - unfold few_threads. assert (H : (size (list_to_set (enters demo_ops) : gset Z) <=? 2)%nat = true) by (vm_compute; reflexivity). apply Nat.leb_le in H. lia.
  - intros tid i j H (t & a & u & n & Hi) (t' & a' & u' & n' & Hj).
    destruct j as [|[|[|[|[|j]]]]]; try discriminate Hj; [lia|]. destruct i as [|i]; [|lia]. cbn in Hi, Hj. congruence.
Qed.
Example C97_demo_line :
  print_loop (fun _ _ => None) (fun _ _ => Printer (fun _ _ _ => []) (fun _ => text_bytes " 0.005")) "cli" false
    [emit (KEvent 7 0 3 1000 6000 5 [4] 0) sh (repeat 0 736)]
  = ([text_bytes "( 0.005ms) [             sh/7       ] (         OK) close((int)fd=4)" ++ [10]], true).
Proof. vm_compute. reflexivity. Qed.
Example C97_demo_record : record_of (KEvent 7 0 3 1000 6000 5 [4] 0, sh) (emit (KEvent 7 0 3 1000 6000 5 [4] 0) sh (repeat 0 736) ++ []).
Proof. split; [split; cbn; lia|]. exists (repeat 0 736), []. split; reflexivity. Qed.
(** A read of -1 bytes ends a trace in JSON, and not one in lines. *)
Definition read_minus_one : list Z := emit (KEvent 7 0 0 1000 6000 5 [3; 4096; -1] (-14)) sh (repeat 0 736).
Example C97_demo_json_ends :
  snd (print_loop (fun t raw => message (JParams (fun l => l) 0 []) None None raw t) (fun _ _ => Printer (fun _ _ _ => []) (fun _ => [])) "json" false [read_minus_one]) = false
  /\ snd (print_loop (fun _ _ => None) (fun _ _ => Printer (fun _ _ _ => []) (fun _ => [])) "cli" false [read_minus_one]) = true
  /\ forallb (fun b => (0 <=? b) && (b <? 256)) read_minus_one = true.
Proof. vm_compute. repeat split; reflexivity. Qed.
