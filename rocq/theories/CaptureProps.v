(** C35, C58, C59: a traced call is shown with its arguments and its result, and
    with nothing of another call. *)
From stdpp Require Import base list numbers strings pretty gmap.
From Coq Require Import ZArith Lia.
From Verif Require Import RawModel RawSpec RawProofs DecodeModel DecodeSpec DecodeProofs
  FilterModel KernelModel KernelSpec KernelProofs CaptureModel CaptureSpec CaptureProofs.

Local Open Scope Z_scope.

(** ** C35 *)

(** Every member of every decoder, except the listed ones, has a documented
    meaning, and for every call shows it: whatever the registers, the memory, the
    result and the bytes left in the scratch slots. *)
Theorem C35_members_show_the_arguments :
  forall nr fs f,
    decoder nr = Some fs -> In f fs -> is_wrong nr (f_name f) = false ->
    exists m, doc nr (f_name f) = Some m /\
      forall regs mem ret old sh,
        length old = 640%nat -> expected regs mem m = Some sh ->
        member_shown f (captured_args nr regs mem ret old) = Some sh.
Proof. exact members_shown. Qed.

(** The listed ones: each is wrong for some call... *)
Theorem C35_every_member_is_right_refuted :
  forall nr name m' m,
    (nr, name, m') ∈ wrong_members -> doc nr name = Some m -> m <> Nothing ->
    exists fs f regs mem ret old sh,
      decoder nr = Some fs /\ In f fs /\ f_name f = name /\ length old = 640%nat
      /\ expected regs mem m = Some sh
      /\ member_shown f (captured_args nr regs mem ret old) <> Some sh.
Proof. exact wrong_refuted. Qed.

(** ... and shows something else instead. *)
Theorem C35_what_wrong_members_show :
  forall nr name m fs f regs mem ret old sh,
    (nr, name, Some m) ∈ wrong_members -> decoder nr = Some fs -> In f fs -> f_name f = name ->
    length old = 640%nat -> expected regs mem m = Some sh ->
    member_shown f (captured_args nr regs mem ret old) = Some sh.
Proof. exact wrong_shown. Qed.

(** Strings shorter than 128 bytes are shown whole, longer ones are cut at 128. *)
Theorem C35_short_strings_are_whole :
  forall nr fs f i regs mem ret old s rest,
    decoder nr = Some fs -> In f fs -> is_wrong nr (f_name f) = false ->
    doc nr (f_name f) = Some (Text i) -> length old = 640%nat ->
    0 ∉ s -> load mem (nth i regs 0) 128 = Some (s ++ 0 :: rest) ->
    member_shown f (captured_args nr regs mem ret old) = Some (ShBytes s).
Proof. exact short_text. Qed.

Theorem C35_long_strings_are_cut :
  forall nr fs f i regs mem ret old s,
    decoder nr = Some fs -> In f fs -> is_wrong nr (f_name f) = false ->
    doc nr (f_name f) = Some (Text i) -> length old = 640%nat ->
    0 ∉ s -> (128 <= length s)%nat -> load mem (nth i regs 0) (length s) = Some s ->
    member_shown f (captured_args nr regs mem ret old) = Some (ShBytes (take 128 s)).
Proof. exact long_text. Qed.

(** A string is lost when the 128 bytes from its start are not all readable... *)
Theorem C35_strings_near_unreadable_memory_are_lost :
  forall nr fs f i regs mem ret old,
    decoder nr = Some fs -> In f fs -> is_wrong nr (f_name f) = false ->
    doc nr (f_name f) = Some (Text i) -> length old = 640%nat ->
    load mem (nth i regs 0) 128 = None ->
    member_shown f (captured_args nr regs mem ret old) = Some (ShBytes []).
Proof. exact unreadable_text. Qed.

(** ... even if the whole string is: "/etc" at the end of a page, for open. *)
Theorem C35_readable_strings_are_shown_refuted :
  exists mem regs old,
    load mem (nth 0 regs 0) 5 = Some [47; 101; 116; 99; 0] /\ length old = 640%nat
    /\ member_shown (Field "filename" 0 KStr) (captured_args 2 regs mem 3 old) = Some (ShBytes []).
Proof.
  exists (fun a => if (a <? 4091) || (4096 <=? a) then None
                   else nth_error [47; 101; 116; 99; 0] (Z.to_nat (a - 4091))).
  exists [4091; 0; 0], (repeat 0 640).
  split; [reflexivity|]. split; [reflexivity|]. vm_compute. reflexivity.
Qed.

(** The same through the whole path: the bytes sent by the tracepoint, whatever
    the scratch buffer held and whatever follows them in the ring, are ingested as
    an event with the fields of the call and the arguments as made. *)
Theorem C35_end_to_end :
  forall e su scratch trailing fs,
    surroundings_ok e su -> length scratch = 736%nat -> decoder (ev_nr e) = Some fs ->
    exists t,
      ingest (InBytes (emit e su scratch ++ trailing)) = Ingested t
      /\ t_syscall t = ev_nr e
      /\ t_pid t = ev_tid e mod 2 ^ 32 /\ t_tid t = ev_tid e / 2 ^ 32
      /\ t_uid t = ev_ugid e mod 2 ^ 32 /\ t_gid t = ev_ugid e / 2 ^ 32
      /\ t_pid_ns t = ev_pidns e
      /\ t_start t = s64 (ev_entr e) /\ t_finish t = s64 (ev_exit e)
      /\ t_comm t = until_nul (su_comm su)
      /\ t_return t = c_ret (capture_event e su scratch)
      /\ t_error t = c_errno (capture_event e su scratch)
      /\ length (t_argv t) = length fs
      /\ forall j f m sh,
           fs !! j = Some f -> is_wrong (ev_nr e) (f_name f) = false ->
           doc (ev_nr e) (f_name f) = Some m ->
           expected (ev_enter e) (su_mem su) m = Some sh ->
           exists v, t_argv t !! j = Some v
             /\ show (captured_args (ev_nr e) (ev_enter e) (su_mem su) (ev_ret e)
                        (scratch_args scratch)) v = Some sh.
Proof. exact end_to_end. Qed.

(** Composed with the tracepoints: in any history of the machine in which the
    task's entries and exits alternate, the event of an exit is ingested with the
    arguments the task passed at its own last entry. *)
Theorem C35_event_shows_the_call_that_was_made :
  forall tbl maps l s rs k tid t ret now cpu r ev su scratch trailing fs,
    krun tbl (fresh_kernel maps) l = (s, rs) -> takes_turns l tid ->
    l !! k = Some (KExit tid t ret now cpu) -> rs !! k = Some r -> o_event r = Some ev ->
    surroundings_ok ev su -> length scratch = 736%nat -> decoder (ev_nr ev) = Some fs ->
    exists i t' args ugid now' te,
      just_before l i k tid /\ l !! i = Some (KEnter tid t' args ugid now')
      /\ ingest (InBytes (emit ev su scratch ++ trailing)) = Ingested te
      /\ t_syscall te = FilterModel.u32 (t_id t)
      /\ forall j f m sh,
           fs !! j = Some f -> is_wrong (ev_nr ev) (f_name f) = false ->
           doc (ev_nr ev) (f_name f) = Some m -> expected args (su_mem su) m = Some sh ->
           exists v, t_argv te !! j = Some v
             /\ show (captured_args (ev_nr ev) args (su_mem su) ret (scratch_args scratch)) v
                = Some sh.
Proof.
  intros tbl maps l s rs k tid t ret now cpu r ev su scratch trailing fs R T K Rk E S L D.
  destruct (event_pairs tbl (fresh_kernel maps) l s rs k tid t ret now cpu r ev eq_refl R T K Rk E)
    as (i & t' & args & ugid & now' & J & I & _ & _ & X).
  destruct (end_to_end ev su scratch trailing fs S L D)
    as (te & G & Y & _ & _ & _ & _ & _ & _ & _ & _ & _ & _ & _ & A).
  exists i, t', args, ugid, now', te. split; [exact J|]. split; [exact I|].
  split; [exact G|]. subst ev. split; [exact Y|]. exact A.
Qed.

(** A connect to 10.0.0.1 port 80 in the memory at 4096. *)
Definition ex_mem : memory := fun a =>
  if (a <? 4096) || (8192 <=? a) then None
  else Some (nth (Z.to_nat (a - 4096)) [2; 0; 0; 80; 10; 0; 0; 1] 0).
Definition ex_ev : kevent := KEvent (7 + 2 ^ 32 * 7) (1000 + 2 ^ 32 * 100) 42 5 9 3 [4; 4096; 16] (-111).
Definition ex_su : surroundings := Surroundings 1 1 2 3 4 5 6 (repeat 0 16) ex_mem.

Example C35_example :
  surroundings_ok ex_ev ex_su /\ length (repeat 9 736) = 736%nat
  /\ decoder (ev_nr ex_ev) = Some [Field "fd" 0 KS32; Field "saddr" 1 KSock]
  /\ is_wrong 42 "saddr" = false /\ doc 42 "saddr" = Some (Address 1)
  /\ expected (ev_enter ex_ev) ex_mem (Address 1) = Some (ShSock ("ipv4:10.0.0.1", 80))
  /\ exists t, ingest (InBytes (emit ex_ev ex_su (repeat 9 736))) = Ingested t
     /\ t_argv t = [VInt 4; VSock 128] /\ t_error t = 111.
Proof.
  split; [constructor; cbn; lia|]. split; [reflexivity|].
  split; [vm_compute; reflexivity|]. split; [vm_compute; reflexivity|].
  split; [vm_compute; reflexivity|]. split; [vm_compute; reflexivity|].
  eexists. split; [vm_compute; reflexivity|]. split; reflexivity.
Qed.

Example C35_example_strings :
  doc 2 "filename" = Some (Text 0) /\ is_wrong 2 "filename" = false
  /\ (exists fs, decoder 2 = Some fs /\ In (Field "filename" 0 KStr) fs)
  /\ load (fun a => Some (if a =? 2 then 0 else 47)) 0 128
     = Some ([47; 47] ++ 0 :: repeat 47 125).
Proof.
  split; [vm_compute; reflexivity|]. split; [vm_compute; reflexivity|].
  split; [eexists; split; [vm_compute; reflexivity|cbn; tauto]|]. vm_compute. reflexivity.
Qed.

Example C35_example_wrong :
  (288, "flags", Some (Arg Int 2)) ∈ wrong_members /\ doc 288 "flags" = Some (Arg Int 3).
Proof. split; [apply elem_of_list_In; cbn; tauto|vm_compute; reflexivity]. Qed.

(** ** C58 *)

(** Every decoded syscall but execve has a filler, so its result is captured. *)
Theorem C58_decoded_syscalls_have_results :
  forall nr fs, decoder nr = Some fs -> nr = 59 \/ is_Some (filler nr).
Proof. intros nr fs H. apply (decoder_ops nr fs H). Qed.

(** A failed call shows its error number... *)
Theorem C58_failure_shows_its_errno :
  forall nr regs mem ret old,
    is_Some (filler nr) -> nr <> 79 -> -4095 <= ret < 0 ->
    c_errno (capture nr regs mem ret old) = - ret
    /\ c_ret (capture nr regs mem ret old) = 2 ^ 32 + ret.
Proof. exact result_failed. Qed.

(** ... and a successful one its result, when it is an int. *)
Theorem C58_success_shows_its_result :
  forall nr regs mem ret old,
    is_Some (filler nr) -> nr <> 79 -> 0 <= ret < 2 ^ 31 ->
    c_errno (capture nr regs mem ret old) = 0
    /\ c_ret (capture nr regs mem ret old) = ret.
Proof. exact result_ok. Qed.

(** Larger results (the address brk returns) are taken for errors when bit 31 is
    set. *)
Theorem C58_success_is_never_an_error_refuted :
  forall nr regs mem ret old,
    is_Some (filler nr) -> nr <> 79 -> 2 ^ 31 <= ret mod 2 ^ 32 ->
    c_errno (capture nr regs mem ret old) <> 0.
Proof. exact result_large. Qed.

(** getcwd (79) never shows an error, whatever it returned. *)
Theorem C58_getcwd_failure_is_shown_refuted :
  forall regs mem ret old,
    - 2 ^ 31 <= ret < 2 ^ 31 -> ret <> 0 -> c_errno (capture 79 regs mem ret old) = 0.
Proof. exact result_getcwd. Qed.

(** Only a null result, which the system call does not have, would be one: -1. *)
Theorem C58_getcwd_null :
  forall regs mem old, c_errno (capture 79 regs mem 0 old) = 2 ^ 32 - 1.
Proof. intros regs mem old. reflexivity. Qed.

(** A call without a filler shows no error and no result, whatever it returned. *)
Theorem C58_every_result_is_shown_refuted :
  forall nr regs mem ret old,
    filler nr = None ->
    c_errno (capture nr regs mem ret old) = 0 /\ c_ret (capture nr regs mem ret old) = 0.
Proof. intros nr regs mem ret old H. unfold capture. rewrite H. done. Qed.

(** All its arguments are empty texts, whatever an earlier call left in the buffer. *)
Theorem C58_nothing_is_left_over :
  forall nr regs mem ret old slot, filler nr = None -> length old = 640%nat -> (slot < 5)%nat ->
    c_args (capture nr regs mem ret old) !! (slot * 128)%nat = Some 0.
Proof.
  intros nr regs mem ret old slot F L H. unfold capture. rewrite F. cbn [c_args fold_left].
  assert (W : forall o b, (o < 640)%nat -> length b = 640%nat -> length (write_at o [0] b) = 640%nat) by (intros o b Ho Hb; rewrite write_at_length; cbn [length]; lia).
  assert (P : forall o b i, (o < 640)%nat -> length b = 640%nat -> write_at o [0] b !! i = if decide (i = o) then Some 0 else b !! i).
  { intros o b i Ho Hb. rewrite write_at_lookup by (cbn [length]; lia). cbn [length]. destruct (decide (i = o)) as [->|N].
    - rewrite decide_True by lia. replace (o - o)%nat with 0%nat by lia. reflexivity.
    - rewrite decide_False by lia. reflexivity. }
  assert (forall s, (s < 5)%nat -> (slot_start s < 640)%nat) by (intros s Hs; unfold slot_start; change arg_len with 128%nat; lia).
  rewrite !P by (repeat apply W; auto with lia). unfold slot_start. change arg_len with 128%nat.
  repeat (destruct (decide _); [reflexivity|]). lia.
Qed.

(** execve is reported when it is entered: without a result, and without an error. *)
Theorem C58_execve_has_no_result :
  forall regs mem old, c_errno (capture_execve regs mem old) = 0 /\ c_ret (capture_execve regs mem old) = 0.
Proof. intros regs mem old. split; reflexivity. Qed.

Example C58_example :
  is_Some (filler 12) /\ 2 ^ 31 <= (2 ^ 46 + 2 ^ 31 + 4096) mod 2 ^ 32 /\ filler 39 = None
  /\ c_errno (capture 2 [0; 0; 0] (fun _ => None) (-2) (repeat 0 640)) = 2.
Proof.
  split; [eexists; vm_compute; reflexivity|]. split; [vm_compute; discriminate|].
  split; vm_compute; reflexivity.
Qed.

(** ** C59 *)

(** Apart from the listed members, nothing shown depends on what earlier calls
    left in the slots. *)
Theorem C59_nothing_shown_is_left_over :
  forall nr fs f regs mem ret ret' old old',
    decoder nr = Some fs -> In f fs -> may_be_stale nr (f_name f) = false ->
    length old = 640%nat -> length old' = 640%nat ->
    member_shown f (captured_args nr regs mem ret old)
    = member_shown f (captured_args nr regs mem ret' old').
Proof. exact no_stale_bytes. Qed.

(** Each of the listed ones does. *)
Theorem C59_no_member_is_left_over_refuted :
  forall nr name,
    (nr, name) ∈ stale_members ->
    exists fs f regs mem ret old old',
      decoder nr = Some fs /\ In f fs /\ f_name f = name
      /\ length old = 640%nat /\ length old' = 640%nat
      /\ member_shown f (captured_args nr regs mem ret old)
         <> member_shown f (captured_args nr regs mem ret old').
Proof. exact stale_bytes. Qed.

(** faccessat's flags are nothing but left-over bytes, for every call. *)
Theorem C59_faccessat_flags_are_left_over :
  forall regs mem ret old,
    length old = 640%nat ->
    member_shown (Field "flags" 3 KS32) (captured_args 269 regs mem ret old)
    = Some (ShInt (s32 (le (take 4 (drop 384 old))))).
Proof. exact faccessat_stale. Qed.

(** In the raw event every slot a call does not fill holds the bytes of the
    previous event of that CPU. *)
Theorem C59_raw_slots_are_left_over :
  forall nr ops e regs mem ret old s n,
    filler nr = Some (ops, e) -> s ∉ map op_slot ops -> (n <= 128)%nat ->
    length old = 640%nat ->
    take n (drop (128 * s) (c_args (capture nr regs mem ret old)))
    = take n (drop (128 * s) old).
Proof. exact raw_slots_stale. Qed.

(** After one container writes a secret, a close in another shows it. *)
Example C59_example :
  filler 3 = Some ([Reg 0 0], LtZero) /\ 1%nat ∉ map op_slot [Reg 0 0]
  /\ exists old, old = c_args (capture 1 [1; 0; 6] (fun a => Some (100 + a)) 6 (repeat 0 640))
     /\ take 6 (drop 128 (c_args (capture 3 [4] (fun _ => None) 0 old)))
        = [100; 101; 102; 103; 104; 105].
Proof.
  split; [vm_compute; reflexivity|].
  split; [intros H; apply elem_of_list_In in H; cbn in H; lia|].
  eexists. split; [reflexivity|]. vm_compute. reflexivity.
Qed.

Example C59_example_members :
  may_be_stale 42 "saddr" = false /\ (5, "stat_buf") ∈ stale_members.
Proof. split; [vm_compute; reflexivity|apply elem_of_list_In; cbn; tauto]. Qed.

Print Assumptions C35_members_show_the_arguments.
Print Assumptions C35_every_member_is_right_refuted.
Print Assumptions C35_what_wrong_members_show.
Print Assumptions C35_short_strings_are_whole.
Print Assumptions C35_long_strings_are_cut.
Print Assumptions C35_strings_near_unreadable_memory_are_lost.
Print Assumptions C35_readable_strings_are_shown_refuted.
Print Assumptions C35_end_to_end.
Print Assumptions C35_event_shows_the_call_that_was_made.
Print Assumptions C58_decoded_syscalls_have_results.
Print Assumptions C58_failure_shows_its_errno.
Print Assumptions C58_success_shows_its_result.
Print Assumptions C58_success_is_never_an_error_refuted.
Print Assumptions C58_getcwd_failure_is_shown_refuted.
Print Assumptions C58_getcwd_null.
Print Assumptions C58_every_result_is_shown_refuted.
Print Assumptions C59_nothing_shown_is_left_over.
Print Assumptions C59_no_member_is_left_over_refuted.
Print Assumptions C59_faccessat_flags_are_left_over.
Print Assumptions C59_raw_slots_are_left_over.
Print Assumptions C58_nothing_is_left_over.
Print Assumptions C58_execve_has_no_result.
