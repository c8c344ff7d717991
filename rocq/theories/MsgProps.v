(** C93: the message the server sends for an event. *)
From Coq Require Import ZArith String Ascii Lia.
From stdpp Require Import base list numbers strings pretty gmap.
From Verif Require Import SyscallTable SyscallModel SyscallSpec SyscallProofs TopoModel RawModel RawSpec CodecTables
  CodecModel JsonModel JsonSpec JsonProofs RawProofs LineModel DecodeModel MsgModel MsgSpec MsgProofs MsgBound MsgRead.

Local Open Scope string_scope.
Local Open Scope list_scope.
Local Open Scope Z_scope.

(** A string in a message is read back by any JSON reader as the string, with U+FFFD
    for each byte that is not part of a well-formed sequence. *)
Theorem C93_strings_read_back : forall bs, bytes bs ->
  exists s, quote bs = [34] ++ s ++ [34] /\ unesc s = Some (json_text bs).
Proof. exact read_back. Qed.

(** So well-formed strings come back as they were. *)
Theorem C93_well_formed_strings_read_back : forall bs, bytes bs -> well_formed bs ->
  exists s, quote bs = [34] ++ s ++ [34] /\ unesc s = Some bs.
Proof.
  intros bs Hb Hw. destruct (read_back bs Hb) as (s & H1 & H2). exists s. split; [exact H1|].
  rewrite H2. f_equal. apply json_text_iff; assumption.
Qed.

(** Byte strings are read back as they were. *)
Theorem C93_bytes_read_back : forall bs, bytes bs -> unb64 (b64 bs) = Some bs.
Proof. intros bs. exact (unb64_b64 _ bs (Nat.le_refl _)). Qed.

(** The events that can be read and of which no message can be made, so that the server
    ends: exactly these. *)
Theorem C93_no_message_iff : forall p sc c bs t r,
  bytes bs -> ingest (InBytes bs) = Ingested t -> ingest_bytes bs = Some r ->
  (message p sc c (r_args r) t = None <-> ends_the_server p (r_args r) (t_syscall t)).
Proof. exact message_none. Qed.

(** Every other event has a message. *)
Theorem C93_every_event_has_a_message : forall p sc c bs t r,
  bytes bs -> ingest (InBytes bs) = Ingested t -> ingest_bytes bs = Some r ->
  ~ ends_the_server p (r_args r) (t_syscall t) ->
  is_Some (message p sc c (r_args r) t).
Proof. exact message_some. Qed.

(** The message of an event whose strings are ordinary text, with no slice over 1024
    bytes and a container's description up to 1896 bytes, is within the client's
    limit. *)
Theorem C93_ordinary_events_fit : forall p tbl c bs t r msg,
  reasonable p -> go_table tbl -> bytes bs -> ingest (InBytes bs) = Ingested t -> ingest_bytes bs = Some r ->
  short_slices (t_argv t) -> ordinary_strings (t_argv t) -> (length (container_text c) <= 1896)%nat ->
  message p (lookup_sc tbl (ByInt (t_syscall t))) c (r_args r) t = Some msg ->
  (length msg <= message_limit)%nat.
Proof. exact ordinary_fit. Qed.

(** With any strings, if the container's description is up to 286 bytes. *)
Theorem C93_events_of_small_containers_fit : forall p tbl c bs t r msg,
  reasonable p -> go_table tbl -> bytes bs -> ingest (InBytes bs) = Ingested t -> ingest_bytes bs = Some r ->
  short_slices (t_argv t) -> (length (container_text c) <= 286)%nat ->
  message p (lookup_sc tbl (ByInt (t_syscall t))) c (r_args r) t = Some msg ->
  (length msg <= message_limit)%nat.
Proof. exact any_fit. Qed.

(** No mprotect of a page or more fits: the message shows the memory behind the
    event, as many bytes as the call's length argument says. *)
Theorem C93_mprotect_messages_never_fit : forall p tbl c bs t r msg l,
  bytes bs -> ingest (InBytes bs) = Ingested t -> ingest_bytes bs = Some r -> t_syscall t = 10 ->
  c64 (r_args r) (slot_start 1) = Some l -> 3073 <= l -> (Z.to_nat l <= length (j_heap p))%nat ->
  message p (lookup_sc tbl (ByInt (t_syscall t))) c (r_args r) t = Some msg ->
  (message_limit < length msg)%nat.
Proof. exact mprotect_pages. Qed.

(** * Concrete cases *)

(** An event: ids, times and namespaces zero, the name and the arguments given. *)
Definition event_bytes (nr : Z) (comm args : list Z) : list Z :=
  replicate 16 0 ++ to_le 4 nr ++ replicate 60 0 ++ comm ++ replicate (16 - length comm) 0
  ++ args ++ replicate (640 - length args) 0.
Definition plain_params (heap : list Z) : jparams := JParams (fun l => l) 0 heap.

Lemma plain_reasonable n : reasonable (plain_params (replicate n 65)).
Proof.
  split; [reflexivity| |cbn; lia]. cbn [plain_params j_heap]. unfold bytes.
  apply Forall_replicate. lia.
Qed.

(** mprotect(addr, 4096, PROT_READ). *)
Definition mprotect_event : list Z :=
  event_bytes 10 (txt "java") (replicate 128 0 ++ to_le 8 4096 ++ replicate 120 0 ++ [1]).

Lemma mprotect_event_bytes : bytes mprotect_event.
Proof.
  assert (H : forallb (fun b => (0 <=? b) && (b <? 256)) mprotect_event = true) by (vm_compute; reflexivity).
  unfold bytes. apply Forall_forall. intros b Hb. rewrite forallb_forall in H.
  apply elem_of_list_In in Hb. specialize (H b Hb). apply andb_true_iff in H.
  rewrite Z.leb_le, Z.ltb_lt in H. exact H.
Qed.

Theorem C93_every_message_fits_refuted :
  ~ forall p tbl c bs t r msg,
      reasonable p -> go_table tbl -> bytes bs -> ingest (InBytes bs) = Ingested t -> ingest_bytes bs = Some r ->
      message p (lookup_sc tbl (ByInt (t_syscall t))) c (r_args r) t = Some msg ->
      (length msg <= message_limit)%nat.
Proof.
  intros H. pose proof mprotect_event_bytes as Hb.
  assert (Hc : match ingest (InBytes mprotect_event), ingest_bytes mprotect_event with
     | Ingested t, Some r =>
         (t_syscall t =? 10) && match c64 (r_args r) (slot_start 1) with Some l => l =? 4096 | None => false end
     | _, _ => false end = true) by (vm_compute; reflexivity).
  destruct (ingest (InBytes mprotect_event)) as [t| |] eqn:Hi; [|discriminate..].
  destruct (ingest_bytes mprotect_event) as [r|] eqn:Hr; [|discriminate].
  apply andb_true_iff in Hc. destruct Hc as [Hn Hl]. apply Z.eqb_eq in Hn.
  destruct (c64 (r_args r) (slot_start 1)) as [l|] eqn:Hl2; [|discriminate]. apply Z.eqb_eq in Hl. subst l.
  set (p := plain_params (replicate 4096 65)).
  assert (Hne : ~ ends_the_server p (r_args r) (t_syscall t)).
  { intros [[Hx _]|[[Hx _]|(_ & n & Hx & Hg)]].
    - rewrite Hn in Hx. cbn in Hx. lia.
    - lia.
    - assert (n = 4096) by congruence. unfold p in Hg. cbn [plain_params j_heap] in Hg. rewrite replicate_length in Hg. lia. }
  destruct (message_some p (lookup_sc table (ByInt (t_syscall t))) None mprotect_event t r Hb Hi Hr Hne) as [msg Hm].
  specialize (H p table None _ _ _ msg (plain_reasonable _) go_table_intro Hb Hi Hr Hm).
  assert (Hlen : (Z.to_nat 4096 <= length (j_heap p))%nat).
  { unfold p. cbn [plain_params j_heap]. rewrite replicate_length. lia. }
  pose proof (mprotect_pages p table None _ t r msg 4096 Hb Hi Hr Hn Hl2 ltac:(lia) Hlen Hm).
  lia.
Qed.

(** read(0, buf, -1): a call any process can make; the kernel fails it with EFAULT, and the
    server ends when it shows it. *)
Definition read_event : list Z :=
  event_bytes 0 (txt "sh") (replicate 256 0 ++ replicate 8 255).

Theorem C93_every_event_has_a_message_refuted :
  ~ forall p sc c bs t r,
      reasonable p -> bytes bs -> ingest (InBytes bs) = Ingested t -> ingest_bytes bs = Some r ->
      is_Some (message p sc c (r_args r) t).
Proof.
  intros H.
  assert (Hb : bytes read_event).
  { assert (Hc : forallb (fun b => (0 <=? b) && (b <? 256)) read_event = true) by (vm_compute; reflexivity).
    unfold bytes. apply Forall_forall. intros b Hb. rewrite forallb_forall in Hc.
    apply elem_of_list_In in Hb. specialize (Hc b Hb). apply andb_true_iff in Hc.
    rewrite Z.leb_le, Z.ltb_lt in Hc. exact Hc. }
  assert (Hc : match ingest (InBytes read_event), ingest_bytes read_event with
     | Ingested t, Some r =>
         (t_syscall t =? 0) && match c64 (r_args r) (slot_start 2) with Some l => l =? -1 | None => false end
     | _, _ => false end = true) by (vm_compute; reflexivity).
  destruct (ingest (InBytes read_event)) as [t| |] eqn:Hi; [|discriminate..].
  destruct (ingest_bytes read_event) as [r|] eqn:Hr; [|discriminate].
  apply andb_true_iff in Hc. destruct Hc as [Hn Hl]. apply Z.eqb_eq in Hn.
  destruct (c64 (r_args r) (slot_start 2)) as [l|] eqn:Hl2; [|discriminate]. apply Z.eqb_eq in Hl. subst l.
  destruct (H (plain_params (replicate 4096 65)) None None _ _ _ (plain_reasonable _) Hb Hi Hr) as [msg Hm].
  assert (message (plain_params (replicate 4096 65)) None None (r_args r) t = None); [|congruence].
  apply (message_none _ _ _ _ _ _ Hb Hi Hr). left. split; [left; congruence|]. exists (-1). split; [exact Hl2|lia].
Qed.

(** execve of a program whose name and arguments are control characters, in a pod
    with a long name and a few labels: no slice at all, and still too long. *)
Definition execve_event : list Z := event_bytes 59 (txt "sh") (replicate 512 1).
Definition long_text (n : nat) : string := string_of_list_ascii (repeat "a"%char n).
Definition long_container : container (list (string * string)) :=
  {| c_id := long_text 64; c_pod := long_text 253; c_sandbox := long_text 64; c_name := long_text 63;
     c_image := long_text 100; c_namespace := long_text 63; c_labels := [("app", long_text 63)];
     c_pid := 1; c_pidns := 2 |}.

Theorem C93_short_slices_do_not_suffice : exists t r msg,
  ingest (InBytes execve_event) = Ingested t /\ ingest_bytes execve_event = Some r /\
  short_slices (t_argv t) /\
  message (plain_params []) (lookup_sc table (ByInt (t_syscall t))) (Some long_container) (r_args r) t = Some msg /\
  (message_limit < length msg)%nat.
Proof.
  assert (Hc : match ingest (InBytes execve_event), ingest_bytes execve_event with
     | Ingested t, Some r =>
         forallb (fun v => match v with VSlice _ n => n <=? 1024 | _ => true end) (t_argv t) &&
         match message (plain_params []) (lookup_sc table (ByInt (t_syscall t))) (Some long_container) (r_args r) t with
         | Some msg => (message_limit <? length msg)%nat | None => false end
     | _, _ => false end = true) by (vm_compute; reflexivity).
  destruct (ingest (InBytes execve_event)) as [t| |] eqn:Hi; [|discriminate..].
  destruct (ingest_bytes execve_event) as [r|] eqn:Hr; [|discriminate]. exists t, r.
  apply andb_true_iff in Hc. destruct Hc as [H1 H2].
  destruct (message (plain_params []) (lookup_sc table (ByInt (t_syscall t))) (Some long_container) (r_args r) t)
    as [msg|]; [|discriminate].
  exists msg. split; [reflexivity|]. split; [reflexivity|]. split; [|split; [reflexivity|apply Nat.ltb_lt, H2]].
  intros off n Hin. rewrite forallb_forall in H1. apply elem_of_list_In in Hin.
  specialize (H1 _ Hin). apply Z.leb_le, H1.
Qed.

(** close(3) by sh: its message, in full. *)
Definition close_event : list Z := event_bytes 3 (txt "sh") (to_le 4 3).
(** Text with single for double quotes. *)
Definition js (s : string) : list Z := map (fun b => if b =? 39 then 34 else b) (txt s).

Example C93_close_message :
  match ingest (InBytes close_event), ingest_bytes close_event with
  | Ingested t, Some r =>
      message (plain_params []) (lookup_sc table (ByInt (t_syscall t))) None (r_args r) t
  | _, _ => None
  end
  = Some (js "{'syscall':{'nr':3,'name':'sys_close','class':'FileSystem','group':'Files'},'pid':0,'tid':0,'container_pid':0,'uid':0,'gid':0,'comm':'sh','session':0,'container':null,'error':'OK','return':0,'pid_ns':0,'uts_ns':0,'mount_ns':0,'start':0,'finish':0,'args':{'FD':3}}"
     ++ [10]).
Proof. vm_compute. reflexivity. Qed.

Example C93_ordinary_nonvacuous : exists t r,
  ingest (InBytes close_event) = Ingested t /\ ingest_bytes close_event = Some r /\
  ordinary_strings (t_argv t) /\ short_slices (t_argv t).
Proof.
  assert (Hc : match ingest (InBytes close_event), ingest_bytes close_event with
     | Ingested t, Some r =>
         forallb (fun v => match v with VInt _ => true | _ => false end) (t_argv t)
     | _, _ => false end = true) by (vm_compute; reflexivity).
  destruct (ingest (InBytes close_event)) as [t| |] eqn:Hi; [|discriminate..].
  destruct (ingest_bytes close_event) as [r|] eqn:Hr; [|discriminate]. exists t, r.
  rewrite forallb_forall in Hc.
  split; [reflexivity|]. split; [reflexivity|]. split.
  - intros s Hs. apply elem_of_list_In in Hs. specialize (Hc _ Hs). discriminate.
  - intros off n Hs. apply elem_of_list_In in Hs. specialize (Hc _ Hs). discriminate.
Qed.

Example C93_strings_nonvacuous :
  bytes (txt "a<b" ++ [10; 255]) /\ quote (txt "a<b" ++ [10; 255]) = js "'a\u003cb\n\ufffd'".
Proof.
  split; [|vm_compute; reflexivity]. unfold bytes. repeat constructor; vm_compute; congruence.
Qed.

Print Assumptions C93_strings_read_back.
Print Assumptions C93_well_formed_strings_read_back.
Print Assumptions C93_bytes_read_back.
Print Assumptions C93_no_message_iff.
Print Assumptions C93_every_event_has_a_message.
Print Assumptions C93_every_event_has_a_message_refuted.
Print Assumptions C93_ordinary_events_fit.
Print Assumptions C93_events_of_small_containers_fit.
Print Assumptions C93_mprotect_messages_never_fit.
Print Assumptions C93_every_message_fits_refuted.
Print Assumptions C93_short_slices_do_not_suffice.
