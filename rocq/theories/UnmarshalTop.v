(** How the client makes an event of a message: the theorems' proofs. *)
From Coq Require Import ZArith String Ascii Lia.
From stdpp Require Import base list numbers strings pretty gmap.
From Verif Require Import TopModel SyscallTable SyscallModel SyscallSpec SyscallProofs TopoModel RawModel RawSpec RawProofs DecodeModel CodecTables CodecModel CodecSpec CodecNames JsonModel JsonSpec JsonProofs LineModel LineProofs TextModel
  MsgModel MsgSpec MsgBound ReadSpec ReadProofs ReadTop PrintModel PrintProofs PrintTop UnmarshalModel UnmarshalSpec UnmarshalProofs.

Local Open Scope string_scope.
Local Open Scope list_scope.
Local Open Scope Z_scope.

(** * The container *)

Lemma member_app l l' k : member_of (l ++ l') k = match member_of l k with Some j => Some j | None => member_of l' k end.
Proof.
  unfold member_of. induction l as [|e l IH]; [reflexivity|]. cbn [app List.find]. destruct (same_key (fst e) k); [reflexivity|exact IH].
Qed.
Lemma member_empty n s k : member_of (unless_empty n s) k = if same_key (txt n) k then (if decide (s = "") then None else Some (js_text s)) else None.
Proof.
  unfold unless_empty. destruct (decide (s = "")).
  - destruct (same_key (txt n) k); reflexivity.
  - unfold member_of. cbn [List.find fst snd]. destruct (same_key (txt n) k); reflexivity.
Qed.
Lemma member_zero n z k : member_of (unless_zero n z) k = if same_key (txt n) k then (if decide (z = 0) then None else Some (JsNum z)) else None.
Proof.
  unfold unless_zero. destruct (decide (z = 0)).
  - destruct (same_key (txt n) k); reflexivity.
  - unfold member_of. cbn [List.find fst snd]. destruct (same_key (txt n) k); reflexivity.
Qed.
Definition labels_json (ls : list (string * string)) : list (list Z * json) :=
  if decide (ls = []) then [] else [(txt "labels", JsObj (map (fun kv => (json_text (txt (fst kv)), js_text (snd kv))) ls))].
Lemma member_labels ls k : member_of (labels_json ls) k
  = if same_key (txt "labels") k then (if decide (ls = []) then None else Some (JsObj (map (fun kv => (json_text (txt (fst kv)), js_text (snd kv))) ls))) else None.
Proof.
  unfold labels_json. destruct (decide (ls = [])).
  - destruct (same_key (txt "labels") k); reflexivity.
  - unfold member_of. cbn [List.find fst snd]. destruct (same_key (txt "labels") k); reflexivity.
Qed.
Lemma text_unless s : match (if decide (s = "") then None else Some (js_text s)) with
  | None | Some JsNull => Some [] | Some (JsStr x) => Some x | Some _ => None end = Some (json_text (txt s)).
Proof. destruct (decide (s = "")) as [->|]; reflexivity. Qed.

Ltac keys_eval :=
  repeat match goal with |- context [same_key (txt ?a) ?b] =>
    let v := eval vm_compute in (same_key (txt a) b) in change (same_key (txt a) b) with v; cbv iota end.

Lemma container_back c rest : member_of rest "container" = Some (container_json c) -> un_container rest = Some (client_container (names_of c)).
Proof.
  intros M. unfold un_container. rewrite M. destruct c as [c|]; [|reflexivity]. cbn [container_json names_of client_container].
  set (l := unless_empty "id" (c_id c) ++ _).
  assert (Hm : forall k, member_of l k =
    match (if same_key (txt "id") k then (if decide (c_id c = "") then None else Some (js_text (c_id c))) else None) with Some j => Some j | None =>
    match (if same_key (txt "pod") k then (if decide (c_pod c = "") then None else Some (js_text (c_pod c))) else None) with Some j => Some j | None =>
    match (if same_key (txt "sandbox-id") k then (if decide (c_sandbox c = "") then None else Some (js_text (c_sandbox c))) else None) with Some j => Some j | None =>
    match (if same_key (txt "name") k then (if decide (c_name c = "") then None else Some (js_text (c_name c))) else None) with Some j => Some j | None =>
    match (if same_key (txt "image") k then (if decide (c_image c = "") then None else Some (js_text (c_image c))) else None) with Some j => Some j | None =>
    match (if same_key (txt "namespace") k then (if decide (c_namespace c = "") then None else Some (js_text (c_namespace c))) else None) with Some j => Some j | None =>
    match member_of (labels_json (c_labels c)) k with Some j => Some j | None =>
    match (if same_key (txt "pid") k then (if decide (c_pid c = 0) then None else Some (JsNum (c_pid c))) else None) with Some j => Some j | None =>
    (if same_key (txt "pid-namespace") k then (if decide (c_pidns c = 0) then None else Some (JsNum (c_pidns c))) else None)
    end end end end end end end end).
  { intros k. unfold l. rewrite !member_app, !member_empty, !member_zero. reflexivity. }
  assert (Ht : forall k s, member_of l k = (if decide (s = "") then None else Some (js_text s)) -> text_at l k = Some (json_text (txt s))).
  { intros k s E. unfold text_at. rewrite E. apply text_unless. }
  assert (Hz : forall k z, member_of l k = (if decide (z = 0) then None else Some (JsNum z)) -> num_at l k = Some z).
  { intros k z E. unfold num_at. rewrite E. destruct (decide (z = 0)) as [->|]; reflexivity. }
  assert (He : forall (o : option json), match o with Some j => Some j | None => None end = o) by (intros []; reflexivity).
  assert (Hid : text_at l "id" = Some (json_text (txt (c_id c)))).
  { apply Ht. rewrite Hm, member_labels. keys_eval. apply He. }
  assert (Hpod : text_at l "pod" = Some (json_text (txt (c_pod c)))).
  { apply Ht. rewrite Hm, member_labels. keys_eval. apply He. }
  assert (Hsb : text_at l "sandbox-id" = Some (json_text (txt (c_sandbox c)))).
  { apply Ht. rewrite Hm, member_labels. keys_eval. apply He. }
  assert (Hname : text_at l "name" = Some (json_text (txt (c_name c)))).
  { apply Ht. rewrite Hm, member_labels. keys_eval. apply He. }
  assert (Himg : text_at l "image" = Some (json_text (txt (c_image c)))).
  { apply Ht. rewrite Hm, member_labels. keys_eval. apply He. }
  assert (Hns : text_at l "namespace" = Some (json_text (txt (c_namespace c)))).
  { apply Ht. rewrite Hm, member_labels. keys_eval. apply He. }
  assert (Hpid : num_at l "pid" = Some (c_pid c)).
  { apply Hz. rewrite Hm, member_labels. keys_eval. apply He. }
  assert (Hpns : num_at l "pid-namespace" = Some (c_pidns c)).
  { apply Hz. rewrite Hm, member_labels. keys_eval. reflexivity. }
  assert (Hl : un_labels l = true).
  { unfold un_labels. rewrite Hm, member_labels. keys_eval. destruct (decide (c_labels c = [])); [reflexivity|].
    apply forallb_forall. intros e I. apply in_map_iff in I. destruct I as (kv & <- & _). reflexivity. }
  cbn [forallb]. rewrite Hl, Hid, Hsb, Himg, Hpid, Hpns, Hname, Hpod, Hns.
  rewrite !bool_decide_eq_true_2 by (eexists; reflexivity). reflexivity.
Qed.

(** * The event *)

Lemma args_back p heap args nr fs vs : forall l srv, reasonable p -> bytes args -> length args = 640%nat ->
  (forall f, In f fs -> field_ok nr f = true) -> decode_fields args fs = Some vs -> server_members args nr fs vs = Some srv ->
  (forall f v, (f, v) ∈ zip fs vs -> exists j, argument_of l (f_name f) = Some j /\ shows p args nr (f_name f) v j) ->
  forallb (present l) fs = true
  /\ mapM (fun f => match argument_of l (f_name f) with Some j => un_member (j_order p) heap (j_base p) nr f j | None => None end) fs
     = client_members (j_order p) heap args nr fs vs.
Proof.
  revert vs. induction fs as [|f fs IH]; intros vs l srv P B L K D S A.
  - cbn [decode_fields] in D. apply Some_inj in D. subst vs. split; reflexivity.
  - cbn [decode_fields] in D. destruct (decode_field args f) as [v|] eqn:Ev; [|discriminate].
    destruct (decode_fields args fs) as [ws|] eqn:Ew; [|discriminate]. apply Some_inj in D. subst vs.
    cbn [server_members] in S. destruct (server_member args nr f v) as [s|] eqn:Es; [|discriminate].
    destruct (server_members args nr fs ws) as [srv'|] eqn:Ess; [|discriminate].
    destruct (IH ws l srv' P B L (fun g Hg => K g (or_intror Hg)) eq_refl Ess) as [H1 H2].
    { intros g w Hz. apply A. cbn [zip zip_with]. right. exact Hz. }
    destruct (A f v) as (j & Ej & Sj); [cbn [zip zip_with]; left|].
    pose proof (un_member_back p heap args nr f v j s P B L (K f (or_introl eq_refl)) Ev Sj Es) as U.
    split.
    + cbn [forallb]. rewrite H1. unfold present. rewrite Ej. pose proof (shows_some _ _ _ _ _ _ Sj). destruct j; [congruence|reflexivity..].
    + cbn [mapM client_members]. rewrite Ej, U, H2. destruct (client_member _ _ _ _ _ _); [|reflexivity]. cbn [mbind option_bind].
      destruct (client_members _ _ _ _ _ _); reflexivity.
Qed.

Lemma client_reads p s c heap bs r t fs srv msg : reasonable p -> bytes bs -> ingest (InBytes bs) = Ingested t -> ingest_bytes bs = Some r ->
  decoder (t_syscall t) = Some fs -> server_members (r_args r) (t_syscall t) fs (t_argv t) = Some srv ->
  sc_nr s = t_syscall t -> message p (Some s) c (r_args r) t = Some msg ->
  unmarshal (j_order p) heap (j_base p) msg
  = match received (j_order p) heap (json_text (txt (sc_name s))) (names_of c) t (r_args r) with Some e => Read e | None => Skipped end.
Proof.
  intros P B I R D S N M.
  destruct (message_reads p (Some s) c bs t r fs msg P B I R D M) as (a & J & (l & Ha & Hargs & _)).
  destruct (ingested bs t B I) as (r' & fs' & Hr' & Hba & H640 & Hd & Hv & _).
  assert (r' = r) as -> by congruence. assert (fs' = fs) as -> by congruence. clear Hr' Hd.
  destruct (args_back p heap (r_args r) (t_syscall t) fs (t_argv t) l srv P Hba H640 (fun f => field_is_ok _ fs f D) Hv S Hargs) as [HP HM].
  unfold unmarshal. rewrite J. unfold un_event, event_json, js_obj.
  set (ms := map _ _).
  assert (E1 : un_syscall ms = Some (Some (sc_nr s, json_text (txt (sc_name s))))).
  { unfold un_syscall. change (member_of ms "syscall") with (Some (syscall_json (Some s))). reflexivity. }
  assert (E2 : text_at ms "comm" = Some (json_text (t_comm t))) by reflexivity.
  assert (E3 : num_at ms "session" = Some (t_sid t)) by reflexivity.
  assert (E4 : un_error (j_order p) ms = Some (client_error (j_order p) t)).
  { unfold un_error. change (member_of ms "error") with (Some (js_text (errno_to_string (t_error t)))).
    rewrite (js_text_low _ (errno_low _)). cbn [text_of]. rewrite sob_txt. reflexivity. }
  assert (E5 : un_container ms = Some (client_container (names_of c))) by (apply container_back; reflexivity).
  assert (E6 : forallb (fun k => bool_decide (is_Some (num_at ms k))) numbers = true).
  { unfold numbers. cbn [forallb]. rewrite !andb_true_iff.
    repeat split; apply bool_decide_eq_true_2; eexists; reflexivity. }
  rewrite E1, E2, E3, E4, E5, E6, N, D. change (member_of ms "args") with (Some a). cbv iota beta.
  assert (E7 : args_members (t_syscall t) a = Some l).
  { rewrite Ha. unfold args_members. destruct (t_syscall t =? 55); reflexivity. }
  rewrite E7, HP, HM. unfold received. rewrite D. unfold client_comm.
  destruct (client_members _ _ _ _ _ _); reflexivity.
Qed.

(** * The server's own messages *)

Lemma decoders_known : forallb (fun d => match lookup_sc table (ByInt (fst (fst d))) with Some s => sc_nr s =? fst (fst d) | None => false end) decoders = true.
Proof. vm_compute. reflexivity. Qed.
Lemma decoder_known tbl nr fs : go_table tbl -> decoder nr = Some fs -> exists s, lookup_sc tbl (ByInt nr) = Some s /\ sc_nr s = nr.
Proof.
  intros Ht D. rewrite (go_table_eq _ Ht). pose proof decoders_known as H. rewrite forallb_forall in H.
  destruct (decoder_in _ _ D) as (d & Hd & <- & _). specialize (H d Hd).
  destruct (lookup_sc table (ByInt (fst (fst d)))) as [s|]; [|discriminate]. exists s. split; [reflexivity|]. apply Z.eqb_eq, H.
Qed.

Lemma client_reads_table p tbl c heap bs r t fs srv msg : go_table tbl -> reasonable p -> bytes bs -> ingest (InBytes bs) = Ingested t -> ingest_bytes bs = Some r ->
  decoder (t_syscall t) = Some fs -> server_members (r_args r) (t_syscall t) fs (t_argv t) = Some srv ->
  message p (lookup_sc tbl (ByInt (t_syscall t))) c (r_args r) t = Some msg ->
  exists s, lookup_sc tbl (ByInt (t_syscall t)) = Some s
  /\ unmarshal (j_order p) heap (j_base p) msg
     = match received (j_order p) heap (json_text (txt (sc_name s))) (names_of c) t (r_args r) with Some e => Read e | None => Skipped end.
Proof.
  intros Ht P B I R D S M. destruct (decoder_known tbl _ fs Ht D) as (s & Es & Ns). exists s. split; [exact Es|].
  rewrite Es in M. exact (client_reads p s c heap bs r t fs srv msg P B I R D S Ns M).
Qed.

Lemma client_prints p tbl c heap order' base bs r t fs srv line msg : go_table tbl -> reasonable p ->
  bytes bs -> ingest_bytes bs = Some r -> ingest (InBytes bs) = Ingested t -> decoder (t_syscall t) = Some fs ->
  server_members (r_args r) (t_syscall t) fs (t_argv t) = Some srv ->
  well_formed (t_comm t) -> In (t_error t) (map fst errno_names) -> Forall2 (survives (r_args r) (t_syscall t)) fs (t_argv t) ->
  PrintSpec.container_utf8 (names_of c) -> bytes heap ->
  line_of order' base false false (names_of c) t (r_args r) = Some line ->
  message p (lookup_sc tbl (ByInt (t_syscall t))) c (r_args r) t = Some msg ->
  exists e a b, unmarshal (j_order p) heap (j_base p) msg = Read e
    /\ line = txt "(" ++ ms_text (latency (t_start t) (t_finish t)) ++ txt "ms) " ++ a ++ right_align 9 (t_comm t) ++ b
    /\ create_line order' base false e = Some (a ++ right_align 11 (t_comm t) ++ b).
Proof.
  intros Ht P B R I D S W E F C Hh L M.
  destruct (client_reads_table p tbl c heap bs r t fs srv msg Ht P B I R D S M) as (s & _ & U).
  destruct (create_prints (j_order p) heap order' base (json_text (txt (sc_name s))) (names_of c) bs r t fs srv line
    B R I D S W E F C (re_order p P) Hh L) as (e & a & b & H1 & H2 & H3).
  exists e, a, b. rewrite U, H1. tauto.
Qed.

(** Whatever the arguments are, the client goes on. *)
Lemma goes_on p tbl c heap bs r t fs msg : go_table tbl -> reasonable p -> bytes bs -> ingest (InBytes bs) = Ingested t -> ingest_bytes bs = Some r ->
  decoder (t_syscall t) = Some fs -> message p (lookup_sc tbl (ByInt (t_syscall t))) c (r_args r) t = Some msg ->
  unmarshal (j_order p) heap (j_base p) msg = Skipped
  \/ exists ms, unmarshal (j_order p) heap (j_base p) msg
       = Read (ClientEvent (t_syscall t) (match lookup_sc tbl (ByInt (t_syscall t)) with Some s => json_text (txt (sc_name s)) | None => [] end)
                 (json_text (t_comm t)) (t_sid t) (client_error (j_order p) t) (client_container (names_of c)) fs ms).
Proof.
  intros Ht P B I R D M. destruct (decoder_known tbl _ fs Ht D) as (s & Es & Ns). rewrite Es in M |- *.
  destruct (message_reads p (Some s) c bs t r fs msg P B I R D M) as (a & J & (l & Ha & Hargs & _)).
  destruct (ingested bs t B I) as (r' & fs' & Hr' & Hba & H640 & Hd & Hv & _).
  assert (r' = r) as -> by congruence. assert (fs' = fs) as -> by congruence. clear Hr' Hd.
  assert (HP : forallb (present l) fs = true).
  { clear -Hargs Hv. revert Hargs Hv. generalize (t_argv t). induction fs as [|f fs IH]; intros vs A V; [reflexivity|].
    cbn [decode_fields] in V. destruct (decode_field (r_args r) f) as [v|]; [|discriminate].
    destruct (decode_fields (r_args r) fs) as [ws|]; [|discriminate]. apply Some_inj in V. subst vs.
    cbn [forallb]. rewrite (IH ws); [|intros g w Hz; apply A; cbn [zip zip_with]; right; exact Hz|reflexivity].
    destruct (A f v) as (j & Ej & Sj); [cbn [zip zip_with]; left|]. unfold present. rewrite Ej.
    pose proof (shows_some _ _ _ _ _ _ Sj). destruct j; [congruence|reflexivity..]. }
  unfold unmarshal. rewrite J. unfold un_event, event_json, js_obj.
  set (ms := map _ _).
  assert (E1 : un_syscall ms = Some (Some (sc_nr s, json_text (txt (sc_name s))))).
  { unfold un_syscall. change (member_of ms "syscall") with (Some (syscall_json (Some s))). reflexivity. }
  assert (E2 : text_at ms "comm" = Some (json_text (t_comm t))) by reflexivity.
  assert (E3 : num_at ms "session" = Some (t_sid t)) by reflexivity.
  assert (E4 : un_error (j_order p) ms = Some (client_error (j_order p) t)).
  { unfold un_error. change (member_of ms "error") with (Some (js_text (errno_to_string (t_error t)))).
    rewrite (js_text_low _ (errno_low _)). cbn [text_of]. rewrite sob_txt. reflexivity. }
  assert (E5 : un_container ms = Some (client_container (names_of c))) by (apply container_back; reflexivity).
  assert (E6 : forallb (fun k => bool_decide (is_Some (num_at ms k))) numbers = true).
  { unfold numbers. cbn [forallb]. rewrite !andb_true_iff.
    repeat split; apply bool_decide_eq_true_2; eexists; reflexivity. }
  rewrite E1, E2, E3, E4, E5, E6, Ns, D. change (member_of ms "args") with (Some a). cbv iota beta.
  assert (E7 : args_members (t_syscall t) a = Some l).
  { rewrite Ha. unfold args_members. destruct (t_syscall t =? 55); reflexivity. }
  rewrite E7, HP. destruct (mapM _ fs) as [vs|]; [right; exists vs; reflexivity|left; reflexivity].
Qed.

(** A message without a system call ends the client. *)
Lemma no_syscall p c heap bs r t fs msg : reasonable p -> bytes bs -> ingest (InBytes bs) = Ingested t -> ingest_bytes bs = Some r ->
  decoder (t_syscall t) = Some fs -> message p None c (r_args r) t = Some msg ->
  unmarshal (j_order p) heap (j_base p) msg = Crashed.
Proof.
  intros P B I R D M.
  destruct (message_reads p None c bs t r fs msg P B I R D M) as (a & J & _).
  unfold unmarshal. rewrite J. unfold un_event, event_json, js_obj.
  set (ms := map _ _).
  assert (E1 : un_syscall ms = Some None) by reflexivity.
  assert (E2 : text_at ms "comm" = Some (json_text (t_comm t))) by reflexivity.
  assert (E3 : num_at ms "session" = Some (t_sid t)) by reflexivity.
  assert (E4 : un_error (j_order p) ms = Some (client_error (j_order p) t)).
  { unfold un_error. change (member_of ms "error") with (Some (js_text (errno_to_string (t_error t)))).
    rewrite (js_text_low _ (errno_low _)). cbn [text_of]. rewrite sob_txt. reflexivity. }
  assert (E5 : un_container ms = Some (client_container (names_of c))) by (apply container_back; reflexivity).
  assert (E6 : forallb (fun k => bool_decide (is_Some (num_at ms k))) numbers = true).
  { unfold numbers. cbn [forallb]. rewrite !andb_true_iff.
    repeat split; apply bool_decide_eq_true_2; eexists; reflexivity. }
  rewrite E1, E2, E3, E4, E5, E6. reflexivity.
Qed.
