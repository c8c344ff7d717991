(** The client's log: it holds the server's messages. *)
From Coq Require Import ZArith String Ascii Lia.
From stdpp Require Import base list numbers strings pretty gmap.
From Verif Require Import TopModel SyscallTable SyscallModel SyscallSpec SyscallProofs TopoModel RawModel RawSpec RawProofs DecodeModel CodecTables CodecModel CodecSpec CodecNames JsonModel JsonSpec JsonProofs LineModel LineProofs TextModel
  MsgModel MsgSpec MsgProofs MsgBound MsgRead ReadSpec ReadProofs ReadTop PrintModel PrintProofs PrintTop UnmarshalModel UnmarshalSpec UnmarshalProofs UnmarshalTop LogModel LogSpec LogProofs LogTop.

Local Open Scope string_scope.
Local Open Scope list_scope.
Local Open Scope Z_scope.

(** * One argument *)

Lemma struct_fits : forallb (fun d => forallb (fun f => match f_kind f with KCopy n | KPtr n => (slot_start (f_slot f) + n <=? 640)%nat | _ => true end) (snd d)) decoders = true.
Proof. vm_compute. reflexivity. Qed.
Lemma field_fits nr fs f n : decoder nr = Some fs -> In f fs -> f_kind f = KCopy n \/ f_kind f = KPtr n -> (slot_start (f_slot f) + n <= 640)%nat.
Proof.
  intros D I K. destruct (decoder_in nr fs D) as (d & Hd & _ & <-). pose proof struct_fits as H. rewrite forallb_forall in H.
  specialize (H d Hd). rewrite forallb_forall in H. specialize (H f I). apply Nat.leb_le. destruct K as [K|K]; rewrite K in H; exact H.
Qed.
Lemma short_more mem rest : (16 <= length mem)%nat -> short_address mem -> short_address (mem ++ rest).
Proof.
  intros L. unfold short_address. cbv zeta. rewrite (take_app_le mem rest 2) by lia. rewrite (drop_app_le mem rest 2) by lia.
  rewrite (take_app_le (drop 2 mem) rest 14) by (rewrite drop_length; lia). tauto.
Qed.
Lemma sock_same heap mem : (16 <= length mem)%nat -> short_address mem -> sock_text (take 16 mem ++ heap) = sock_text mem.
Proof.
  intros L S. unfold sock_text, sockaddr_string. pose proof (client_address_short mem heap L S) as E. unfold client_sockaddr in E. rewrite E.
  assert (L16 : length (take 16 mem) = 16%nat) by (rewrite take_length; lia).
  rewrite (take_app_le (take 16 mem) heap 2) by lia. rewrite take_take. change (2 `min` 16)%nat with 2%nat.
  rewrite (drop_app_le (take 16 mem) heap 2) by lia. rewrite (take_app_le (drop 2 (take 16 mem)) heap 14) by (rewrite drop_length; lia).
  assert (E14 : drop 2 (take 16 mem) = take 14 (drop 2 mem)) by (symmetry; exact (take_drop_commute mem 14 2)).
  rewrite E14, take_take. reflexivity.
Qed.

Lemma un_sock_bytes mem rest : bytes mem -> (16 <= length mem)%nat ->
  exists ms, js_sockaddr (mem ++ rest) = JsObj ms /\ un_struct [("Family", LNum 2); ("Data", LNums 14 1)] ms = Some (take 16 mem).
Proof.
  intros B L. destruct (un_sockaddr_back [] mem rest B L) as (ms & E & _). exists ms. split; [exact E|].
  unfold js_sockaddr, js_obj in E. assert (ms = map (fun e : string * json => (txt (fst e), snd e))
    [("Family", JsNum (le (take 2 (mem ++ rest)))); ("Data", JsArr (map (fun b => JsNum (s8 b)) (take 14 (drop 2 (mem ++ rest))))); ("decoded", js_text (sockaddr_string (mem ++ rest)))]) as ->.
  { injection E as <-. reflexivity. }
  cbn [map fst snd].
  assert (H2 : take 2 (mem ++ rest) = take 2 mem) by (apply take_app_le; lia).
  assert (H14 : take 14 (drop 2 (mem ++ rest)) = take 14 (drop 2 mem)).
  { rewrite drop_app_le by lia. apply take_app_le. rewrite drop_length. lia. }
  rewrite H2, H14. set (d := take 14 (drop 2 mem)).
  assert (Hl : length d = 14%nat) by (apply chunk_len; lia). assert (Hb : bytes d) by (apply chunk_bytes, B).
  cbn [un_struct]. change (member_of _ "Family") with (Some (JsNum (le (take 2 mem)))).
  change (member_of _ "Data") with (Some (JsArr (map (fun b => JsNum (s8 b)) d))).
  cbn [un_layout un_num]. rewrite map_length, Hl. change (Nat.eqb 14 14) with true. cbv iota. rewrite (data_back d Hb), concat_singles.
  assert (Hf : to_le 2 (le (take 2 mem)) = take 2 mem).
  { rewrite <- (to_le_le (take 2 mem)) at 2 by (apply Forall_take, B). rewrite take_length, min_l by lia. reflexivity. }
  rewrite Hf, app_nil_r. unfold d. f_equal. rewrite <- (take_drop 2 (take 16 mem)), take_take. f_equal. exact (take_drop_commute mem 14 2).
Qed.

Lemma value_same p order heap args nr fs f v j : reasonable p -> bytes args -> length args = 640%nat -> decoder nr = Some fs -> In f fs ->
  decode_field args f = Some v -> shows p args nr (f_name f) v j -> survives args nr f v ->
  exists hv, held_value (j_order p) nr f j = Some hv
    /\ cvalue_text order heap nr (f_name f) hv = member_text (JParams order (j_base p) (j_heap p)) args nr (f_name f) v.
Proof.
  intros P B L D0 F0 D S Sv. pose proof (field_is_ok nr fs f D0 F0) as K. apply andb_true_iff in K. destruct K as [K1 K2]. apply Nat.leb_le in K1.
  pose proof D as D'. unfold decode_field in D. unfold held_value.
  assert (Hint : forall z, v = VInt z -> exists hv, held_int (un_int (j_order p) nr (f_name f) j) = Some hv
    /\ cvalue_text order heap nr (f_name f) hv = member_text (JParams order (j_base p) (j_heap p)) args nr (f_name f) v).
  { intros z ->. cbn [shows] in S. subst j. rewrite (un_int_back p args nr f z (re_order p P)).
    rewrite (proj2 (client_int_survives (j_order p) args nr fs f z (re_order p P) D0 F0 D') Sv). unfold server_member.
    cbn [member_text show of_shown]. unfold int_text. destruct (jtype_of nr (f_name f)) eqn:J; eexists; (split; [reflexivity|]); cbn [cvalue_text]; unfold int_text; rewrite ?J; reflexivity. }
  assert (Hslice : forall off len, v = VSlice off len ->
    exists hv, match j with JsStr s => match unb64 s with Some bs => Some (HBytes bs) | None => None end | _ => None end = Some hv
    /\ cvalue_text order heap nr (f_name f) hv = member_text (JParams order (j_base p) (j_heap p)) args nr (f_name f) v).
  { intros off len ->. cbn [shows] in S. destruct S as (x & -> & U). rewrite U. eexists. split; reflexivity. }
  assert (Hstruct : forall n bs, bytes bs -> length bs = n -> Nat.eqb n (struct_size nr) = true -> j = js_struct nr bs ->
    match j with JsObj ms => match un_struct (layout_of nr) ms with Some bs => Some (HStruct bs) | None => None end | _ => None end = Some (HStruct bs)).
  { clear. intros n bs Hb Hn Hs ->. apply Nat.eqb_eq in Hs. destruct (un_struct_back nr bs Hb ltac:(congruence)) as (ms & -> & U). rewrite U. reflexivity. }
  assert (Hv : forall o, vint o = Some v -> exists z, v = VInt z).
  { intros [z|] E; [|discriminate]. apply Some_inj in E. exists z. congruence. }
  set (off := slot_start (f_slot f)) in *.
  destruct (f_kind f) as [| | | | |n|cnt|l| |n|n| |] eqn:Ek.
  - destruct (Hv _ D) as [z E]. exact (Hint z E).
  - destruct (Hv _ D) as [z E]. exact (Hint z E).
  - destruct (Hv _ D) as [z E]. exact (Hint z E).
  - destruct (Hv _ D) as [z E]. exact (Hint z E).
  - destruct (read_bytes args off arg_len) as [bs|]; [|discriminate]. apply Some_inj in D. subst v. cbn [shows survives] in *. subst j.
    unfold js_bytes. rewrite (json_text_keeps _ Sv). eexists. split; reflexivity.
  - apply Some_inj in D. exact (Hslice _ _ (eq_sym D)).
  - destruct (c64 args _); [|discriminate]. apply Some_inj in D. exact (Hslice _ _ (eq_sym D)).
  - destruct (c64 args _); [|discriminate]. apply Some_inj in D. exact (Hslice _ _ (eq_sym D)).
  - apply Some_inj in D. subst v. cbn [shows survives member_text j_heap] in *.
    assert (L16 : (16 <= length (drop off args))%nat) by (rewrite drop_length; unfold off, slot_start, arg_len; lia).
    destruct (un_sock_bytes (drop off args) (j_heap p)) as (ms & E & U); [apply Forall_drop, B|exact L16|].
    rewrite S, E, U. eexists. split; [reflexivity|]. cbn [cvalue_text].
    rewrite <- (sock_same heap (drop off args ++ j_heap p)); [|rewrite app_length; lia|apply short_more; assumption].
    rewrite (take_app_le (drop off args) (j_heap p) 16) by lia. reflexivity.
  - apply Some_inj in D. subst v. cbn [shows] in S. pose proof (field_fits nr fs f n D0 F0 (or_intror Ek)) as Hf.
    rewrite (Hstruct n _ (chunk_bytes args off n B) (chunk_len args off n ltac:(unfold off; lia)) K2 S). eexists. split; reflexivity.
  - destruct (read_bytes args off n) as [bs|] eqn:R; [|discriminate]. apply Some_inj in D. subst v. cbn [shows] in S.
    apply read_bytes_take in R. destruct R as [-> R]. rewrite (Hstruct n _ (chunk_bytes args off n B) (chunk_len args off n R) K2 S). eexists. split; reflexivity.
  - apply Some_inj in D. subst v. cbn [shows] in *. subst j. unfold js_timespec, js_obj. cbn [map fst snd]. unfold num_at.
    change (member_of _ "Sec") with (Some (JsNum (j_base p + Z.of_nat (slot_start (f_slot f))))). cbv iota.
    change (member_of _ "Nsec") with (Some (JsNum (j_base p + Z.of_nat (slot_start (S (f_slot f)))))). cbv iota.
    eexists. split; [reflexivity|]. cbn [cvalue_text member_text]. unfold slot_address. cbn [j_base]. pose proof (re_base p P) as Hb.
    assert (Hx : forall k, (k <= 5)%nat -> s64 (j_base p + Z.of_nat (slot_start k)) = j_base p + Z.of_nat (slot_start k)).
    { intros k Hk. apply s64_small. unfold slot_start, arg_len. lia. }
    rewrite !Hx by lia. reflexivity.
  - apply Some_inj in D. exact (Hint _ (eq_sym D)).
Qed.

(** * The arguments *)

Lemma values_same p order heap args nr fs0 fs vs : forall l, reasonable p -> bytes args -> length args = 640%nat -> decoder nr = Some fs0 ->
  (forall f, In f fs -> In f fs0) -> decode_fields args fs = Some vs -> Forall2 (survives args nr) fs vs ->
  (forall f v, (f, v) ∈ zip fs vs -> exists j, argument_of l (f_name f) = Some j /\ shows p args nr (f_name f) v j) ->
  forallb (present l) fs = true
  /\ exists hvs, mapM (fun f => match argument_of l (f_name f) with Some j => held_value (j_order p) nr f j | None => None end) fs = Some hvs
     /\ forall m, match named_held fs hvs m with Some hv => cvalue_text order heap nr m hv | None => [] end
                  = match named_value fs vs m with Some v => member_text (JParams order (j_base p) (j_heap p)) args nr m v | None => [] end.
Proof.
  revert vs. induction fs as [|f fs IH]; intros vs l P B L D0 I0 D S A.
  - cbn [decode_fields] in D. apply Some_inj in D. subst vs. split; [reflexivity|]. exists []. split; reflexivity.
  - cbn [decode_fields] in D. destruct (decode_field args f) as [v|] eqn:Ev; [|discriminate].
    destruct (decode_fields args fs) as [ws|] eqn:Ew; [|discriminate]. apply Some_inj in D. subst vs. apply Forall2_cons in S. destruct S as [Sv S].
    destruct (IH ws l P B L D0 (fun g Hg => I0 g (or_intror Hg)) eq_refl S) as (H1 & hvs & H2 & H3).
    { intros g w Hz. apply A. cbn [zip zip_with]. right. exact Hz. }
    destruct (A f v) as (j & Ej & Sj); [cbn [zip zip_with]; left|].
    destruct (value_same p order heap args nr fs0 f v j P B L D0 (I0 f (or_introl eq_refl)) Ev Sj Sv) as (hv & U & T).
    split.
    + cbn [forallb]. rewrite H1. unfold present. rewrite Ej. pose proof (shows_some _ _ _ _ _ _ Sj). destruct j; [congruence|reflexivity..].
    + exists (hv :: hvs). split; [cbn [mapM]; rewrite Ej, U; cbn [mbind option_bind]; rewrite H2; reflexivity|].
      intros m. cbn [named_held named_value]. destruct (String.eqb_spec (f_name f) m) as [<-|]; [exact T|exact (H3 m)].
Qed.

(** * The container *)

Lemma string_back s : utf8_text s -> string_of_bytes (json_text (txt s)) = s.
Proof. intros H. rewrite (json_text_keeps _ H). apply sob_txt. Qed.
Lemma labels_back ls : (forall k v, In (k, v) ls -> utf8_text k /\ utf8_text v) ->
  mapM (fun e : list Z * json => match snd e with
                | JsStr s => Some (string_of_bytes (fst e), string_of_bytes s)
                | JsNull => Some (string_of_bytes (fst e), "")
                | _ => None
                end) (map (fun kv => (json_text (txt (fst kv)), js_text (snd kv))) ls) = Some ls.
Proof.
  induction ls as [|[k v] ls IH]; intros H; [reflexivity|]. cbn [map mapM fst snd]. destruct (H k v (or_introl eq_refl)) as [Hk Hv].
  change (js_text v) with (JsStr (json_text (txt v))). cbn [snd fst]. rewrite (string_back k Hk), (string_back v Hv). cbn [mbind option_bind].
  rewrite IH by (intros k' v' I'; exact (H k' v' (or_intror I'))). reflexivity.
Qed.

Lemma held_container_back c rest : utf8_container c -> member_of rest "container" = Some (container_json c) -> held_container rest = Some c.
Proof.
  intros W M. unfold held_container. rewrite M. destruct c as [c|]; [|reflexivity]. destruct W as (W1 & W2 & W3 & W4 & W5 & W6 & W7). cbn [container_json].
  set (l := unless_empty "id" (c_id c) ++ _).
  assert (Hm : forall k, member_of l k =
    match (if same_key (txt "id") k then (if decide (c_id c = "") then None else Some (js_text (c_id c))) else None) with Some j => Some j | None =>
    match (if same_key (txt "pod") k then (if decide (c_pod c = "") then None else Some (js_text (c_pod c))) else None) with Some j => Some j | None =>
    match (if same_key (txt "sandbox-id") k then (if decide (c_sandbox c = "") then None else Some (js_text (c_sandbox c))) else None) with Some j => Some j | None =>
    match (if same_key (txt "name") k then (if decide (c_name c = "") then None else Some (js_text (c_name c))) else None) with Some j => Some j | None =>
    match (if same_key (txt "image") k then (if decide (c_image c = "") then None else Some (js_text (c_image c))) else None) with Some j => Some j | None =>
    match (if same_key (txt "namespace") k then (if decide (c_namespace c = "") then None else Some (js_text (c_namespace c))) else None) with Some j => Some j | None =>
    match member_of (labels_json (c_labels c)) k with Some j => Some j | None =>
    match (if same_key (txt "pid") k then (if decide (c_pid c = 0) then None else Some (JsNum (c_pid c))) else None) with Some j => Some j | None =>
    (if same_key (txt "pid-namespace") k then (if decide (c_pidns c = 0) then None else Some (JsNum (c_pidns c))) else None)
    end end end end end end end end).
  { intros k. unfold l. rewrite !member_app, !member_empty, !member_zero. reflexivity. }
  assert (Ht : forall k s, utf8_text s -> member_of l k = (if decide (s = "") then None else Some (js_text s)) -> string_at l k = Some s).
  { intros k s U E. unfold string_at, UnmarshalModel.text_at. rewrite E, text_unless, (string_back s U). reflexivity. }
  assert (Hz : forall k z, member_of l k = (if decide (z = 0) then None else Some (JsNum z)) -> num_at l k = Some z).
  { intros k z E. unfold num_at. rewrite E. destruct (decide (z = 0)) as [->|]; reflexivity. }
  assert (He : forall (o : option json), match o with Some j => Some j | None => None end = o) by (intros []; reflexivity).
  assert (Hid : string_at l "id" = Some (c_id c)). { apply Ht; [exact W1|]. rewrite Hm, member_labels. keys_eval. apply He. }
  assert (Hpod : string_at l "pod" = Some (c_pod c)). { apply Ht; [exact W2|]. rewrite Hm, member_labels. keys_eval. apply He. }
  assert (Hsb : string_at l "sandbox-id" = Some (c_sandbox c)). { apply Ht; [exact W3|]. rewrite Hm, member_labels. keys_eval. apply He. }
  assert (Hname : string_at l "name" = Some (c_name c)). { apply Ht; [exact W4|]. rewrite Hm, member_labels. keys_eval. apply He. }
  assert (Himg : string_at l "image" = Some (c_image c)). { apply Ht; [exact W5|]. rewrite Hm, member_labels. keys_eval. apply He. }
  assert (Hns : string_at l "namespace" = Some (c_namespace c)). { apply Ht; [exact W6|]. rewrite Hm, member_labels. keys_eval. apply He. }
  assert (Hpid : num_at l "pid" = Some (c_pid c)). { apply Hz. rewrite Hm, member_labels. keys_eval. apply He. }
  assert (Hpns : num_at l "pid-namespace" = Some (c_pidns c)). { apply Hz. rewrite Hm, member_labels. keys_eval. reflexivity. }
  assert (Hl : held_labels l = Some (c_labels c)).
  { unfold held_labels. rewrite Hm, member_labels. keys_eval. destruct (decide (c_labels c = [])) as [->|]; [reflexivity|]. apply labels_back, W7. }
  rewrite Hid, Hpod, Hsb, Hname, Himg, Hns, Hl, Hpid, Hpns. destruct c. reflexivity.
Qed.

(** * The event *)

Lemma errno_same order e : (forall l, order l ≡ₚ l) -> errno_to_string (string_to_errno (reverse (order errno_names)) (errno_to_string e)) = errno_to_string e.
Proof.
  intros O. rewrite (errno_trip _ _ (O errno_names)). destruct (existsb (Z.eqb e) (map fst errno_names)) eqn:E; [reflexivity|].
  unfold errno_to_string at 1. rewrite errno_unk. unfold errno_to_string. destruct (assoc_z errno_names e) as [s|] eqn:A; [|reflexivity].
  exfalso. assert (existsb (Z.eqb e) (map fst errno_names) = true); [|congruence]. apply existsb_exists. exists e. split; [|apply Z.eqb_refl].
  apply (in_map fst _ (e, s)). exact (assoc_in _ _ _ A).
Qed.

Definition low_syscall (s : syscall) : bool := lowb (txt (sc_name s)) && lowb (txt (sc_class s)) && lowb (txt (sc_group s)).
Lemma calls_low : forallb (fun d => match lookup_sc table (ByInt (fst (fst d))) with Some s => low_syscall s | None => false end) decoders = true.
Proof. vm_compute. reflexivity. Qed.
Lemma low_back s : lowb (txt s) = true -> string_of_bytes (json_text (txt s)) = s.
Proof. intros H. rewrite (low_text _ (lowb_low _ H)). apply sob_txt. Qed.

Lemma held_same p tbl c order heap bs r t fs msg : go_table tbl -> reasonable p -> bytes bs -> ingest (InBytes bs) = Ingested t -> ingest_bytes bs = Some r ->
  decoder (t_syscall t) = Some fs -> well_formed (t_comm t) -> Forall2 (survives (r_args r) (t_syscall t)) fs (t_argv t) -> utf8_container c ->
  message p (lookup_sc tbl (ByInt (t_syscall t))) c (r_args r) t = Some msg ->
  exists h, holds (j_order p) msg = Some h
    /\ message (JParams order (j_base p) (j_heap p)) (lookup_sc tbl (ByInt (t_syscall t))) c (r_args r) t = Some (held_text order heap h ++ [10]).
Proof.
  intros Ht P B I R D W Sv C M.
  assert (Hs : exists s, lookup_sc tbl (ByInt (t_syscall t)) = Some s /\ sc_nr s = t_syscall t /\ low_syscall s = true).
  { destruct (decoder_known tbl _ fs Ht D) as (s & Es & Ns). exists s. split; [exact Es|]. split; [exact Ns|]. rewrite (go_table_eq _ Ht) in Es.
    pose proof calls_low as H. rewrite forallb_forall in H. destruct (decoder_in _ _ D) as (d & Hd & E & _). specialize (H d Hd). rewrite E, Es in H. exact H. }
  destruct Hs as (s & Es & Ns & Ls). rewrite Es in M |- *. unfold low_syscall in Ls. rewrite !andb_true_iff in Ls. destruct Ls as [[L1 L2] L3].
  destruct (message_reads p (Some s) c bs t r fs msg P B I R D M) as (a & J & (l & Ha & Hargs & _)).
  destruct (ingested bs t B I) as (r' & fs' & Hr' & Hba & H640 & Hd & Hv & _).
  assert (r' = r) as -> by congruence. assert (fs' = fs) as -> by congruence. clear Hr' Hd.
  destruct (values_same p order heap (r_args r) (t_syscall t) fs fs (t_argv t) l P Hba H640 D (fun f H => H) Hv Sv Hargs) as (HP & hvs & HM & HT).
  set (h := Held s (t_comm t) (t_sid t) c (client_error (j_order p) t)
    [t_pid t; t_tid t; t_cpid t; t_uid t; t_gid t; t_return t; t_pid_ns t; t_uts_ns t; t_mnt_ns t; t_start t; t_finish t] fs hvs).
  exists h. split.
  - unfold holds. rewrite J. unfold held_event, event_json, js_obj. set (ms := map _ _).
    assert (E1 : held_syscall ms = Some s).
    { unfold held_syscall. change (member_of ms "syscall") with (Some (syscall_json (Some s))). cbv iota. unfold syscall_json, js_obj.
      match goal with |- context [num_at ?x "nr"] => set (sm := x) end.
      assert (X1 : num_at sm "nr" = Some (sc_nr s)) by reflexivity.
      assert (X2 : string_at sm "name" = Some (sc_name s)).
      { unfold string_at. change (UnmarshalModel.text_at sm "name") with (Some (json_text (txt (sc_name s)))). cbv iota. rewrite (low_back _ L1). reflexivity. }
      assert (X3 : string_at sm "class" = Some (sc_class s)).
      { unfold string_at. change (UnmarshalModel.text_at sm "class") with (Some (json_text (txt (sc_class s)))). cbv iota. rewrite (low_back _ L2). reflexivity. }
      assert (X4 : string_at sm "group" = Some (sc_group s)).
      { unfold string_at. change (UnmarshalModel.text_at sm "group") with (Some (json_text (txt (sc_group s)))). cbv iota. rewrite (low_back _ L3). reflexivity. }
      rewrite X1, X2, X3, X4. destruct s. reflexivity. }
    assert (E2 : UnmarshalModel.text_at ms "comm" = Some (t_comm t)).
    { transitivity (Some (json_text (t_comm t))); [reflexivity|]. rewrite (json_text_keeps _ W). reflexivity. }
    assert (E3 : num_at ms "session" = Some (t_sid t)) by reflexivity.
    assert (E4 : un_error (j_order p) ms = Some (client_error (j_order p) t)).
    { unfold un_error. change (member_of ms "error") with (Some (js_text (errno_to_string (t_error t)))).
      rewrite (js_text_low _ (errno_low _)). cbn [text_of]. rewrite sob_txt. reflexivity. }
    assert (E5 : held_container ms = Some c) by (apply (held_container_back c ms C); reflexivity).
    assert (E6 : mapM (num_at ms) numbers = Some (h_numbers h)) by reflexivity.
    rewrite E1, E2, E3, E4, E5, E6, Ns, D. change (member_of ms "args") with (Some a). cbv iota beta.
    assert (E7 : args_members (t_syscall t) a = Some l).
    { rewrite Ha. unfold args_members. destruct (t_syscall t =? 55); reflexivity. }
    rewrite E7, HP, HM. reflexivity.
  - unfold message in M |- *. unfold args_text in M |- *.
    destruct (List.find (fun e => fst (fst e) =? t_syscall t) json_structs) as [[[k nest] js]|] eqn:Ej; [|discriminate]. rewrite D in M |- *.
    change (forallb (slice_ok (JParams order (j_base p) (j_heap p)) (r_args r)) (t_argv t)) with (forallb (slice_ok p (r_args r)) (t_argv t)).
    destruct (negb _); [discriminate|]. do 2 f_equal.
    assert (EA : held_args order heap h = match nest with Some n => obj [(n, obj (map (field_text (JParams order (j_base p) (j_heap p)) (r_args r) (t_syscall t) fs (t_argv t)) js))] | None => obj (map (field_text (JParams order (j_base p) (j_heap p)) (r_args r) (t_syscall t) fs (t_argv t)) js) end).
    { unfold held_args. cbn [h h_syscall h_fields h_values]. rewrite Ns, Ej.
      assert (EF : map (held_field (fun m => match named_held fs hvs m with Some v => cvalue_text order heap (t_syscall t) m v | None => [] end)) js
        = map (field_text (JParams order (j_base p) (j_heap p)) (r_args r) (t_syscall t) fs (t_argv t)) js).
      { apply map_ext. intros [n m|n|n ws]; cbn [held_field field_text].
        - rewrite HT. reflexivity.
        - reflexivity.
        - do 3 f_equal. apply map_ext. intros m. apply HT. }
      cbv zeta. rewrite EF. reflexivity. }
    unfold held_text. rewrite EA. cbn [h h_syscall h_comm h_sid h_container h_error].
    unfold client_error. rewrite (errno_same (j_order p) (t_error t) (re_order p P)). reflexivity.
Qed.
