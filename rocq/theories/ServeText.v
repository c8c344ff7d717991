(** Proofs about `swoll server`: the text of an event. *)
From Coq Require Import ZArith String Lia.
From stdpp Require Import base list numbers strings pretty gmap.
From Verif Require Import SyscallTable SyscallModel SyscallSpec SyscallProofs KernelModel RawModel RawSpec RawProofs DecodeModel DecodeProofs CaptureModel CaptureSpec CaptureProofs
  CodecModel JsonModel JsonSpec JsonProofs MsgModel MsgSpec ReadSpec ReadTop LineModel LineSpec LineTop HubModel PlainSpec PlainProofs WholeSpec WholeProofs LiveModel LiveSpec ServeModel ServeSpec.

Local Open Scope string_scope.
Local Open Scope list_scope.
Local Open Scope Z_scope.
Local Opaque gSyscallMap gClassMap table emit.

(** * A record is made of bytes *)

Lemma bytes_app a b : bytes a -> bytes b -> bytes (a ++ b).
Proof. intros A B. apply Forall_app. split; assumption. Qed.
Lemma bytes_write o bs buf : bytes bs -> bytes buf -> bytes (write_at o bs buf).
Proof. intros A B. unfold write_at. apply bytes_app; [apply Forall_take; exact B|]. apply bytes_app; [exact A|apply Forall_drop; exact B]. Qed.
Lemma le_bytes n v : bytes (to_le n v).
Proof. exact (to_le_bytes n v). Qed.
Lemma load_bytes m n : forall a bs, byte_memory m -> load m a n = Some bs -> bytes bs.
Proof.
  induction n as [|n IH]; intros a bs M; cbn [load]; [intros E; apply Some_inj in E; subst bs; constructor|].
  destruct (m a) as [b|] eqn:Eb; [|discriminate]. destruct (load m (a + 1) n) as [r|] eqn:El; [|discriminate]. intros E. apply Some_inj in E. subst bs.
  constructor; [exact (M _ _ Eb)|exact (IH _ _ M El)].
Qed.
Lemma probe_bytes m a n : byte_memory m -> bytes (probe_read m a n).
Proof.
  intros M. unfold probe_read. destruct (load m a n) as [bs|] eqn:E; [exact (load_bytes _ _ _ _ M E)|]. apply Forall_forall. intros x Hx.
  apply elem_of_list_In, repeat_spec in Hx. subst x. lia.
Qed.
Lemma fills_bytes regs m ops : forall args, byte_memory m -> bytes args -> bytes (fold_left (fill regs m) ops args).
Proof.
  induction ops as [|op ops IH]; intros args M B; [exact B|]. cbn [fold_left]. apply IH; [exact M|]. unfold fill. apply bytes_write; [|exact B].
  destruct op; cbn [op_bytes]; [apply le_bytes|exact (probe_bytes _ _ _ M)..].
Qed.
Lemma capture_bytes e su scratch : byte_memory (su_mem su) -> bytes scratch -> bytes (c_args (capture_event e su scratch)).
Proof.
  intros M B. assert (A : bytes (scratch_args scratch)) by (unfold scratch_args; apply Forall_take, Forall_drop; exact B).
  unfold capture_event. destruct (_ =? _); [exact (fills_bytes _ _ _ _ M A)|]. unfold capture. destruct (filler (ev_nr e)) as [[ops er]|]; [exact (fills_bytes _ _ _ _ M A)|].
  cbn [c_args fold_left]. repeat apply bytes_write; try exact A; (constructor; [lia|constructor]).
Qed.
Local Transparent emit.
Lemma emit_bytes e su scratch : byte_memory (su_mem su) -> bytes (su_comm su) -> bytes scratch -> bytes (emit e su scratch).
Proof.
  intros M C B. unfold emit, kernel_image.
  assert (X : Forall (fun ob : nat * list Z => bytes ob.2) (zip (c_offsets 0 swoll_event_members) (member_bytes (event_members e su scratch)))).
  { assert (Y : Forall bytes (member_bytes (event_members e su scratch))).
    { unfold member_bytes. repeat (constructor; [first [apply le_bytes|exact C|exact (capture_bytes e su scratch M B)]|]). constructor. }
    revert Y. generalize (member_bytes (event_members e su scratch)) (c_offsets 0 swoll_event_members). intros l ks Y. revert ks.
    induction Y as [|x l Hx _ IH]; intros [|k ks]; constructor; [exact Hx|apply IH]. }
  revert X B. generalize (zip (c_offsets 0 swoll_event_members) (member_bytes (event_members e su scratch))). intros l X. revert scratch C M.
  induction X as [|x l Hx _ IH]; intros buf C M B; [exact B|]. cbn [fold_left]. apply (IH _ C M), bytes_write; [exact Hx|exact B].
Qed.
Local Opaque emit.

(** * Arguments *)

Definition fits_kind (nr : Z) (k : kind) (m : meaning) : bool :=
  match k, m with
  | _, Nothing => true
  | (KS32 | KU32 | KS64 | KU64), (Arg _ _ | DerefInt _ | DerefLong _) => true
  | KStr, (Text _ | Elem _ _) => true
  | (KSlice _ | KSliceMin _ | KSliceMax _), Data _ _ => true
  | (KSlice _ | KSliceMin _ | KSliceMax _), Bytes _ _ => (nr =? 54) || (nr =? 55)
  | KSock, Address _ => true
  | (KPtr _ | KCopy _), Bytes _ _ => negb ((nr =? 54) || (nr =? 55))
  | _, _ => false
  end.
Definition fits_doc (nr : Z) (fs : list field) (x : string * meaning) : bool :=
  is_wrong nr (fst x) || existsb (fun f => String.eqb (f_name f) (fst x) && (fits_kind nr (f_kind f) (snd x) && (f_slot f <? 5)%nat)) fs.
Lemma docs_fit : forallb (fun e : Z * list (string * meaning) => match decoder (fst e) with Some fs => forallb (fits_doc (fst e) fs) (snd e) | None => false end) documented = true.
Proof. vm_compute. reflexivity. Qed.
Lemma doc_fits nr fs name m : decoder nr = Some fs -> doc nr name = Some m -> is_wrong nr name = false ->
  exists f, f ∈ fs /\ f_name f = name /\ fits_kind nr (f_kind f) m = true /\ (f_slot f < 5)%nat.
Proof.
  intros D H W. unfold doc in H. destruct (List.find (fun e : Z * list (string * meaning) => fst e =? nr) documented) as [[nr' ms]|] eqn:F; [|discriminate].
  apply List.find_some in F as [I E]. cbn [fst] in E. apply Z.eqb_eq in E. subst nr'.
  destruct (List.find (fun e : string * meaning => String.eqb (fst e) name) ms) as [[n' m']|] eqn:F'; [|discriminate]. apply Some_inj in H. subst m'.
  apply List.find_some in F' as [I' E]. cbn [fst] in E. apply String.eqb_eq in E. subst n'.
  pose proof docs_fit as A. rewrite forallb_forall in A. specialize (A _ I). cbn [fst snd] in A. rewrite D in A. rewrite forallb_forall in A. specialize (A _ I').
  unfold fits_doc in A. cbn [fst snd] in A. rewrite W in A. cbn [orb] in A. apply existsb_exists in A as (f & If & A). apply andb_true_iff in A as [A1 A2].
  apply String.eqb_eq in A1. apply andb_true_iff in A2 as [A2 A3]. apply Nat.ltb_lt in A3. exists f. split; [apply elem_of_list_In; exact If|]. split; [exact A1|]. split; [exact A2|exact A3].
Qed.

Lemma levels : forall nr fs, nr = 54 \/ nr = 55 -> decoder nr = Some fs -> In (Field "level" 1 KS32) fs /\ is_wrong nr "level" = false /\ doc nr "level" = Some (Arg Int 1).
Proof.
  intros nr fs [-> | ->] D.
  - assert (X : decoder 54 = Some fs) by exact D. vm_compute in X. apply Some_inj in X. subst fs. split; [right; left; reflexivity|]. split; vm_compute; reflexivity.
  - assert (X : decoder 55 = Some fs) by exact D. vm_compute in X. apply Some_inj in X. subst fs. split; [right; left; reflexivity|]. split; vm_compute; reflexivity.
Qed.
Lemma level_captured nr fs regs mem ret old : decoder nr = Some fs -> nr = 54 \/ nr = 55 -> length old = args_size ->
  option_level (captured_args nr regs mem ret old) = convert Int (nth 1 regs 0).
Proof.
  intros D N L. destruct (levels nr fs N D) as (I & W & Dc). destruct (members_shown nr fs _ D I W) as (m & Dm & H). cbn [f_name] in Dm. rewrite Dc in Dm. apply Some_inj in Dm. subst m.
  specialize (H regs mem ret old _ L eq_refl). unfold member_shown, decode_field in H. cbn [f_kind f_slot] in H. unfold option_level.
  destruct (c32 (captured_args nr regs mem ret old) (slot_start 1)) as [z|]; [|discriminate H]. cbn [vint show] in H. apply Some_inj in H. congruence.
Qed.

Lemma int_same p args args' nr name z : is_among [(54, "name"); (55, "name")] nr name = false -> int_json p args nr name z = int_json p args' nr name z.
Proof. intros H. unfold int_json. rewrite H. reflexivity. Qed.
Lemma among_option nr name : is_among [(54, "name"); (55, "name")] nr name = true -> (nr = 54 \/ nr = 55) /\ name = "name".
Proof.
  unfold is_among. cbn [existsb fst snd]. intros H. rewrite orb_false_r in H. apply orb_true_iff in H as [H|H]; apply andb_true_iff in H as [H1 H2];
    apply Z.eqb_eq in H1; apply String.eqb_eq in H2; (split; [lia|symmetry; exact H2]).
Qed.
Lemma option_int p args nr z : nr = 54 \/ nr = 55 -> int_json p args nr "name" z = js_text (render_option (option_level args) z).
Proof. intros [-> | ->]; reflexivity. Qed.


Lemma vint_VInt o v : vint o = Some v -> exists z, v = VInt z.
Proof. unfold vint. destruct o as [z|]; [|discriminate]. intros H. apply Some_inj in H. exists z. symmetry. exact H. Qed.
Lemma read_bytes_app args off n bs heap : read_bytes args off n = Some bs -> take n (drop off args ++ heap) = bs.
Proof.
  unfold read_bytes. destruct (Nat.leb_spec (off + n) (length args)) as [L|]; [|discriminate]. intros H. apply Some_inj in H. subst bs.
  rewrite take_app_le; [reflexivity|]. rewrite drop_length. lia.
Qed.

Lemma json_argument p nr fs f regs mem ret old v m sh j : decoder nr = Some fs -> length old = args_size -> (f_slot f < 5)%nat ->
  let args := captured_args nr regs mem ret old in length args = args_size ->
  fits_kind nr (f_kind f) m = true -> expected regs mem m = Some sh -> decode_field args f = Some v -> show args v = Some sh -> shows p args nr (f_name f) v j ->
  argument_json p nr regs (f_name f) m sh j.
Proof.
  intros D Lo Sl args La K E Dv Sv Sj.
  assert (Nu : forall z, v = VInt z -> argument_json p nr regs (f_name f) m sh j).
  { intros z ->. cbn [show shows] in Sv, Sj. apply Some_inj in Sv. subst sh. cbn [argument_json]. unfold number_json. destruct (is_among _ nr (f_name f)) eqn:A.
    + apply among_option in A as [A1 A2]. rewrite A2 in Sj. rewrite (option_int p args nr z A1) in Sj. rewrite Sj. unfold args. rewrite (level_captured nr fs regs mem ret old D A1 Lo). reflexivity.
    + rewrite (int_same p [] args nr (f_name f) z A). exact Sj. }
  assert (Ba : forall off len bs, v = VSlice off len -> sh = ShBytes bs -> based bs j).
  { intros off len bs -> ->. cbn [show shows] in Sv, Sj. destruct (len <? 0); [discriminate|]. destruct (read_bytes args off (Z.to_nat len)) as [bs'|] eqn:R; [|discriminate].
    apply Some_inj in Sv. injection Sv as ->. destruct Sj as (s & -> & U). exists s. split; [reflexivity|]. rewrite (read_bytes_app _ _ _ _ _ R) in U. exact U. }
  assert (Sh : forall off len, v = VSlice off len -> exists bs, sh = ShBytes bs).
  { intros off len ->. cbn [show] in Sv. destruct (len <? 0); [discriminate|]. destruct (read_bytes args off (Z.to_nat len)) as [bs'|]; [|discriminate].
    apply Some_inj in Sv. exists bs'. symmetry. exact Sv. }
  assert (Sli : forall off len, v = VSlice off len -> (forall i n, m = Bytes i n -> nr = 54 \/ nr = 55) -> (forall i, m <> Text i) -> (forall i n, m <> Elem i n) -> (exists i n, m = Data i n \/ m = Bytes i n) -> argument_json p nr regs (f_name f) m sh j).
  { intros off len Ev B1 _ _ (i & n & B). destruct (Sh _ _ Ev) as [bs ->]. pose proof (Ba _ _ _ Ev eq_refl) as B'. destruct B as [-> | ->]; cbn [argument_json]; [exact B'|].
    rewrite decide_True by exact (B1 i n eq_refl). exact B'. }
  assert (Op : (nr =? 54) || (nr =? 55) = true -> nr = 54 \/ nr = 55) by (intros X; apply orb_true_iff in X as [X|X]; apply Z.eqb_eq in X; [left|right]; exact X).
  destruct m as [t i|i|i n|i cnt|i|i|i|i n|]; try discriminate E;
    destruct (f_kind f) eqn:Fk; cbn [fits_kind] in K; try discriminate K; unfold decode_field in Dv; rewrite Fk in Dv;
    try (destruct (vint_VInt _ _ Dv) as [z Ez]; exact (Nu z Ez));
    try (destruct (read_bytes args (slot_start (f_slot f)) arg_len) as [bs|]; [|discriminate Dv]; apply Some_inj in Dv; subst v; cbn [show shows] in Sv, Sj; apply Some_inj in Sv; subst sh; exact Sj);
    try (match type of Dv with context [c64 args (slot_start ?c)] => destruct (c64 args (slot_start c)) as [x|]; [|discriminate Dv] end);
    try (apply Some_inj in Dv; symmetry in Dv; eapply Sli; [exact Dv|intros i' n' E'; first [exact (Op K)|discriminate E']|discriminate|discriminate|eexists; eexists; first [left; reflexivity|right; reflexivity]]).
  - apply Some_inj in Dv. subst v. cbn [show shows] in Sv, Sj. destruct (read_bytes args (slot_start (f_slot f)) n0) as [bs|] eqn:R; [|discriminate].
    apply Some_inj in Sv. subst sh. cbn [argument_json]. rewrite decide_False by (intros X; apply negb_true_iff, orb_false_iff in K as [K1 K2]; apply Z.eqb_neq in K1, K2; lia).
    rewrite Sj. pose proof (read_bytes_app _ _ _ _ [] R) as Q. rewrite app_nil_r in Q. rewrite Q. reflexivity.
  - destruct (read_bytes args (slot_start (f_slot f)) n0) as [bs|] eqn:R; [|discriminate]. apply Some_inj in Dv. subst v. cbn [show shows] in Sv, Sj.
    apply Some_inj in Sv. subst sh. cbn [argument_json]. rewrite decide_False by (intros X; apply negb_true_iff, orb_false_iff in K as [K1 K2]; apply Z.eqb_neq in K1, K2; lia).
    exact Sj.
  - apply Some_inj in Dv. subst v. cbn [show shows] in Sv, Sj. apply Some_inj in Sv. subst sh.
    assert (P : parse_sockaddr (drop (slot_start (f_slot f)) args ++ j_heap p) = parse_sockaddr (drop (slot_start (f_slot f)) args)).
    { apply parse_sockaddr_local. apply take_app_le. rewrite drop_length, La. change args_size with 640%nat. unfold slot_start. change arg_len with 128%nat. lia. }
    unfold js_sockaddr, sockaddr_string in Sj. rewrite P in Sj. cbn [argument_json]. destruct (parse_sockaddr (drop (slot_start (f_slot f)) args)) as [address port].
    eexists. eexists. exact Sj.
Qed.

(** * The name *)

Lemma names_fit : forallb (fun e : Z * string * list (list string) => forallb (fun x : string * Z => negb (snd x =? fst (fst e)) || String.eqb (fst x) ("sys_" ++ snd (fst e))%string) gSyscallMap) prototypes = true.
Proof. vm_compute. reflexivity. Qed.
Lemma name_of nr sc fs : decoder nr = Some fs -> sc ∈ all -> sc_nr sc = nr ->
  exists call params, prototype nr = Some (call, params) /\ sc_name sc = ("sys_" ++ call)%string.
Proof.
  intros D I N. destruct (prototype_of _ _ D) as (call & params & shs & P & _). exists call, params. split; [exact P|].
  unfold prototype in P. destruct (List.find _ prototypes) as [[[nr' call'] params']|] eqn:F; [|discriminate]. apply Some_inj in P. injection P as -> ->.
  apply List.find_some in F as [If Ef]. cbn [fst] in Ef. apply Z.eqb_eq in Ef. subst nr'.
  apply all_elem in I as [_ I]. pose proof names_fit as A. rewrite forallb_forall in A. specialize (A _ If). rewrite forallb_forall in A. apply elem_of_list_In in I. specialize (A _ I).
  cbn [fst snd] in A. rewrite N, Z.eqb_refl in A. cbn [negb orb] in A. apply String.eqb_eq in A. exact A.
Qed.

(** * The text *)

Lemma capture_ret e su scratch fs : decoder (ev_nr e) = Some fs -> c_ret (capture_event e su scratch) = if decide (ev_nr e = 59) then 0 else ev_ret e mod 2 ^ 32.
Proof.
  intros D. unfold capture_event. change nr_execve with 59. destruct (Z.eqb_spec (ev_nr e) 59) as [E|N].
  - rewrite decide_True by exact E. reflexivity.
  - rewrite decide_False by exact N. destruct (proj1 (proj2 (decoder_ops _ fs D))) as [X|[[ops er] Fi]]; [congruence|]. unfold capture. rewrite Fi. reflexivity.
Qed.
Lemma decode_len args fs vs : decode_fields args fs = Some vs -> Forall2 (fun f v => decode_field args f = Some v) fs vs.
Proof.
  revert vs. induction fs as [|f fs IH]; intros vs H; cbn [decode_fields] in H; [apply Some_inj in H; subst vs; constructor|].
  destruct (decode_field args f) as [v|] eqn:Ev; [|discriminate]. destruct (decode_fields args fs) as [vs'|]; [|discriminate]. apply Some_inj in H. subst vs. constructor; [exact Ev|exact (IH _ eq_refl)].
Qed.

Lemma text_says tbl p d e su scratch trailing bs t rw text : go_table tbl -> reasonable p -> bytes bs ->
  surroundings_ok e su -> length scratch = swoll_event_size -> bs = emit e su scratch ++ trailing ->
  ingest (InBytes bs) = Ingested t -> ingest_bytes bs = Some rw -> is_Some (lookup_sc tbl (ByInt (t_syscall t))) ->
  message p (lookup_sc tbl (ByInt (t_syscall t))) (Some d) (r_args rw) t = Some text -> says p d e su text.
Proof.
  intros G Pp Bb So Ls Eb It Br [sc Hsc] M.
  assert (Rc : record_of (e, su) bs) by (split; [exact So|]; exists scratch, trailing; split; [exact Ls|exact Eb]).
  destruct (decoder (ev_nr e)) as [fs|] eqn:D.
  2: { exfalso. destruct (record_event e su bs t rw Rc It Br) as (fs & _ & D' & _). congruence. }
  destruct (end_to_end e su scratch trailing fs So Ls D) as (t' & It' & H1 & H2 & H3 & H4 & H5 & H6 & H7 & H8 & H9 & H10 & H11 & H12 & H13).
  rewrite <- Eb, It in It'. injection It' as <-.
  pose proof (event_members_ok e su scratch So Ls) as K. pose proof (ingest_image _ scratch trailing K Ls) as Im.
  change (kernel_image (event_members e su scratch) scratch) with (emit e su scratch) in Im. rewrite <- Eb, Br in Im. apply Some_inj in Im.
  assert (T : t_cpid t = su_ns_pid su /\ t_sid t = su_session su /\ t_uts_ns t = su_uts_ns su /\ t_mnt_ns t = su_mnt_ns su
    /\ decode_fields (r_args rw) fs = Some (t_argv t)).
  { unfold ingest in It. rewrite Br in It. destruct (decode_syscall (r_syscall rw) (r_args rw)) as [[vs|]|] eqn:Dd; [|discriminate..]. injection It as <-.
    cbn [t_cpid t_sid t_uts_ns t_mnt_ns t_argv]. subst rw. do 4 (split; [reflexivity|]). unfold decode_syscall in Dd. cbn [raw_of r_syscall r_args event_members k_syscall k_args] in Dd |- *.
    rewrite D in Dd. destruct (decode_fields _ fs) as [vs'|]; [|discriminate]. congruence. }
  destruct T as (T1 & T2 & T3 & T4 & T5).
  assert (Ra : r_args rw = captured_args (ev_nr e) (ev_enter e) (su_mem su) (ev_ret e) (scratch_args scratch)) by (rewrite Im; apply capture_event_args).
  assert (Lr : length (r_args rw) = args_size).
  { rewrite Im. exact (ok_args _ K). }
  assert (Lo : length (scratch_args scratch) = args_size) by (unfold scratch_args; rewrite take_length, drop_length, Ls; reflexivity).
  rewrite Hsc in M. rewrite H1 in Hsc.
  assert (Al : sc ∈ all /\ sc_nr sc = ev_nr e).
  { rewrite (go_table_eq _ G) in Hsc. cbn [lookup_sc] in Hsc. apply by_nr_all in Hsc as [N I]. split; [exact I|exact N]. }
  destruct Al as [Al An].
  pose proof D as D'. rewrite <- H1 in D'.
  destruct (message_reads p (Some sc) (Some d) bs t rw fs text Pp Bb It Br D' M) as (a & Rd & ms & Ea & Ar & _).
  destruct (name_of _ _ _ D Al An) as (call & params & Pn & Nm).
  exists (sc_name sc), (sc_class sc), (sc_group sc), (failed_of (t_error t)), (errno_to_string (t_error t)), (t_return t), ms.
  split; [|split; [|split; [|split; [|split]]]].
  - rewrite Rd. unfold event_json. rewrite Ea, H1, H2, H3, H4, H5, H6, H7, H8, H9, T1, T2, T3, T4. unfold syscall_json. rewrite An. reflexivity.
  - exists call, params. split; [exact Pn|exact Nm].
  - exact (proj1 (proj1 (all_elem sc) Al)).
  - assert (R : result_of (t_error t) = errno_to_string (t_error t)) by (unfold result_of; destruct (Z.eqb_spec (t_error t) 0) as [->|]; reflexivity).
    rewrite <- R. rewrite H11. unfold capture_event. destruct (ev_nr e =? nr_execve) eqn:X; eapply result_told; try exact D; rewrite X; reflexivity.
  - rewrite H10. exact (capture_ret e su scratch fs D).
  - intros member m sh Dm W Ex. destruct (doc_fits _ _ _ _ D Dm W) as (f & If & Nf & Kf & Sf). rewrite <- Nf in Dm, W |- *.
    apply elem_of_list_lookup in If as [j Hj]. destruct (H13 j f m sh Hj W Dm Ex) as (v & Hv & Sv).
    destruct (Forall2_lookup_l _ _ _ _ _ (decode_len _ _ _ T5) Hj) as (v' & Hv' & Dv). rewrite Hv in Hv'. apply Some_inj in Hv'. subst v'.
    destruct (Ar f v) as (jj & Aj & Sj).
    { apply elem_of_list_lookup. exists j. apply lookup_zip_with_Some. exists f, v. split; [reflexivity|]. split; [exact Hj|exact Hv]. }
    exists jj. split; [exact Aj|]. rewrite Ra in Dv, Sj, Lr. rewrite H1 in Sj. exact (json_argument p _ fs f _ _ _ _ v m sh jj D Lo Sf Lr Kf Ex Dv Sv Sj).
Qed.
