(** From the system call to the user's terminal: proofs. *)
From Coq Require Import ZArith String Ascii Lia.
From stdpp Require Import base list numbers strings pretty gmap.
From Verif Require Import TopModel SyscallTable SyscallModel SyscallSpec SyscallProofs FilterModel FilterSpec KernelModel KernelSpec RawModel RawSpec RawProofs DecodeModel CaptureModel CaptureSpec CaptureProofs
  CodecTables CodecModel CodecSpec CodecNames JsonModel JsonSpec JsonProofs MsgModel MsgSpec MsgRead TopoModel HubModel HubSpec HubTop HubDeliver LineModel LineSpec PlainSpec PlainProofs LiveModel LiveSpec LiveProofs LiveTop
  MsgBound ReadSpec ReadTop ServeModel ServeSpec ServeFrame ServeProofs ServeText.
From Verif Require Import PubSubModel PubSubSpec PubSubTop HashModel HashTop WatchModel WatchSpec WatchProofs WatchTop ServeWatch ServeTop.
From Verif Require Import TextModel PrintModel PrintSpec PrintProofs PrintTop UnmarshalModel UnmarshalSpec UnmarshalProofs UnmarshalTop StreamModel StreamSpec StreamProofs ThroughSpec.

Local Open Scope string_scope.
Local Open Scope list_scope.
Local Open Scope Z_scope.
Local Opaque gSyscallMap gClassMap table emit.

(** * The client's own maps *)

Lemma errno_nodup : bool_decide (NoDup (map snd errno_names)) = true.
Proof. vm_compute. reflexivity. Qed.

Definition reorders (order : list (Z * string) -> list (Z * string)) : Prop := forall l, order l ≡ₚ l.

Lemma reverse_any order l : reorders order -> NoDup (map snd l) -> reverse (order l) = reverse l.
Proof. intros O N. apply reverse_perm; [exact N|apply O]. Qed.

Lemma un_int_any order order' nr name j : reorders order -> reorders order' -> un_int order nr name j = un_int order' nr name j.
Proof.
  intros O O'. unfold un_int. pose proof (jtype_of_ok nr name) as K. destruct (jtype_of nr name) eqn:J; try reflexivity.
  - cbn [jtype_ok] in K. destruct (names_ok_all _ K) as [N _]. destruct j; try reflexivity. rewrite !reverse_any by assumption. reflexivity.
  - destruct j; try reflexivity.
    destruct (names_ok_all _ so_ok) as [N1 _]. destruct (names_ok_all _ tcp_ok) as [N2 _]. destruct (names_ok_all _ ip_ok) as [N3 _]. destruct (names_ok_all _ ip6_ok) as [N4 _].
    rewrite !reverse_any by assumption. reflexivity.
Qed.
Lemma un_member_any order order' heap base base' nr f j : reorders order -> reorders order' -> f_kind f <> KAddrs ->
  un_member order heap base nr f j = un_member order' heap base' nr f j.
Proof.
  intros O O' K. unfold un_member. destruct (f_kind f); try (apply un_int_any; assumption); try reflexivity. contradiction.
Qed.
Lemma un_member_some order order' heap base base' nr f j : reorders order -> reorders order' ->
  is_Some (un_member order heap base nr f j) -> is_Some (un_member order' heap base' nr f j).
Proof.
  intros O O'. unfold un_member. destruct (f_kind f); try (rewrite (un_int_any order order') by assumption; trivial); trivial.
  destruct j; trivial. destruct (num_at _ "Sec"); [destruct (num_at _ "Nsec"); [eauto|trivial]|trivial].
Qed.
Lemma un_error_any order order' ms : reorders order -> reorders order' -> un_error order ms = un_error order' ms.
Proof.
  intros O O'. unfold un_error. pose proof errno_nodup as N. apply bool_decide_eq_true in N. rewrite !reverse_any by assumption. reflexivity.
Qed.
Lemma unmarshal_any order order' heap base base' text e : reorders order -> reorders order' ->
  unmarshal order heap base text = UnmarshalModel.Read e ->
  exists ms, unmarshal order' heap base' text = UnmarshalModel.Read (ClientEvent (ce_nr e) (ce_name e) (ce_comm e) (ce_sid e) (ce_error e) (ce_container e) (ce_fields e) ms)
    /\ (Forall (fun f => f_kind f <> KAddrs) (ce_fields e) -> ms = ce_members e).
Proof.
  intros O O'. unfold unmarshal, un_event. destruct (read_json text) as [[| | | | |l]|]; try discriminate.
  destruct (un_syscall l) as [sc|]; [|discriminate]. destruct (text_at l "comm") as [comm|]; [|discriminate]. destruct (num_at l "session") as [sid|]; [|discriminate].
  rewrite (un_error_any order order') by assumption. destruct (un_error order' l) as [er|]; [|discriminate]. destruct (un_container l) as [c|]; [|discriminate].
  destruct (forallb _ numbers); [|discriminate]. destruct sc as [[nr name]|]; [|discriminate]. destruct (decoder nr) as [fs|]; [|discriminate].
  destruct (member_of l "args") as [a|]; [|discriminate]. destruct (args_members nr a) as [ms|]; [|destruct a; discriminate].
  destruct (forallb (present ms) fs); [|discriminate].
  destruct (mapM _ fs) as [vs|] eqn:M; [|discriminate]. intros E. injection E as <-. cbn [ce_nr ce_name ce_comm ce_sid ce_error ce_container ce_fields ce_members].
  assert (X : exists vs', mapM (fun f => match argument_of ms (f_name f) with Some j => un_member order' heap base' nr f j | None => None end) fs = Some vs'
                /\ (Forall (fun f => f_kind f <> KAddrs) fs -> vs' = vs)).
  { revert vs M. induction fs as [|f fs IH]; intros vs M.
    - cbn [mapM] in M |- *. apply Some_inj in M. subst vs. exists []. split; reflexivity.
    - cbn [mapM] in M |- *. destruct (argument_of ms (f_name f)) as [j|]; [|discriminate].
      destruct (un_member order heap base nr f j) as [v|] eqn:U; [|discriminate]. cbn [mbind option_bind] in M.
      destruct (mapM _ fs) as [ws|] eqn:Mw; [|discriminate]. cbn [mbind option_bind mret option_ret] in M. apply Some_inj in M. subst vs.
      destruct (un_member_some order order' heap base base' nr f j O O') as [v' U']; [rewrite U; eauto|]. rewrite U'. cbn [mbind option_bind].
      destruct (IH ws eq_refl) as (ws' & -> & X). exists (v' :: ws'). split; [reflexivity|]. intros F. apply Forall_cons in F as [F1 F2]. rewrite (X F2).
      rewrite (un_member_any order order' heap base base') in U by assumption. rewrite U' in U. apply Some_inj in U. subst v'. reflexivity. }
  destruct X as (vs' & -> & X). exists vs'. split; [reflexivity|exact X].
Qed.
Lemma unmarshal_skips order order' heap base base' text : reorders order -> reorders order' ->
  unmarshal order heap base text = Skipped -> unmarshal order' heap base' text = Skipped.
Proof.
  intros O O' U. destruct (unmarshal order' heap base' text) as [e| | | |] eqn:U'; [|exfalso|reflexivity|exfalso..].
  - destruct (unmarshal_any order' order heap base' base text e O' O U') as (ms & X & _). rewrite U in X. discriminate.
  - unfold unmarshal, un_event in U, U'. destruct (read_json text) as [[| | | | |l]|]; try discriminate.
    rewrite (un_error_any order order') in U by assumption. destruct (un_syscall l) as [sc|]; [|discriminate]. destruct (UnmarshalModel.text_at l "comm") as [comm|]; [|discriminate].
    destruct (num_at l "session") as [sid|]; [|discriminate]. destruct (un_error order' l) as [er|]; [|discriminate]. destruct (un_container l) as [c|]; [|discriminate].
    destruct (forallb _ numbers); [|discriminate]. destruct sc as [[nr name]|]; [|discriminate]. destruct (decoder nr) as [fs|]; [|discriminate].
    destruct (member_of l "args") as [a|]; [|discriminate]. destruct (args_members nr a) as [ms|]; [|destruct a; discriminate].
    destruct (forallb (present ms) fs); [|discriminate]. destruct (mapM _ fs); [discriminate|]. destruct (mapM _ fs); discriminate.
  - unfold unmarshal, un_event in U, U'. destruct (read_json text) as [[| | | | |l]|]; try discriminate.
    rewrite (un_error_any order order') in U by assumption. destruct (un_syscall l) as [sc|]; [|discriminate]. destruct (UnmarshalModel.text_at l "comm") as [comm|]; [|discriminate].
    destruct (num_at l "session") as [sid|]; [|discriminate]. destruct (un_error order' l) as [er|]; [|discriminate]. destruct (un_container l) as [c|]; [|discriminate].
    destruct (forallb _ numbers); [|discriminate]. destruct sc as [[nr name]|]; [|discriminate]. destruct (decoder nr) as [fs|]; [|discriminate].
    destruct (member_of l "args") as [a|]; [|discriminate]. destruct (args_members nr a) as [ms|]; [|destruct a; discriminate].
    destruct (forallb (present ms) fs); [|discriminate]. destruct (mapM _ fs); [discriminate|]. destruct (mapM _ fs); discriminate.
  - unfold unmarshal, un_event in U, U'. destruct (read_json text) as [[| | | | |l]|]; try discriminate.
    rewrite (un_error_any order order') in U by assumption. destruct (un_syscall l) as [sc|]; [|discriminate]. destruct (UnmarshalModel.text_at l "comm") as [comm|]; [|discriminate].
    destruct (num_at l "session") as [sid|]; [|discriminate]. destruct (un_error order' l) as [er|]; [|discriminate]. destruct (un_container l) as [c|]; [|discriminate].
    destruct (forallb _ numbers); [|discriminate]. destruct sc as [[nr name]|]; [|discriminate]. destruct (decoder nr) as [fs|]; [|discriminate].
    destruct (member_of l "args") as [a|]; [|discriminate]. destruct (args_members nr a) as [ms|]; [|destruct a; discriminate].
    destruct (forallb (present ms) fs); [|discriminate]. destruct (mapM _ fs); [discriminate|]. destruct (mapM _ fs); discriminate.
Qed.

(** * The head of the event *)

Lemma unmarshal_head order heap base text ms e : read_json text = Some (JsObj ms) -> unmarshal order heap base text = UnmarshalModel.Read e ->
  un_syscall ms = Some (Some (ce_nr e, ce_name e)) /\ UnmarshalModel.text_at ms "comm" = Some (ce_comm e) /\ num_at ms "session" = Some (ce_sid e)
  /\ un_error order ms = Some (ce_error e) /\ un_container ms = Some (ce_container e).
Proof.
  intros J. unfold unmarshal. rewrite J. unfold un_event. destruct (un_syscall ms) as [sc|]; [|discriminate]. destruct (UnmarshalModel.text_at ms "comm") as [comm|]; [|discriminate].
  destruct (num_at ms "session") as [sid|]; [|discriminate]. destruct (un_error order ms) as [er|]; [|discriminate]. destruct (un_container ms) as [c|]; [|discriminate].
  destruct (forallb _ numbers); [|discriminate]. destruct sc as [[nr name]|]; [|discriminate]. destruct (decoder nr) as [fs|]; [|discriminate].
  destruct (member_of ms "args") as [a|]; [|discriminate]. destruct (args_members nr a) as [l|]; [|destruct a; discriminate].
  destruct (forallb (present l) fs); [|discriminate]. destruct (mapM _ fs) as [vs|]; [|discriminate]. intros E. injection E as <-.
  cbn [ce_nr ce_name ce_comm ce_sid ce_error ce_container]. repeat split.
Qed.

Section through.
Context (tbl : syscalls) (describe : HubModel.container -> TopoModel.container (list (string * string))) (srt : list PubSubModel.env -> list PubSubModel.env) (J : nat -> job).
Context (G : go_table tbl) (Srt : sort_contract srt) (Ds : describes describe) (h0 : hub) (H0 : new_hub tbl = Some h0) (s0 : server) (E0 : start_server tbl = Some s0).
Local Notation run := (srun tbl describe srt J).
Local Notation step := (sstep tbl describe srt J).

Lemma record_story l rs k bs : sent_record (story l) (outcomes rs) k bs -> record_at l rs k bs.
Proof.
  intros (o & su & scratch & trailing & r & e & Hl & Hr & He & Eb). apply story_task in Hl. exists o, su, scratch, trailing, r, e.
  split; [exact Hl|]. split; [|split; [exact He|exact Eb]]. unfold outcomes in Hr. rewrite list_lookup_fmap in Hr.
  destruct (rs !! k) as [x|]; [|discriminate]. destruct x; try discriminate. apply Some_inj in Hr. injection Hr as ->. reflexivity.
Qed.
Lemma record_unique l rs k bs bs' : record_at l rs k bs -> record_at l rs k bs' -> bs = bs'.
Proof.
  intros (o & su & sc & tr & r & e & H1 & H2 & H3 & ->) (o' & su' & sc' & tr' & r' & e' & H1' & H2' & H3' & ->).
  rewrite H1 in H1'. injection H1' as _ <- <- <-. rewrite H2 in H2'. injection H2' as <-. rewrite H3 in H3'. apply Some_inj in H3'. subst e'. reflexivity.
Qed.
Lemma record_sends l rs k bs : record_at l rs k bs -> exists e su scratch trailing, sends (story l) (outcomes rs) k e su /\ bs = emit e su scratch ++ trailing.
Proof.
  intros (o & su & sc & tr & r & e & H1 & H2 & H3 & ->). exists e, su, sc, tr. split; [|reflexivity].
  exists o, sc, tr, r. unfold story, outcomes. rewrite !list_lookup_fmap, H1, H2. split; [reflexivity|]. split; [reflexivity|exact H3].
Qed.

(** A text written, the call it tells of, and the record it was made of. *)
Lemma wrote_message l s rs q w k text : Forall plausible l -> run s0 l s rs -> wrote rs q w k text ->
  exists a i q0 ps e su c p takes bs t r,
    came l rs i w a /\ (i < q)%nat /\ took rs q0 k ps /\ (k < q0 < q)%nat
    /\ sends (story l) (outcomes rs) k e su /\ LiveSpec.known (take q0 (story l)) (ev_pidns e) c /\ meant_for J (take q0 l) (take q0 rs) a c (ev_nr e)
    /\ says p (describe c) e su text
    /\ record_at l rs k bs /\ bytes bs /\ ingest (InBytes bs) = Ingested t /\ ingest_bytes bs = Some r
    /\ reasonable p /\ SCall p takes ∈ l
    /\ message p (lookup_sc tbl (ByInt (t_syscall t))) (Some (describe c)) (r_args r) t = Some text.
Proof.
  intros F R W. destruct (pub0 tbl h0 H0 s0 E0) as [P0 Y0].
  destruct (wrote_facts tbl describe srt J Srt s0 (start_fresh tbl h0 H0 s0 E0) P0 Y0 l s rs q w k text R W) as (a & i & q0 & ps & b & p & takes & path & Ca & Iq & Tk & Q0 & La & (sq & i0 & sq' & Hl & Rq & S & Pb) & Kb & Ip & Pre & Ic & Te).
  rewrite Kb in S, Pb. destruct (reads tbl describe srt J G h0 H0 s0 E0 _ _ _ _ _ _ _ _ _ F R Hl Tk Rq S) as (e & su & t & rw & Rd).
  pose proof (rd_before _ _ _ _ _ _ _ _ _ _ _ _ _ _ _ _ Rd) as Bf. pose proof (rd_sends _ _ _ _ _ _ _ _ _ _ _ _ _ _ _ _ Rd) as Se.
  destruct (sends_ok tbl describe srt J G h0 H0 s0 E0 _ _ _ _ _ _ F R Se) as (So & Pn & Rn).
  pose proof (rd_pub _ _ _ _ _ _ _ _ _ _ _ _ _ _ _ _ Rd) as Pd. rewrite Pb in Pd. destruct (w_cache (sv_world sq) !! t_pid_ns t) as [c|] eqn:Kc; [|discriminate].
  apply Some_inj in Pd. injection Pd as Et Er Ec.
  pose proof (proj1 (reading_known tbl describe srt J h0 H0 s0 E0 _ _ _ _ _ _ _ _ _ _ _ c F Rd Pn) Kc) as Kn.
  assert (Cn : ct_ns c = ev_pidns e) by (destruct Kn as (_ & k0 & _ & X & _); exact X).
  destruct (reading_paths tbl describe srt J G h0 H0 s0 E0 _ _ _ _ _ _ _ _ _ _ _ _ _ F R Rd Kc) as (sc & Sc & Ps).
  (* the record *)
  pose proof (srun_framed _ _ _ _ _ _ _ _ Rq) as Fr. destruct (f_ring_spec tbl (sv_world s0) (start_fresh tbl h0 H0 s0 E0) _ _ _ Fr) as [[_ M] _].
  destruct (read_step_cases tbl describe srt J _ _ _ _ S) as [_ [(_ & X & _)|(Nb & k' & bs & Hi & Hx)]]; [discriminate|].
  assert (k' = k) as -> by (destruct Hx as [(_ & X & _)|(t1 & rw1 & h & ps' & _ & _ & _ & _ & X & _)]; injection X; congruence).
  destruct (proj1 (M k bs) (elem_of_list_lookup_2 _ _ _ Hi)) as [Sr _].
  assert (Ra : record_at l rs k bs).
  { apply record_story. destruct Sr as (o' & su' & sc' & tr' & r' & e' & A1 & A2 & A3 & A4). exists o', su', sc', tr', r', e'.
    rewrite story_take in A1. rewrite outcomes_take in A2. apply lookup_take_Some in A1 as [A1 _]. apply lookup_take_Some in A2 as [A2 _]. split; [exact A1|]. split; [exact A2|]. split; [exact A3|exact A4]. }
  destruct (record_sent tbl describe srt J s0 _ _ _ _ _ (Forall_take _ q0 _ F) Rq Sr) as (_ & _ & _ & _ & _ & _ & _ & Bb).
  destruct Hx as [(_ & X & Np & _)|(t1 & rw1 & h & ps' & Ht & Hb & Nl & O & X & _ & Pb')]; [rewrite Pb in Np; discriminate|].
  rewrite Pb in Pb'. destruct (w_cache (sv_world sq) !! t_pid_ns t1) as [c1|] eqn:Kc1; [|discriminate]. apply Some_inj in Pb'. injection Pb' as Et1 Er1 Ec1 _.
  rewrite Et in Et1. subst t1. rewrite Er in Er1.
  assert (Rp : reasonable p) by (rewrite Forall_forall in F; exact (proj2 (F _ Ic))).
  unfold ServeModel.text_of in Te. rewrite Et, Er, Ec in Te.
  exists a, i, q0, ps, e, su, c, p, takes, bs, t, rw1. split; [exact Ca|]. split; [exact Iq|]. split; [exact Tk|]. split; [lia|]. split; [exact Se|]. split; [exact Kn|].
  split; [|split; [|split; [exact Ra|split; [exact Bb|split; [exact Ht|split; [exact Hb|split; [exact Rp|split; [exact Ic|rewrite <- Er1; exact Te]]]]]]]].
  - destruct Ps as [[_ ->]|[Dm (qs & Eq & In & _)]]; [apply not_elem_of_nil in Ip; contradiction|]. rewrite Eq in Ip. apply elem_of_cons in Ip as [-> |Ip].
    + destruct a as [id|ns pod name]; cbn [meant_for ask_path] in Pre |- *; [destruct (job_not_event _ _ _ _ _ Pre)|].
      rewrite Cn. split; [exact Dm|]. exact (proj2 (trace_event_agree ns pod name c (sc_name sc)) Pre).
    + apply elem_of_list_In, in_map_iff in Ip as (j & <- & Hj). apply elem_of_list_In in Hj. destruct (In j Hj) as (m & i' & Fo).
      destruct a as [id|ns pod name]; cbn [meant_for ask_path] in Pre |- *; [|destruct (trace_not_job _ _ Pre)].
      rewrite Cn. exists m, i', j. split; [exact Fo|]. destruct (decide (id = "")) as [E|E]; [left; exact E|right]. symmetry. exact (proj2 (proj1 (job_prefix _ _ E) Pre)).
  - destruct (rd_record _ _ _ _ _ _ _ _ _ _ _ _ _ _ _ _ Rd) as (scratch & trailing & bs' & Ls & Eb & Bb' & It & Ib).
    refine (text_says tbl p (describe c) e su scratch trailing bs' t rw text G Rp Bb' So Ls Eb It Ib _ Te).
    rewrite (rd_nr _ _ _ _ _ _ _ _ _ _ _ _ _ _ _ _ Rd), Sc. exists sc. reflexivity.
Qed.

Lemma reads_or_skips order heap base l s rs q w k text : reorders order -> Forall plausible l -> run s0 l s rs -> wrote rs q w k text ->
  unmarshal order heap base text = Skipped \/ exists e, unmarshal order heap base text = UnmarshalModel.Read e.
Proof.
  intros O F R W. destruct (wrote_message l s rs q w k text F R W) as (a & i & q0 & ps & e & su & c & p & takes & bs & t & r & _ & _ & _ & _ & _ & _ & _ & _ & _ & B & I & Ib & P & _ & M).
  destruct (ingested bs t B I) as (r' & fs & _ & _ & _ & D & _).
  destruct (UnmarshalTop.goes_on p tbl (Some (describe c)) heap bs r t fs text G P B I Ib D M) as [U|(ms & U)].
  - left. exact (unmarshal_skips _ _ _ _ _ _ (re_order p P) O U).
  - right. destruct (unmarshal_any _ order _ _ base _ _ (re_order p P) O U) as (ms' & U' & _). eexists. exact U'.
Qed.

Lemma event_facts order heap base l s rs q w k text ev : reorders order -> Forall plausible l -> run s0 l s rs -> wrote rs q w k text ->
  read_as order heap base text = Some ev ->
  exists a i q0 ps e su c,
    came l rs i w a /\ (i < q)%nat /\ took rs q0 k ps /\ (k < q0 < q)%nat
    /\ sends (story l) (outcomes rs) k e su /\ LiveSpec.known (take q0 (story l)) (ev_pidns e) c /\ meant_for J (take q0 l) (take q0 rs) a c (ev_nr e)
    /\ ce_nr ev = ev_nr e /\ (exists call params, prototype (ev_nr e) = Some (call, params) /\ ce_name ev = json_text (txt ("sys_" ++ call)%string))
    /\ ce_comm ev = json_text (until_nul (su_comm su)) /\ ce_sid ev = su_session su
    /\ ce_container ev = Some (json_text (txt (ct_name c)), json_text (txt (ct_pod c)), json_text (txt (ct_namespace c)))
    /\ forall bs t args fs srv, record_at l rs k bs -> comes_whole bs t args fs srv -> Forall (fun f => f_kind f <> KAddrs) fs -> bytes heap ->
       ce_fields ev = fs /\ ce_members ev = srv /\ ce_error ev = t_error t
       /\ forall order' base' line, well_formed (txt (ct_name c)) -> well_formed (txt (ct_pod c)) -> well_formed (txt (ct_namespace c)) ->
          line_of order' base' false false (Some (txt (ct_name c), txt (ct_pod c), txt (ct_namespace c))) t args = Some line ->
          exists a b, line = txt "(" ++ ms_text (latency (t_start t) (t_finish t)) ++ txt "ms) " ++ a ++ right_align 9 (t_comm t) ++ b
            /\ create_line order' base' false ev = Some (a ++ right_align 11 (t_comm t) ++ b).
Proof.
  intros O F R W Ra. destruct (wrote_message l s rs q w k text F R W) as (a & i & q0 & ps & e & su & c & p & takes & bs & t & r & H1 & H2 & H3 & H4 & H5 & H6 & H7 & Sy & Rc & B & I & Ib & P & Ic & M).
  unfold read_as in Ra. destruct (unmarshal order heap base text) as [ev'| | | |] eqn:U; try discriminate. apply Some_inj in Ra. subst ev'.
  destruct (Ds c) as (D1 & D2 & D3 & _).
  exists a, i, q0, ps, e, su, c. do 7 (split; [assumption|]).
  destruct Sy as (name & class & group & failed & result & ret & ms & Jr & (call & params & Pr & ->) & _).
  destruct (unmarshal_head _ _ _ _ _ _ Jr U) as (U1 & U2 & U3 & _ & U5).
  split. { symmetry. assert (X := U1). unfold un_syscall in X. change (member_of _ "syscall") with (Some (js_obj [("nr", JsNum (ev_nr e)); ("name", js_text ("sys_" ++ call)); ("class", js_text class); ("group", js_text group)])) in X. injection X. trivial. }
  split. { exists call, params. split; [exact Pr|]. symmetry. assert (X := U1). unfold un_syscall in X. change (member_of _ "syscall") with (Some (js_obj [("nr", JsNum (ev_nr e)); ("name", js_text ("sys_" ++ call)); ("class", js_text class); ("group", js_text group)])) in X. injection X. trivial. }
  split. { assert (X := U2). unfold UnmarshalModel.text_at in X. change (member_of _ "comm") with (Some (js_bytes (until_nul (su_comm su)))) in X. injection X. intros <-. reflexivity. }
  split. { assert (X := U3). unfold num_at in X. change (member_of _ "session") with (Some (JsNum (su_session su))) in X. injection X. intros <-. reflexivity. }
  split. { rewrite (container_back (Some (describe c))) in U5 by reflexivity. apply Some_inj in U5. rewrite <- U5. cbn [names_of client_container]. rewrite D1, D2, D3. reflexivity. }
  intros bs' t' args fs srv Rc' ((r' & Ib' & <-) & I' & D & S & Wf & Er & Sv) Ka Hh.
  assert (bs' = bs) as -> by exact (record_unique _ _ _ _ _ Rc' Rc). rewrite I in I'. injection I' as <-. rewrite Ib in Ib'. apply Some_inj in Ib'. subst r'.
  destruct (client_reads_table p tbl (Some (describe c)) heap bs r t fs srv text G P B I Ib D S M) as (sc & Sc & Ur).
  destruct (proj2 (whole_event bs r t fs srv B Ib I D S) (conj Wf (conj Er Sv)) (j_order p) heap (re_order p P) Hh) as (Wc & We & Wm).
  unfold received in Ur. rewrite D, Wm in Ur.
  destruct (unmarshal_any _ order _ _ base _ _ (re_order p P) O Ur) as (ms' & Uo & Em). cbn [ce_nr ce_name ce_comm ce_sid ce_error ce_container ce_fields ce_members] in Uo, Em.
  rewrite U in Uo. injection Uo as Eev. rewrite (Em Ka) in Eev. subst ev. cbn [ce_fields ce_members ce_error].
  split; [reflexivity|]. split; [reflexivity|]. split; [exact We|]. intros order' base' line C1 C2 C3 L.
  assert (Nm : names_of (Some (describe c)) = Some (txt (ct_name c), txt (ct_pod c), txt (ct_namespace c))) by (cbn [names_of]; rewrite D1, D2, D3; reflexivity).
  destruct (create_prints (j_order p) heap order' base' (json_text (txt (sc_name sc))) (names_of (Some (describe c))) bs r t fs srv line B Ib I D S Wf Er Sv) as (e0 & a0 & b0 & R0 & L1 & L2).
  { rewrite Nm. cbn [container_utf8]. tauto. }
  { exact (re_order p P). } { exact Hh. } { rewrite Nm. exact L. }
  exists a0, b0. split; [exact L1|]. unfold received in R0. rewrite D, Wm in R0. apply Some_inj in R0. rewrite <- R0 in L2. exact L2.
Qed.

Lemma whole_is_read order heap base l s rs q w k text bs t args fs srv : reorders order -> bytes heap -> Forall plausible l -> run s0 l s rs -> wrote rs q w k text ->
  record_at l rs k bs -> comes_whole bs t args fs srv -> is_Some (read_as order heap base text).
Proof.
  intros O Hh F R W Rc' ((r' & Ib' & <-) & I' & D & S & Wf & Er & Sv).
  destruct (wrote_message l s rs q w k text F R W) as (a & i & q0 & ps & e & su & c & p & takes & bs' & t' & r & _ & _ & _ & _ & _ & _ & _ & _ & Rc & B & I & Ib & P & _ & M).
  assert (bs' = bs) as -> by exact (record_unique _ _ _ _ _ Rc Rc'). rewrite I' in I. injection I as <-. rewrite Ib' in Ib. apply Some_inj in Ib. subst r'.
  destruct (client_reads_table p tbl (Some (describe c)) heap bs r t fs srv text G P B I' Ib' D S M) as (sc & Sc & Ur).
  destruct (proj2 (whole_event bs r t fs srv B Ib' I' D S) (conj Wf (conj Er Sv)) (j_order p) heap (re_order p P) Hh) as (_ & _ & Wm).
  unfold received in Ur. rewrite D, Wm in Ur.
  destruct (unmarshal_any _ order _ _ base _ _ (re_order p P) O Ur) as (ms' & Uo & _). unfold read_as. rewrite Uo. eexists. reflexivity.
Qed.

End through.

(** * The messages of a client *)

Lemma inbox_wrote w rs k text : (k, text) ∈ inbox w rs <-> exists q, wrote rs q w k text.
Proof.
  unfold inbox, wrote. rewrite elem_of_list_omap. split.
  - intros (r & Hr & E). destruct r; try discriminate. destruct (decide (w0 = w)) as [->|]; [|discriminate]. injection E as -> ->. apply elem_of_list_lookup in Hr as [q Hq]. exists q. exact Hq.
  - intros [q Hq]. exists (VWrote w k text). split; [exact (elem_of_list_lookup_2 _ _ _ Hq)|]. rewrite decide_True by reflexivity. reflexivity.
Qed.
Lemma delivered_wrote order heap base w rs k ev : (k, ev) ∈ delivered order heap base w rs <-> exists q text, wrote rs q w k text /\ read_as order heap base text = Some ev.
Proof.
  unfold delivered. rewrite elem_of_list_omap. split.
  - intros ([k' text] & Hi & E). cbn [fst snd] in E. destruct (read_as _ _ _ text) as [e|] eqn:Er; [|discriminate]. injection E as -> ->.
    apply inbox_wrote in Hi as [q Hq]. exists q, text. split; [exact Hq|exact Er].
  - intros (q & text & Hq & Er). exists (k, text). split; [apply inbox_wrote; exists q; exact Hq|]. cbn [fst snd]. rewrite Er. reflexivity.
Qed.
Lemma copies_le order heap base w k rs : (copies k (delivered order heap base w rs) <= texts w k rs)%nat.
Proof.
  unfold copies, delivered, texts, inbox. induction rs as [|r rs IH]; [cbn; lia|]. cbn [omap list_omap List.filter].
  destruct r; cbn [written]; try exact IH. destruct (decide (w0 = w)) as [->|N].
  - rewrite Nat.eqb_refl. cbn [andb omap list_omap fst snd]. destruct (read_as _ _ _ text); [cbn [List.filter fst]; rewrite (Nat.eqb_sym k0 k)|]; destruct (k =? k0)%nat; cbn [length]; lia.
  - destruct (Nat.eqb_spec w w0); [congruence|]. cbn [andb]. exact IH.
Qed.
Lemma copies_all order heap base w k rs : (forall q text, wrote rs q w k text -> is_Some (read_as order heap base text)) ->
  copies k (delivered order heap base w rs) = texts w k rs.
Proof.
  unfold copies, delivered, texts, inbox. induction rs as [|r rs IH]; intros H; [reflexivity|]. specialize (IH (fun q text Hq => H (S q) text Hq)). cbn [omap list_omap List.filter].
  destruct r; cbn [written]; try exact IH. destruct (decide (w0 = w)) as [->|N].
  - rewrite Nat.eqb_refl. cbn [andb omap list_omap fst snd]. destruct (Nat.eqb_spec k k0) as [<-|Nk].
    + destruct (H 0%nat text eq_refl) as [e ->]. cbn [List.filter fst]. rewrite Nat.eqb_refl. cbn [length]. f_equal. exact IH.
    + destruct (read_as _ _ _ text); [cbn [List.filter fst]; destruct (Nat.eqb_spec k0 k); [congruence|]|]; exact IH.
  - destruct (Nat.eqb_spec w w0); [congruence|]. cbn [andb]. exact IH.
Qed.
(** * The stream *)

Lemma events_data {A} (fs : list (frame A)) : events (data fs) = events fs.
Proof. unfold data, events. induction fs as [|f fs IH]; [reflexivity|]. destruct f; cbn [List.filter flat_map]; rewrite ?IH; reflexivity. Qed.
Lemma events_messages order heap base w rs :
  events (map (message_frame order heap base) (map snd (inbox w rs))) = map snd (delivered order heap base w rs).
Proof.
  unfold delivered. induction (inbox w rs) as [|[k text] l IH]; [reflexivity|]. cbn [map snd omap list_omap fst]. unfold events in *. cbn [flat_map message_frame]. rewrite IH.
  destruct (read_as order heap base text); reflexivity.
Qed.
Lemma events_prefix {A} (a b : list (frame A)) : a `prefix_of` b -> events a `prefix_of` events b.
Proof. intros [c ->]. unfold events. rewrite flat_map_app. apply prefix_app_r. reflexivity. Qed.

Lemma shown_delivered order heap base w rs t is : (forall f, Reset f ∉ is) ->
  data (arrived is) `prefix_of` map (message_frame order heap base) (map snd (inbox w rs)) ->
  StreamModel.shown (StreamModel.run is (dial t)) `prefix_of` map snd (delivered order heap base w rs).
Proof.
  intros N P. destruct (in_order_reset t is N) as [S _]. apply events_prefix in P. rewrite events_data, events_messages in P.
  etrans; [exact S|exact P].
Qed.
Lemma healthy_delivered order heap base w rs t is : Forall harmless is -> answered is (dial t) ->
  data (arrived is) = map (message_frame order heap base) (map snd (inbox w rs)) ->
  ended (StreamModel.run is (dial t)) = None
  /\ StreamModel.shown (StreamModel.run is (dial t)) ++ waiting (held (StreamModel.run is (dial t))) ++ events (queue (StreamModel.run is (dial t))) = map snd (delivered order heap base w rs).
Proof.
  intros H A P. destruct (healthy t is H A) as [E S]. split; [exact E|]. rewrite S, <- events_data, P. apply events_messages.
Qed.
