(** Proofs about `swoll server`: from the call to the client. *)
From Coq Require Import ZArith String Lia.
From stdpp Require Import base list numbers strings pretty gmap.
From Verif Require Import SyscallTable SyscallModel SyscallSpec SyscallProofs FilterModel FilterSpec FilterProofs KernelModel KernelSpec KernelProofs RawModel RawProofs DecodeModel CaptureModel CaptureSpec CaptureProofs
  CodecModel JsonModel JsonSpec MsgModel MsgSpec MsgRead TopoModel HubModel HubSpec HubTop HubDeliver LineModel LineSpec PlainSpec PlainProofs LiveModel LiveSpec LiveProofs LiveTop
  ServeModel ServeSpec ServeFrame ServeProofs ServeText.
From Verif Require Import PubSubModel PubSubSpec PubSubTop HashModel HashTop WatchModel WatchSpec WatchProofs WatchTop ServeWatch.

Local Open Scope string_scope.
Local Open Scope list_scope.
Local Open Scope Z_scope.
Local Opaque gSyscallMap gClassMap table emit.
Local Notation u32 := FilterModel.u32.

Section top.
Context (tbl : syscalls) (describe : HubModel.container -> TopoModel.container (list (string * string))) (srt : list PubSubModel.env -> list PubSubModel.env) (J : nat -> job).
Context (G : go_table tbl) (Srt : sort_contract srt) (h0 : hub) (H0 : new_hub tbl = Some h0) (s0 : server) (E0 : start_server tbl = Some s0).
Local Notation run := (srun tbl describe srt J).
Local Notation step := (sstep tbl describe srt J).

(** * Records *)

Lemma plausible_at l k o : Forall plausible l -> l !! k = Some o -> plausible o.
Proof. intros F H. rewrite Forall_forall in F. exact (F _ (elem_of_list_lookup_2 _ _ _ H)). Qed.

Lemma sends_ok l s rs k e su : Forall plausible l -> run s0 l s rs -> sends (story l) (outcomes rs) k e su ->
  surroundings_ok e su /\ some_ns (ev_pidns e) /\ 0 <= ev_nr e <= 332.
Proof.
  intros F R (o & sc & tr & r & Hl & Hr & He). assert (D : did (story l) k o) by (exists su, sc, tr, false; exact Hl).
  pose proof (plausible_real _ F) as F'. pose proof F' as F''. rewrite Forall_forall in F''. destruct (F'' _ (elem_of_list_lookup_2 _ _ _ Hl)) as (Fo & [_ _ _ _ _ _ S1 S2 S3 S4 S5 S6 S7 S8] & Ls).
  destruct (task_at tbl describe srt J G h0 H0 s0 E0 _ _ _ _ _ F R D) as (wk & os & hrs & T & _ & E & I). rewrite Hr in E. apply Some_inj, utask_inj in E.
  assert (He' := He). rewrite E in He'. apply sent_from in He' as [(tid & t & ret & now & cpu & ->)|(tid & t & args & ugid & now & cpu & ->)].
  - destruct (proj1 (f_exit_iff tbl (sv_world s0) (start_fresh tbl h0 H0 s0 E0) _ _ _ _ _ _ _ _ _ _ _ (srun_framed _ _ _ _ _ _ _ _ R) D Hr) He) as (Hc & i & t0 & args & ugid & now0 & Hik & Hi & Hs & Hj & Hid & ->).
    destruct (kept_sound tbl describe srt J G h0 H0 s0 E0 _ _ _ _ _ _ _ _ _ F R Hi Hs) as (N1 & m & i' & j & N2). rewrite Hid in N2. pose proof (force_range J _ _ _ _ _ _ _ N2) as B.
    destruct (real_did _ _ _ F' Hi) as (A1 & A2 & A3 & A4). destruct Fo as (B1 & B2 & B3). unfold word, some_ns in *. cbn [ev_pidns ev_nr].
    split; [|split; [exact B3|exact B]]. split; cbn [ev_tid ev_ugid ev_nr ev_entr ev_exit ev_pidns]; try assumption; lia.
  - subst r. apply execve_event in He as (Hc & V & ->). destruct Fo as (B1 & B2 & B3 & B4 & B5). unfold word, some_ns in *. cbn [ev_pidns ev_nr].
    split; [|split; [exact B4|lia]]. split; cbn [ev_tid ev_ugid ev_nr ev_entr ev_exit ev_pidns]; try assumption; lia.
Qed.

Lemma record_sent l s rs k bs : Forall plausible l -> run s0 l s rs -> sent_record (story l) (outcomes rs) k bs ->
  exists e su scratch trailing, sends (story l) (outcomes rs) k e su /\ length scratch = swoll_event_size /\ bs = emit e su scratch ++ trailing /\ bytes bs.
Proof.
  intros F R (o & su & scratch & trailing & r & e & Hl & Hr & He & ->). exists e, su, scratch, trailing.
  split; [exists o, scratch, trailing, r; split; [exact Hl|]; split; [exact Hr|exact He]|].
  apply story_task in Hl. destruct (plausible_at _ _ _ F Hl) as ((_ & _ & Ls) & M & C & B1 & B2).
  split; [exact Ls|]. split; [reflexivity|]. apply bytes_app; [exact (emit_bytes e su scratch M C B1)|exact B2].
Qed.

Lemma sends_take l rs q k e su : sends (take q (story l)) (take q (outcomes rs)) k e su -> sends (story l) (outcomes rs) k e su.
Proof.
  intros (o & sc & tr & r & H1 & H2 & H3). exists o, sc, tr, r. apply lookup_take_Some in H1 as [H1 _]. apply lookup_take_Some in H2 as [H2 _]. split; [exact H1|]. split; [exact H2|exact H3].
Qed.

(** * What a read does *)

Record reading (l : list sop) (rs : list sout) (q k : nat) (ps : list (option nat * list Z)) (e : kevent) (su : surroundings) (sq sq' : server) (t : trace_event) (rw : raw_event) : Prop := {
  rd_before : (k < q)%nat;
  rd_sends : sends (story l) (outcomes rs) k e su;
  rd_run : run s0 (take q l) sq (take q rs);
  rd_not_busy : busy sq = false;
  rd_record : exists scratch trailing bs, length scratch = swoll_event_size /\ bs = emit e su scratch ++ trailing /\ bytes bs /\ ingest (InBytes bs) = Ingested t /\ ingest_bytes bs = Some rw;
  rd_nr : t_syscall t = ev_nr e;
  rd_ns : t_pid_ns t = ev_pidns e;
  rd_nil : nil_syscall tbl (sv_world sq) t = false;
  rd_event : exists h, on_event J (w_hub (sv_world sq)) (event_of tbl (sv_world sq) t) = HubModel.Ok (h, ps);
  rd_pub : sv_pub sq' = match w_cache (sv_world sq) !! t_pid_ns t with Some c => Some (Publishing k t (r_args rw) c (map snd ps) []) | None => None end
}.
Lemma reads l s rs q i k ps sq sq' : Forall plausible l -> run s0 l s rs -> l !! q = Some (SRead i) -> took rs q k ps ->
  run s0 (take q l) sq (take q rs) -> step sq (SRead i) (Some (sq', VRead k ps)) -> exists e su t rw, reading l rs q k ps e su sq sq' t rw.
Proof.
  intros F R Hl Hr Rq S.
  pose proof (srun_framed _ _ _ _ _ _ _ _ Rq) as Fr. destruct (f_ring_spec tbl (sv_world s0) (start_fresh tbl h0 H0 s0 E0) _ _ _ Fr) as [[_ M] _].
  destruct (f_ring_spec tbl (sv_world s0) (start_fresh tbl h0 H0 s0 E0) _ _ _ (srun_framed _ _ _ _ _ _ _ _ R)) as [_ Old].
  destruct (read_step_cases tbl describe srt J _ _ _ _ S) as [_ [(_ & X & _)|(Nb & k' & bs & Hi & Hx)]]; [discriminate|].
  assert (k' = k) as -> by (destruct Hx as [(_ & X & _)|(t & rw & h & ps' & _ & _ & _ & _ & X & _)]; injection X; congruence).
  destruct (proj1 (M k bs) (elem_of_list_lookup_2 _ _ _ Hi)) as [Sr _].
  destruct (record_sent _ _ _ _ _ (Forall_take _ q _ F) Rq Sr) as (e & su & scratch & trailing & Se & Ls & Eb & Bb).
  destruct (sends_ok _ _ _ _ _ _ (Forall_take _ q _ F) Rq Se) as (So & Pn & Rn). pose proof Se as Se'. rewrite story_take, outcomes_take in Se'. apply sends_take in Se'.
  assert (Rc : record_of (e, su) bs) by (split; [exact So|]; exists scratch, trailing; split; [exact Ls|exact Eb]).
  destruct (ingest_sent e su bs Rc) as (rw & Hb & Len & Hd).
  destruct Hx as [(X & _)|(t & rw' & h & ps' & Ht & Hb' & Nl & O & X & _ & Pb)]; [destruct (decoder (ev_nr e)); [destruct Hd as (t & Hd & _); rewrite X in Hd; discriminate|rewrite X in Hd; discriminate]|].
  rewrite Hb in Hb'. apply Some_inj in Hb'. subst rw'. assert (ps' = ps) as -> by (injection X; congruence).
  destruct (decoder (ev_nr e)) as [fs|] eqn:D; [|rewrite Ht in Hd; discriminate]. destruct Hd as (t' & Ht' & T1 & T2 & _). rewrite Ht in Ht'. injection Ht' as <-.
  exists e, su, t, rw. split; try assumption.
  - apply Old. exists ps, None. apply outcome_read. split; [exact Hr|reflexivity].
  - exists scratch, trailing, bs. repeat (split; [assumption|]). assumption.
  - exists h. exact O.
Qed.
Lemma reads_at l s rs q k ps : Forall plausible l -> run s0 l s rs -> took rs q k ps ->
  exists i sq sq' e su t rw, l !! q = Some (SRead i) /\ step sq (SRead i) (Some (sq', VRead k ps)) /\ reading l rs q k ps e su sq sq' t rw.
Proof.
  intros F R Hq. destruct (srun_out _ _ _ _ _ _ _ _ _ _ R Hq) as (o & sq & sq' & Hl & Rq & S & _).
  pose proof (step_frame _ _ _ _ _ _ _ _ S) as Fr. pose proof (f_ring _ _ _ _ _ Fr) as X. cbn [outcome] in X.
  assert (exists i, o = SRead i) as [i ->].
  { destruct o; cbn [machine] in X; try (destruct X as [_ X]; destruct (X k ps None eq_refl)); [destruct X as (r' & X & _); discriminate|]. eexists. reflexivity. }
  destruct (reads _ _ _ _ _ _ _ _ _ F R Hl Hq Rq S) as (e & su & t & rw & Rd). exists i, sq, sq', e, su, t, rw. split; [exact Hl|]. split; [exact S|exact Rd].
Qed.

Lemma reading_known l rs q k ps e su sq sq' t rw c : Forall plausible l -> reading l rs q k ps e su sq sq' t rw ->
  some_ns (ev_pidns e) -> w_cache (sv_world sq) !! t_pid_ns t = Some c <-> LiveSpec.known (take q (story l)) (ev_pidns e) c.
Proof.
  intros F Rd P. destruct (f_known tbl (sv_world s0) (start_fresh tbl h0 H0 s0 E0) _ _ _ (srun_framed _ _ _ _ _ _ _ _ (rd_run _ _ _ _ _ _ _ _ _ _ _ Rd))) as [_ K].
  rewrite (rd_ns _ _ _ _ _ _ _ _ _ _ _ Rd), <- story_take. apply K. unfold some_ns in P. lia.
Qed.

(** The paths an event is published on. *)
Lemma reading_paths l s rs q k ps e su sq sq' t rw c : Forall plausible l -> run s0 l s rs -> reading l rs q k ps e su sq sq' t rw -> w_cache (sv_world sq) !! t_pid_ns t = Some c ->
  exists sc, lookup_sc tbl (ByInt (ev_nr e)) = Some sc /\
  ((~ demanded J (take q l) (take q rs) (ev_pidns e) (ev_nr e) /\ ps = []) \/
   (demanded J (take q l) (take q rs) (ev_pidns e) (ev_nr e) /\
    exists qs, map snd ps = event_path (ct_namespace c) (ct_pod c) (ct_name c) (sc_name sc) :: map (fun j => job_path (j_id (J j))) qs /\
      (forall j, j ∈ qs -> exists m i, in_force J (take q l) (take q rs) (ev_pidns e) (ev_nr e) m i j) /\
      ((forall m i j, in_force J (take q l) (take q rs) (ev_pidns e) (ev_nr e) m i j -> j_rate (J j) <= 0) ->
       forall id n, times_in_force J (take q l) (take q rs) (ev_pidns e) (ev_nr e) id n -> length (filter (fun j => j_id (J j) = id) qs) = n))).
Proof.
  intros F R Rd Kc. destruct (rd_event _ _ _ _ _ _ _ _ _ _ _ Rd) as [h O]. pose proof (rd_nil _ _ _ _ _ _ _ _ _ _ _ Rd) as Nl. pose proof (rd_nr _ _ _ _ _ _ _ _ _ _ _ Rd) as T1. pose proof (rd_ns _ _ _ _ _ _ _ _ _ _ _ Rd) as T2.
  unfold nil_syscall in Nl. rewrite Kc in Nl. rewrite T1 in Nl. destruct (lookup_sc tbl (ByInt (ev_nr e))) as [sc|] eqn:Sc; [|discriminate]. exists sc. split; [reflexivity|].
  destruct (hub_run tbl describe srt J h0 s0 G H0 (start_hub tbl h0 H0 s0 E0) (take q l) sq (take q rs) (Forall_take _ _ _ F) (rd_run _ _ _ _ _ _ _ _ _ _ _ Rd)) as (os & hrs & T & I).
  unfold event_of in O. rewrite Kc, T1, T2, Sc in O. set (ev := HubModel.Event (ev_pidns e) (ev_nr e) (sc_name sc) (Some c)) in O.
  assert (Hs : hstep J tbl (w_hub (sv_world sq)) (OEvent ev) = HubModel.Ok (h, RPublished ps)) by (cbn [hstep]; rewrite O; reflexivity).
  pose proof (event_exact J tbl h0 os _ hrs ev _ ps H0 (hi_run _ _ _ _ _ _ _ _ _ I) Hs) as Ex. cbn [ev e_container e_ns e_nr e_syscall] in Ex.
  pose proof (regs_demanded tbl J _ _ _ _ _ _ _ (ev_pidns e) (ev_nr e) I) as Dm.
  destruct (regs_at (ev_pidns e) (ev_nr e) (registrations J tbl os hrs)) as [|g L] eqn:Ra.
  - left. split; [|exact Ex]. intros X. apply Dm in X. contradiction.
  - right. split; [apply Dm; discriminate|]. destruct Ex as (qs & -> & Sub & Fi). exists qs. cbn [map snd]. split; [f_equal; rewrite map_map; reflexivity|].
    assert (In : forall j, j ∈ map g_job (g :: L) -> exists m i, in_force J (take q l) (take q rs) (ev_pidns e) (ev_nr e) m i j).
    { intros j Hj. apply elem_of_list_In, in_map_iff in Hj as (x & <- & Hx). apply elem_of_list_In in Hx. rewrite <- Ra in Hx.
      apply (regs_force tbl J _ _ _ _ _ _ _ _ _ _ I) in Hx as (m & i & Hx & _). exists m, i. exact Hx. }
    split.
    + intros j Hj. apply In. eapply elem_of_submseteq; [exact Hj|]. apply sublist_submseteq. exact Sub.
    + intros Rt id n Tn. apply (regs_times tbl J _ _ _ _ _ _ _ _ _ _ _ I) in Tn. rewrite Ra in Tn.
      assert (Al : forall l' : list nat, (forall j, j ∈ l' -> j ∈ map g_job (g :: L)) -> filter (fun j => j_rate (J j) <= 0) l' = l').
      { intros l' Hl. apply filter_all. apply Forall_forall. intros j Hj. destruct (In j (Hl j Hj)) as (m & i & X). exact (Rt m i j X). }
      rewrite !Al in Fi; [|intros j Hj; exact Hj|intros j Hj; eapply elem_of_submseteq; [exact Hj|]; apply sublist_submseteq; exact Sub].
      subst qs. rewrite filter_map_id. symmetry. exact Tn.
Qed.

(** * Who gets it *)

Lemma job_prefix id id' : id <> "" -> attach_trace id `prefix_of` job_path id' <-> id' <> "" /\ hash id = hash id'.
Proof.
  intros N. unfold attach_trace, job_path, hash_path, job_stream. cbn [hash_components]. change (String.eqb "job" "") with false. cbn [hash_components].
  destruct (String.eqb_spec id "") as [|_]; [contradiction|]. cbn [hash_components]. destruct (String.eqb_spec id' "") as [->|N']; cbn [hash_components].
  - split; [|intros [X _]; contradiction]. intros H. do 2 apply prefix_cons_inv_2 in H. apply prefix_nil_not in H. contradiction.
  - split.
    + intros H. do 2 apply prefix_cons_inv_2 in H. split; [exact N'|]. exact (prefix_cons_inv_1 _ _ _ _ H).
    + intros [_ ->]. reflexivity.
Qed.
Lemma streams_differ (x : list Z) : hash "job" <> hash "ns".
Proof. vm_compute. discriminate. Qed.
Lemma job_not_event id ns pod name sc : ~ attach_trace id `prefix_of` event_path ns pod name sc.
Proof.
  unfold attach_trace, event_path, hash_path, job_stream, ns_stream. cbn [hash_components]. change (String.eqb "job" "") with false. change (String.eqb "ns" "") with false. cbn iota. intros H.
  apply prefix_cons_inv_2, prefix_cons_inv_1 in H. exact (streams_differ [] H).
Qed.
Lemma trace_not_job sel id : ~ attach_path sel `prefix_of` job_path id.
Proof.
  unfold attach_path, job_path, hash_path, job_stream, ns_stream. cbn [hash_components]. change (String.eqb "job" "") with false. change (String.eqb "ns" "") with false. cbn iota. intros H.
  apply prefix_cons_inv_2, prefix_cons_inv_1 in H. exact (streams_differ [] (eq_sym H)).
Qed.
Lemma trace_event_agree ns pod name c sc :
  (agree eq ns pod name (ct_namespace c) (ct_pod c) (ct_name c) -> ask_path (AskTrace ns pod name) `prefix_of` event_path (ct_namespace c) (ct_pod c) (ct_name c) sc) /\
  (ask_path (AskTrace ns pod name) `prefix_of` event_path (ct_namespace c) (ct_pod c) (ct_name c) sc -> agree (fun a b => hash a = hash b) ns pod name (ct_namespace c) (ct_pod c) (ct_name c)).
Proof.
  destruct (asked_for ns pod name (ct_namespace c) (ct_pod c) (ct_name c) sc 0) as [A B]. unfold in_topic in A, B. change (asked (AskTrace ns pod name)) with (ask_path (AskTrace ns pod name)) in A, B.
  split.
  - intros H. specialize (A H). destruct (decide _) as [P|_]; [exact P|discriminate].
  - intros H. apply B. rewrite decide_True by exact H. discriminate.
Qed.

Lemma hits_cons a p ps : hits a (p :: ps) = ((if decide (a `prefix_of` p) then 1 else 0) + hits a ps)%nat.
Proof. unfold hits. rewrite filter_cons. destruct (decide _); reflexivity. Qed.
Lemma hits_none a ps : (forall p, p ∈ ps -> ~ a `prefix_of` p) -> hits a ps = 0%nat.
Proof.
  induction ps as [|p ps IH]; intros H; [reflexivity|]. rewrite hits_cons, decide_False by (apply H; left). rewrite IH; [reflexivity|]. intros p' Hp. apply H. right. exact Hp.
Qed.

(** * The theorems *)

Lemma pub0 : sv_pub s0 = None /\ sv_sys s0 = start.
Proof. destruct (start_eq tbl h0 H0 s0 E0) as (_ & H1 & H2). split; assumption. Qed.

Theorem sound l s rs q w k text : Forall plausible l -> run s0 l s rs -> wrote rs q w k text ->
  exists a i q0 ps e su c p takes,
    came l rs i w a /\ (i < q)%nat /\ took rs q0 k ps /\ (k < q0 < q)%nat /\ (forall q' k' ps', took rs q' k' ps' -> (q' < q)%nat -> (q' <= q0)%nat)
    /\ sends (story l) (outcomes rs) k e su /\ LiveSpec.known (take q0 (story l)) (ev_pidns e) c /\ meant_for J (take q0 l) (take q0 rs) a c (ev_nr e)
    /\ SCall p takes ∈ l /\ says p (describe c) e su text.
Proof.
  intros F R W. destruct pub0 as [P0 Y0].
  destruct (wrote_facts tbl describe srt J Srt s0 (start_fresh tbl h0 H0 s0 E0) P0 Y0 l s rs q w k text R W) as (a & i & q0 & ps & b & p & takes & path & Ca & Iq & Tk & Q0 & La & (sq & i0 & sq' & Hl & Rq & S & Pb) & Kb & Ip & Pre & Ic & Te).
  rewrite Kb in S, Pb. destruct (reads _ _ _ _ _ _ _ _ _ F R Hl Tk Rq S) as (e & su & t & rw & Rd).
  pose proof (rd_before _ _ _ _ _ _ _ _ _ _ _ Rd) as Bf. pose proof (rd_sends _ _ _ _ _ _ _ _ _ _ _ Rd) as Se.
  destruct (sends_ok _ _ _ _ _ _ F R Se) as (So & Pn & Rn). pose proof (rd_pub _ _ _ _ _ _ _ _ _ _ _ Rd) as Pb'. rewrite Pb in Pb'.
  destruct (w_cache (sv_world sq) !! t_pid_ns t) as [c|] eqn:Kc; [|discriminate]. apply Some_inj in Pb'. injection Pb' as Et Er Ec.
  pose proof (proj1 (reading_known _ _ _ _ _ _ _ _ _ _ _ c F Rd Pn) Kc) as Kn.
  assert (Cn : ct_ns c = ev_pidns e) by (destruct Kn as (_ & k0 & _ & X & _); exact X).
  destruct (reading_paths _ _ _ _ _ _ _ _ _ _ _ _ _ F R Rd Kc) as (sc & Sc & Ps).
  exists a, i, q0, ps, e, su, c, p, takes. split; [exact Ca|]. split; [exact Iq|]. split; [exact Tk|]. split; [lia|]. split; [exact La|]. split; [exact Se|]. split; [exact Kn|]. split; [|split; [exact Ic|]].
  - destruct Ps as [[_ ->]|[Dm (qs & Eq & In & _)]]; [apply not_elem_of_nil in Ip; contradiction|]. rewrite Eq in Ip. apply elem_of_cons in Ip as [-> |Ip].
    + destruct a as [id|ns pod name]; cbn [meant_for ask_path] in Pre |- *; [destruct (job_not_event _ _ _ _ _ Pre)|].
      rewrite Cn. split; [exact Dm|]. exact (proj2 (trace_event_agree ns pod name c (sc_name sc)) Pre).
    + apply elem_of_list_In, in_map_iff in Ip as (j & <- & Hj). apply elem_of_list_In in Hj. destruct (In j Hj) as (m & i' & Fo).
      destruct a as [id|ns pod name]; cbn [meant_for ask_path] in Pre |- *; [|destruct (trace_not_job _ _ Pre)].
      rewrite Cn. exists m, i', j. split; [exact Fo|]. destruct (decide (id = "")) as [E|E]; [left; exact E|right]. symmetry. exact (proj2 (proj1 (job_prefix _ _ E) Pre)).
  - destruct (rd_record _ _ _ _ _ _ _ _ _ _ _ Rd) as (scratch & trailing & bs & Ls & Eb & Bb & It & Ib).
    assert (Rp : reasonable p). { rewrite Forall_forall in F. destruct (F _ Ic) as [_ X]. exact X. }
    unfold text_of in Te. rewrite Et, Er, Ec in Te.
    refine (text_says tbl p (describe c) e su scratch trailing bs t rw text G Rp Bb So Ls Eb It Ib _ Te).
    rewrite (rd_nr _ _ _ _ _ _ _ _ _ _ _ Rd), Sc. exists sc. reflexivity.
Qed.

Theorem complete l s rs w i a q k ps : Forall plausible l -> run s0 l s rs -> came l rs i w a -> took rs q k ps -> (i < q)%nat -> busy s = false -> stays_open s w ->
  exists e su, sends (story l) (outcomes rs) k e su
    /\ ((forall c, ~ LiveSpec.known (take q (story l)) (ev_pidns e) c) -> texts w k rs = 0%nat)
    /\ forall c, LiveSpec.known (take q (story l)) (ev_pidns e) c ->
       match a with
       | AskTrace ns pod name =>
           (demanded J (take q l) (take q rs) (ev_pidns e) (ev_nr e) -> agree eq ns pod name (ct_namespace c) (ct_pod c) (ct_name c) -> texts w k rs = 1%nat)
           /\ (~ demanded J (take q l) (take q rs) (ev_pidns e) (ev_nr e) \/ ~ agree (fun a b => hash a = hash b) ns pod name (ct_namespace c) (ct_pod c) (ct_name c) -> texts w k rs = 0%nat)
       | AskJob id =>
           id <> "" -> (forall m i j, in_force J (take q l) (take q rs) (ev_pidns e) (ev_nr e) m i j -> j_rate (J j) <= 0 /\ (hash (j_id (J j)) = hash id -> j_id (J j) = id)) ->
           forall n, times_in_force J (take q l) (take q rs) (ev_pidns e) (ev_nr e) id n -> texts w k rs = n
       end.
Proof.
  intros F R Ca Tk Iq Nb St. destruct pub0 as [P0 Y0].
  pose proof (written_count tbl describe srt J Srt s0 (start_fresh tbl h0 H0 s0 E0) P0 Y0 l s rs w i a q k ps R Ca Tk Iq Nb St) as Hc.
  destruct (reads_at _ _ _ _ _ _ F R Tk) as (i0 & sq & sq' & e & su & t & rw & Hl & S & Rd). exists e, su.
  pose proof (rd_sends _ _ _ _ _ _ _ _ _ _ _ Rd) as Se. destruct (sends_ok _ _ _ _ _ _ F R Se) as (So & Pn & Rn). split; [exact Se|]. rewrite Hc. split.
  - intros N. destruct (w_cache (sv_world sq) !! t_pid_ns t) as [c|] eqn:Kc; [destruct (N c); apply (reading_known _ _ _ _ _ _ _ _ _ _ _ c F Rd Pn); exact Kc|].
    destruct (rd_event _ _ _ _ _ _ _ _ _ _ _ Rd) as [h O]. unfold event_of, on_event in O. rewrite Kc in O. cbn [e_container] in O. injection O as _ <-. reflexivity.
  - intros c Kn. apply (reading_known _ _ _ _ _ _ _ _ _ _ _ c F Rd Pn) in Kn. destruct (reading_paths _ _ _ _ _ _ _ _ _ _ _ _ _ F R Rd Kn) as (sc & Sc & Ps).
    destruct a as [id|ns pod name].
    + intros Ni Hj n Tn. destruct Ps as [[Nd ->]|[Dm (qs & -> & In & Ex)]].
      * destruct Tn as (xs & _ & <- & X). destruct xs as [|[m i'] xs]; [reflexivity|]. exfalso. apply Nd. destruct (proj1 (X m i')) as (j & Y & _); [left|]. exists m, i', j. exact Y.
      * rewrite <- (Ex (fun m i j X => proj1 (Hj m i j X)) id n Tn). rewrite hits_cons, decide_False by apply job_not_event.
        cbn [Nat.add]. assert (Y : forall j, j ∈ qs -> hash (j_id (J j)) = hash id -> j_id (J j) = id).
        { intros j Hq. destruct (In j Hq) as (m & i' & X). exact (proj2 (Hj m i' j X)). }
        clear - Y Ni. induction qs as [|j qs IH]; [reflexivity|]. cbn [map]. rewrite hits_cons, filter_cons, IH by (intros j' Hj'; apply Y; right; exact Hj').
        destruct (decide (j_id (J j) = id)) as [E|E].
        -- rewrite decide_True; [reflexivity|]. cbn [ask_path]. apply (job_prefix _ _ Ni). rewrite E. split; [exact Ni|reflexivity].
        -- rewrite decide_False; [reflexivity|]. cbn [ask_path]. intros X. apply (job_prefix _ _ Ni) in X as [_ X]. apply E, Y; [left|]. symmetry. exact X.
    + assert (Jn : forall qs : list nat, hits (ask_path (AskTrace ns pod name)) (map (fun j => job_path (j_id (J j))) qs) = 0%nat).
      { intros qs. apply hits_none. intros p' Hp. apply elem_of_list_In, in_map_iff in Hp as (j & <- & _). apply trace_not_job. }
      split.
      * intros Dm Ag. destruct Ps as [[Nd _]|[_ (qs & -> & _)]]; [contradiction|]. rewrite hits_cons, decide_True by exact (proj1 (trace_event_agree ns pod name c (sc_name sc)) Ag). rewrite Jn. reflexivity.
      * intros N. destruct Ps as [[Nd ->]|[Dm (qs & -> & _)]]; [reflexivity|]. destruct N as [N|N]; [contradiction|].
        rewrite hits_cons, decide_False by (intros X; apply N; exact (proj2 (trace_event_agree ns pod name c (sc_name sc)) X)). apply Jn.
Qed.
End top.
