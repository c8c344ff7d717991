(** Proofs about `swoll server`: what ends it. *)
From Coq Require Import ZArith String Lia.
From stdpp Require Import base list numbers strings pretty gmap.
From Verif Require Import SyscallTable SyscallModel SyscallSpec SyscallProofs FilterModel FilterSpec FilterProofs KernelModel KernelSpec KernelProofs RawModel RawProofs DecodeModel CaptureModel CaptureSpec CaptureProofs
  CodecModel JsonModel JsonSpec MsgModel MsgSpec MsgRead TopoModel HubModel HubSpec HubTop HubDeliver LineModel LineSpec PlainSpec PlainProofs LiveModel LiveSpec LiveProofs LiveTop
  ServeModel ServeSpec ServeFrame ServeProofs ServeText.
From Verif Require Import PubSubModel PubSubSpec PubSubTop HashModel HashTop WatchModel WatchSpec WatchProofs WatchTop ServeWatch ServeTop.

Local Open Scope string_scope.
Local Open Scope list_scope.
Local Open Scope Z_scope.
Local Opaque gSyscallMap gClassMap table emit.
Local Notation u32 := FilterModel.u32.

(** * The counts of a record *)

Lemma captured_c64 nr regs mem ret old s i ops k : nr <> 59 -> length old = args_size -> filler nr = Some (ops, k) -> ops_ok ops = true -> has ops (CaptureModel.Reg s i) = true ->
  c64 (captured_args nr regs mem ret old) (slot_start s) = Some (s64 (nth i regs 0)).
Proof.
  intros N L E O H. unfold captured_args. destruct (Z.eqb_spec nr 59) as [|_]; [contradiction|].
  unfold c64, capture. rewrite E. cbn [c_args]. rewrite (reg_read regs mem ops s i old 8 O L H) by lia. cbn [option_map]. f_equal. apply s64_le.
Qed.

Lemma ends_unprintable p e mem old : length old = args_size ->
  ends_the_server p (captured_args (ev_nr e) (ev_enter e) mem (ev_ret e) old) (ev_nr e) <-> unprintable p e.
Proof.
  intros L. destruct e as [tid ugid nr en ex ns regs ret]. cbn [ev_nr ev_enter ev_ret] in *. unfold ends_the_server, unprintable. cbn [ev_nr ev_enter].
  assert (A : In nr [0; 1; 89] -> c64 (captured_args nr regs mem ret old) (slot_start 2) = Some (s64 (nth 2 regs 0))).
  { intros I. destruct I as [<-|[<-|[<-|[]]]]; (eapply captured_c64; [discriminate|exact L|reflexivity|reflexivity|reflexivity]). }
  assert (B : nr = 267 -> c64 (captured_args nr regs mem ret old) (slot_start 3) = Some (s64 (nth 3 regs 0))).
  { intros ->. eapply captured_c64; [discriminate|exact L|reflexivity|reflexivity|reflexivity]. }
  assert (C : nr = 10 -> c64 (captured_args nr regs mem ret old) (slot_start 1) = Some (s64 (nth 1 regs 0))).
  { intros ->. eapply captured_c64; [discriminate|exact L|reflexivity|reflexivity|reflexivity]. }
  rewrite elem_of_list_In. split.
  - intros [[I (n & Hn & H)]|[[I (n & Hn & H)]|[I (n & Hn & H)]]].
    + left. rewrite (A I) in Hn. apply Some_inj in Hn. subst n. split; assumption.
    + right. left. rewrite (B I) in Hn. apply Some_inj in Hn. subst n. split; assumption.
    + right. right. rewrite (C I) in Hn. apply Some_inj in Hn. subst n. split; assumption.
  - intros [[I H]|[[I H]|[I H]]].
    + left. split; [exact I|]. eexists. split; [exact (A I)|exact H].
    + right. left. split; [exact I|]. eexists. split; [exact (B I)|exact H].
    + right. right. split; [exact I|]. eexists. split; [exact (C I)|exact H].
Qed.

(** * Clients *)

Lemma crash_act srt s a : sort_contract srt -> inv srt s -> crashed s = false -> crashed (do_act srt s a) = true ->
  (exists rf, a = Millisecond rf) /\ stall s <> None.
Proof.
  intros Hsrt HI Hc Hx. destruct a as [a d|v|v|e p|tk| |v|rf]; cbn [do_act] in Hx.
  - exfalso. destruct (idle s); [|congruence]. destruct (step _ _ _); cbn [crashed] in Hx; congruence.
  - exfalso. rewrite settle_crashed in Hx. cbn [crashed] in Hx. congruence.
  - exfalso. destruct (ws s !! v) as [x|]; [|congruence]. destruct (w_open x); cbn [crashed] in Hx; congruence.
  - congruence.
  - exfalso. destruct (stall s); [congruence|]. destruct (todo s) as [|u r]; [congruence|]. destruct (ws s !! u); [|congruence].
    destruct (_ && _); [destruct tk|]; cbn [crashed] in Hx; congruence.
  - exfalso. destruct (stall s), (todo s); cbn [crashed] in Hx; congruence.
  - exfalso. destruct (ws s !! v) as [x|] eqn:Ev; [|congruence]. destruct (w_writer x) eqn:Ex; try congruence. destruct (idle s); [|congruence].
    destruct (unsub_ok srt s v x Hsrt (i_core _ _ HI) Ev Ex) as [p Hp]. rewrite Hp in Hx. cbn [crashed] in Hx. congruence.
  - split; [eexists; reflexivity|]. intros Hs.
    assert (wstep srt s (Millisecond rf) (if crashed s then s else do_act srt s (Millisecond rf))) as W by (constructor; discriminate).
    destruct (quiet_step srt s _ _ Hsrt HI W) as [_ X]; [discriminate|exact Hs|exact Hc|]. rewrite Hc in X. cbn [do_act] in X. congruence.
Qed.

Section ends.
Context (tbl : syscalls) (describe : HubModel.container -> TopoModel.container (list (string * string))) (srt : list PubSubModel.env -> list PubSubModel.env) (J : nat -> job).
Context (G : go_table tbl) (Srt : sort_contract srt) (h0 : hub) (H0 : new_hub tbl = Some h0) (s0 : server) (E0 : start_server tbl = Some s0).
Local Notation run := (srun tbl describe srt J).
Local Notation step := (sstep tbl describe srt J).
Local Notation watching := (watching tbl describe srt J s0).

Lemma unknown_job j : unknown_name tbl (J j) <-> exists name, name ∈ j_calls (J j) /\ forall nr, ~ names_call name nr.
Proof.
  unfold unknown_name. rewrite (go_table_eq _ G). split.
  - intros (s & Hs & L). exists s. split; [exact Hs|]. intros nr N. destruct (names_lookup _ _ N) as (sc & L' & _). congruence.
  - intros (s & Hs & N). exists s. split; [exact Hs|]. destruct (lookup_sc table (ByString s)) as [sc|] eqn:L; [|reflexivity]. destruct (N (sc_nr sc)). exact (lookup_names _ _ L).
Qed.

Lemma unknown_dec j : unknown_name tbl (J j) \/ ~ unknown_name tbl (J j).
Proof.
  destruct (existsb (fun s => match lookup_sc tbl (ByString s) with None => true | Some _ => false end) (j_calls (J j))) eqn:X; [left|right].
  - apply existsb_exists in X as (s & Hs & L). exists s. split; [apply elem_of_list_In; exact Hs|]. destruct (lookup_sc tbl (ByString s)); [discriminate|reflexivity].
  - intros (s & Hs & L). assert (Y : existsb (fun s => match lookup_sc tbl (ByString s) with None => true | Some _ => false end) (j_calls (J j)) = true); [|congruence].
    apply existsb_exists. exists s. split; [apply elem_of_list_In; exact Hs|]. rewrite L. reflexivity.
Qed.

Lemma sends_named l s rs k e su : Forall plausible l -> run s0 l s rs -> sends (story l) (outcomes rs) k e su -> exists j name, name ∈ j_calls (J j) /\ names_call name (ev_nr e).
Proof.
  intros F R (o & sc & tr & r & Hl & Hr & He). assert (D : did (story l) k o) by (exists su, sc, tr, false; exact Hl).
  pose proof (plausible_real _ F) as F'.
  destruct (task_at tbl describe srt J G h0 H0 s0 E0 _ _ _ _ _ F R D) as (wk & os & hrs & T & _ & E & I). rewrite Hr in E. apply Some_inj, utask_inj in E.
  assert (He' := He). rewrite E in He'. apply sent_from in He' as [(tid & t & ret & now & cpu & ->)|(tid & t & args & ugid & now & cpu & ->)].
  - destruct (proj1 (f_exit_iff tbl (sv_world s0) (start_fresh tbl h0 H0 s0 E0) _ _ _ _ _ _ _ _ _ _ _ (srun_framed _ _ _ _ _ _ _ _ R) D Hr) He) as (Hc & i & t0 & args & ugid & now0 & Hik & Hi & Hs & Hj & Hid & ->).
    destruct (kept_sound tbl describe srt J G h0 H0 s0 E0 _ _ _ _ _ _ _ _ _ F R Hi Hs) as (N1 & m & i' & j & N2). rewrite Hid in N2.
    destruct N2 as (c & n & ok & name & _ & _ & _ & _ & Nj & N & _). exists j, name. split; [exact (elem_of_list_lookup_2 _ _ _ Nj)|exact N].
  - subst r. apply execve_event in He as (Hc & V & ->). destruct (real_did _ _ _ F' D) as (_ & _ & _ & P & I59).
    destruct (verdict_sound tbl J G h0 H0 _ _ t _ _ _ _ I P V) as (m & i' & j & N2). rewrite I59 in N2. destruct N2 as (c & n & ok & name & _ & _ & _ & _ & Nj & N & _). exists j, name. split; [exact (elem_of_list_lookup_2 _ _ _ Nj)|exact N].
Qed.

Lemma watched l s rs : run s0 l s rs -> watching l rs s.
Proof. destruct (pub0 tbl h0 H0 s0 E0) as [P0 Y0]. exact (watching_run tbl describe srt J Srt s0 (start_fresh tbl h0 H0 s0 E0) P0 Y0 l s rs). Qed.

(** a write that blocks was made *)
Lemma stalled l s rs : run s0 l s rs -> stall (sv_sys s) <> None -> exists p, SCall p false ∈ l.
Proof.
  destruct (pub0 tbl h0 H0 s0 E0) as [P0 Y0]. revert s rs. induction l as [|o l IH] using rev_ind; intros s rs R Hs.
  - apply srun_nil in R as [-> ->]. rewrite Y0 in Hs. contradiction.
  - apply srun_snoc in R as (s1 & rs1 & r & R & S & ->). destruct (stall (sv_sys s1)) as [t|] eqn:E.
    { destruct (IH _ _ R) as [p Hp]; [rewrite E; discriminate|]. exists p. apply elem_of_app. left. exact Hp. }
    pose proof (watched _ _ _ R) as W. destruct (watching_step tbl describe srt J Srt s0 (start_fresh tbl h0 H0 s0 E0) P0 Y0 _ _ _ _ _ _ R W S) as [M _].
    assert (D : forall a, (forall e p, a <> WatchModel.Event e p) -> sv_sys s = do_act srt (sv_sys s1) a -> wstep srt (sv_sys s1) a (sv_sys s)).
    { intros a N ->. pose proof (ws_do srt (sv_sys s1) a N) as H. rewrite (wa_ok _ _ _ _ _ _ _ _ W) in H. exact H. }
    assert (Q : forall a, wstep srt (sv_sys s1) a (sv_sys s) -> a = Call false).
    { intros a Wa. destruct a as [a d|v|v|e p|[]| |v|rf]; try reflexivity; exfalso; apply Hs;
        refine (proj1 (quiet_step srt _ _ _ Srt (wa_inv _ _ _ _ _ _ _ _ W) Wa _ E (wa_ok _ _ _ _ _ _ _ _ W))); discriminate. }
    destruct M as [X _ _ _|i k ps _ _ X _|b path rest _ _ _ _ _ X _|p takes b w rest x Eo _ _ _ _ X _ _|b t w rest _ _ X _ _ _ _ _|a _ N1 N2 N3 X _ _ _].
    + congruence.
    + congruence.
    + specialize (Q _ X). discriminate.
    + assert (Call takes = Call false) as Y by (apply Q, D; [discriminate|exact X]). injection Y as ->. exists p. apply elem_of_app. right. rewrite Eo. left.
    + congruence.
    + specialize (Q a (D a N1 X)). destruct (N2 _ Q).
Qed.

Lemma took_iff rs q k : taken (outcomes rs) q k <-> exists ps, took rs q k ps.
Proof.
  split.
  - intros (ps & line & H). apply outcome_read in H as [H _]. exists ps. exact H.
  - intros (ps & H). exists ps, None. apply outcome_read. split; [exact H|reflexivity].
Qed.

(** * When it ends *)

Theorem when_it_ends l s rs o : Forall plausible l -> run s0 l s rs -> plausible o -> step s o None -> ends J l rs o.
Proof.
  intros F R Fo S. pose proof (watched _ _ _ R) as W.
  destruct (hub_run tbl describe srt J h0 s0 G H0 (start_hub tbl h0 H0 s0 E0) l s rs F R) as (os & hrs & T & I).
  assert (E : sdo tbl describe srt J s o = None).
  { inversion S as [? ? Hp E1 E2 E|]; subst. reflexivity. }
  destruct o as [o su sc tr lost|start c|start ns|j start c|id|i| |p takes|a]; cbn [sdo] in E.
  - destruct (task_step tbl (sv_world s) o su sc tr lost) as [w' []]; discriminate.
  - discriminate.
  - unfold meter_step in E. destruct start; cbn [hstep] in E; discriminate.
  - cbn [ends]. unfold job_step in E. destruct (Z.ltb_spec 0 (ct_ns c)) as [Pc|]; [|discriminate]. destruct (negb _); [|discriminate]. cbn [andb] in E. split; [exact Pc|]. destruct start.
    + destruct (decide (selects (J j) (ct_name c))) as [Sl|Sl].
      * split; [intros _; exact Sl|]. apply unknown_job. destruct (unknown_dec j) as [U|U]; [exact U|].
        destruct (known_start J tbl h0 os (w_hub (sv_world s)) hrs j c H0 (hi_run _ _ _ _ _ _ _ _ _ I)) as (h' & n & ok & X); [intros [_ Y]; exact (U Y)|]. rewrite X in E. discriminate.
      * destruct (known_start J tbl h0 os (w_hub (sv_world s)) hrs j c H0 (hi_run _ _ _ _ _ _ _ _ _ I)) as (h' & n & ok & X); [intros [Y _]; exact (Sl Y)|]. rewrite X in E. discriminate.
    + split; [discriminate|]. apply unknown_job, (stop_outcome J tbl h0 os (w_hub (sv_world s)) hrs j c H0 (hi_run _ _ _ _ _ _ _ _ _ I)).
      cbn [hstep] in *. destruct (on_stop J tbl (w_hub (sv_world s)) j c) as [h'| |] eqn:X; [discriminate|reflexivity|]. unfold on_stop in X. destruct (stop_not_fatal _ _ _ _ X).
  - unfold delete_step in E. destruct (busy s); [discriminate|]. destruct (delete_exact J tbl h0 os (w_hub (sv_world s)) hrs id H0 (hi_run _ _ _ _ _ _ _ _ _ I)) as (h' & b & X & _). rewrite X in E. discriminate.
  - cbn [ends]. unfold take_step in E. destruct (busy s); [discriminate|]. destruct (w_ring (sv_world s) !! i) as [[k bs]|] eqn:Er; [|discriminate].
    pose proof (srun_framed _ _ _ _ _ _ _ _ R) as Fr. destruct (f_ring_spec tbl (sv_world s0) (start_fresh tbl h0 H0 s0 E0) _ _ _ Fr) as [[_ M] _].
    destruct (proj1 (M k bs) (elem_of_list_lookup_2 _ _ _ Er)) as [Sr Nt].
    destruct (record_sent tbl describe srt J s0 _ _ _ _ _ F R Sr) as (e & su & scratch & trailing & Se & Ls & Eb & Bb).
    destruct (sends_ok tbl describe srt J G h0 H0 s0 E0 _ _ _ _ _ _ F R Se) as (So & Pn & Rn).
    exists k, e, su. split; [exact Se|]. split; [intros q ps X; apply (Nt q), took_iff; exists ps; exact X|].
    assert (Rc : record_of (e, su) bs) by (split; [exact So|]; exists scratch, trailing; split; [exact Ls|exact Eb]).
    destruct (ingest_sent e su bs Rc) as (rw & Hb & _ & Hd). destruct (decoder (ev_nr e)) as [fs|]; [right|left; reflexivity].
    destruct Hd as (t & Ht & T1 & T2 & _). rewrite Ht, Hb in E.
    destruct (sends_named _ _ _ _ _ _ F R Se) as (j0 & name & _ & Nm).
    assert (N : nil_syscall tbl (sv_world s) t = false).
    { unfold nil_syscall. rewrite T1. destruct (names_known tbl G _ _ Nm) as [sc L]. rewrite L. destruct (w_cache (sv_world s) !! t_pid_ns t); reflexivity. }
    rewrite N in E. destruct (event_outcome J tbl h0 os (w_hub (sv_world s)) hrs (event_of tbl (sv_world s) t) H0 (hi_run _ _ _ _ _ _ _ _ _ I)) as [Pa Ok].
    assert (hstep J tbl (w_hub (sv_world s)) (OEvent (event_of tbl (sv_world s) t)) = HubModel.Panic) as X.
    { cbn [hstep] in *. destruct (on_event J (w_hub (sv_world s)) (event_of tbl (sv_world s) t)) as [[h2 ps2]| |] eqn:O; [discriminate|reflexivity|].
      exfalso. destruct Ok as (h2 & ps2 & Y); [intros Y; apply Pa in Y; discriminate|discriminate]. }
    apply Pa in X as (Nc & g & g0 & Hg & (i2 & Hg0 & Lo & _) & Rp & Ne & Eq).
    assert (Ke : e_ns (event_of tbl (sv_world s) t) = ev_pidns e /\ e_nr (event_of tbl (sv_world s) t) = ev_nr e) by (rewrite <- T1, <- T2; split; reflexivity).
    destruct Ke as [K1 K2]. rewrite K1, K2 in Hg, Hg0, Lo. apply elem_of_list_lookup_2 in Hg0.
    split.
    + destruct (w_cache (sv_world s) !! t_pid_ns t) as [c|] eqn:Kc; [|unfold event_of in Nc; rewrite Kc in Nc; contradiction]. exists c.
      destruct (f_known tbl (sv_world s0) (start_fresh tbl h0 H0 s0 E0) _ _ _ Fr) as [_ K]. apply K; [unfold some_ns in Pn; lia|]. rewrite <- T2. exact Kc.
    + apply (regs_force tbl J _ _ _ _ _ _ _ _ _ _ I) in Hg as (m & i1 & Hg & _). apply (regs_force tbl J _ _ _ _ _ _ _ _ _ _ I) in Hg0 as (m' & i3 & Hg0 & _).
      exists m, i1, (g_job g), m', i3, (g_job g0). split; [exact Hg|]. split; [exact Hg0|]. split; [exact Ne|]. split; [exact Rp|]. split; [symmetry; exact Eq|].
      intros m2 i4 j1 Hj. rewrite Eq. apply (Lo (HubSpec.Reg j1 (ev_pidns e) (ev_nr e))), (regs_force tbl J _ _ _ _ _ _ _ _ _ _ I). exists m2, i4. split; [exact Hj|reflexivity].
  - discriminate.
  - cbn [ends]. unfold call_step in E. destruct (sv_pub s) as [b|] eqn:Eb; [|discriminate]. destruct (stall (sv_sys s)) eqn:Es; [discriminate|]. destruct (todo (sv_sys s)) as [|w rest] eqn:Et; [discriminate|].
    destruct (ws (sv_sys s) !! w) as [x|] eqn:Ew; [|discriminate].
    assert (Cr : crashed (do_act srt (sv_sys s) (Call takes)) = false).
    { destruct (crashed (do_act srt (sv_sys s) (Call takes))) eqn:X; [|reflexivity]. destruct (crash_act srt _ _ Srt (wa_inv _ _ _ _ _ _ _ _ W) (wa_ok _ _ _ _ _ _ _ _ W) X) as [_ Y]. contradiction. }
    unfold unless_crashed in E. rewrite Cr in E. destruct (w_broken x); [discriminate|]. destruct (text_of tbl describe p b) as [text|] eqn:Te; [discriminate|].
    destruct (wa_pub _ _ _ _ _ _ _ _ W b Eb) as (q & ps & P). pose proof (pu_took _ _ _ _ _ _ _ _ _ _ _ P) as Tk. pose proof (pu_last _ _ _ _ _ _ _ _ _ _ _ P) as La.
    destruct (pu_read _ _ _ _ _ _ _ _ _ _ _ P) as (sq & i0 & sq' & Hl & Rq & Sq & Pq).
    destruct (reads tbl describe srt J G h0 H0 s0 E0 _ _ _ _ _ _ _ _ _ F R Hl Tk Rq Sq) as (e & su & t & rw & Rd).
    pose proof (rd_sends _ _ _ _ _ _ _ _ _ _ _ _ _ _ _ _ Rd) as Se. pose proof (rd_pub _ _ _ _ _ _ _ _ _ _ _ _ _ _ _ _ Rd) as Pb. rewrite Pq in Pb.
    destruct (w_cache (sv_world sq) !! t_pid_ns t) as [c|]; [|discriminate]. apply Some_inj in Pb. injection Pb as Et1 Er1 Ec1.
    exists q, (pb_record b), ps, e, su. split; [exact Tk|]. split; [exact La|]. split; [exact Se|].
    destruct (rd_record _ _ _ _ _ _ _ _ _ _ _ _ _ _ _ _ Rd) as (scratch & trailing & bs & Ls & Ebs & Bb & It & Ib).
    unfold text_of in Te. rewrite Et1, Er1 in Te. apply (message_none p _ _ bs t rw Bb It Ib) in Te. rewrite (rd_nr _ _ _ _ _ _ _ _ _ _ _ _ _ _ _ _ Rd) in Te.
    destruct (sends_ok tbl describe srt J G h0 H0 s0 E0 _ _ _ _ _ _ F R Se) as (So & _ & _).
    pose proof (event_members_ok e su scratch So Ls) as K. pose proof (ingest_image _ scratch trailing K Ls) as Im.
    change (kernel_image (event_members e su scratch) scratch) with (emit e su scratch) in Im. rewrite <- Ebs, Ib in Im. apply Some_inj in Im.
    assert (Ra : r_args rw = captured_args (ev_nr e) (ev_enter e) (su_mem su) (ev_ret e) (scratch_args scratch)) by (rewrite Im; apply capture_event_args).
    rewrite Ra in Te. apply (ends_unprintable p e (su_mem su) (scratch_args scratch)) in Te; [exact Te|].
    unfold scratch_args. rewrite take_length, drop_length, Ls. reflexivity.
  - unfold client_step, unless_crashed in E.
    assert (Cr : crashed (do_act srt (sv_sys s) a) = true).
    { destruct a; try discriminate; destruct (crashed (do_act srt (sv_sys s) _)); [reflexivity|discriminate|reflexivity|discriminate|reflexivity|discriminate|reflexivity|discriminate|reflexivity|discriminate|reflexivity|discriminate]. }
    destruct (crash_act srt _ _ Srt (wa_inv _ _ _ _ _ _ _ _ W) (wa_ok _ _ _ _ _ _ _ _ W) Cr) as [[rf ->] Hs]. cbn [ends]. exact (stalled _ _ _ R Hs).
Qed.

(** * Otherwise it goes on *)

Lemma publish_possible y path k : inv srt y -> crashed y = false -> idle y = true -> exists y', wstep srt y (WatchModel.Event k path) y'.
Proof.
  intros HI Hc Hi. destruct (c_tree _ _ (i_core _ _ HI)) as [os [T1 T2 T3 T4]].
  destruct (publish_returns srt os (ps y) (linear path) 0 Srt T1 T2) as [r Hr].
  destruct (prefix_delivery srt os (ps y) path 0 r Srt T1 T2 Hr) as (cs & -> & _). eexists. eapply ws_event; [exact Hc|exact Hi|exact Hr].
Qed.

Theorem goes_on l s rs o : Forall plausible l -> run s0 l s rs -> plausible o -> ~ ends J l rs o -> exists s' r, step s o (Some (s', r)).
Proof.
  intros F R Fo Ne. pose proof (watched _ _ _ R) as W.
  assert (D : (o = SPublish -> idle (sv_sys s) = false \/ forall b, sv_pub s = Some b -> pb_paths b = []) -> exists s' r, step s o (Some (s', r))).
  { intros X. pose proof (ss_do tbl describe srt J s o X) as Sd. destruct (sdo tbl describe srt J s o) as [[s' r]|] eqn:E; [exists s', r; exact Sd|].
    destruct Ne. exact (when_it_ends _ _ _ _ F R Fo Sd). }
  destruct o as [o su sc tr lost|start c|start ns|j start c|id|i| |p takes|a]; try (apply D; discriminate).
  destruct (idle (sv_sys s)) eqn:Ei; [|apply D; intros _; left; reflexivity].
  destruct (sv_pub s) as [b|] eqn:Eb; [|apply D; intros _; right; intros b X; discriminate].
  destruct (pb_paths b) as [|path rest] eqn:Ep; [apply D; intros _; right; intros b' X; apply Some_inj in X; subst b'; exact Ep|].
  destruct (publish_possible (sv_sys s) path (pb_record b) (wa_inv _ _ _ _ _ _ _ _ W) (wa_ok _ _ _ _ _ _ _ _ W) Ei) as [y Hy].
  eexists _, _. exact (ss_publish tbl describe srt J s b path rest y Eb Ep Ei Hy).
Qed.

(** Calls that do not block bring the event to everyone. *)
Definition work (s : server) : nat * nat := (match sv_pub s with Some b => length (pb_paths b) | None => 0%nat end, length (todo (sv_sys s))).
Lemma drains_or_ends p : reasonable p -> forall n m l s rs, Forall plausible l -> run s0 l s rs -> stall (sv_sys s) = None -> work s = (n, m) ->
  exists l2 s2 rs2, Forall (fun o => o = SPublish \/ o = SCall p true) l2 /\ run s0 (l ++ l2) s2 (rs ++ rs2) /\ (forall k ps, VRead k ps ∉ rs2)
    /\ (busy s2 = false \/ step s2 (SCall p true) None) /\ ws (sv_sys s2) = ws (sv_sys s) /\ stall (sv_sys s2) = None.
Proof.
  intros Rp. destruct (pub0 tbl h0 H0 s0 E0) as [P0 Y0].
  assert (Pp : forall o, o = SPublish \/ o = SCall p true -> plausible o).
  { intros o [-> | ->]; (split; [cbn; lia|]); [exact Logic.I|exact Rp]. }
  intros n. induction n as [n IHn] using lt_wf_ind. intros m. induction m as [m IHm] using lt_wf_ind. intros l s rs F R Hs Ew.
  pose proof (watched _ _ _ R) as W. pose proof (srun_length _ _ _ _ _ _ _ _ R) as Len.
  assert (One : forall o s' r n' m', o = SPublish \/ o = SCall p true -> step s o (Some (s', r)) -> stall (sv_sys s') = None -> ws (sv_sys s') = ws (sv_sys s) -> work s' = (n', m') ->
    (n' < n \/ n' = n /\ m' < m)%nat -> (forall k ps, r <> VRead k ps) ->
    exists l2 s2 rs2, Forall (fun o => o = SPublish \/ o = SCall p true) l2 /\ run s0 (l ++ l2) s2 (rs ++ rs2) /\ (forall k ps, VRead k ps ∉ rs2)
      /\ (busy s2 = false \/ step s2 (SCall p true) None) /\ ws (sv_sys s2) = ws (sv_sys s) /\ stall (sv_sys s2) = None).
  { intros o s' r n' m' Ho So Hs' Hw Ew' Lt Nr.
    assert (R' : run s0 (l ++ [o]) s' (rs ++ [r])) by exact (sr_snoc _ _ _ _ _ _ _ _ _ _ _ R So).
    assert (F' : Forall plausible (l ++ [o])) by (apply Forall_app; split; [exact F|]; constructor; [exact (Pp o Ho)|constructor]).
    assert (X : exists l2 s2 rs2, Forall (fun o => o = SPublish \/ o = SCall p true) l2 /\ run s0 ((l ++ [o]) ++ l2) s2 ((rs ++ [r]) ++ rs2) /\ (forall k ps, VRead k ps ∉ rs2)
      /\ (busy s2 = false \/ step s2 (SCall p true) None) /\ ws (sv_sys s2) = ws (sv_sys s') /\ stall (sv_sys s2) = None).
    { destruct Lt as [Lt|[En Lt]]; [exact (IHn n' Lt m' _ _ _ F' R' Hs' Ew')|]. rewrite En in Ew'. exact (IHm m' Lt _ _ _ F' R' Hs' Ew'). }
    destruct X as (l2 & s2 & rs2 & A1 & A2 & A3 & A4 & A5 & A6). exists (o :: l2), s2, (r :: rs2). split; [constructor; assumption|].
    split; [rewrite (app_assoc l [o] l2 : l ++ o :: l2 = _), (app_assoc rs [r] rs2 : rs ++ r :: rs2 = _); exact A2|].
    split; [intros k ps X; apply elem_of_cons in X as [X|X]; [exact (Nr k ps (eq_sym X))|exact (A3 k ps X)]|]. split; [exact A4|]. split; [rewrite A5; exact Hw|exact A6]. }
  destruct (todo (sv_sys s)) as [|w rest] eqn:Et.
  - assert (Ei : idle (sv_sys s) = true) by (unfold idle; rewrite Et; reflexivity).
    destruct (sv_pub s) as [b|] eqn:Eb; [destruct (pb_paths b) as [|path ps'] eqn:Ep|].
    + exists [], s, []. rewrite !app_nil_r. split; [constructor|]. split; [exact R|]. split; [intros k ps X; apply not_elem_of_nil in X; exact X|].
      split; [left|split; [reflexivity|exact Hs]]. unfold busy. rewrite Eb, Ei, Ep. reflexivity.
    + destruct (publish_possible (sv_sys s) path (pb_record b) (wa_inv _ _ _ _ _ _ _ _ W) (wa_ok _ _ _ _ _ _ _ _ W) Ei) as [y Hy].
      pose proof (ss_publish tbl describe srt J s b path ps' y Eb Ep Ei Hy) as So.
      assert (Y : stall y = None /\ ws y = ws (sv_sys s)) by (inversion Hy; subst; [split; reflexivity|contradiction (H _ _ eq_refl)]). destruct Y as [Y1 Y2].
      refine (One SPublish _ _ _ _ (or_introl eq_refl) So Y1 Y2 eq_refl _ _); [|discriminate]. left. unfold work in Ew. rewrite Eb, Ep in Ew. injection Ew as <- _. cbn [work sv_pub pb_paths length]. lia.
    + exists [], s, []. rewrite !app_nil_r. split; [constructor|]. split; [exact R|]. split; [intros k ps X; apply not_elem_of_nil in X; exact X|].
      split; [left|split; [reflexivity|exact Hs]]. unfold busy. rewrite Eb. reflexivity.
  - pose proof (ss_do tbl describe srt J s (SCall p true) ltac:(discriminate)) as So. destruct (sdo tbl describe srt J s (SCall p true)) as [[s' r]|] eqn:Ed.
    2:{ exists [], s, []. rewrite !app_nil_r. split; [constructor|]. split; [exact R|]. split; [intros k ps X; apply not_elem_of_nil in X; exact X|].
        split; [right; exact So|split; [reflexivity|exact Hs]]. }
    clear Ed.
    destruct (watching_step tbl describe srt J Srt s0 (start_fresh tbl h0 H0 s0 E0) P0 Y0 _ _ _ _ _ _ R W So) as [M _].
    assert (Eb : exists b, sv_pub s = Some b). { destruct (sv_pub s) as [b|] eqn:Eb; [exists b; reflexivity|]. pose proof (wa_idle _ _ _ _ _ _ _ _ W Eb). congruence. } destruct Eb as [b Eb].
    destruct (c_todo _ _ (i_core _ _ (wa_inv _ _ _ _ _ _ _ _ W)) w) as (x & Hx & _); [rewrite Et; left|].
    pose proof (step_do _ _ _ _ _ _ _ So ltac:(discriminate)) as E. cbn [sdo] in E. unfold call_step in E. rewrite Eb, Hs, Et, Hx in E.
    assert (Y : todo (do_act srt (sv_sys s) (Call true)) = rest /\ stall (do_act srt (sv_sys s) (Call true)) = None /\ ws (do_act srt (sv_sys s) (Call true)) = ws (sv_sys s)).
    { cbn [do_act]. rewrite Hs, Et, Hx. destruct (w_open x && negb (w_broken x)); split; [reflexivity|split; reflexivity|reflexivity|split; reflexivity]. }
    destruct Y as (Y1 & Y2 & Y3).
    assert (Z : sv_sys s' = do_act srt (sv_sys s) (Call true) /\ (exists b', sv_pub s' = Some b' /\ pb_paths b' = pb_paths b) /\ forall k ps, r <> VRead k ps).
    { unfold unless_crashed in E. destruct (w_broken x); [|destruct (text_of tbl describe p b) as [text|]; [|discriminate]];
        (destruct (crashed (do_act srt (sv_sys s) (Call true))); [discriminate|]); apply Some_inj, pair_equal_spec in E as [<- <-]; cbn [sv_sys sv_pub];
        (split; [reflexivity|]; split; [eexists; split; reflexivity|]); [discriminate|destruct (_ && _); discriminate]. }
    destruct Z as (Z1 & (b' & Z2 & Z3) & Z4).
    refine (One (SCall p true) s' r (length (pb_paths b)) (length rest) (or_intror eq_refl) So _ _ _ _ Z4).
    + rewrite Z1. exact Y2.
    + rewrite Z1. exact Y3.
    + unfold work. rewrite Z1, Z2, Y1, Z3. reflexivity.
    + right. unfold work in Ew. rewrite Eb, Et in Ew. injection Ew as <- <-. split; [reflexivity|]. cbn [length]. lia.
Qed.

Lemma same_sends l l2 rs rs2 p k e su : length rs = length l -> Forall (fun o => o = SPublish \/ o = SCall p true) l2 ->
  sends (story (l ++ l2)) (outcomes (rs ++ rs2)) k e su -> sends (story l) (outcomes rs) k e su.
Proof.
  intros Len F2 (o' & sc & tr & r' & A1 & A2 & A3). exists o', sc, tr, r'. apply story_task in A1. apply outcome_task in A2.
  assert (k < length l)%nat as Lk.
  { destruct (decide (k < length l)%nat) as [Y|Y]; [exact Y|]. rewrite lookup_app_r in A1 by lia. rewrite Forall_forall in F2.
    destruct (F2 _ (elem_of_list_lookup_2 _ _ _ A1)); discriminate. }
  rewrite lookup_app_l in A1 by exact Lk. rewrite lookup_app_l in A2 by (rewrite Len; exact Lk). split; [apply story_task; exact A1|]. split; [apply outcome_task; exact A2|exact A3].
Qed.
Lemma same_took rs rs2 q k ps : (forall k ps, VRead k ps ∉ rs2) -> took (rs ++ rs2) q k ps <-> took rs q k ps.
Proof.
  intros N. unfold took. split; [|intros H; apply lookup_app_l_Some; exact H]. intros H. destruct (decide (q < length rs)%nat) as [L|L]; [rewrite lookup_app_l in H by exact L; exact H|].
  rewrite lookup_app_r in H by lia. destruct (N k ps). exact (elem_of_list_lookup_2 _ _ _ H).
Qed.
Lemma more_plausible p l l2 : reasonable p -> Forall plausible l -> Forall (fun o => o = SPublish \/ o = SCall p true) l2 -> Forall plausible (l ++ l2).
Proof.
  intros Rp F F2. apply Forall_app. split; [exact F|]. eapply Forall_impl; [exact F2|]. cbn beta. intros o [-> | ->]; (split; [cbn; lia|]); [exact Logic.I|exact Rp].
Qed.

Theorem drains p l s rs : reasonable p -> Forall plausible l -> run s0 l s rs -> stall (sv_sys s) = None ->
  (forall q k ps e su, took rs q k ps -> (forall q' k' ps', took rs q' k' ps' -> (q' <= q)%nat) -> sends (story l) (outcomes rs) k e su -> ~ unprintable p e) ->
  exists l2 s2 rs2, Forall (fun o => o = SPublish \/ o = SCall p true) l2 /\ run s0 (l ++ l2) s2 (rs ++ rs2) /\ (forall k ps, VRead k ps ∉ rs2)
    /\ busy s2 = false /\ ws (sv_sys s2) = ws (sv_sys s) /\ stall (sv_sys s2) = None.
Proof.
  intros Rp F R Hs Hp. destruct (work s) as [n m] eqn:Ew.
  destruct (drains_or_ends p Rp n m l s rs F R Hs Ew) as (l2 & s2 & rs2 & F2 & R2 & N2 & B2 & W2 & S2). exists l2, s2, rs2.
  split; [exact F2|]. split; [exact R2|]. split; [exact N2|]. split; [|split; [exact W2|exact S2]]. destruct B2 as [B2|B2]; [exact B2|exfalso].
  assert (Pc : plausible (SCall p true)) by (split; [cbn; lia|exact Rp]).
  destruct (when_it_ends _ _ _ _ (more_plausible p l l2 Rp F F2) R2 Pc B2) as (q & k & ps & e & su & T1 & T2 & T3 & T4).
  apply (same_took rs rs2 q k ps N2) in T1. apply (same_sends l l2 rs rs2 p k e su (srun_length _ _ _ _ _ _ _ _ R) F2) in T3.
  refine (Hp q k ps e su T1 _ T3 T4). intros q' k' ps' X. apply (T2 q' k' ps'), (same_took rs rs2 q' k' ps' N2). exact X.
Qed.

(** * What is written can be printed *)

Lemma written_printable l s rs q w k text e su : Forall plausible l -> run s0 l s rs -> wrote rs q w k text -> sends (story l) (outcomes rs) k e su ->
  exists p takes, SCall p takes ∈ l /\ ~ unprintable p e.
Proof.
  intros F R Wr Se. destruct (pub0 tbl h0 H0 s0 E0) as [P0 Y0].
  destruct (wrote_facts tbl describe srt J Srt s0 (start_fresh tbl h0 H0 s0 E0) P0 Y0 l s rs q w k text R Wr) as (a & i & q0 & ps & b & p & takes & path & _ & _ & Tk & _ & _ & (sq & i0 & sq' & Hl & Rq & S & Pb) & Kb & _ & _ & Ic & Te).
  rewrite Kb in S, Pb. destruct (reads tbl describe srt J G h0 H0 s0 E0 _ _ _ _ _ _ _ _ _ F R Hl Tk Rq S) as (e' & su' & t & rw & Rd).
  pose proof (rd_sends _ _ _ _ _ _ _ _ _ _ _ _ _ _ _ _ Rd) as Se'. exists p, takes. split; [exact Ic|].
  assert (e' = e) as ->.
  { destruct Se as (o1 & sc1 & tr1 & r1 & A1 & A2 & A3), Se' as (o2 & sc2 & tr2 & r2 & B1 & B2 & B3). rewrite A2 in B2. apply Some_inj, utask_inj in B2. subst r2. rewrite A3 in B3. apply Some_inj in B3. symmetry. exact B3. }
  pose proof (rd_pub _ _ _ _ _ _ _ _ _ _ _ _ _ _ _ _ Rd) as Pb'. rewrite Pb in Pb'. destruct (w_cache (sv_world sq) !! t_pid_ns t) as [c|]; [|discriminate]. apply Some_inj in Pb'. injection Pb' as Et1 Er1 Ec1.
  destruct (rd_record _ _ _ _ _ _ _ _ _ _ _ _ _ _ _ _ Rd) as (scratch & trailing & bs & Ls & Ebs & Bb & It & Ib).
  destruct (sends_ok tbl describe srt J G h0 H0 s0 E0 _ _ _ _ _ _ F R Se') as (So & _ & _).
  pose proof (event_members_ok e su' scratch So Ls) as K. pose proof (ingest_image _ scratch trailing K Ls) as Im.
  change (kernel_image (event_members e su' scratch) scratch) with (emit e su' scratch) in Im. rewrite <- Ebs, Ib in Im. apply Some_inj in Im.
  assert (Ra : r_args rw = captured_args (ev_nr e) (ev_enter e) (su_mem su') (ev_ret e) (scratch_args scratch)) by (rewrite Im; apply capture_event_args).
  intros U. unfold text_of in Te. rewrite Et1, Er1 in Te.
  assert (X : ends_the_server p (r_args rw) (t_syscall t)).
  { rewrite (rd_nr _ _ _ _ _ _ _ _ _ _ _ _ _ _ _ _ Rd), Ra. apply ends_unprintable; [|exact U]. unfold scratch_args. rewrite take_length, drop_length, Ls. reflexivity. }
  apply (message_none p (lookup_sc tbl (ByInt (t_syscall t))) (Some (describe (pb_container b))) bs t rw Bb It Ib) in X. congruence.
Qed.

(** Once an event of which no text can be made is taken while a client that asked for it
    is there, the hub is never done with it. *)
Theorem unprintable_is_the_end l s rs w i ns pod name q k ps e su c : Forall plausible l -> run s0 l s rs -> came l rs i w (AskTrace ns pod name) -> took rs q k ps -> (i < q)%nat ->
  sends (story l) (outcomes rs) k e su -> LiveSpec.known (take q (story l)) (ev_pidns e) c ->
  demanded J (take q l) (take q rs) (ev_pidns e) (ev_nr e) -> agree eq ns pod name (ct_namespace c) (ct_pod c) (ct_name c) ->
  (forall p takes, SCall p takes ∈ l -> unprintable p e) -> busy s = false -> ~ stays_open s w.
Proof.
  intros F R Ca Tk Iq Se Kn Dm Ag Un Nb St.
  destruct (complete tbl describe srt J G Srt h0 H0 s0 E0 l s rs w i _ q k ps F R Ca Tk Iq Nb St) as (e' & su' & Se' & _ & Hc).
  assert (e' = e) as ->.
  { destruct Se as (o1 & sc1 & tr1 & r1 & A1 & A2 & A3), Se' as (o2 & sc2 & tr2 & r2 & B1 & B2 & B3). rewrite A2 in B2. apply Some_inj, utask_inj in B2. subst r2. rewrite A3 in B3. apply Some_inj in B3. symmetry. exact B3. }
  destruct (Hc c Kn) as [H1 _]. specialize (H1 Dm Ag). unfold texts in H1.
  destruct (List.filter (written w k) rs) as [|r xs] eqn:Fl; [discriminate|].
  assert (In r (List.filter (written w k) rs)) as X by (rewrite Fl; left; reflexivity). apply filter_In in X as [X Y].
  destruct r; try discriminate. cbn [written] in Y. apply andb_true_iff in Y as [Y1 Y2]. apply Nat.eqb_eq in Y1, Y2. subst.
  apply elem_of_list_In, elem_of_list_lookup in X as [q' Hq'].
  destruct (written_printable _ _ _ _ _ _ _ _ _ F R Hq' Se) as (p & takes & I1 & I2). exact (I2 (Un p takes I1)).
Qed.

Theorem unprintable_ends p l s rs w i ns pod name q k ps e su c : reasonable p -> Forall plausible l -> run s0 l s rs -> came l rs i w (AskTrace ns pod name) -> took rs q k ps -> (i < q)%nat ->
  sends (story l) (outcomes rs) k e su -> LiveSpec.known (take q (story l)) (ev_pidns e) c ->
  demanded J (take q l) (take q rs) (ev_pidns e) (ev_nr e) -> agree eq ns pod name (ct_namespace c) (ct_pod c) (ct_name c) ->
  (forall p, unprintable p e) -> stays_open s w -> stall (sv_sys s) = None ->
  exists l2 s2 rs2, Forall (fun o => o = SPublish \/ o = SCall p true) l2 /\ run s0 (l ++ l2) s2 (rs ++ rs2) /\ step s2 (SCall p true) None.
Proof.
  intros Rp F R Ca Tk Iq Se Kn Dm Ag Un (x & St) Hs. destruct (work s) as [n m] eqn:Ew. pose proof (srun_length _ _ _ _ _ _ _ _ R) as Len.
  destruct (drains_or_ends p Rp n m l s rs F R Hs Ew) as (l2 & s2 & rs2 & F2 & R2 & N2 & B2 & W2 & S2). exists l2, s2, rs2.
  split; [exact F2|]. split; [exact R2|]. destruct B2 as [B2|B2]; [exfalso|exact B2].
  assert (Lq : (q < length l)%nat) by (rewrite <- Len; exact (lookup_lt_Some _ _ _ Tk)).
  refine (unprintable_is_the_end (l ++ l2) s2 (rs ++ rs2) w i ns pod name q k ps e su c (more_plausible p l l2 Rp F F2) R2 _ _ Iq _ _ _ Ag (fun p' _ _ => Un p') B2 _).
  - destruct Ca as (d & C1 & C2). exists d. split; [apply lookup_app_l_Some; exact C1|apply lookup_app_l_Some; exact C2].
  - apply (same_took rs rs2 q k ps N2). exact Tk.
  - destruct Se as (o' & sc & tr & r' & A1 & A2 & A3). exists o', sc, tr, r'. apply story_task in A1. apply outcome_task in A2.
    split; [apply story_task, lookup_app_l_Some; exact A1|]. split; [apply outcome_task, lookup_app_l_Some; exact A2|exact A3].
  - rewrite <- story_take, take_app_le by lia. rewrite story_take. exact Kn.
  - rewrite !take_app_le by lia. exact Dm.
  - exists x. rewrite W2. exact St.
Qed.

(** * Records *)

Lemma took_once l s rs q q' k ps ps' : Forall plausible l -> run s0 l s rs -> took rs q k ps -> took rs q' k ps' -> q = q'.
Proof.
  assert (X : forall q q' ps ps', Forall plausible l -> run s0 l s rs -> took rs q k ps -> took rs q' k ps' -> ~ (q < q')%nat).
  { clear q q' ps ps'. intros q q' ps ps' F R H1 H2 Lt. destruct (reads_at tbl describe srt J G h0 H0 s0 E0 _ _ _ _ _ _ F R H2) as (i & sq & sq' & e & su & t & rw & Hl & S & Rd).
    destruct (f_ring_spec tbl (sv_world s0) (start_fresh tbl h0 H0 s0 E0) _ _ _ (srun_framed _ _ _ _ _ _ _ _ (rd_run _ _ _ _ _ _ _ _ _ _ _ _ _ _ _ _ Rd))) as [[_ M] _].
    destruct (read_step_cases tbl describe srt J _ _ _ _ S) as [_ [(_ & Y & _)|(_ & k' & bs & Hi & Hx)]]; [discriminate|].
    assert (k' = k) as -> by (destruct Hx as [(_ & Y & _)|(t' & rw' & h & ps'' & _ & _ & _ & _ & Y & _)]; injection Y; congruence).
    destruct (proj1 (M k bs) (elem_of_list_lookup_2 _ _ _ Hi)) as [_ N]. apply (N q), took_iff. exists ps. unfold took. rewrite lookup_take by exact Lt. exact H1. }
  intros F R H1 H2. pose proof (X q q' ps ps' F R H1 H2). pose proof (X q' q ps' ps F R H2 H1). lia.
Qed.
Lemma not_lost l s rs k e su : run s0 l s rs -> sends (story l) (outcomes rs) k e su ->
  (exists q ps, (k < q)%nat /\ took rs q k ps) \/ exists bs, (k, bs) ∈ w_ring (sv_world s).
Proof.
  intros R (o & sc & tr & r & A1 & A2 & A3). destruct (f_ring_spec tbl (sv_world s0) (start_fresh tbl h0 H0 s0 E0) _ _ _ (srun_framed _ _ _ _ _ _ _ _ R)) as [[_ M] Old].
  destruct (existsb (fun x => match x with VRead k' _ => (k' =? k)%nat | _ => false end) rs) eqn:D.
  - left. apply existsb_exists in D as (x & Hx & Hk). apply elem_of_list_In, elem_of_list_lookup in Hx as (q & Hq). destruct x; try discriminate Hk. apply Nat.eqb_eq in Hk. subst.
    exists q, ps. split; [|exact Hq]. apply Old, took_iff. exists ps. exact Hq.
  - right. exists (emit e su sc ++ tr). apply M. split; [exists o, su, sc, tr, r, e; repeat (split; [assumption|]); reflexivity|]. intros q Hq. apply took_iff in Hq as [ps Hq].
    assert (X : existsb (fun x => match x with VRead k' _ => (k' =? k)%nat | _ => false end) rs = true); [|congruence].
    apply existsb_exists. exists (VRead k ps). split; [apply elem_of_list_In; exact (elem_of_list_lookup_2 _ _ _ Hq)|apply Nat.eqb_refl].
Qed.
End ends.
