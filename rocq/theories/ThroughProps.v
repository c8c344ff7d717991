(** C111: from the system call to the user's terminal. *)
From Coq Require Import ZArith String Ascii Lia.
From stdpp Require Import base list numbers strings pretty gmap.
From Verif Require Import TopModel SyscallTable SyscallModel SyscallSpec SyscallProofs FilterModel FilterSpec KernelModel KernelSpec RawModel DecodeModel CaptureModel CaptureSpec
  CodecTables CodecModel JsonModel JsonSpec MsgModel MsgSpec ReadSpec TopoModel HubModel HubSpec HubTop LineModel LineSpec LiveModel LiveSpec LiveProofs LiveTop PlainSpec PlainProofs ServeModel ServeSpec ServeFrame ServeProofs.
From Verif Require Import PubSubModel PubSubSpec PubSubTop HashModel WatchModel WatchSpec WatchProofs WatchTop ServeWatch ServeTop ServeEnds ServeProps.
From Verif Require Import TextModel PrintModel PrintSpec UnmarshalModel UnmarshalSpec StreamModel StreamSpec StreamProofs ThroughSpec ThroughProofs.

Local Open Scope string_scope.
Local Open Scope list_scope.
Local Open Scope Z_scope.
Local Opaque gSyscallMap gClassMap table emit.
Local Notation watch := StreamModel.run.
Local Notation shows := StreamModel.shown.

(** Whatever the machine, the jobs and the other clients do: the [n]th event client [w]
    shows is the [n]th one written to it that can be read, and it is a call sent by the
    machine, for a container the client asked for and with a job that demands it, with
    the call's number and name, the task's name, the session and the container's names.
    If the event survives JSON (C63) and is no nanosleep its arguments and its result are
    the server's, and `swoll client create --oneshot` prints the line `swoll trace` would
    print on the server's machine, without the latency. *)
Theorem C111_what_is_shown_happened : forall tbl describe srt J s0 l s rs w order heap base t0 is n ev,
  go_table tbl -> sort_contract srt -> describes describe -> start_server tbl = Some s0 -> Forall plausible l -> srun tbl describe srt J s0 l s rs ->
  (forall x, order x ≡ₚ x) -> (forall f, Reset f ∉ is) ->
  data (arrived is) `prefix_of` map (message_frame order heap base) (map snd (inbox w rs)) ->
  shows (watch is (dial t0)) !! n = Some ev ->
  exists k a i q0 ps e su c,
    delivered order heap base w rs !! n = Some (k, ev)
    /\ came l rs i w a /\ took rs q0 k ps /\ (k < q0)%nat
    /\ sends (story l) (outcomes rs) k e su /\ LiveSpec.known (take q0 (story l)) (ev_pidns e) c /\ meant_for J (take q0 l) (take q0 rs) a c (ev_nr e)
    /\ ce_nr ev = ev_nr e /\ (exists call params, prototype (ev_nr e) = Some (call, params) /\ ce_name ev = json_text (txt ("sys_" ++ call)%string))
    /\ ce_comm ev = json_text (until_nul (su_comm su)) /\ ce_sid ev = su_session su
    /\ ce_container ev = Some (json_text (txt (ct_name c)), json_text (txt (ct_pod c)), json_text (txt (ct_namespace c)))
    /\ forall bs t args fs srv, record_at l rs k bs -> comes_whole bs t args fs srv -> Forall (fun f => f_kind f <> KAddrs) fs -> bytes heap ->
       ce_fields ev = fs /\ ce_members ev = srv /\ ce_error ev = t_error t
       /\ forall order' base' line, well_formed (txt (ct_name c)) -> well_formed (txt (ct_pod c)) -> well_formed (txt (ct_namespace c)) ->
          line_of order' base' false false (Some (txt (ct_name c), txt (ct_pod c), txt (ct_namespace c))) t args = Some line ->
          exists a b, line = txt "(" ++ ms_text (latency (t_start t) (t_finish t)) ++ txt "ms) " ++ a ++ right_align 9 (t_comm t) ++ b
            /\ create_line order' base' false ev = Some (a ++ right_align 11 (t_comm t) ++ b).
Proof.
  intros tbl describe srt J s0 l s rs w order heap base t0 is n ev G Srt Ds E0 F R O Nr P Hn. destruct (server_hub _ _ E0) as (h0 & H0).
  pose proof (prefix_lookup _ _ _ _ Hn (shown_delivered order heap base w rs t0 is Nr P)) as Hd. rewrite list_lookup_fmap in Hd.
  destruct (delivered order heap base w rs !! n) as [[k ev']|] eqn:E; [|discriminate]. cbn [fmap option_fmap option_map snd] in Hd. apply Some_inj in Hd. subst ev'.
  destruct (proj1 (delivered_wrote _ _ _ _ _ _ _) (elem_of_list_lookup_2 _ _ _ E)) as (q & text & W & Ra).
  destruct (event_facts tbl describe srt J G Srt Ds h0 H0 s0 E0 order heap base l s rs q w k text ev O F R W Ra)
    as (a & i & q0 & ps & e & su & c & A1 & _ & A3 & [A4 _] & A5).
  exists k, a, i, q0, ps, e, su, c. split; [reflexivity|]. split; [exact A1|]. split; [exact A3|]. split; [exact A4|exact A5].
Qed.
Print Assumptions C111_what_is_shown_happened.

(** Every text the server writes is read or skipped with an error: none ends the client. *)
Theorem C111_no_text_ends_the_client : forall tbl describe srt J s0 l s rs w k text order heap base,
  go_table tbl -> sort_contract srt -> describes describe -> start_server tbl = Some s0 -> Forall plausible l -> srun tbl describe srt J s0 l s rs ->
  (forall x, order x ≡ₚ x) -> (k, text) ∈ inbox w rs ->
  unmarshal order heap base text = Skipped \/ exists e, unmarshal order heap base text = UnmarshalModel.Read e.
Proof.
  intros tbl describe srt J s0 l s rs w k text order heap base G Srt Ds E0 F R O Hi. destruct (server_hub _ _ E0) as (h0 & H0).
  apply inbox_wrote in Hi as [q W]. exact (reads_or_skips tbl describe srt J G Srt h0 H0 s0 E0 order heap base l s rs q w k text O F R W).
Qed.
Print Assumptions C111_no_text_ends_the_client.

(** And nothing is lost: if all that was written arrived, no message is over the limit,
    the server is answering the client's pings, the hub is done and the client is still
    there, then the stream is up, and what was shown, what is about to be and what waits
    to be read are the events written to the client.  One that survives JSON is there
    once if the client asked for its container and a job demands it, and as often as the
    job's calls are in force if the client asked for the job; one the client did not ask
    for is not there. *)
Theorem C111_nothing_is_lost : forall tbl describe srt J s0 l s rs w i a q k ps order heap base t0 is,
  go_table tbl -> sort_contract srt -> describes describe -> start_server tbl = Some s0 -> Forall plausible l -> srun tbl describe srt J s0 l s rs ->
  (forall x, order x ≡ₚ x) -> bytes heap ->
  came l rs i w a -> took rs q k ps -> (i < q)%nat -> busy s = false -> stays_open s w ->
  Forall harmless is -> answered is (dial t0) ->
  data (arrived is) = map (message_frame order heap base) (map snd (inbox w rs)) ->
  ended (watch is (dial t0)) = None
  /\ shows (watch is (dial t0)) ++ waiting (held (watch is (dial t0))) ++ events (queue (watch is (dial t0))) = map snd (delivered order heap base w rs)
  /\ exists e su, sends (story l) (outcomes rs) k e su
     /\ ((forall c, ~ LiveSpec.known (take q (story l)) (ev_pidns e) c) -> copies k (delivered order heap base w rs) = 0%nat)
     /\ forall c, LiveSpec.known (take q (story l)) (ev_pidns e) c ->
        let whole := exists bs t args fs srv, record_at l rs k bs /\ comes_whole bs t args fs srv in
        match a with
        | AskTrace ns pod name =>
            (whole -> demanded J (take q l) (take q rs) (ev_pidns e) (ev_nr e) -> agree eq ns pod name (ct_namespace c) (ct_pod c) (ct_name c) -> copies k (delivered order heap base w rs) = 1%nat)
            /\ (~ demanded J (take q l) (take q rs) (ev_pidns e) (ev_nr e) \/ ~ agree (fun a b => hash a = hash b) ns pod name (ct_namespace c) (ct_pod c) (ct_name c) ->
                copies k (delivered order heap base w rs) = 0%nat)
        | AskJob id =>
            whole -> id <> "" -> (forall m i j, in_force J (take q l) (take q rs) (ev_pidns e) (ev_nr e) m i j -> j_rate (J j) <= 0 /\ (hash (j_id (J j)) = hash id -> j_id (J j) = id)) ->
            forall n, times_in_force J (take q l) (take q rs) (ev_pidns e) (ev_nr e) id n -> copies k (delivered order heap base w rs) = n
        end.
Proof.
  intros tbl describe srt J s0 l s rs w i a q k ps order heap base t0 is G Srt Ds E0 F R O Hh Ca Tk Iq Nb St Hs An Ar. destruct (server_hub _ _ E0) as (h0 & H0).
  destruct (healthy_delivered order heap base w rs t0 is Hs An Ar) as [H1 H2]. split; [exact H1|]. split; [exact H2|].
  destruct (complete tbl describe srt J G Srt h0 H0 s0 E0 l s rs w i a q k ps F R Ca Tk Iq Nb St) as (e & su & Se & C0 & C1). exists e, su. split; [exact Se|].
  pose proof (copies_le order heap base w k rs) as Le.
  assert (All : (exists bs t args fs srv, record_at l rs k bs /\ comes_whole bs t args fs srv) -> copies k (delivered order heap base w rs) = texts w k rs).
  { intros (bs & t & args & fs & srv & Rc & Wh). apply copies_all. intros q' text W.
    exact (whole_is_read tbl describe srt J G Srt h0 H0 s0 E0 order heap base l s rs q' w k text bs t args fs srv O Hh F R W Rc Wh). }
  split; [intros N; specialize (C0 N); lia|]. intros c Kn whole. specialize (C1 c Kn). destruct a as [id|ns pod name].
  - intros Wh Ni Hj n Tn. rewrite (All Wh). exact (C1 Ni Hj n Tn).
  - destruct C1 as [C1 C2]. split; [intros Wh Dm Ag; rewrite (All Wh); exact (C1 Dm Ag)|]. intros N. specialize (C2 N). lia.
Qed.
Print Assumptions C111_nothing_is_lost.

(** * A session: read(3, 0, 16) in the container app of the pod shop, followed by a client *)

Definition read_record : list Z := emit (KEvent 7 0 0 0 0 5 [3; 0; 16] 0) nowhere (repeat 0 736) ++ [].
Definition read_fields : list field := [Field "fd" 0 KS32; Field "buf" 1 (KSliceMin 2); Field "count" 2 KS64].
Definition read_members : list JsonModel.member := [MInt 3; MBytes (repeat 0 16); MInt 16].
Definition read_event : client_event :=
  ClientEvent 0 (txt "sys_read") [] 0 0 (Some (txt "app", txt "shop", txt "default")) read_fields read_members.
Definition read_line : list Z :=
  txt "                   app.shop.default: [           ] (         OK) read((int)fd=3, (void *)buf=[0 0 0 0 0 0 0 0 0 0 0 0 0 0 0 0], (ssize_t)count=16)" ++ [10].

Local Transparent emit gSyscallMap gClassMap table.
Lemma read_text : match ingest (InBytes read_record), ingest_bytes read_record with
  | Ingested t, Some r =>
      match message plain_p (lookup_sc table (ByInt (t_syscall t))) (Some (described shop)) (r_args r) t with
      | Some text => (length text, read_as (fun l => l) [] 0 text) = (372%nat, Some read_event)
      | None => False
      end
      /\ decoder (t_syscall t) = Some read_fields /\ server_members (r_args r) (t_syscall t) read_fields (t_argv t) = Some read_members
      /\ t_comm t = [] /\ t_error t = 0 /\ t_syscall t = 0 /\ t_argv t = [VInt 3; VSlice 128 16; VInt 16] /\ create_line (fun l => l) 0 false read_event = Some read_line
  | _, _ => False
  end.
Proof. vm_compute. repeat split. Qed.
Local Opaque emit gSyscallMap gClassMap table.

Lemma read_whole : exists t args, comes_whole read_record t args read_fields read_members.
Proof.
  pose proof read_text as H. destruct (ingest (InBytes read_record)) as [t| |] eqn:I; try contradiction. destruct (ingest_bytes read_record) as [r|] eqn:Ib; [|contradiction].
  destruct H as (_ & D & S & Cm & Er & Nr & Av & _). exists t, (r_args r). split; [exists r; split; [exact Ib|reflexivity]|]. split; [exact I|]. split; [exact D|]. split; [exact S|].
  split; [rewrite Cm; exists []; split; [constructor|reflexivity]|]. split; [rewrite Er; apply (nth_error_In _ 1); reflexivity|]. rewrite Nr, Av.
  assert (P : forall name z, name = "fd" \/ name = "count" -> int_survives (r_args r) 0 name z).
  { intros name z [-> | ->]; repeat split; intros X; vm_compute in X; discriminate X. }
  constructor; [apply P; left; reflexivity|]. constructor; [exact Logic.I|]. constructor; [apply P; right; reflexivity|]. constructor.
Qed.

(** The message arrives, is read and printed. *)
Definition one_message (text : list Z) : list (input client_event) := [Arrive (message_frame (fun l => l) [] 0 text); StreamModel.Read false; Take].

Lemma all_same {A} (x : A) l : (forall y, y ∈ l -> y = x) -> l = repeat x (length l).
Proof. induction l as [|y l IH]; intros H; [reflexivity|]. cbn [length repeat]. rewrite (H y) by left. f_equal. apply IH. intros z Hz. apply H. right. exact Hz. Qed.
Lemma inbox_texts w k rs : (forall x, x ∈ inbox w rs -> fst x = k) -> length (inbox w rs) = texts w k rs.
Proof.
  unfold inbox, texts. induction rs as [|r rs IH]; intros H; [reflexivity|]. cbn [omap list_omap List.filter] in H |- *. destruct r; cbn [written]; try (apply IH; exact H).
  destruct (decide (w0 = w)) as [->|N].
  - rewrite Nat.eqb_refl. pose proof (H _ (elem_of_list_here _ _)) as E. cbn [fst] in E. subst k0. rewrite Nat.eqb_refl. cbn [andb length]. f_equal. apply IH. intros x Hx. apply H. right. exact Hx.
  - destruct (Nat.eqb_spec w w0); [congruence|]. cbn [andb]. apply IH. exact H.
Qed.

Example C111_nonvacuous : exists s0 l s rs q ps c e su text,
  describes described /\ start_server table = Some s0 /\ Forall plausible l /\ srun table described some_sort reads_job s0 l s rs
  /\ came l rs 2 0 (AskTrace "default" "" "") /\ took rs q 4 ps /\ (2 < q)%nat /\ busy s = false /\ stays_open s 0
  /\ sends (story l) (outcomes rs) 4 e su /\ LiveSpec.known (take q (story l)) (ev_pidns e) c /\ demanded reads_job (take q l) (take q rs) (ev_pidns e) (ev_nr e)
  /\ agree eq "default" "" "" (ct_namespace c) (ct_pod c) (ct_name c)
  /\ (exists t args, record_at l rs 4 read_record /\ comes_whole read_record t args read_fields read_members) /\ Forall (fun f => f_kind f <> KAddrs) read_fields
  /\ inbox 0 rs = [(4%nat, text)]
  /\ data (arrived (one_message text)) = map (message_frame (fun l => l) [] 0) (map snd (inbox 0 rs))
  /\ Forall harmless (one_message text) /\ answered (one_message text) (dial 0)
  /\ shows (watch (one_message text) (dial 0)) = [read_event]
  /\ create_line (fun l => l) 0 false read_event = Some read_line.
Proof.
  destruct (C105_starts table go_table_intro) as [s0 E0]. destruct (server_hub _ _ E0) as (h0 & H0). set (describe := described).
  destruct (session_runs describe s0 E0 16) as (s & rs & ps & R & Ca & Tk & Se & Dm & (x & So) & Hs).
  pose proof (srun_length _ _ _ _ _ _ _ _ R) as Len. change (length (session 16)) with 6%nat in Len.
  destruct (C105_gets_done table describe some_sort reads_job s0 plain_p _ _ _ go_table_intro some_sort_contract E0 plain_p_reasonable (session_plausible 16) R Hs) as (l2 & s2 & rs2 & F2 & R2 & B2 & W2).
  { intros q k ps' e su Tq La Sq. rewrite (only_read 16 rs ps _ _ Se Tk q k ps' e su Tq La Sq Len). intros [[_ X]|[[X _]|[X _]]]; [vm_compute in X; discriminate|discriminate X|discriminate X]. }
  assert (F : Forall plausible (session 16 ++ l2)) by exact (more_plausible plain_p _ _ plain_p_reasonable (session_plausible 16) F2).
  assert (Ca' : came (session 16 ++ l2) (rs ++ rs2) 2 0 (AskTrace "default" "" "")) by (destruct Ca as (d & C1 & C2); exists d; split; apply lookup_app_l_Some; assumption).
  assert (Tk' : took (rs ++ rs2) 5 4 ps) by (apply lookup_app_l_Some; exact Tk).
  assert (St' : stays_open s2 0) by (exists x; rewrite W2; exact So).
  assert (Se' : sends (story (session 16 ++ l2)) (outcomes (rs ++ rs2)) 4 (KEvent 7 0 0 0 0 5 [3; 0; 16] 0) nowhere).
  { destruct Se as (o' & sc & tr & r' & A1 & A2 & A3). exists o', sc, tr, r'. apply story_task in A1. apply outcome_task in A2.
    split; [apply story_task, lookup_app_l_Some; exact A1|]. split; [apply outcome_task, lookup_app_l_Some; exact A2|exact A3]. }
  assert (Kn' : LiveSpec.known (take 5 (story (session 16 ++ l2))) 5 shop) by exact (shop_known 16).
  assert (Dm' : demanded reads_job (take 5 (session 16 ++ l2)) (take 5 (rs ++ rs2)) 5 0) by (rewrite (take_app_le rs) by lia; exact Dm).
  assert (Ag : agree eq "default" "" "" (ct_namespace shop) (ct_pod shop) (ct_name shop)) by (right; split; [reflexivity|]; left; reflexivity).
  assert (Ds : describes describe) by (intros c; split; [reflexivity|split; [reflexivity|split; reflexivity]]).
  assert (Tx : texts 0 4 (rs ++ rs2) = 1%nat).
  { destruct (C105_clients_get_all_they_asked_for table describe some_sort reads_job s0 _ _ _ 0 2 _ 5 4 ps go_table_intro some_sort_contract E0 F R2 Ca' Tk' ltac:(lia) B2 St') as (e & su & Se2 & _ & H).
    assert (e = KEvent 7 0 0 0 0 5 [3; 0; 16] 0) as ->.
    { destruct Se' as (o1 & sc1 & tr1 & r1 & A1 & A2 & A3), Se2 as (o2 & sc2 & tr2 & r2 & C1 & C2 & C3). rewrite A2 in C2. apply Some_inj, utask_inj in C2. subst r2. rewrite A3 in C3. apply Some_inj in C3. symmetry. exact C3. }
    destruct (H shop Kn') as [H1 _]. exact (H1 Dm' Ag). }
  assert (Rc : record_at (session 16 ++ l2) (rs ++ rs2) 4 read_record).
  { destruct Se' as (o1 & sc1 & tr1 & r1 & A1 & A2 & A3). apply outcome_task in A2.
    exists (KExit 7 (Task 5 7 0) 0 0 0), nowhere, (repeat 0 736), [], r1, (KEvent 7 0 0 0 0 5 [3; 0; 16] 0). split; [reflexivity|]. split; [exact A2|]. split; [exact A3|reflexivity]. }
  pose proof read_text as T. destruct (ingest (InBytes read_record)) as [t| |] eqn:I; try contradiction. destruct (ingest_bytes read_record) as [r|] eqn:Ib; [|contradiction].
  destruct (message plain_p _ _ _ _) as [text|] eqn:M; [|destruct T; contradiction]. destruct T as (T1 & _ & _ & _ & _ & _ & _ & T2). apply pair_equal_spec in T1 as [T0 T1].
  assert (Al : forall y, y ∈ inbox 0 (rs ++ rs2) -> y = (4%nat, text)).
  { intros [k txt'] Hy. apply inbox_wrote in Hy as [q W].
    destruct (wrote_message table describe some_sort reads_job go_table_intro some_sort_contract h0 H0 s0 E0 _ _ _ q 0 k txt' F R2 W)
      as (a & i & q0 & ps' & e & su & c & p & takes & bs & t' & r' & _ & _ & Tq & _ & Sk & Kc & _ & _ & Rk & _ & I' & Ib' & _ & Ic & M').
    destruct (reads_at table describe some_sort reads_job go_table_intro h0 H0 s0 E0 _ _ _ _ _ _ F R2 Tq) as (i0 & sq & sq' & _ & _ & _ & _ & Hq & _).
    assert (q0 = 5%nat) as ->.
    { destruct (decide (q0 < 6)%nat) as [Lt|Ge].
      - destruct q0 as [|[|[|[|[|[|q0]]]]]]; try discriminate Hq; [reflexivity|lia].
      - rewrite lookup_app_r in Hq by (cbn; lia). rewrite Forall_forall in F2. destruct (F2 _ (elem_of_list_lookup_2 _ _ _ Hq)) as [X|X]; discriminate X. }
    unfold took in Tq, Tk'. rewrite Tk' in Tq. injection Tq as <- <-.
    assert (bs = read_record) as -> by exact (record_unique _ _ _ _ _ Rk Rc). rewrite I in I'. injection I' as <-. rewrite Ib in Ib'. apply Some_inj in Ib'. subst r'.
    assert (p = plain_p) as ->.
    { apply elem_of_app in Ic as [Ic|Ic].
      - unfold session, opening in Ic. cbn [app] in Ic. repeat (apply elem_of_cons in Ic as [Y|Ic]; [discriminate Y|]). apply not_elem_of_nil in Ic. contradiction.
      - rewrite Forall_forall in F2. destruct (F2 _ Ic) as [Y|Y]; [discriminate Y|]. injection Y as -> _. reflexivity. }
    assert (e = KEvent 7 0 0 0 0 5 [3; 0; 16] 0) as ->.
    { destruct Se' as (o1 & sc1 & tr1 & r1 & A1 & A2 & A3), Sk as (o2 & sc2 & tr2 & r2 & C1 & C2 & C3). rewrite A2 in C2. apply Some_inj, utask_inj in C2. subst r2. rewrite A3 in C3. apply Some_inj in C3. symmetry. exact C3. }
    assert (c = shop) as ->.
    { destruct Kc as (_ & k0 & Hk & Ck & _). destruct k0 as [|[|[|[|[|k0]]]]]; try discriminate Hk. injection Hk as <-. reflexivity. }
    f_equal. unfold describe in M'. rewrite M in M'. apply Some_inj in M'. symmetry. exact M'. }
  assert (In : inbox 0 (rs ++ rs2) = [(4%nat, text)]).
  { pose proof (inbox_texts 0 4 (rs ++ rs2)) as L. rewrite Tx in L. rewrite (all_same _ _ Al). rewrite L; [reflexivity|]. intros y Hy. rewrite (Al y Hy). reflexivity. }
  exists s0, (session 16 ++ l2), s2, (rs ++ rs2), 5%nat, ps, shop, (KEvent 7 0 0 0 0 5 [3; 0; 16] 0), nowhere, text.
  split; [exact Ds|]. split; [exact E0|]. split; [exact F|]. split; [exact R2|]. split; [exact Ca'|]. split; [exact Tk'|]. split; [lia|]. split; [exact B2|]. split; [exact St'|]. split; [exact Se'|]. split; [exact Kn'|]. split; [exact Dm'|]. split; [exact Ag|].
  split; [destruct read_whole as (t' & args & Wh); exists t', args; split; [exact Rc|exact Wh]|].
  split; [repeat constructor; discriminate|]. split; [exact In|]. split; [rewrite In; reflexivity|].
  split. { unfold one_message. repeat (constructor; [first [exact Logic.I|cbn [harmless message_frame]; rewrite T0; unfold max_message_size; lia]|]). constructor. }
  split. { intros is1 is2 is3 E _. assert (Z0 : elapsed is2 = 0).
    { assert (A : Forall (fun i : input client_event => match i with Wait _ => False | _ => True end) (is1 ++ is2 ++ is3)) by (rewrite <- E; repeat constructor).
      apply Forall_app in A as [_ A]. apply Forall_app in A as [A _]. clear -A. induction A as [|i is Hi _ IH]; [reflexivity|]. unfold elapsed in *. cbn [foldr]. rewrite IH. destruct i; [lia..|contradiction|lia|lia]. }
    rewrite Z0. unfold pong_wait, second. lia. }
  split; [|exact T2]. unfold one_message, message_frame. rewrite T0, T1. reflexivity.
Qed.
