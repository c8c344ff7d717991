(** C98: `swoll trace`. *)
From Coq Require Import ZArith String Lia.
From stdpp Require Import base list numbers strings pretty gmap.
From Verif Require Import SyscallTable SyscallModel SyscallSpec SyscallProofs FilterModel FilterSpec PubSubModel PubSubSpec HashModel HashTop HubModel HubSpec HubDeliver
  KernelModel KernelSpec RawModel CaptureModel CaptureSpec LineModel LineSpec DecodeModel PlainModel PlainSpec PlainProofs LiveModel LiveSpec LiveProofs LiveTop.

Local Open Scope string_scope.
Local Open Scope list_scope.
Local Open Scope Z_scope.
Local Opaque emit.

Lemma start_hub tbl w0 : start_world tbl = Some w0 -> exists h0, new_hub tbl = Some h0 /\ w0 = World h0 ∅ ∅ ∅ [] 0.
Proof. unfold start_world. destruct (new_hub tbl) as [h|]; [|discriminate]. intros H. injection H as <-. exists h. split; reflexivity. Qed.

(** It starts. *)
Theorem C98_starts : forall tbl, go_table tbl -> is_Some (start_world tbl).
Proof.
  intros tbl G. rewrite (go_table_eq _ G). assert (H : (if start_world table then true else false) = true) by (vm_compute; reflexivity).
  destruct (start_world table) as [w|]; [eexists; reflexivity|discriminate].
Qed.
Print Assumptions C98_starts.

(** When a task leaves a call, an event is sent exactly when the call is one that was
    asked for, the task was seen entering it, and by then a container with its pid
    namespace had been reported to the trace. *)
Theorem C98_event_iff : forall tbl id flag p tty w0 l w rs k tid t ret now cpu r e,
  go_table tbl -> start_world tbl = Some w0 -> Forall real l -> in_turn l -> few_tasks l -> none_stopped l -> all_installed rs ->
  wrun tbl (the_trace id flag) p tty w0 l = Some (w, rs) -> did l k (KExit tid t ret now cpu) -> rs !! k = Some (UTask r) ->
  (o_event r = Some e <->
   cpu < 1024 /\ t_id t mod 2 ^ 32 <> 59 /\ asked flag (t_id t mod 2 ^ 32)
   /\ exists i t0 args ugid now0, a_call l i k tid t0 t args ugid now0 now ret cpu /\ t_id t0 = t_id t
        /\ reported (take i l) (t_pidns t0) /\ e = KEvent tid ugid (t_id t mod 2 ^ 32) now0 now (t_pidns t) args ret).
Proof.
  intros tbl id flag p tty w0 l w rs k tid t ret now cpu r e G S F T FT NS AI R. destruct (start_hub _ _ S) as (h0 & H0 & ->).
  exact (sent_exit tbl G id flag p tty h0 H0 l w rs k tid t ret now cpu r e F T NS AI FT R).
Qed.
Print Assumptions C98_event_iff.

(** Of execve, at every entry. *)
Theorem C98_execve_iff : forall tbl id flag p tty w0 l w rs k tid t args ugid now cpu r e,
  go_table tbl -> start_world tbl = Some w0 -> Forall real l -> none_stopped l -> all_installed rs ->
  wrun tbl (the_trace id flag) p tty w0 l = Some (w, rs) -> did l k (KExecve tid t args ugid now cpu) -> rs !! k = Some (UTask r) ->
  (o_event r = Some e <->
   cpu < 1024 /\ asked flag 59 /\ reported (take k l) (t_pidns t) /\ e = KEvent tid ugid 59 now now (t_pidns t) args 0).
Proof.
  intros tbl id flag p tty w0 l w rs k tid t args ugid now cpu r e G S F NS AI R. destruct (start_hub _ _ S) as (h0 & H0 & ->).
  exact (sent_execve tbl G id flag p tty h0 H0 l w rs k tid t args ugid now cpu r e F NS AI R).
Qed.
Print Assumptions C98_execve_iff.

(** Every rule could be installed, as long as there are few enough containers. *)
Theorem C98_rules_fit : forall tbl id flag p tty w0 l w rs,
  go_table tbl -> start_world tbl = Some w0 -> Forall real l -> few_rules l ->
  wrun tbl (the_trace id flag) p tty w0 l = Some (w, rs) -> all_installed rs.
Proof.
  intros tbl id flag p tty w0 l w rs G S. destruct (start_hub _ _ S) as (h0 & H0 & ->). exact (rules_fit tbl G id flag p tty h0 H0 l w rs).
Qed.
Print Assumptions C98_rules_fit.

(** A record that was sent is read at most once, and otherwise still waiting. *)
Theorem C98_no_record_is_lost : forall tbl id flag p tty w0 l w rs k e su,
  start_world tbl = Some w0 -> wrun tbl (the_trace id flag) p tty w0 l = Some (w, rs) -> sends l rs k e su ->
  (exists q ps line, (k < q)%nat /\ rs !! q = Some (URead k ps line)) \/ exists bs, (k, bs) ∈ w_ring w.
Proof.
  intros tbl id flag p tty w0 l w rs k e su S. destruct (start_hub _ _ S) as (h0 & H0 & ->). exact (none_lost tbl id flag p tty h0 l w rs k e su).
Qed.
Print Assumptions C98_no_record_is_lost.
Theorem C98_read_once : forall tbl id flag p tty w0 l w rs q q' k ps line ps' line',
  start_world tbl = Some w0 -> wrun tbl (the_trace id flag) p tty w0 l = Some (w, rs) ->
  rs !! q = Some (URead k ps line) -> rs !! q' = Some (URead k ps' line') -> q = q'.
Proof.
  intros tbl id flag p tty w0 l w rs q q' k ps line ps' line' S. destruct (start_hub _ _ S) as (h0 & H0 & ->). exact (read_once tbl id flag p tty h0 l w rs q q' k ps line ps' line').
Qed.
Print Assumptions C98_read_once.

(** What is read was sent before. If the hub knows a container for the pid namespace,
    the line names it, the task and the call, and is printed once for every time a
    container of that namespace was reported to the trace and every time the call is
    named on the command line. If not, nothing is printed. *)
Theorem C98_lines : forall tbl id flag p tty w0 l w rs q k ps line,
  go_table tbl -> start_world tbl = Some w0 -> Forall real l ->
  wrun tbl (the_trace id flag) p tty w0 l = Some (w, rs) -> rs !! q = Some (URead k ps line) ->
  exists e su, (k < q)%nat /\ sends l rs k e su
    /\ (forall c, LiveSpec.known (take q l) (ev_pidns e) c -> exists out, line = Some out /\ names_container tty c e su out)
    /\ ((forall c, ~ LiveSpec.known (take q l) (ev_pidns e) c) -> ps = [])
    /\ forall c n m, LiveSpec.known (take q l) (ev_pidns e) c -> all_installed rs -> reports (take q l) (ev_pidns e) n -> mentions flag (ev_nr e) m ->
         for_trace ps = (n * m)%nat
         /\ forall srt sb cs, sort_contract srt -> s_shard sb = "" -> s_path sb = attach_trace id -> cli_job_id id ->
              deliver (subscribed srt sb) ps cs -> times (s_handle sb) cs = (n * m)%nat.
Proof.
  intros tbl id flag p tty w0 l w rs q k ps line G S F R Hq. destruct (start_hub _ _ S) as (h0 & H0 & ->).
  destruct (what_is_read tbl G id flag p tty h0 H0 l w rs q k ps line F R Hq) as (e & su & H1 & H2 & _ & H3). exists e, su. split; [exact H1|]. split; [exact H2|exact H3].
Qed.
Print Assumptions C98_lines.

(** Without the hypotheses on room and on stopped containers: what is read is an event
    of a call that was asked for, made in a pid namespace reported before. *)
Theorem C98_only_asked_calls_are_read : forall tbl id flag p tty w0 l w rs q k ps line,
  go_table tbl -> start_world tbl = Some w0 -> Forall real l -> in_turn l ->
  wrun tbl (the_trace id flag) p tty w0 l = Some (w, rs) -> rs !! q = Some (URead k ps line) ->
  exists e su, sends l rs k e su /\ asked flag (ev_nr e)
    /\ ((exists i tid t0 t args ugid now0 now ret cpu, a_call l i k tid t0 t args ugid now0 now ret cpu /\ t_id t0 = t_id t
           /\ reported (take i l) (t_pidns t0) /\ e = KEvent tid ugid (t_id t mod 2 ^ 32) now0 now (t_pidns t) args ret)
        \/ exists tid t args ugid now cpu, did l k (KExecve tid t args ugid now cpu)
           /\ reported (take k l) (t_pidns t) /\ e = KEvent tid ugid 59 now now (t_pidns t) args 0).
Proof.
  intros tbl id flag p tty w0 l w rs q k ps line G S F T R Hq. destruct (start_hub _ _ S) as (h0 & H0 & ->).
  destruct (what_is_read tbl G id flag p tty h0 H0 l w rs q k ps line F R Hq) as (e & su & _ & H2 & _). exists e, su. split; [exact H2|].
  destruct H2 as (o & sc & tr & r & Hl & Hr & He). assert (D : did l k o) by (exists su, sc, tr, false; exact Hl).
  destruct (task_at _ _ _ _ _ _ _ _ _ _ R D) as (wk & _ & E). rewrite Hr in E. apply Some_inj, utask_inj in E.
  destruct (sent_from tbl (kernel_of wk) o e) as [(tid & t & ret & now & cpu & ->)|(tid & t & args & ugid & now & cpu & ->)]; [rewrite <- E; exact He| |].
  - destruct (sent_sound tbl G id flag p tty h0 H0 _ _ _ _ _ _ _ _ _ _ _ F T R D Hr He) as (_ & _ & A & i & t0 & args & ugid & now0 & C & I & Rp & ->).
    split; [exact A|]. left. exists i, tid, t0, t, args, ugid, now0, now, ret, cpu. split; [exact C|]. split; [exact I|]. split; [exact Rp|reflexivity].
  - destruct (sent_execve_sound tbl G id flag p tty h0 H0 _ _ _ _ _ _ _ _ _ _ _ _ F R D Hr He) as (_ & A & Rp & ->).
    split; [exact A|]. right. exists tid, t, args, ugid, now, cpu. split; [exact D|]. split; [exact Rp|reflexivity].
Qed.
Print Assumptions C98_only_asked_calls_are_read.

(** The program runs until it is stopped, whatever happens, exactly when every name on
    the command line is that of a call with a decoder. *)
Theorem C98_survives_iff : forall tbl id flag p tty w0, go_table tbl -> start_world tbl = Some w0 ->
  ((forall l, Forall real l -> wrun tbl (the_trace id flag) p tty w0 l <> None)
   <-> forall name, wanted flag name -> exists nr, names_call name nr /\ decoder nr <> None).
Proof. intros tbl id flag p tty w0 G S. destruct (start_hub _ _ S) as (h0 & H0 & ->). exact (survives_iff tbl G id flag p tty h0 H0). Qed.
Print Assumptions C98_survives_iff.

(** ** What does not hold *)

Lemma execve_names : names_call "execve" 59.
Proof.
  assert (C : match lookup_sc table (ByString "execve") with Some sc => sc_nr sc =? 59 | None => false end = true) by (vm_compute; reflexivity).
  destruct (lookup_sc table (ByString "execve")) as [sc|] eqn:L; [|discriminate]. apply Z.eqb_eq in C. rewrite <- C. exact (lookup_names _ _ L).
Qed.
Lemma default_names name : wanted [] name -> exists nr, names_call name nr /\ decoder nr <> None.
Proof. intros [[_ ->]|H]; [|apply not_elem_of_nil in H; contradiction]. exists 59. split; [exact execve_names|discriminate]. Qed.
Lemma default_asked : asked [] 59.
Proof. exists "execve". split; [left; split; reflexivity|exact execve_names]. Qed.
Lemma default_mentions : mentions [] 59 1.
Proof.
  exists [0%nat]. split; [apply NoDup_singleton|]. split; [reflexivity|]. intros j. rewrite elem_of_list_singleton. split.
  - intros ->. exists "execve". split; [reflexivity|exact execve_names].
  - intros (name & H & _). destruct j as [|j]; [reflexivity|discriminate H].
Qed.

Definition in_pod (name : string) : container := Container "default" "web" name 5.

(** Two containers of a pod that share their pid namespace, and a trace of one of them:
    the line names the other. *)
Definition shared : list wop := [WPod true (in_pod "app"); WPod true (in_pod "proxy"); WMatch true (in_pod "app")].
Theorem C98_names_a_reported_container_refuted :
  ~ forall tbl id flag p tty w0 l w rs q k ps line e su c,
      go_table tbl -> start_world tbl = Some w0 -> Forall real l -> none_stopped l ->
      wrun tbl (the_trace id flag) p tty w0 l = Some (w, rs) -> rs !! q = Some (URead k ps line) -> sends l rs k e su -> for_trace ps <> 0%nat ->
      (exists out, line = Some out /\ names_container tty c e su out) -> LiveSpec.known (take q l) (ev_pidns e) c ->
      exists j, l !! j = Some (WMatch true c).
Proof.
  intros H. destruct (C98_starts table go_table_intro) as (w0 & S). destruct (start_hub _ _ S) as (h0 & H0 & E0).
  assert (Fr : Forall real shared) by (repeat constructor; cbn; lia).
  assert (Fo : Forall observes shared) by (repeat constructor).
  assert (FR : few_rules shared) by (unfold few_rules; change (matched shared) with [5]; change (metered shared) with ([] : list Z); rewrite size_one; change (size (list_to_set ([] : list Z) : gset Z)) with 0%nat; lia).
  assert (Rp : reported shared 5) by (exists 2%nat, (in_pod "app"); split; reflexivity).
  set (p := fun (_ : nat) (_ : trace_event) => Printer (fun _ _ _ => []) (fun _ => [])).
  destruct (exec_run table go_table_intro "aaaaaaaa" [] p false h0 H0 shared Fr Fo FR Rp default_asked default_names) as (w & rs & ps & line & R & AI & Hq & Se).
  set (l := (shared ++ [execs]) ++ [WRead 0]) in *. change (Datatypes.S (length shared)) with 4%nat in Hq. change (length shared) with 3%nat in *. rewrite <- E0 in R.
  assert (F : Forall real l).
  { unfold l. apply Forall_app. split; [apply Forall_app; split; [exact Fr|]|constructor; [exact Logic.I|constructor]]. constructor; [|constructor]. apply does_real. unfold fits, word, some_ns. cbn [t_pidns t_id]. lia. }
  assert (NS : none_stopped l).
  { intros c X. unfold l, shared in X. cbn [app] in X. repeat (apply elem_of_cons in X as [Y|X]; [discriminate Y|]). apply not_elem_of_nil in X. exact X. }
  destruct (C98_lines table "aaaaaaaa" [] p false w0 l w rs 4 3 ps line go_table_intro S F R Hq) as (e & su & _ & Hs & Hk & _ & Hn).
  destruct (proj1 (Se e su) Hs) as [-> ->]. cbn [ev_pidns ev_nr] in Hk, Hn.
  assert (K : LiveSpec.known (take 4 l) 5 (in_pod "proxy")).
  { split; [lia|]. exists 1%nat. split; [reflexivity|]. split; [reflexivity|]. intros j start c' Hj. destruct j as [|[|[|[|j]]]]; [lia|lia|discriminate|discriminate|discriminate]. }
  destruct (Hn (in_pod "proxy") 1%nat 1%nat K AI) as [N _]; [|exact default_mentions|].
  { exists [2%nat]. split; [apply NoDup_singleton|]. split; [reflexivity|]. intros j. rewrite elem_of_list_singleton. split.
    - intros ->. exists (in_pod "app"). split; reflexivity.
    - intros (c & Hj & _). destruct j as [|[|[|[|j]]]]; try discriminate Hj. reflexivity. }
  destruct (H table "aaaaaaaa" [] p false w0 l w rs 4%nat 3%nat ps line _ _ (in_pod "proxy") go_table_intro S F NS R Hq Hs) as (j & Hj); [rewrite N; discriminate|exact (Hk _ K)|exact K|].
  destruct j as [|[|[|[|[|j]]]]]; discriminate Hj.
Qed.
Print Assumptions C98_names_a_reported_container_refuted.

(** A container that is reported twice, as every update of its pod may: two lines for
    each of its calls. *)
Definition twice : list wop := [WPod true (in_pod "app"); WMatch true (in_pod "app"); WMatch true (in_pod "app")].
Theorem C98_one_line_per_call_refuted :
  ~ forall tbl id flag p tty w0 l w rs q k ps line,
      go_table tbl -> start_world tbl = Some w0 -> Forall real l -> none_stopped l -> NoDup flag ->
      wrun tbl (the_trace id flag) p tty w0 l = Some (w, rs) -> rs !! q = Some (URead k ps line) -> (for_trace ps <= 1)%nat.
Proof.
  intros H. destruct (C98_starts table go_table_intro) as (w0 & S). destruct (start_hub _ _ S) as (h0 & H0 & E0).
  assert (Fr : Forall real twice) by (repeat constructor; cbn; lia).
  assert (Fo : Forall observes twice) by (repeat constructor).
  assert (FR : few_rules twice).
  { unfold few_rules. assert (X : (size (list_to_set (matched twice) : gset Z) <=? 1)%nat = true) by (vm_compute; reflexivity). apply Nat.leb_le in X. change (metered twice) with ([] : list Z). change (size (list_to_set ([] : list Z) : gset Z)) with 0%nat. lia. }
  assert (Rp : reported twice 5) by (exists 2%nat, (in_pod "app"); split; reflexivity).
  set (p := fun (_ : nat) (_ : trace_event) => Printer (fun _ _ _ => []) (fun _ => [])).
  destruct (exec_run table go_table_intro "aaaaaaaa" [] p false h0 H0 twice Fr Fo FR Rp default_asked default_names) as (w & rs & ps & line & R & AI & Hq & Se).
  set (l := (twice ++ [execs]) ++ [WRead 0]) in *. change (Datatypes.S (length twice)) with 4%nat in Hq. change (length twice) with 3%nat in *. rewrite <- E0 in R.
  assert (F : Forall real l).
  { unfold l. apply Forall_app. split; [apply Forall_app; split; [exact Fr|]|constructor; [exact Logic.I|constructor]]. constructor; [|constructor]. apply does_real. unfold fits, word, some_ns. cbn [t_pidns t_id]. lia. }
  assert (NS : none_stopped l).
  { intros c X. unfold l, twice in X. cbn [app] in X. repeat (apply elem_of_cons in X as [Y|X]; [discriminate Y|]). apply not_elem_of_nil in X. exact X. }
  destruct (C98_lines table "aaaaaaaa" [] p false w0 l w rs 4 3 ps line go_table_intro S F R Hq) as (e & su & _ & Hs & Hk & _ & Hn).
  destruct (proj1 (Se e su) Hs) as [-> ->]. cbn [ev_pidns ev_nr] in Hk, Hn.
  assert (K : LiveSpec.known (take 4 l) 5 (in_pod "app")).
  { split; [lia|]. exists 0%nat. split; [reflexivity|]. split; [reflexivity|]. intros j start c' Hj. destruct j as [|[|[|[|j]]]]; [lia|discriminate|discriminate|discriminate|discriminate]. }
  destruct (Hn (in_pod "app") 2%nat 1%nat K AI) as [N _]; [|exact default_mentions|].
  { exists [1%nat; 2%nat]. split; [apply NoDup_cons; split; [intros X; apply elem_of_list_singleton in X; discriminate X|apply NoDup_singleton]|]. split; [reflexivity|]. intros j. split.
    - intros X. apply elem_of_cons in X as [->|X]; [|apply elem_of_list_singleton in X; subst j]; exists (in_pod "app"); split; reflexivity.
    - intros (c & Hj & _). destruct j as [|[|[|[|j]]]]; try discriminate Hj; [left|right; left]. }
  pose proof (H table "aaaaaaaa" [] p false w0 l w rs 4%nat 3%nat ps line go_table_intro S F NS ltac:(apply NoDup_nil; exact Logic.I) R Hq) as X. rewrite N in X. lia.
Qed.
Print Assumptions C98_one_line_per_call_refuted.

(** ** A run *)
Definition sh : surroundings := Surroundings 3 0 0 0 0 0 0 ([115; 104] ++ repeat 0 14) (fun _ => None).
Definition demo : list wop :=
  [ WPod true (in_pod "app"); WMeter true 5; WMatch true (in_pod "app");
    WTask (KEnter 7 (Task 5 1 3) [4] 0 1000) sh (repeat 0 736) [] false;
    WTask (KEnter 8 (Task 6 2 3) [9] 0 1001) sh (repeat 0 736) [] false;
    WTask (KExit 7 (Task 5 1 3) 0 6000 0) sh (repeat 0 736) [] false;
    WTask (KExit 8 (Task 6 2 3) 0 6001 0) sh (repeat 0 736) [] false;
    WRead 0 ].
Definition demo_out : list wout :=
  match start_world table with
  | Some w0 => match wrun table (the_trace "aaaaaaaa" ["close"]) (fun _ _ => Printer (fun _ _ _ => []) (fun _ => text_bytes " 0.005")) false w0 demo with Some (_, rs) => rs | None => [] end
  | None => []
  end.
Definition show (r : wout) : option (kevent + nat * list Z) :=
  match r with
  | UTask r => match o_event r with Some e => Some (inl e) | None => None end
  | URead k ps (Some line) => if (for_trace ps =? 1)%nat then Some (inr (k, line)) else None
  | _ => None
  end.
Example C98_demo : map show demo_out =
  [ None; None; None; None; None; Some (inl (KEvent 7 0 3 1000 6000 5 [4] 0)); None;
    Some (inr (5%nat, text_bytes "( 0.005ms)                     app.web.default: [       sh] (         OK) close((int)fd=4)" ++ [10])) ].
Proof. vm_compute. reflexivity. Qed.
Example C98_demo_hypotheses : Forall real demo /\ in_turn demo /\ few_tasks demo /\ none_stopped demo /\ few_rules demo.
Proof.
  assert (D : forall k tid, enters_at demo k tid -> (k = 3%nat /\ tid = 7) \/ (k = 4%nat /\ tid = 8)).
  { intros k tid (t & a & u & n & su & sc & tr & lost & H). destruct k as [|[|[|[|[|[|[|[|k]]]]]]]]; cbn in H; try discriminate H; injection H as -> _ _ _ _; [left|right]; split; reflexivity. }
  split; [|split; [|split; [|split]]].
  - assert (X : surroundings_ok nobody sh) by (split; cbn; lia). unfold demo.
    repeat (apply Forall_cons; split); try exact Logic.I; try (cbn; lia); try (split; [unfold fits, word, some_ns; cbn [t_pidns]; lia|split; [exact X|apply repeat_length]]). apply Forall_nil. exact Logic.I.
  - intros tid i j Lt Hi Hj. destruct (D _ _ Hi) as [[-> ->]|[-> ->]], (D _ _ Hj) as [[-> X]|[-> X]]; lia.
  - unfold few_tasks. assert (X : (size (list_to_set (entering demo) : gset Z) <=? 2)%nat = true) by (vm_compute; reflexivity). apply Nat.leb_le in X. lia.
  - intros c X. unfold demo in X. repeat (apply elem_of_cons in X as [Y|X]; [discriminate Y|]). apply not_elem_of_nil in X. exact X.
  - unfold few_rules. assert (X : (size (list_to_set (matched demo) : gset Z) + size (list_to_set (metered demo) : gset Z) <=? 2)%nat = true) by (vm_compute; reflexivity). apply Nat.leb_le in X. lia.
Qed.
