(** C104: a line of `swoll trace`, from the system call to the screen. *)
From Coq Require Import ZArith String Lia.
From stdpp Require Import base list numbers strings pretty gmap.
From Verif Require Import SyscallTable SyscallModel SyscallSpec SyscallProofs FilterModel HubModel KernelModel RawModel DecodeModel CaptureModel CaptureSpec LineModel LineSpec LineProofs TextModel TextSpec TextProofs TextTop
  PlainModel PlainSpec PlainProofs LiveModel LiveSpec LiveProofs LiveTop LiveProps WholeSpec WholeProofs.

Local Open Scope string_scope.
Local Open Scope list_scope.
Local Open Scope Z_scope.
Local Opaque emit.

Lemma sends_same l rs k e su e' su' : sends l rs k e su -> sends l rs k e' su' -> e = e' /\ su = su'.
Proof.
  intros (o & sc & tr & r & H1 & H2 & H3) (o' & sc' & tr' & r' & H1' & H2' & H3'). rewrite H1 in H1'. apply Some_inj in H1'. injection H1' as <- <- <- <-.
  rewrite H2 in H2'. apply Some_inj, utask_inj in H2'. subst r'. rewrite H3 in H3'. apply Some_inj in H3'. split; [exact H3'|reflexivity].
Qed.

(** The line read for an event says who made the call, how long it took, how it ended and
    with which arguments it was made. *)
Theorem C104_line : forall tbl id flag p tty w0 l w rs q k ps line e su c,
  go_table tbl -> start_world tbl = Some w0 -> Forall real l -> real_printer p ->
  wrun tbl (the_trace id flag) p tty w0 l = Some (w, rs) -> rs !! q = Some (URead k ps line) -> sends l rs k e su ->
  LiveSpec.known (take q l) (ev_pidns e) c -> ev_entr e <= ev_exit e -> ev_exit e < 2 ^ 53 ->
  exists out order base old, line = Some out /\ (forall l, order l ≡ₚ l)
    /\ line_about tty (in_container tty (ct_name c) (ct_pod c) (ct_namespace c) (until_nul (su_comm su))) e
         (printed_text order base (ev_nr e) (ev_enter e) (su_mem su) (ev_ret e) old) out.
Proof.
  intros tbl id flag p tty w0 l w rs q k ps line e su c G S F P R Hq Se K B1 B2. destruct (start_hub _ _ S) as (h0 & H0 & ->).
  destruct (line_read tbl G id flag p tty h0 H0 l w rs q k ps line F R Hq) as (e' & su' & bs & t & rw & n & Se' & Rec & I & B & Li).
  destruct (sends_same _ _ _ _ _ _ _ Se Se') as [<- <-]. specialize (Li c K).
  destruct (what_is_read tbl G id flag p tty h0 H0 l w rs q k ps line F R Hq) as (e' & su' & _ & Se'' & _ & Hk & _).
  destruct (sends_same _ _ _ _ _ _ _ Se Se'') as [<- <-]. destruct (Hk c K) as (out & -> & _).
  destruct (record_event _ _ _ _ _ Rec I B) as (fs & scratch & D & C & Ra). destruct (P n t) as (order & base & Pe & Ep). rewrite Ra, Ep in Li.
  exists out, order, base, (scratch_args scratch). split; [reflexivity|]. split; [exact Pe|].
  destruct Rec as (So & _). pose proof (so_entr _ _ So).
  pose proof (about_line _ _ _ false (shown_container (Some c)) _ _ _ _ _ _ C D ltac:(lia) B2 Li) as A.
  assert (W : who_of tty false (shown_container (Some c)) t = in_container tty (ct_name c) (ct_pod c) (ct_namespace c) (until_nul (su_comm su))).
  { unfold who_of, in_container, shown_container. rewrite (cf_comm _ _ _ _ _ C). cbn [fmap option_fmap option_map fqdn]. rewrite !txt_bytes. reflexivity. }
  rewrite <- W. exact A.
Qed.
Print Assumptions C104_line.

(** The same from the call itself: a task that enters a call that was asked for, in a pid
    namespace reported before, and leaves it. *)
Theorem C104_from_the_call_to_the_line :
  forall tbl id flag p tty w0 l w rs i k q tid t0 t args ugid now0 now ret cpu su scratch trailing ps line c,
  go_table tbl -> start_world tbl = Some w0 -> Forall real l -> in_turn l -> few_tasks l -> none_stopped l -> all_installed rs -> real_printer p ->
  wrun tbl (the_trace id flag) p tty w0 l = Some (w, rs) ->
  a_call l i k tid t0 t args ugid now0 now ret cpu -> t_id t0 = t_id t -> l !! k = Some (WTask (KExit tid t ret now cpu) su scratch trailing false) ->
  cpu < 1024 -> t_id t mod 2 ^ 32 <> 59 -> asked flag (t_id t mod 2 ^ 32) -> reported (take i l) (t_pidns t0) ->
  rs !! q = Some (URead k ps line) -> LiveSpec.known (take q l) (t_pidns t) c -> now0 <= now -> now < 2 ^ 53 ->
  exists out order base old, line = Some out /\ (forall l, order l ≡ₚ l)
    /\ line_about tty (in_container tty (ct_name c) (ct_pod c) (ct_namespace c) (until_nul (su_comm su)))
         (KEvent tid ugid (t_id t mod 2 ^ 32) now0 now (t_pidns t) args ret)
         (printed_text order base (t_id t mod 2 ^ 32) args (su_mem su) ret old) out.
Proof.
  intros tbl id flag p tty w0 l w rs i k q tid t0 t args ugid now0 now ret cpu su scratch trailing ps line c G S F T FT NS AI P R C Id Hk Cpu N59 A Rp Hq K B1 B2.
  assert (D : did l k (KExit tid t ret now cpu)) by (exists su, scratch, trailing, false; exact Hk).
  assert (Hr : exists r, rs !! k = Some (UTask r)) by (destruct (task_at _ _ _ _ _ _ _ _ _ _ R D) as (wk & _ & E); eexists; exact E). destruct Hr as (r & Hr).
  set (e := KEvent tid ugid (t_id t mod 2 ^ 32) now0 now (t_pidns t) args ret).
  assert (E : o_event r = Some e).
  { apply (C98_event_iff tbl id flag p tty w0 l w rs k tid t ret now cpu r e G S F T FT NS AI R D Hr). split; [exact Cpu|]. split; [exact N59|]. split; [exact A|].
    exists i, t0, args, ugid, now0. split; [exact C|]. split; [exact Id|]. split; [exact Rp|reflexivity]. }
  exact (C104_line tbl id flag p tty w0 l w rs q k ps line e su c G S F P R Hq ltac:(exists (KExit tid t ret now cpu), scratch, trailing, r; split; [exact Hk|]; split; [exact Hr|exact E]) K B1 B2).
Qed.
Print Assumptions C104_from_the_call_to_the_line.

(** Without containers. *)
Theorem C104_line_without_containers : forall json p tty evs msgs outs alive j out,
  real_printer p -> Forall2 record_of evs msgs -> print_loop json p "cli" tty msgs = (outs, alive) -> outs !! j = Some out ->
  exists e su, evs !! j = Some (e, su) /\ (ev_entr e <= ev_exit e -> ev_exit e < 2 ^ 53 ->
    exists order base old, (forall l, order l ≡ₚ l)
      /\ line_about tty (on_machine (until_nul (su_comm su)) (ev_tid e mod 2 ^ 32)) e
           (printed_text order base (ev_nr e) (ev_enter e) (su_mem su) (ev_ret e) old) out).
Proof. exact machine_line. Qed.
Print Assumptions C104_line_without_containers.

(** Which says: every parameter of the call, but those C90 lists, is in the line, behind
    its name, with what the task passed (unless it is a member C35 lists). *)
Theorem C104_every_argument : forall tty who e su order base old out i name params,
  line_about tty who e (printed_text order base (ev_nr e) (ev_enter e) (su_mem su) (ev_ret e) old) out ->
  prototype (ev_nr e) = Some (name, params) -> (i < length params)%nat -> (ev_nr e, i) ∉ unprinted ->
  exists label text, shows_argument tty label text out /\ names_parameter (ev_nr e) i label
    /\ printed_text order base (ev_nr e) (ev_enter e) (su_mem su) (ev_ret e) old label text
    /\ ((ev_nr e, label) ∉ mislabelled -> exists member m, doc (ev_nr e) member = Some m /\ about m = Some i
        /\ (is_wrong (ev_nr e) member = false -> forall sh, expected (ev_enter e) (su_mem su) m = Some sh -> exists other, text = rendering (ev_nr e) label m sh other)).
Proof. exact values_in_line. Qed.
Print Assumptions C104_every_argument.

(** A flag the task set is named in the line, and one it did not set is not (C101 has the
    exceptions); a number with a name is there by its name (C102). *)
Theorem C104_flags : forall tty who e su order base old out label member tbl whole m v, (forall l, order l ≡ₚ l) ->
  line_about tty who e (printed_text order base (ev_nr e) (ev_enter e) (su_mem su) (ev_ret e) old) out -> flag_param (ev_nr e) label member tbl whole ->
  doc (ev_nr e) member = Some m -> is_wrong (ev_nr e) member = false -> expected (ev_enter e) (su_mem su) m = Some (ShInt v) ->
  exists text, shows_argument tty label text out
    /\ forall name i, (name, i) ∈ tbl -> (ev_nr e, v) <> (254, 4095) -> (ev_nr e, name) ∉ unnamed -> (ev_nr e, name) ∉ TextSpec.shared -> (shows_name text name <-> Z.testbit v i = true).
Proof. exact flags_in_line. Qed.
Print Assumptions C104_flags.
Theorem C104_numbers : forall tty who e su order base old out label member tbl m v name,
  line_about tty who e (printed_text order base (ev_nr e) (ev_enter e) (su_mem su) (ev_ret e) old) out -> number_param (ev_nr e) label member tbl ->
  doc (ev_nr e) member = Some m -> is_wrong (ev_nr e) member = false -> expected (ev_enter e) (su_mem su) m = Some (ShInt v) -> (name, v) ∈ tbl ->
  shows_argument tty label (text_bytes (if decide ((ev_nr e, name) ∈ nameless) then pretty v else name)) out.
Proof. exact number_in_line. Qed.
Print Assumptions C104_numbers.

(** ** A run *)

(** mkdir("/tmp", 0755), which fails with EEXIST after 1.5 ms, and a socket of TCP. *)
Definition tmp : memory := fun a => if (a <? 4096) || (8192 <=? a) then None else Some (nth (Z.to_nat (a - 4096)) [47; 116; 109; 112] 0).
Definition mk : surroundings := Surroundings 3 0 0 0 0 0 0 (text_bytes "mkdir" ++ repeat 0 11) tmp.
Definition session : list wop :=
  [ WPod true (in_pod "app"); WMatch true (in_pod "app");
    WTask (KEnter 7 (Task 5 1 83) [4096; 493] 0 1000) mk (repeat 0 736) [] false;
    WTask (KExit 7 (Task 5 1 83) (-17) 1501000 0) mk (repeat 0 736) [] false;
    WRead 0;
    WTask (KEnter 7 (Task 5 1 41) [2; 524289; 0] 0 2000000) mk (repeat 0 736) [] false;
    WTask (KExit 7 (Task 5 1 41) 3 2004000 0) mk (repeat 0 736) [] false;
    WRead 0 ].
Definition session_out : list wout :=
  match start_world table with
  | Some w0 => match wrun table (the_trace "aaaaaaaa" ["mkdir"; "socket"]) (fun _ t => line_printer (fun l => l) 0 (t_argv t)) false w0 session with Some (_, rs) => rs | None => [] end
  | None => []
  end.
Example C104_session : map show session_out =
  [ None; None; None; Some (inl (KEvent 7 0 83 1000 1501000 5 [4096; 493] (-17)));
    Some (inr (3%nat, text_bytes "( 1.500ms)                     app.web.default: [    mkdir] (     EEXIST) mkdir((const char *)pathname=/tmp, (mode_t)mode=-rwxr-xr-x)" ++ [10]));
    None; Some (inl (KEvent 7 0 41 2000000 2004000 5 [2; 524289; 0] 3));
    Some (inr (6%nat, text_bytes "( 0.004ms)                     app.web.default: [    mkdir] (         OK) socket((int)domain=AF_INET, (int)type=SOCK_STREAM|SOCK_CLOEXEC, (int)protocol=IPPROTO_IP)" ++ [10])) ].
Proof. vm_compute. reflexivity. Qed.
Example C104_printer : real_printer (fun _ t => line_printer (fun l => l) 0 (t_argv t)).
Proof. intros n t. exists (fun l => l), 0. split; [reflexivity|reflexivity]. Qed.
Example C104_session_hypotheses : Forall real session /\ in_turn session /\ few_tasks session /\ none_stopped session
  /\ a_call session 2 3 7 (Task 5 1 83) (Task 5 1 83) [4096; 493] 0 1000 1501000 (-17) 0 /\ reported (take 2 session) 5 /\ LiveSpec.known (take 4 session) 5 (in_pod "app")
  /\ ("EEXIST", 17) ∈ errors.
Proof.
  assert (D : forall k tid, enters_at session k tid -> (k = 2%nat \/ k = 5%nat) /\ tid = 7).
  { intros k tid (t & a & u & n & su & sc & tr & lost & H). destruct k as [|[|[|[|[|[|[|[|k]]]]]]]]; cbn in H; try discriminate H; injection H as -> _ _ _ _; (split; [tauto|reflexivity]). }
  split; [|split; [|split; [|split; [|split; [|split; [|split]]]]]].
  - assert (X : surroundings_ok nobody mk) by (split; cbn; lia). unfold session.
    repeat (apply Forall_cons; split); try exact Logic.I; try (cbn; lia); try (split; [unfold fits, word, some_ns; cbn [t_pidns]; lia|split; [exact X|apply repeat_length]]). apply Forall_nil. exact Logic.I.
  - intros tid i j Lt Hi Hj. destruct (D _ _ Hi) as [Ii ->], (D _ _ Hj) as [Ij _]. destruct Ii as [->| ->], Ij as [->| ->]; try lia. exists 3%nat. split; [lia|]. do 4 eexists. exists mk, (repeat 0 736), [], false. reflexivity.
  - unfold few_tasks. assert (X : (size (list_to_set (entering session) : gset Z) <=? 2)%nat = true) by (vm_compute; reflexivity). apply Nat.leb_le in X. lia.
  - intros c X. unfold session in X. repeat (apply elem_of_cons in X as [Y|X]; [discriminate Y|]). apply not_elem_of_nil in X. exact X.
  - split; [lia|]. split; [exists mk, (repeat 0 736), [], false; reflexivity|]. split; [exists mk, (repeat 0 736), [], false; reflexivity|]. intros j Hj. lia.
  - exists 1%nat, (in_pod "app"). split; reflexivity.
  - split; [lia|]. exists 0%nat. split; [reflexivity|]. split; [reflexivity|]. intros j start c' Hj. destruct j as [|[|[|[|j]]]]; [lia|discriminate..].
  - apply elem_of_list_In. vm_compute. tauto.
Qed.
