(** Proofs about `swoll trace`. *)
From Coq Require Import ZArith String Lia.
From stdpp Require Import base list numbers strings pretty gmap.
From Verif Require Import SyscallTable SyscallModel SyscallSpec SyscallProofs FilterModel FilterSpec FilterProofs
  PubSubModel PubSubSpec HashModel HashTop HubModel HubSpec HubProofs HubEvents HubKernel HubTop HubDeliver KernelModel KernelSpec KernelProofs
  RawModel RawSpec RawProofs DecodeProofs CaptureModel CaptureSpec CaptureProofs LineModel LineSpec LineProofs LineTop DecodeModel PlainModel PlainSpec PlainProofs LiveModel LiveSpec.

Local Open Scope string_scope.
Local Open Scope list_scope.
Local Open Scope Z_scope.
Local Opaque gSyscallMap gClassMap table.
Local Notation u32 := FilterModel.u32.
Local Notation s32 := FilterModel.s32.

(** * Runs *)

Lemma wrun_length tbl J p tty : forall l w w' rs, wrun tbl J p tty w l = Some (w', rs) -> length rs = length l.
Proof.
  induction l as [|o l IH]; intros w w' rs R; cbn [wrun] in R; [injection R as <- <-; reflexivity|].
  destruct (wstep tbl J p tty w o) as [[w1 r]|]; [|discriminate]. destruct (wrun tbl J p tty w1 l) as [[w2 rs2]|] eqn:E; [|discriminate].
  injection R as <- <-. cbn [length]. rewrite (IH _ _ _ E). reflexivity.
Qed.
Lemma wrun_app tbl J p tty l2 : forall l1 w w2 rs, wrun tbl J p tty w (l1 ++ l2) = Some (w2, rs) ->
  exists w1 rs1 rs2, wrun tbl J p tty w l1 = Some (w1, rs1) /\ wrun tbl J p tty w1 l2 = Some (w2, rs2) /\ rs = rs1 ++ rs2.
Proof.
  induction l1 as [|o l1 IH]; intros w w2 rs R; cbn [app wrun] in R.
  - exists w, [], rs. split; [reflexivity|]. split; [exact R|reflexivity].
  - destruct (wstep tbl J p tty w o) as [[w1 r]|] eqn:S; [|discriminate]. destruct (wrun tbl J p tty w1 (l1 ++ l2)) as [[w3 rs3]|] eqn:E; [|discriminate].
    injection R as <- <-. destruct (IH _ _ _ E) as (wm & r1 & r2 & E1 & E2 & ->). exists wm, (r :: r1), r2. cbn [wrun]. rewrite S, E1. split; [reflexivity|]. split; [exact E2|reflexivity].
Qed.
Lemma wrun_join tbl J p tty l2 : forall l1 w w1 rs1 w2 rs2, wrun tbl J p tty w l1 = Some (w1, rs1) -> wrun tbl J p tty w1 l2 = Some (w2, rs2) ->
  wrun tbl J p tty w (l1 ++ l2) = Some (w2, rs1 ++ rs2).
Proof.
  induction l1 as [|o l1 IH]; intros w w1 rs1 w2 rs2 R1 R2; cbn [app wrun] in *.
  - injection R1 as <- <-. exact R2.
  - destruct (wstep tbl J p tty w o) as [[w3 r]|]; [|discriminate]. destruct (wrun tbl J p tty w3 l1) as [[w4 rs4]|] eqn:E; [|discriminate].
    injection R1 as <- <-. rewrite (IH _ _ _ _ _ E R2). reflexivity.
Qed.
Lemma wrun_at tbl J p tty l w w' rs k o : wrun tbl J p tty w l = Some (w', rs) -> l !! k = Some o ->
  exists wk wk' r, wrun tbl J p tty w (take k l) = Some (wk, take k rs) /\ wstep tbl J p tty wk o = Some (wk', r) /\ rs !! k = Some r
    /\ wrun tbl J p tty w (take (S k) l) = Some (wk', take (S k) rs).
Proof.
  intros R Hk. pose proof (wrun_length _ _ _ _ _ _ _ _ R) as Len. rewrite <- (take_drop_middle l k o Hk) in R.
  apply wrun_app in R as (w1 & rs1 & rs2 & R1 & R2 & ->). cbn [wrun] in R2. destruct (wstep tbl J p tty w1 o) as [[w2 r]|] eqn:S; [|discriminate].
  destruct (wrun tbl J p tty w2 (drop (Datatypes.S k) l)) as [[w3 rs3]|]; [|discriminate]. injection R2 as <- <-.
  pose proof (wrun_length _ _ _ _ _ _ _ _ R1) as L1. rewrite take_length_le in L1 by (apply lookup_lt_Some in Hk; lia).
  exists w1, w2, r. rewrite <- L1 at 2. rewrite take_app. split; [exact R1|]. split; [exact S|]. rewrite <- L1 at 1. rewrite list_lookup_middle by reflexivity. split; [reflexivity|].
  rewrite (take_S_r l k o Hk). replace (take (Datatypes.S k) (rs1 ++ r :: rs3)) with (rs1 ++ [r]).
  - eapply wrun_join; [exact R1|]. cbn [wrun]. rewrite S. reflexivity.
  - change (rs1 ++ r :: rs3) with (rs1 ++ ([r] ++ rs3)). rewrite app_assoc. replace (Datatypes.S k) with (length (rs1 ++ [r])) by (rewrite app_length; cbn [length]; lia). rewrite take_app. reflexivity.
Qed.
Lemma wrun_snoc tbl J p tty l o w w' rs : wrun tbl J p tty w (l ++ [o]) = Some (w', rs) ->
  exists w1 rs1 r, wrun tbl J p tty w l = Some (w1, rs1) /\ wstep tbl J p tty w1 o = Some (w', r) /\ rs = rs1 ++ [r].
Proof.
  intros R. apply wrun_app in R as (w1 & rs1 & rs2 & R1 & R2 & ->). cbn [wrun] in R2. destruct (wstep tbl J p tty w1 o) as [[w2 r]|] eqn:S; [|discriminate].
  injection R2 as <- <-. exists w1, rs1, r. split; [exact R1|]. split; [exact S|reflexivity].
Qed.

(** * The hub in the world *)

Lemma hrun_join J tbl os2 : forall os1 h h1 rs1 h2 rs2, hrun J tbl h os1 = Ok (h1, rs1) -> hrun J tbl h1 os2 = Ok (h2, rs2) ->
  hrun J tbl h (os1 ++ os2) = Ok (h2, rs1 ++ rs2).
Proof.
  induction os1 as [|o os1 IH]; intros h h1 rs1 h2 rs2 R1 R2; cbn [app hrun] in *.
  - injection R1 as <- <-. exact R2.
  - destruct (hstep J tbl h o) as [[h3 r]| |]; [|discriminate..]. destruct (hrun J tbl h3 os1) as [[h4 rs4]| |] eqn:E; [|discriminate..].
    injection R1 as <- <-. rewrite (IH _ _ _ _ _ E R2). reflexivity.
Qed.

(** Steps that only consult the filter. *)
Definition consult (o : hop) : Prop := exists mode t, o = OKernel mode t /\ kernel_mode mode.
Lemma kernel_step J tbl h mode t : hrun J tbl h [OKernel mode t] = Ok (set_maps h (run_nfilter mode t (maps h)).1, [RVerdict (run_nfilter mode t (maps h)).2]).
Proof. cbn [hrun hstep]. destruct (run_nfilter mode t (maps h)) as [m v]. reflexivity. Qed.
Lemma set_maps_maps h : set_maps h (maps h) = h.
Proof. destruct h. reflexivity. Qed.
Lemma fill_filter upd t s : ks_filter (fill_metrics upd t s).1 = (run_nfilter 4 t (ks_filter s)).1.
Proof.
  unfold fill_metrics, mode_metrics. destruct (run_nfilter 4 t (ks_filter s)) as [f v]. destruct (v =? _); [reflexivity|]. destruct (_ =? _); [reflexivity|]. destruct (upd _ _ _). reflexivity.
Qed.
Lemma task_hub J tbl h m c o : (forall u, o <> KUser u) ->
  exists os hrs, hrun J tbl h os = Ok (set_maps h (ks_filter (kstep tbl (KState (maps h) m c) o).1), hrs) /\ Forall consult os.
Proof.
  intros NU. destruct o as [tid t args ugid now|tid t ret now cpu|tid t args ugid now cpu|o|ns]; cbn [kstep].
  - unfold sys_enter. pose proof (fill_filter (fun ns nr => update_metrics_ktime ns nr now) t (KState (maps h) m c)) as F. cbn [ks_filter] in F.
    destruct (fill_metrics _ t _) as [s1 mo]. cbn [fst] in F.
    destruct (_ =? nr_execve).
    + exists [OKernel 4 t]. eexists. rewrite kernel_step. cbn [fst]. rewrite F. split; [reflexivity|]. constructor; [|constructor]. exists 4, t. split; [reflexivity|right; reflexivity].
    + exists ([OKernel 4 t] ++ [OKernel 2 t]), ([RVerdict (run_nfilter 4 t (maps h)).2] ++ [RVerdict (run_nfilter 2 t (run_nfilter 4 t (maps h)).1).2]). split.
      * erewrite hrun_join; [|apply kernel_step|apply kernel_step]. cbn [maps set_maps]. rewrite F. unfold mode_syscall.
        destruct (run_nfilter 2 t (run_nfilter 4 t (maps h)).1) as [f v]. cbn [fst snd]. destruct (v =? action_drop); [reflexivity|].
        destruct (store _ _ _ _) as [cc ok]. reflexivity.
      * constructor; [|constructor; [|constructor]]; eexists _, t; (split; [reflexivity|]); [right|left]; reflexivity.
  - exists [OKernel 4 t]. eexists. rewrite kernel_step. unfold sys_exit. pose proof (fill_filter (fun ns nr => update_metrics ns nr (ret_err ret) now) t (KState (maps h) m c)) as F. cbn [ks_filter] in F.
    destruct (fill_metrics _ t _) as [s1 mo]. cbn [fst] in F. rewrite <- F. split.
    + destruct (ks_calls s1 !! tid) as [e|]; [|reflexivity]. destruct (negb _); [reflexivity|]. destruct (negb _); reflexivity.
    + constructor; [|constructor]. exists 4, t. split; [reflexivity|right; reflexivity].
  - exists [OKernel 2 t], [RVerdict (run_nfilter 2 t (maps h)).2]. rewrite kernel_step. unfold sys_execve, mode_syscall. cbn [ks_filter]. destruct (run_nfilter 2 t (maps h)) as [f v]. cbn [fst snd]. split.
    + destruct (v =? action_drop); [reflexivity|]. destruct (negb _); reflexivity.
    + constructor; [|constructor]. exists 2, t. split; [reflexivity|left; reflexivity].
  - destruct (NU o eq_refl).
  - exists [], []. cbn [hrun ks_filter fst]. rewrite set_maps_maps. split; [reflexivity|constructor].
Qed.

Lemma consult_regs J tbl os : forall rs R, Forall consult os -> fold_left (reg_step J tbl) (zip os rs) R = R.
Proof.
  induction os as [|o os IH]; intros rs R F; [reflexivity|]. inversion F as [|? ? (mode & t & -> & _) F']; subst. destruct rs as [|r rs]; [reflexivity|]. cbn [zip zip_with fold_left]. apply (IH rs R F').
Qed.
Lemma registrations_app J tbl os1 rs1 os2 rs2 : length rs1 = length os1 ->
  registrations J tbl (os1 ++ os2) (rs1 ++ rs2) = fold_left (reg_step J tbl) (zip os2 rs2) (registrations J tbl os1 rs1).
Proof. intros L. unfold registrations. rewrite zip_with_app by (symmetry; exact L). rewrite fold_left_app. reflexivity. Qed.
Lemma hrun_len J tbl : forall os h h' rs, hrun J tbl h os = Ok (h', rs) -> length rs = length os.
Proof.
  induction os as [|o os IH]; intros h h' rs R; cbn [hrun] in R; [injection R as <- <-; reflexivity|].
  destruct (hstep J tbl h o) as [[h1 r]| |]; [|discriminate..]. destruct (hrun J tbl h1 os) as [[h2 rs2]| |] eqn:E; [|discriminate..].
  injection R as <- <-. cbn [length]. rewrite (IH _ _ _ E). reflexivity.
Qed.

(** The registrations made by a step. *)
Definition regs_made (tbl : syscalls) (J : nat -> job) (x : wop * wout) : list HubSpec.reg :=
  match x with
  | (WMatch true c, UMatched n ok) => map (HubSpec.Reg 0 (ct_ns c)) (if ok then job_nrs tbl (J 0%nat) else take n (job_nrs tbl (J 0%nat)))
  | _ => []
  end.
Definition all_regs (tbl : syscalls) (J : nat -> job) (l : list wop) (rs : list wout) : list HubSpec.reg := concat (map (regs_made tbl J) (zip l rs)).
Lemma all_regs_snoc tbl J l rs o r : length rs = length l -> all_regs tbl J (l ++ [o]) (rs ++ [r]) = all_regs tbl J l rs ++ regs_made tbl J (o, r).
Proof. intros L. unfold all_regs. rewrite zip_with_app by (symmetry; exact L). cbn [zip_with]. rewrite map_app, concat_app. cbn [map concat]. rewrite app_nil_r. reflexivity. Qed.

Record hub_inv (tbl : syscalls) (J : nat -> job) (h0 : hub) (l : list wop) (rs : list wout) (h : hub) (os : list hop) (hrs : list hout) : Prop := {
  hi_run : hrun J tbl h0 os = Ok (h, hrs);
  hi_ops : Forall kernel_op os;
  hi_pushes : no_pushes os;
  hi_stops : none_stopped l -> no_stops os;
  hi_ok : all_installed rs -> updates_ok hrs;
  hi_regs : registrations J tbl os hrs = all_regs tbl J l rs
}.
Definition plain_op (o : hop) : Prop := match o with OStart _ _ | OStop _ _ | OPush _ _ _ | ODelete _ => False | OKernel mode _ => kernel_mode mode | _ => True end.
Lemma consult_plain os : Forall consult os -> Forall plain_op os.
Proof. intros F. eapply Forall_impl; [exact F|]. intros o (mode & t & -> & K). exact K. Qed.
Lemma plain_out J tbl : forall os h h' rs, Forall plain_op os -> hrun J tbl h os = Ok (h', rs) -> forall n ok, RStarted n ok ∉ rs.
Proof.
  induction os as [|o os IH]; intros h h' rs F R n ok; cbn [hrun] in R; [injection R as <- <-; apply not_elem_of_nil|].
  destruct (hstep J tbl h o) as [[h1 r]| |] eqn:S; [|discriminate..]. destruct (hrun J tbl h1 os) as [[h2 rs2]| |] eqn:E; [|discriminate..].
  injection R as <- <-. inversion F as [|? ? P F']; subst. apply not_elem_of_cons. split; [|exact (IH _ _ _ F' E n ok)].
  destruct o; cbn [plain_op] in P; try contradiction P; cbn [hstep] in S.
  - destruct (on_event J h ev) as [[h3 ps]| |]; [|discriminate..]. injection S as _ <-. discriminate.
  - injection S as _ <-. discriminate.
  - injection S as _ <-. discriminate.
  - destruct (run_nfilter mode t (maps h)). injection S as _ <-. discriminate.
Qed.
Lemma plain_regs J tbl os : forall rs R, Forall plain_op os -> fold_left (reg_step J tbl) (zip os rs) R = R.
Proof.
  induction os as [|o os IH]; intros rs R F; [reflexivity|]. inversion F as [|? ? P F']; subst. destruct rs as [|r rs]; [reflexivity|]. cbn [zip zip_with fold_left].
  rewrite <- (IH rs R F') at 2. f_equal. destruct o; cbn [plain_op] in P; try contradiction P; reflexivity.
Qed.

(** A step that leaves the registrations as they are. *)
Lemma inv_plain tbl J h0 l rs h os hrs o r os2 hrs2 h2 : hub_inv tbl J h0 l rs h os hrs -> length rs = length l ->
  hrun J tbl h os2 = Ok (h2, hrs2) -> Forall plain_op os2 -> regs_made tbl J (o, r) = [] ->
  hub_inv tbl J h0 (l ++ [o]) (rs ++ [r]) h2 (os ++ os2) (hrs ++ hrs2).
Proof.
  intros [H1 H2 H3 H4 H5 H6] L R F E. split.
  - eapply hrun_join; [exact H1|exact R].
  - apply Forall_app. split; [exact H2|]. eapply Forall_impl; [exact F|]. intros x P. destruct x; cbn [plain_op] in P; try contradiction P; exact P.
  - intros j ns nr Hin. apply elem_of_app in Hin as [Hin|Hin]; [exact (H3 _ _ _ Hin)|]. rewrite Forall_forall in F. exact (F _ Hin).
  - intros N j c Hin. apply elem_of_app in Hin as [Hin|Hin]; [refine (H4 _ j c Hin); intros c' Hc; apply (N c'), elem_of_app; left; exact Hc|]. rewrite Forall_forall in F. exact (F _ Hin).
  - intros A n Hin. apply elem_of_app in Hin as [Hin|Hin]; [refine (H5 _ n Hin); intros n' Hn; apply (A n'), elem_of_app; left; exact Hn|]. exact (plain_out J tbl os2 h h2 hrs2 F R n false Hin).
  - rewrite registrations_app by exact (hrun_len _ _ _ _ _ _ H1). rewrite (plain_regs J tbl os2 hrs2 _ F), H6, all_regs_snoc, E, app_nil_r by exact L. reflexivity.
Qed.

Definition one_job (J : nat -> job) : Prop := j_hosts (J 0%nat) = [] /\ forall j, j_rate (J j) = 0.

Lemma run_inv tbl J p tty h0 w0 : one_job J -> new_hub tbl = Some h0 -> w0 = World h0 ∅ ∅ ∅ [] 0 ->
  forall l w rs, Forall real l -> wrun tbl J p tty w0 l = Some (w, rs) -> exists os hrs, hub_inv tbl J h0 l rs (w_hub w) os hrs.
Proof.
  intros [HJ _] H0 -> l. induction l as [|o l IH] using rev_ind; intros w rs F R.
  - cbn [wrun] in R. injection R as <- <-. exists [], []. split; [reflexivity|constructor|intros j ns nr H; apply not_elem_of_nil in H; exact H|intros _ j c H; apply not_elem_of_nil in H; exact H|intros _ n H; apply not_elem_of_nil in H; exact H|reflexivity].
  - apply Forall_app in F as [F Fo]. apply Forall_cons in Fo as [Fo _]. apply wrun_snoc in R as (w1 & rs1 & r & R & S & ->). destruct (IH w1 rs1 F R) as (os & hrs & I).
    pose proof (wrun_length _ _ _ _ _ _ _ _ R) as L. destruct o as [o su scratch trailing lost|start c|start ns|start c|i]; cbn [wstep] in S.
    + apply Some_inj in S. destruct Fo as (Fo & _). unfold task_step in S.
      destruct (task_hub J tbl (w_hub w1) (w_metrics w1) (w_calls w1) o) as (os2 & hrs2 & R2 & C2); [intros u ->; exact Fo|].
      destruct (kstep tbl _ o) as [s' r']. apply pair_equal_spec in S as [<- <-]. cbn [fst snd w_hub] in R2 |- *.
      exists (os ++ os2), (hrs ++ hrs2). eapply inv_plain; [exact I|exact L|exact R2|exact (consult_plain _ C2)|reflexivity].
    + apply Some_inj, pair_equal_spec in S as [<- <-]. exists (os ++ []), (hrs ++ []). eapply inv_plain; [exact I|exact L|reflexivity|constructor|reflexivity].
    + unfold meter_step in S. destruct (hstep J tbl (w_hub w1) _) as [[h2 r2]| |] eqn:E; [|discriminate..]. apply Some_inj, pair_equal_spec in S as [<- <-].
      exists (os ++ [if start then OMetricsAdd ns else OMetricsRemove ns]), (hrs ++ [r2]). eapply inv_plain; [exact I|exact L| | |reflexivity].
      * cbn [hrun]. rewrite E. reflexivity.
      * constructor; [destruct start; exact Logic.I|constructor].
    + unfold match_step in S. cbn [real] in Fo. destruct (Z.ltb_spec 0 (ct_ns c)) as [P|P].
      2:{ apply Some_inj, pair_equal_spec in S as [<- <-]. exists (os ++ []), (hrs ++ []). eapply inv_plain; [exact I|exact L|reflexivity|constructor|destruct start; reflexivity]. }
      destruct start.
      * destruct (hstep J tbl (w_hub w1) (OStart 0 c)) as [[h2 r2]| |] eqn:E; [|discriminate..].
        assert (exists n ok, r2 = RStarted n ok) as (n & ok & ->).
        { cbn [hstep] in E. destruct (on_start J tbl (w_hub w1) 0 c) as [[h3 [n ok]]| |]; [|discriminate..]. injection E as <- <-. eauto. }
        apply Some_inj, pair_equal_spec in S as [<- <-]. cbn [w_hub with_hub]. exists (os ++ [OStart 0 c]), (hrs ++ [RStarted n ok]). destruct I as [H1 H2 H3 H4 H5 H6]. split.
        -- eapply hrun_join; [exact H1|]. cbn [hrun]. rewrite E. reflexivity.
        -- apply Forall_app. split; [exact H2|]. constructor; [|constructor]. cbn [kernel_op]. unfold kernel_ns. lia.
        -- intros j ns nr Hin. apply elem_of_app in Hin as [Hin|Hin]; [exact (H3 _ _ _ Hin)|]. apply elem_of_list_singleton in Hin. discriminate.
        -- intros N j c' Hin. apply elem_of_app in Hin as [Hin|Hin]; [refine (H4 _ j c' Hin); intros c'' Hc; apply (N c''), elem_of_app; left; exact Hc|]. apply elem_of_list_singleton in Hin. discriminate.
        -- intros A n' Hin. apply elem_of_app in Hin as [Hin|Hin]; [refine (H5 _ n' Hin); intros n'' Hn; apply (A n''), elem_of_app; left; exact Hn|].
           apply elem_of_list_singleton in Hin. injection Hin as -> <-. apply (A n), elem_of_app. right. left.
        -- rewrite registrations_app by exact (hrun_len _ _ _ _ _ _ H1). cbn [zip zip_with fold_left reg_step]. rewrite decide_True by (left; exact HJ). rewrite H6, all_regs_snoc by exact L. reflexivity.
      * destruct (hstep J tbl (w_hub w1) (OStop 0 c)) as [[h2 r2]| |] eqn:E; [|discriminate..].
        assert (r2 = RNone) as ->. { cbn [hstep] in E. destruct (on_stop J tbl (w_hub w1) 0 c) as [h3| |]; [|discriminate..]. injection E as <- <-. reflexivity. }
        apply Some_inj, pair_equal_spec in S as [<- <-]. cbn [w_hub with_hub]. exists (os ++ [OStop 0 c]), (hrs ++ [RNone]). destruct I as [H1 H2 H3 H4 H5 H6]. split.
        -- eapply hrun_join; [exact H1|]. cbn [hrun]. rewrite E. reflexivity.
        -- apply Forall_app. split; [exact H2|]. constructor; [|constructor]. cbn [kernel_op]. unfold kernel_ns. lia.
        -- intros j ns nr Hin. apply elem_of_app in Hin as [Hin|Hin]; [exact (H3 _ _ _ Hin)|]. apply elem_of_list_singleton in Hin. discriminate.
        -- intros N. exfalso. apply (N c), elem_of_app. right. left.
        -- intros A n' Hin. apply elem_of_app in Hin as [Hin|Hin]; [refine (H5 _ n' Hin); intros n'' Hn; apply (A n''), elem_of_app; left; exact Hn|].
           apply elem_of_list_singleton in Hin. discriminate.
        -- rewrite registrations_app by exact (hrun_len _ _ _ _ _ _ H1). cbn [zip zip_with fold_left reg_step]. rewrite H6, all_regs_snoc by exact L. cbn [regs_made]. rewrite app_nil_r. reflexivity.
    + unfold read_step in S. destruct (w_ring w1 !! i) as [[k bs]|].
      2:{ apply Some_inj, pair_equal_spec in S as [<- <-]. exists (os ++ []), (hrs ++ []). eapply inv_plain; [exact I|exact L|reflexivity|constructor|reflexivity]. }
      destruct (ingest (InBytes bs)) as [t| |].
      * destruct (ingest_bytes bs) as [rw|]; [|discriminate]. destruct (nil_syscall tbl w1 t); [discriminate|]. set (ev := event_of tbl w1 t) in *.
        destruct (on_event J (w_hub w1) ev) as [[h2 ps]| |] eqn:E; [|discriminate..]. apply Some_inj, pair_equal_spec in S as [<- <-]. cbn [w_hub].
        exists (os ++ [OEvent ev]), (hrs ++ [RPublished ps]). eapply inv_plain; [exact I|exact L| | |reflexivity].
        -- cbn [hrun hstep]. rewrite E. reflexivity.
        -- constructor; [exact Logic.I|constructor].
      * apply Some_inj, pair_equal_spec in S as [<- <-]. exists (os ++ []), (hrs ++ []). eapply inv_plain; [exact I|exact L|reflexivity|constructor|reflexivity].
      * discriminate.
Qed.

(** * The topology *)

Lemma known_snoc l o ns c : known (l ++ [o]) ns c <->
  0 < ns /\ ((o = WPod true c /\ ct_ns c = ns) \/ (known l ns c /\ forall start c', o = WPod start c' -> ct_ns c' <> ns)).
Proof.
  split.
  - intros (P & k & Hk & E & N). split; [exact P|]. apply lookup_snoc in Hk as [Hk|[-> Ho]]; [|left; split; [exact Ho|exact E]]. right. split.
    + split; [exact P|]. exists k. split; [exact Hk|]. split; [exact E|]. intros j start c' Hkj Hj. apply (N j start c' Hkj). apply lookup_snoc. left. exact Hj.
    + intros start c' ->. apply (N (length l) start c'); [apply lookup_lt_Some in Hk; exact Hk|]. apply lookup_snoc. right. split; reflexivity.
  - intros (P & [[-> E]|[(_ & k & Hk & E & N) No]]); (split; [exact P|]).
    + exists (length l). split; [apply lookup_snoc; right; split; reflexivity|]. split; [exact E|]. intros j start c' H Hj. apply lookup_snoc in Hj as [Hj|[-> _]]; [apply lookup_lt_Some in Hj; lia|lia].
    + exists k. split; [apply lookup_snoc; left; exact Hk|]. split; [exact E|]. intros j start c' H Hj. apply lookup_snoc in Hj as [Hj|[_ Ho]]; [exact (N j start c' H Hj)|exact (No start c' Ho)].
Qed.
Lemma known_nil ns c : ~ known [] ns c.
Proof. intros (_ & k & Hk & _). rewrite lookup_nil in Hk. discriminate. Qed.

Ltac world_step S :=
  match type of S with
  | meter_step _ _ _ _ _ = _ => unfold meter_step in S; destruct (hstep _ _ _ _) as [[? ?]| |]; [|discriminate S..]; apply Some_inj, pair_equal_spec in S as [<- <-]
  | match_step _ _ _ _ _ = _ => unfold match_step in S; destruct (0 <? _); [destruct (hstep _ _ _ _) as [[? [| | | |]]| |]; [..|discriminate S|discriminate S]|]; apply Some_inj, pair_equal_spec in S as [<- <-]
  end.
Lemma read_cases tbl J p tty w i w' r : read_step tbl J p tty w i = Some (w', r) ->
  w_calls w' = w_calls w /\ w_cache w' = w_cache w /\ w_now w' = S (w_now w) /\
  ((w_ring w !! i = None /\ r = UNone /\ w_ring w' = w_ring w) \/
   exists k bs, w_ring w !! i = Some (k, bs) /\ w_ring w' = delete i (w_ring w) /\
     ((r = URead k [] None /\ ingest (InBytes bs) = IngestError) \/
      exists t rw ps, ingest (InBytes bs) = Ingested t /\ ingest_bytes bs = Some rw /\ on_event J (w_hub w) (event_of tbl w t) = Ok (w_hub w', ps) /\
        r = URead k ps (cli_output (p (w_now w) t) tty false (shown_container (w_cache w !! t_pid_ns t)) t (r_args rw)))).
Proof.
  unfold read_step. intros S. destruct (w_ring w !! i) as [[k bs]|] eqn:E.
  2:{ apply Some_inj, pair_equal_spec in S as [<- <-]. cbn [w_calls w_cache w_now w_ring with_hub]. repeat (split; [reflexivity|]). left. repeat split. }
  destruct (ingest (InBytes bs)) as [t| |] eqn:I; [| |discriminate].
  - destruct (ingest_bytes bs) as [rw|] eqn:B; [|discriminate]. destruct (nil_syscall tbl w t); [discriminate|].
    destruct (on_event J (w_hub w) (event_of tbl w t)) as [[h2 ps]| |] eqn:O; [|discriminate..]. apply Some_inj, pair_equal_spec in S as [<- <-]. cbn [w_calls w_cache w_now w_ring w_hub].
    split; [reflexivity|]. split; [reflexivity|]. split; [reflexivity|]. right. exists k, bs. split; [reflexivity|]. split; [reflexivity|]. right. exists t, rw, ps.
    split; [exact I|]. split; [exact B|]. split; [exact O|reflexivity].
  - assert (Hx : World (w_hub w) (w_metrics w) (w_calls w) (w_cache w) (delete i (w_ring w)) (Datatypes.S (w_now w)) = w' /\ URead k [] None = r) by (destruct (ingest_bytes bs); apply Some_inj, pair_equal_spec in S; exact S).
    destruct Hx as [<- <-]. cbn [w_calls w_cache w_now w_ring w_hub]. split; [reflexivity|]. split; [reflexivity|]. split; [reflexivity|]. right. exists k, bs. split; [reflexivity|]. split; [reflexivity|]. left.
    split; [reflexivity|exact I].
Qed.
Lemma task_fields tbl w o su scratch trailing lost : let w' := (task_step tbl w o su scratch trailing lost).1 in
  w_cache w' = w_cache w /\ w_now w' = S (w_now w).
Proof. unfold task_step. destruct (kstep _ _ _) as [s r]. split; reflexivity. Qed.

Lemma step_cache tbl J p tty w o w' r : wstep tbl J p tty w o = Some (w', r) ->
  w_now w' = S (w_now w) /\
  w_cache w' = match o with
               | WPod start c => if 0 <? ct_ns c then if start then <[ct_ns c := c]> (w_cache w) else delete (ct_ns c) (w_cache w) else w_cache w
               | _ => w_cache w
               end.
Proof.
  intros S. destruct o as [o su scratch trailing lost|start c|start ns|start c|i]; cbn [wstep] in S.
  - apply Some_inj in S. pose proof (task_fields tbl w o su scratch trailing lost) as [H1 H2]. rewrite S in H1, H2. split; [exact H2|exact H1].
  - apply Some_inj, pair_equal_spec in S as [<- <-]. split; reflexivity.
  - world_step S; split; reflexivity.
  - world_step S; split; reflexivity.
  - destruct (read_cases _ _ _ _ _ _ _ _ S) as (_ & H1 & H2 & _). split; [exact H2|exact H1].
Qed.

Definition fresh (w : world) : Prop := w_calls w = ∅ /\ w_cache w = ∅ /\ w_ring w = [] /\ w_now w = 0%nat.

Lemma cache_known tbl J p tty w0 : fresh w0 -> forall l w rs, wrun tbl J p tty w0 l = Some (w, rs) ->
  w_now w = length l /\ forall ns c, 0 < ns -> (w_cache w !! ns = Some c <-> known l ns c).
Proof.
  intros (_ & C0 & _ & N0) l. induction l as [|o l IH] using rev_ind; intros w rs R.
  - cbn [wrun] in R. injection R as <- <-. split; [exact N0|]. intros ns c _. rewrite C0, lookup_empty. split; [discriminate|intros H; destruct (known_nil _ _ H)].
  - apply wrun_snoc in R as (w1 & rs1 & r & R & S & ->). destruct (IH w1 rs1 R) as [N1 C1]. destruct (step_cache _ _ _ _ _ _ _ _ S) as [N E]. split.
    { rewrite N, N1, app_length. cbn [length]. lia. }
    intros ns c P. rewrite E, known_snoc. specialize (C1 ns c P).
    destruct o as [o su scratch trailing lost|start c1|start ns1|start c1|i].
    + rewrite C1. split; [intros K; split; [exact P|]; right; split; [exact K|discriminate]|intros (_ & [[H _]|[K _]]); [discriminate|exact K]].
    + destruct (Z.ltb_spec 0 (ct_ns c1)) as [P1|P1].
      * destruct start.
        -- destruct (decide (ct_ns c1 = ns)) as [<-|Hne].
           ++ rewrite lookup_insert. split.
              ** intros H. apply Some_inj in H. subst c1. split; [exact P|]. left. split; reflexivity.
              ** intros (_ & [[H _]|[_ H]]); [injection H as <-; reflexivity|destruct (H true c1 eq_refl eq_refl)].
           ++ rewrite lookup_insert_ne by exact Hne. rewrite C1. split.
              ** intros K. split; [exact P|]. right. split; [exact K|]. intros start c' H. injection H as <- <-. exact Hne.
              ** intros (_ & [[H E']|[K _]]); [injection H as <-; contradiction|exact K].
        -- destruct (decide (ct_ns c1 = ns)) as [<-|Hne].
           ++ rewrite lookup_delete. split; [discriminate|]. intros (_ & [[H _]|[_ H]]); [discriminate|destruct (H false c1 eq_refl eq_refl)].
           ++ rewrite lookup_delete_ne by exact Hne. rewrite C1. split.
              ** intros K. split; [exact P|]. right. split; [exact K|]. intros start c' H. injection H as <- <-. exact Hne.
              ** intros (_ & [[H E']|[K _]]); [discriminate|exact K].
      * rewrite C1. split.
        -- intros K. split; [exact P|]. right. split; [exact K|]. intros start' c' H. injection H as <- <-. lia.
        -- intros (_ & [[H E']|[K _]]); [injection H as _ <-; lia|exact K].
    + rewrite C1. split; [intros K; split; [exact P|]; right; split; [exact K|discriminate]|intros (_ & [[H _]|[K _]]); [discriminate|exact K]].
    + rewrite C1. split; [intros K; split; [exact P|]; right; split; [exact K|discriminate]|intros (_ & [[H _]|[K _]]); [discriminate|exact K]].
    + rewrite C1. split; [intros K; split; [exact P|]; right; split; [exact K|discriminate]|intros (_ & [[H _]|[K _]]); [discriminate|exact K]].
Qed.

(** * The calls in progress *)

Definition task_op (o : wop) : kop := match o with WTask o _ _ _ _ => o | _ => KPrune 0 end.
Definition task_out (r : wout) : kout := match r with UTask r => r | _ => KOut None None None end.
Definition calls_from (l : list kop) (rs : list kout) : gmap Z entry := fold_left (fun c x => calls_after (fst x) (snd x) c) (zip l rs) ∅.
Lemma calls_from_snoc l rs o r : length rs = length l -> calls_from (l ++ [o]) (rs ++ [r]) = calls_after o r (calls_from l rs).
Proof. intros L. unfold calls_from. rewrite zip_with_app by (symmetry; exact L). rewrite fold_left_app. reflexivity. Qed.

Lemma step_calls tbl J p tty w o w' r : wstep tbl J p tty w o = Some (w', r) -> w_calls w' = calls_after (task_op o) (task_out r) (w_calls w).
Proof.
  intros S. destruct o as [o su scratch trailing lost|start c|start ns|start c|i]; cbn [wstep task_op] in S |- *.
  - apply Some_inj in S. unfold task_step in S. pose proof (kstep_calls tbl (KState (maps (w_hub w)) (w_metrics w) (w_calls w)) o) as K.
    destruct (kstep tbl _ o) as [s r']. apply pair_equal_spec in S as [<- <-]. exact K.
  - apply Some_inj, pair_equal_spec in S as [<- <-]. reflexivity.
  - world_step S; reflexivity.
  - world_step S; reflexivity.
  - destruct (read_cases _ _ _ _ _ _ _ _ S) as (H & _). exact H.
Qed.
Lemma run_calls tbl J p tty w0 : fresh w0 -> forall l w rs, wrun tbl J p tty w0 l = Some (w, rs) -> w_calls w = calls_from (map task_op l) (map task_out rs).
Proof.
  intros (C0 & _) l. induction l as [|o l IH] using rev_ind; intros w rs R.
  - cbn [wrun] in R. injection R as <- <-. exact C0.
  - apply wrun_snoc in R as (w1 & rs1 & r & R & S & ->). rewrite !map_app. cbn [map]. rewrite calls_from_snoc by (rewrite !map_length; exact (wrun_length _ _ _ _ _ _ _ _ R)).
    rewrite <- (IH w1 rs1 R). exact (step_calls _ _ _ _ _ _ _ _ S).
Qed.
Lemma from_open : forall l rs, length rs = length l ->
  forall tid e, calls_from l rs !! tid = Some e <-> open_call l rs tid e.
Proof.
  intros l. induction l as [|o l IH] using rev_ind; intros rs Hr tid e.
  - destruct rs; [|done]. unfold calls_from. cbn [zip zip_with fold_left]. rewrite lookup_empty. split; [done|].
    intros (i & t & args & ugid & now & Hi & _). by rewrite lookup_nil in Hi.
  - destruct rs as [|r rs1 _] using rev_ind; [rewrite app_length in Hr; cbn in Hr; lia|]. rewrite !app_length in Hr. cbn [length] in Hr.
    assert (length rs1 = length l) as Hlen by lia. specialize (IH rs1 Hlen tid). rewrite calls_from_snoc by done.
    (* the open calls of l survive o unless o is an exit or a saved enter of tid *)
    assert (Hlast : forall j, exit_at (l ++ [o]) j tid <-> exit_at l j tid \/ (j = length l /\ exists t ret now cpu, o = KExit tid t ret now cpu)).
    { intros j. split.
      - intros (t & ret & now & cpu & H). apply lookup_snoc in H as [H|[-> ->]]; [left; by repeat eexists|right; split; [done|by repeat eexists]].
      - intros [(t & ret & now & cpu & H)|[-> (t & ret & now & cpu & ->)]]; repeat eexists; apply lookup_snoc; [by left|by right]. }
    assert (Hsv : forall j, saved (rs1 ++ [r]) j <-> saved rs1 j \/ (j = length l /\ o_saved r = Some true)).
    { intros j. split.
      - intros (r' & H & Hs). apply lookup_snoc in H as [H|[-> ->]]; [left; by exists r'|right; by rewrite Hlen].
      - intros [(r' & H & Hs)|[-> Hs]]; [exists r'|exists r]; (split; [|done]); apply lookup_snoc; [by left|right; by rewrite Hlen]. }
    assert (Hent : forall j, enter_at (l ++ [o]) j tid <-> enter_at l j tid \/ (j = length l /\ exists t args ugid now, o = KEnter tid t args ugid now)).
    { intros j. split.
      - intros (t & ret & now & cpu & H). apply lookup_snoc in H as [H|[-> ->]]; [left; by repeat eexists|right; split; [done|by repeat eexists]].
      - intros [(t & ret & now & cpu & H)|[-> (t & ret & now & cpu & ->)]]; repeat eexists; apply lookup_snoc; [by left|by right]. }
    assert (Hlt : forall j, saved rs1 j -> (j < length l)%nat).
    { intros j (r' & H & _). apply lookup_lt_Some in H. lia. }
    assert (Hsame : (forall t ret now cpu, o <> KExit tid t ret now cpu) -> (forall t args ugid now, o = KEnter tid t args ugid now -> o_saved r <> Some true) ->
      (open_call l rs1 tid e <-> open_call (l ++ [o]) (rs1 ++ [r]) tid e)).
    { intros Hne1 Hne2. split.
      - intros (i & t & args & ugid & now & Hi & Hs & He & Hj). exists i, t, args, ugid, now. split; [apply lookup_snoc; by left|].
        split; [apply Hsv; by left|]. split; [done|]. intros j Hij. destruct (Hj j Hij) as [A B]. split.
        + rewrite Hlast. intros [H|(_ & t' & ret & n & cpu & ->)]; [done|]. by destruct (Hne1 t' ret n cpu).
        + rewrite Hent, Hsv. intros [[H1|(Hjl & a & b & c & d & ->)] [H2|(Hjl' & H2)]].
          * by destruct B.
          * destruct H1 as (a & b & c & d & H1). apply lookup_lt_Some in H1. lia.
          * apply Hlt in H2. lia.
          * by destruct (Hne2 a b c d).
      - intros (i & t & args & ugid & now & Hi & Hs & He & Hj). apply lookup_snoc in Hi as [Hi|[-> ->]].
        + exists i, t, args, ugid, now. split; [done|]. split.
          { apply Hsv in Hs as [Hs|[-> _]]; [done|]. apply lookup_lt_Some in Hi. lia. }
          split; [done|]. intros j Hij. destruct (Hj j Hij) as [A B]. split; [intros H; apply A, Hlast; by left|].
          intros [H1 H2]. apply B. split; [apply Hent; by left|apply Hsv; by left].
        + apply Hsv in Hs as [Hs|[_ Hs]]; [apply Hlt in Hs; lia|]. by destruct (Hne2 t args ugid now). }
    destruct o as [tid' t args ugid now|tid' t ret now cpu|tid' t args ugid now cpu|o|ns]; cbn [calls_after].
    + destruct (o_saved r) as [[]|] eqn:Eo.
      * destruct (decide (tid' = tid)) as [->|Hne].
        -- rewrite lookup_insert. split.
           ++ intros [= <-]. exists (length l), t, args, ugid, now. split; [apply lookup_snoc; by right|]. split; [apply Hsv; by right|]. split; [done|].
              intros j Hj. rewrite Hlast, Hent. split.
              ** intros [(a & b & c & d & H)|[-> _]]; [apply lookup_lt_Some in H; lia|lia].
              ** intros [[(a & b & c & d & H)|[-> _]] _]; [apply lookup_lt_Some in H; lia|lia].
           ++ intros (i & t' & args' & ugid' & now' & Hi & Hs & -> & Hj). apply lookup_snoc in Hi as [Hi|[-> [= <- <- <- <-]]]; [|done].
              exfalso. destruct (Hj (length l)) as [_ B]; [by apply lookup_lt_Some in Hi|]. apply B. split; [apply Hent; right|apply Hsv; by right].
              split; [done|]. by repeat eexists.
        -- rewrite lookup_insert_ne by done. rewrite IH. apply Hsame; [done|]. intros ? ? ? ? [= ? _ _ _ _]. done.
      * rewrite IH. by apply Hsame.
      * rewrite IH. by apply Hsame.
    + destruct (decide (tid' = tid)) as [->|Hne].
      * rewrite lookup_delete. split; [done|]. intros (i & t' & args' & ugid' & now' & Hi & Hs & -> & Hj). exfalso.
        apply lookup_snoc in Hi as [Hi|[-> [=]]]. destruct (Hj (length l)) as [A _]; [by apply lookup_lt_Some in Hi|].
        apply A, Hlast. right. split; [done|]. by repeat eexists.
      * rewrite lookup_delete_ne by done. rewrite IH. apply Hsame; [|done]. intros ? ? ? ? [= ? _ _ _ _]. done.
    + rewrite IH. by apply Hsame.
    + rewrite IH. by apply Hsame.
    + rewrite IH. by apply Hsame.
Qed.

(** * The records on their way *)

Definition sent_record (l : list wop) (rs : list wout) (k : nat) (bs : list Z) : Prop :=
  exists o su scratch trailing r e, l !! k = Some (WTask o su scratch trailing false) /\ rs !! k = Some (UTask r) /\ o_event r = Some e
    /\ bs = emit e su scratch ++ trailing.
Definition taken (rs : list wout) (q k : nat) : Prop := exists ps line, rs !! q = Some (URead k ps line).

Lemma delete_keys {A} (l : list (nat * A)) i k bs : NoDup (map fst l) -> l !! i = Some (k, bs) ->
  NoDup (map fst (delete i l)) /\ forall k' bs', (k', bs') ∈ delete i l <-> (k', bs') ∈ l /\ k' <> k.
Proof.
  intros N E. pose proof (delete_Permutation l i (k, bs) E) as P. pose proof (Permutation_map fst P) as PM. cbn [map fst] in PM. rewrite PM in N. apply NoDup_cons in N as [N1 N2].
  split; [exact N2|]. intros k' bs'. split.
  - intros H. split; [rewrite P; right; exact H|]. intros ->. apply N1. apply elem_of_list_In, in_map_iff. exists (k, bs'). split; [reflexivity|]. apply elem_of_list_In. exact H.
  - intros [H Hne]. rewrite P in H. apply elem_of_cons in H as [H|H]; [injection H as -> _; contradiction|exact H].
Qed.
Lemma sent_snoc l rs o r k bs : length rs = length l -> (k < length l)%nat -> sent_record (l ++ [o]) (rs ++ [r]) k bs <-> sent_record l rs k bs.
Proof.
  intros L K. split; intros (o' & su & sc & tr & r' & e & H1 & H2 & H3); exists o', su, sc, tr, r', e.
  - rewrite lookup_app_l in H1 by lia. rewrite lookup_app_l in H2 by lia. split; [exact H1|]. split; [exact H2|exact H3].
  - rewrite lookup_app_l by lia. rewrite lookup_app_l by lia. split; [exact H1|]. split; [exact H2|exact H3].
Qed.
Lemma sent_lt l rs k bs : sent_record l rs k bs -> (k < length l)%nat.
Proof. intros (o & su & sc & tr & r & e & H & _). apply lookup_lt_Some in H. exact H. Qed.
Lemma sent_last l rs o r bs : length rs = length l ->
  (sent_record (l ++ [o]) (rs ++ [r]) (length l) bs <-> exists o' su sc tr r' e, o = WTask o' su sc tr false /\ r = UTask r' /\ o_event r' = Some e /\ bs = emit e su sc ++ tr).
Proof.
  intros L. split; intros (o' & su & sc & tr & r' & e & H1 & H2 & H3); exists o', su, sc, tr, r', e.
  - rewrite list_lookup_middle in H1 by reflexivity. rewrite list_lookup_middle in H2 by (symmetry; exact L). apply Some_inj in H1, H2. split; [exact H1|]. split; [exact H2|exact H3].
  - rewrite list_lookup_middle by reflexivity. rewrite list_lookup_middle by (symmetry; exact L). rewrite H1, H2. split; [reflexivity|]. split; [reflexivity|exact H3].
Qed.
Lemma taken_snoc rs r q k : taken (rs ++ [r]) q k <-> taken rs q k \/ (q = length rs /\ exists ps line, r = URead k ps line).
Proof.
  unfold taken. split.
  - intros (ps & line & H). apply lookup_snoc in H as [H|[-> H]]; [left|right]; [exists ps, line; exact H|]. split; [reflexivity|exists ps, line; exact H].
  - intros [(ps & line & H)|(-> & ps & line & ->)]; exists ps, line; apply lookup_snoc; [left; exact H|right; split; reflexivity].
Qed.

Lemma step_ring tbl J p tty w o w' r : wstep tbl J p tty w o = Some (w', r) ->
  match o with
  | WTask o su sc tr lost => exists r', r = UTask r' /\ w_ring w' = match o_event r' with Some e => if lost then w_ring w else w_ring w ++ [(w_now w, emit e su sc ++ tr)] | None => w_ring w end
  | WRead i => (r = UNone /\ w_ring w' = w_ring w) \/ exists k bs ps line, w_ring w !! i = Some (k, bs) /\ w_ring w' = delete i (w_ring w) /\ r = URead k ps line
  | _ => w_ring w' = w_ring w /\ forall k ps line, r <> URead k ps line
  end.
Proof.
  intros S. destruct o as [o su scratch trailing lost|start c|start ns|start c|i]; cbn [wstep] in S.
  - apply Some_inj in S. unfold task_step in S. destruct (kstep tbl _ o) as [s r']. apply pair_equal_spec in S as [<- <-]. exists r'. split; reflexivity.
  - apply Some_inj, pair_equal_spec in S as [<- <-]. split; [reflexivity|discriminate].
  - world_step S; (split; [reflexivity|discriminate]).
  - world_step S; (split; [reflexivity|discriminate]).
  - destruct (read_cases _ _ _ _ _ _ _ _ S) as (_ & _ & _ & [(_ & H1 & H2)|(k & bs & H1 & H2 & [[-> _]|(t & rw & ps & _ & _ & _ & ->)])]).
    + left. split; [exact H1|exact H2].
    + right. eexists k, bs, _, _. split; [exact H1|]. split; [exact H2|reflexivity].
    + right. eexists k, bs, _, _. split; [exact H1|]. split; [exact H2|reflexivity].
Qed.

Lemma ring_spec tbl J p tty w0 : fresh w0 -> forall l w rs, wrun tbl J p tty w0 l = Some (w, rs) ->
  (NoDup (map fst (w_ring w)) /\ forall k bs, (k, bs) ∈ w_ring w <-> sent_record l rs k bs /\ forall q, ~ taken rs q k) /\ forall q k, taken rs q k -> (k < q)%nat.
Proof.
  intros F0 l. induction l as [|o l IH] using rev_ind; intros w rs R.
  - cbn [wrun] in R. injection R as <- <-. destruct F0 as (_ & _ & -> & _). split; [|intros q k (ps & line & H); rewrite lookup_nil in H; discriminate]. split; [constructor|]. intros k bs. split.
    + intros H. apply not_elem_of_nil in H. contradiction.
    + intros [H _]. apply sent_lt in H. cbn [length] in H. lia.
  - apply wrun_snoc in R as (w1 & rs1 & r & R & S & ->). destruct (IH w1 rs1 R) as [[N M] Old]. pose proof (wrun_length _ _ _ _ _ _ _ _ R) as L.
    destruct (cache_known _ _ _ _ _ F0 _ _ _ R) as [Now _]. pose proof (step_ring _ _ _ _ _ _ _ _ S) as E.
    assert (Lt : forall k bs, (k, bs) ∈ w_ring w1 -> (k < length l)%nat) by (intros k bs H; apply M in H as [H _]; exact (sent_lt _ _ _ _ H)).
    split; [|intros q k Hq; apply taken_snoc in Hq as [Hq|(-> & ps & line & ->)]; [exact (Old q k Hq)|];
      destruct o as [? ? ? ? ?|? ?|? ?|? ?|i]; [destruct E as (? & E & _); discriminate|destruct E as [_ E]; destruct (E _ _ _ eq_refl)..|];
      destruct E as [[E _]|(k' & bs & ps' & line' & E & _ & Er)]; [discriminate|]; injection Er as <- _ _; rewrite L; apply (Lt k bs), elem_of_list_lookup_2 with i; exact E].
    (* a step that sends and takes nothing *)
    assert (Quiet : w_ring w = w_ring w1 -> (forall bs, ~ sent_record (l ++ [o]) (rs1 ++ [r]) (length l) bs) -> (forall k ps line, r <> URead k ps line) ->
      NoDup (map fst (w_ring w)) /\ forall k bs, (k, bs) ∈ w_ring w <-> sent_record (l ++ [o]) (rs1 ++ [r]) k bs /\ forall q, ~ taken (rs1 ++ [r]) q k).
    { intros -> NS NT. split; [exact N|]. intros k bs. rewrite M. split.
      - intros [Hs Ht]. split; [apply sent_snoc; [exact L|exact (sent_lt _ _ _ _ Hs)|exact Hs]|]. intros q Hq. apply taken_snoc in Hq as [Hq|(_ & ps & line & Hq)]; [exact (Ht q Hq)|exact (NT _ _ _ Hq)].
      - intros [Hs Ht]. assert (K : (k < length l)%nat).
        { pose proof (sent_lt _ _ _ _ Hs) as K. rewrite app_length in K. cbn [length] in K. destruct (decide (k = length l)) as [->|]; [destruct (NS _ Hs)|lia]. }
        split; [exact (proj1 (sent_snoc _ _ _ _ _ _ L K) Hs)|]. intros q Hq. apply (Ht q), taken_snoc. left. exact Hq. }
    destruct o as [o su sc tr lost|start c|start ns|start c|i].
    + destruct E as (r' & -> & E). destruct (o_event r') as [e|] eqn:Ev; [destruct lost|].
      * apply Quiet; [exact E| |discriminate]. intros bs H. apply sent_last in H as (o' & su' & sc' & tr' & r'' & e' & H & _); [discriminate|exact L].
      * assert (Last : forall bs, sent_record (l ++ [WTask o su sc tr false]) (rs1 ++ [UTask r']) (length l) bs <-> bs = emit e su sc ++ tr).
        { intros bs. rewrite sent_last by exact L. split.
          - intros (o' & su' & sc' & tr' & r'' & e' & H1 & H2 & H3 & H4). injection H1 as <- <- <- <-. injection H2 as <-. rewrite Ev in H3. apply Some_inj in H3. subst e'. exact H4.
          - intros ->. exists o, su, sc, tr, r', e. split; [reflexivity|]. split; [reflexivity|]. split; [exact Ev|reflexivity]. }
        rewrite E, Now. split.
        { rewrite map_app. cbn [map fst]. apply NoDup_app. split; [exact N|]. split; [|apply NoDup_singleton]. intros k Hk Hl. apply elem_of_list_singleton in Hl. subst k.
          apply elem_of_list_In, in_map_iff in Hk as ([k bs] & Hk & Hin). cbn [fst] in Hk. apply elem_of_list_In in Hin. apply Lt in Hin. lia. }
        intros k bs. rewrite elem_of_app, elem_of_list_singleton. split.
        -- intros [H|H].
           ++ pose proof (Lt _ _ H) as K. apply M in H as [Hs Ht]. split; [apply sent_snoc; [exact L|exact K|exact Hs]|]. intros q Hq. apply taken_snoc in Hq as [Hq|(_ & ps & line & Hq)]; [exact (Ht q Hq)|discriminate].
           ++ apply pair_equal_spec in H as [-> ->]. split; [apply Last; reflexivity|]. intros q Hq. apply taken_snoc in Hq as [(ps & line & Hq)|(_ & ps & line & Hq)]; [|discriminate].
              assert (Hl : (q < length rs1)%nat) by (apply lookup_lt_Some in Hq; exact Hq). pose proof (Old q (length l) ltac:(exists ps, line; exact Hq)). lia.
        -- intros [Hs Ht]. destruct (decide (k = length l)) as [->|Hk].
           ++ right. apply Last in Hs. subst bs. reflexivity.
           ++ left. apply M. split.
              ** assert (K : (k < length l)%nat) by (pose proof (sent_lt _ _ _ _ Hs) as K; rewrite app_length in K; cbn [length] in K; lia). exact (proj1 (sent_snoc _ _ _ _ _ _ L K) Hs).
              ** intros q Hq. apply (Ht q), taken_snoc. left. exact Hq.
      * apply Quiet; [exact E| |discriminate]. intros bs H. apply sent_last in H as (o' & su' & sc' & tr' & r'' & e' & _ & H & H' & _); [|exact L]. injection H as <-. rewrite Ev in H'. discriminate.
    + destruct E as [E1 E2]. apply Quiet; [exact E1| |exact E2]. intros bs H. apply sent_last in H as (o' & su' & sc' & tr' & r'' & e' & H & _); [discriminate|exact L].
    + destruct E as [E1 E2]. apply Quiet; [exact E1| |exact E2]. intros bs H. apply sent_last in H as (o' & su' & sc' & tr' & r'' & e' & H & _); [discriminate|exact L].
    + destruct E as [E1 E2]. apply Quiet; [exact E1| |exact E2]. intros bs H. apply sent_last in H as (o' & su' & sc' & tr' & r'' & e' & H & _); [discriminate|exact L].
    + assert (NS : forall bs, ~ sent_record (l ++ [WRead i]) (rs1 ++ [r]) (length l) bs) by (intros bs H; apply sent_last in H as (o' & su' & sc' & tr' & r'' & e' & H & _); [discriminate|exact L]).
      destruct E as [[-> E]|(k & bs & ps & line & E1 & E2 & ->)]; [apply Quiet; [exact E|exact NS|discriminate]|].
      destruct (delete_keys _ _ _ _ N E1) as [N' D]. rewrite E2. split; [exact N'|]. intros k' bs'. rewrite D, M. split.
      * intros [[Hs Ht] Hne]. split; [apply sent_snoc; [exact L|exact (sent_lt _ _ _ _ Hs)|exact Hs]|]. intros q Hq. apply taken_snoc in Hq as [Hq|(_ & ps' & line' & Hq)]; [exact (Ht q Hq)|]. injection Hq as Hq _ _. exact (Hne (eq_sym Hq)).
      * intros [Hs Ht]. assert (K : (k' < length l)%nat).
        { pose proof (sent_lt _ _ _ _ Hs) as K. rewrite app_length in K. cbn [length] in K. destruct (decide (k' = length l)) as [->|]; [destruct (NS _ Hs)|lia]. }
        split; [split|].
        -- exact (proj1 (sent_snoc _ _ _ _ _ _ L K) Hs).
        -- intros q Hq. apply (Ht q), taken_snoc. left. exact Hq.
        -- intros ->. apply (Ht (length rs1)), taken_snoc. right. split; [reflexivity|]. exists ps, line. reflexivity.
Qed.

(** * What the kernel sends *)

Lemma op_at l j o : (forall ns, o <> KPrune ns) -> map task_op l !! j = Some o <-> did l j o.
Proof.
  intros NP. rewrite list_lookup_fmap. unfold did. destruct (l !! j) as [x|]; cbn [fmap option_fmap option_map].
  - destruct x as [o' su sc tr lost|? ?|? ?|? ?|?]; cbn [task_op]; (split; [|intros (su' & sc' & tr' & lost' & H)]).
    + intros H. apply Some_inj in H. subst o'. exists su, sc, tr, lost. reflexivity.
    + apply Some_inj in H. injection H as -> _ _ _ _. reflexivity.
    + intros H. apply Some_inj in H. destruct (NP 0 (eq_sym H)).
    + discriminate.
    + intros H. apply Some_inj in H. destruct (NP 0 (eq_sym H)).
    + discriminate.
    + intros H. apply Some_inj in H. destruct (NP 0 (eq_sym H)).
    + discriminate.
    + intros H. apply Some_inj in H. destruct (NP 0 (eq_sym H)).
    + discriminate.
  - split; [discriminate|]. intros (su' & sc' & tr' & lost' & H). discriminate.
Qed.
Lemma leaves_op l j tid : exit_at (map task_op l) j tid <-> leaves_at l j tid.
Proof.
  unfold exit_at, leaves_at. split; intros (t & ret & now & cpu & H); exists t, ret, now, cpu; revert H; apply op_at; discriminate.
Qed.
Lemma enters_op l j tid : enter_at (map task_op l) j tid <-> enters_at l j tid.
Proof.
  unfold enter_at, enters_at. split; intros (t & ret & now & cpu & H); exists t, ret, now, cpu; revert H; apply op_at; discriminate.
Qed.
Lemma did_take l k j o : (j < k)%nat -> did (take k l) j o <-> did l j o.
Proof. intros H. unfold did. rewrite lookup_take by exact H. reflexivity. Qed.
Lemma leaves_take l k j tid : (j < k)%nat -> leaves_at (take k l) j tid <-> leaves_at l j tid.
Proof. intros H. unfold leaves_at. split; intros (t & ret & now & cpu & D); exists t, ret, now, cpu; revert D; apply did_take; exact H. Qed.
Lemma enters_take l k j tid : (j < k)%nat -> enters_at (take k l) j tid <-> enters_at l j tid.
Proof. intros H. unfold enters_at. split; intros (t & ret & now & cpu & D); exists t, ret, now, cpu; revert D; apply did_take; exact H. Qed.
Lemma did_lt l j o : did l j o -> (j < length l)%nat.
Proof. intros (su & sc & tr & lost & H). apply lookup_lt_Some in H. exact H. Qed.

Lemma utask_inj a b : UTask a = UTask b -> a = b.
Proof. congruence. Qed.
Definition kernel_of (w : world) : kstate := KState (maps (w_hub w)) (w_metrics w) (w_calls w).
Lemma task_at tbl J p tty w0 l w rs k o : wrun tbl J p tty w0 l = Some (w, rs) -> did l k o ->
  exists wk, wrun tbl J p tty w0 (take k l) = Some (wk, take k rs) /\ rs !! k = Some (UTask (kstep tbl (kernel_of wk) o).2).
Proof.
  intros R (su & sc & tr & lost & H). destruct (wrun_at _ _ _ _ _ _ _ _ _ _ R H) as (wk & wk' & r & Rk & S & Hr & _). exists wk. split; [exact Rk|]. rewrite Hr. f_equal.
  cbn [wstep] in S. apply Some_inj in S. unfold task_step in S. fold (kernel_of wk) in S. destruct (kstep tbl (kernel_of wk) o) as [s r']. apply pair_equal_spec in S as [_ <-]. reflexivity.
Qed.

Definition kept (rs : list wout) (i : nat) : Prop := exists r, rs !! i = Some (UTask r) /\ o_saved r = Some true.
Lemma kept_saved rs i : saved (map task_out rs) i <-> kept rs i.
Proof.
  unfold saved, kept. rewrite list_lookup_fmap. destruct (rs !! i) as [x|]; cbn [fmap option_fmap option_map].
  - split.
    + intros (r & H & S). apply Some_inj in H. destruct x as [|r'|n ok|k ps line]; cbn [task_out] in H; subst r; try discriminate S. exists r'. split; [reflexivity|exact S].
    + intros (r & H & S). apply Some_inj in H. subst x. exists r. split; [reflexivity|exact S].
  - split; intros (r & H & _); discriminate.
Qed.
Lemma kept_take rs k i : (i < k)%nat -> kept (take k rs) i <-> kept rs i.
Proof. intros H. unfold kept. rewrite lookup_take by exact H. reflexivity. Qed.

Lemma exit_iff tbl J p tty w0 l w rs k tid t ret now cpu r ev : fresh w0 -> wrun tbl J p tty w0 l = Some (w, rs) ->
  did l k (KExit tid t ret now cpu) -> rs !! k = Some (UTask r) ->
  (o_event r = Some ev <-> cpu < 1024 /\ exists i t' args ugid now', (i < k)%nat /\ did l i (KEnter tid t' args ugid now') /\ kept rs i /\
    (forall j, (i < j < k)%nat -> ~ leaves_at l j tid /\ ~ (enters_at l j tid /\ kept rs j)) /\
    t_id t' = t_id t /\ ev = KEvent tid ugid (u32 (t_id t)) now' now (t_pidns t) args ret).
Proof.
  intros F0 R Hk Hr. destruct (task_at _ _ _ _ _ _ _ _ _ _ R Hk) as (wk & Rk & E). rewrite Hr in E. apply Some_inj, utask_inj in E. subst r.
  pose proof (wrun_length _ _ _ _ _ _ _ _ R) as Len. pose proof (did_lt _ _ _ Hk) as Lk.
  pose proof (run_calls _ _ _ _ _ F0 _ _ _ Rk) as C.
  assert (O : forall e, ks_calls (kernel_of wk) !! tid = Some e <-> open_call (map task_op (take k l)) (map task_out (take k rs)) tid e).
  { intros e. cbn [kernel_of ks_calls]. rewrite C. apply from_open. rewrite !map_length, !take_length. lia. }
  assert (B : forall i t' args ugid now', map task_op (take k l) !! i = Some (KEnter tid t' args ugid now') <-> (i < k)%nat /\ did l i (KEnter tid t' args ugid now')).
  { intros i t' args ugid now'. rewrite op_at by discriminate. split.
    - intros H. assert (Hi : (i < k)%nat) by (pose proof (did_lt _ _ _ H) as Hi; rewrite take_length in Hi; lia). split; [exact Hi|]. apply (did_take l k i _ Hi). exact H.
    - intros [Hi H]. apply (did_take l k i _ Hi). exact H. }
  rewrite exit_event. split.
  - intros H. destruct (ks_calls (kernel_of wk) !! tid) as [e|] eqn:El; [|discriminate].
    destruct (has_scratch cpu) eqn:Es; [|discriminate]. destruct (t_id t =? en_id e) eqn:Ei; [|discriminate]. apply Some_inj in H. subst ev.
    split; [unfold has_scratch in Es; lia|].
    destruct (proj1 (O e) eq_refl) as (i & t' & args & ugid & now' & Hi & Hs & -> & Hj). cbn [en_id en_ugid en_time en_args] in *. apply Z.eqb_eq in Ei.
    apply B in Hi as [Hik Hi]. exists i, t', args, ugid, now'. split; [exact Hik|]. split; [exact Hi|]. split; [apply kept_saved in Hs; apply (kept_take rs k i Hik); exact Hs|].
    split; [|split; [symmetry; exact Ei|rewrite Ei; reflexivity]].
    intros j [H1 H2]. destruct (Hj j H1) as [A1 A2]. rewrite leaves_op, leaves_take in A1 by exact H2. rewrite enters_op, enters_take, kept_saved, kept_take in A2 by exact H2. split; assumption.
  - intros (Hc & i & t' & args & ugid & now' & Hik & Hi & Hs & Hj & Hid & ->).
    rewrite (proj2 (O (Entry (t_id t') args ugid now'))).
    + cbn [en_id en_ugid en_time en_args]. unfold has_scratch. rewrite (proj2 (Z.ltb_lt _ _) Hc), Hid, Z.eqb_refl. reflexivity.
    + exists i, t', args, ugid, now'. split; [apply B; split; assumption|]. split; [apply kept_saved, (kept_take rs k i Hik); exact Hs|]. split; [reflexivity|].
      intros j Hij. destruct (decide (j < k)%nat) as [Hlt|Hge].
      * destruct (Hj j (conj Hij Hlt)) as [A1 A2]. rewrite leaves_op, leaves_take by exact Hlt. rewrite enters_op, enters_take, kept_saved, kept_take by exact Hlt. split; assumption.
      * split; [rewrite leaves_op; intros (a & b & c & d & H)|rewrite enters_op; intros [(a & b & c & d & H) _]]; apply did_lt in H; rewrite take_length in H; lia.
Qed.

(** * Which calls pass *)

Lemma trace_one id flag : one_job (the_trace id flag).
Proof. split; reflexivity. Qed.
Lemma trace_nrs tbl id flag nr : go_table tbl -> nr ∈ job_nrs tbl (the_trace id flag 0%nat) <-> asked flag nr.
Proof.
  intros G. rewrite (go_table_eq _ G). unfold job_nrs. cbn [the_trace j_calls]. rewrite elem_of_list_omap. split.
  - intros (name & Hn & E). exists name. split; [apply wanted_flag; exact Hn|]. destruct (lookup_sc table (ByString name)) as [sc|] eqn:Hs; [|discriminate]. apply Some_inj in E. subst nr. exact (lookup_names _ _ Hs).
  - intros (name & Hn & E). exists name. split; [apply wanted_flag; exact Hn|]. destruct (names_lookup _ _ E) as (sc & -> & <-). reflexivity.
Qed.
Lemma match_out tbl J p tty w0 l w rs k c : wrun tbl J p tty w0 l = Some (w, rs) -> l !! k = Some (WMatch true c) -> 0 < ct_ns c ->
  exists n ok, rs !! k = Some (UMatched n ok).
Proof.
  intros R Hk P. destruct (wrun_at _ _ _ _ _ _ _ _ _ _ R Hk) as (wk & wk' & r & _ & S & Hr & _). rewrite Hr. cbn [wstep] in S. unfold match_step in S.
  rewrite (proj2 (Z.ltb_lt _ _) P) in S. cbn [hstep] in S. destruct (on_start J tbl (w_hub wk) 0 c) as [[h2 [n ok]]| |]; [|discriminate..]. apply Some_inj, pair_equal_spec in S as [_ <-]. exists n, ok. reflexivity.
Qed.
Lemma zip_lookup {A B} (l : list A) (k : list B) i x y : l !! i = Some x -> k !! i = Some y -> (x, y) ∈ zip l k.
Proof. intros H1 H2. apply elem_of_list_lookup. exists i. apply lookup_zip_with_Some. exists x, y. split; [reflexivity|]. split; assumption. Qed.
Lemma in_zip {A B} (l : list A) (k : list B) x y : (x, y) ∈ zip l k -> exists i, l !! i = Some x /\ k !! i = Some y.
Proof. intros H. apply elem_of_list_lookup in H as (i & H). apply lookup_zip_with_Some in H as (x' & y' & E & H1 & H2). injection E as <- <-. exists i. split; assumption. Qed.

Lemma regs_sound tbl id flag l rs ns nr : go_table tbl -> regs_at ns nr (all_regs tbl (the_trace id flag) l rs) <> [] -> reported l ns /\ asked flag nr.
Proof.
  intros G H. destruct (regs_at ns nr (all_regs tbl (the_trace id flag) l rs)) as [|g gs] eqn:E; [contradiction|].
  assert (Hg : g ∈ regs_at ns nr (all_regs tbl (the_trace id flag) l rs)) by (rewrite E; left).
  apply elem_of_list_filter in Hg as [[<- <-] Hg]. apply elem_of_list_In, in_concat in Hg as (made & Hm & Hg). apply in_map_iff in Hm as ([o r] & <- & Hz). apply elem_of_list_In in Hz, Hg.
  destruct o as [? ? ? ? ?|? ?|? ?|[] c|?]; cbn [regs_made] in Hg; try (apply not_elem_of_nil in Hg; contradiction). destruct r as [|?|n ok|? ? ?]; try (apply not_elem_of_nil in Hg; contradiction).
  apply elem_of_list_In, in_map_iff in Hg as (nr & <- & Hn). apply elem_of_list_In in Hn. cbn [g_ns g_nr]. split.
  - destruct (in_zip _ _ _ _ Hz) as (i & Hi & _). exists i, c. split; [exact Hi|reflexivity].
  - apply (trace_nrs tbl id flag nr G). destruct ok; [exact Hn|]. apply elem_of_take in Hn as (j & Hj & _). exact (elem_of_list_lookup_2 _ _ _ Hj).
Qed.
Lemma regs_complete tbl id flag p tty w0 l w rs ns nr : go_table tbl -> wrun tbl (the_trace id flag) p tty w0 l = Some (w, rs) -> all_installed rs -> 0 < ns ->
  reported l ns -> asked flag nr -> regs_at ns nr (all_regs tbl (the_trace id flag) l rs) <> [].
Proof.
  intros G R A P (k & c & Hk & <-) Hn E. destruct (match_out _ _ _ _ _ _ _ _ _ _ R Hk P) as (n & ok & Hr).
  assert (ok = true) as -> by (destruct ok; [reflexivity|destruct (A n); exact (elem_of_list_lookup_2 _ _ _ Hr)]).
  assert (Hin : HubSpec.Reg 0 (ct_ns c) nr ∈ regs_at (ct_ns c) nr (all_regs tbl (the_trace id flag) l rs)).
  { apply elem_of_list_filter. split; [split; reflexivity|]. apply elem_of_list_In, in_concat. exists (regs_made tbl (the_trace id flag) (WMatch true c, UMatched n true)). split.
    - apply in_map, elem_of_list_In, (zip_lookup _ _ k); assumption.
    - cbn [regs_made]. apply in_map, elem_of_list_In, (trace_nrs tbl id flag nr G). exact Hn. }
  rewrite E in Hin. apply not_elem_of_nil in Hin. exact Hin.
Qed.

Section trace.
Context (tbl : syscalls) (G : go_table tbl) (id : string) (flag : list string) (p : nat -> trace_event -> printer) (tty : bool) (h0 : hub) (H0 : new_hub tbl = Some h0).
Local Notation J := (the_trace id flag).
Local Notation w0 := (World h0 ∅ ∅ ∅ [] 0).
Lemma w0_fresh : fresh w0.
Proof. repeat split. Qed.

Lemma verdict_sound l w rs t : Forall real l -> wrun tbl J p tty w0 l = Some (w, rs) -> some_ns (t_pidns t) ->
  (forall h os hrs, hub_inv tbl J h0 l rs h os hrs -> (run_nfilter 2 t (maps h)).2 <> 1 -> reported l (t_pidns t) /\ asked flag (u32 (t_id t))).
Proof.
  intros F R P h os hrs [H1 H2 H3 H4 H5 H6] V. pose proof (emitted_wanted J tbl h0 os h hrs t _ G H0 H2 H1 P eq_refl V) as E. rewrite H6 in E.
  apply (regs_sound tbl id flag _ _ _ _ G) in E as [E1 E2]. split; [exact E1|]. apply asked_s32. exact E2.
Qed.
Lemma verdict_exact' l w rs t : Forall real l -> wrun tbl J p tty w0 l = Some (w, rs) -> some_ns (t_pidns t) -> none_stopped l -> all_installed rs ->
  (forall h os hrs, hub_inv tbl J h0 l rs h os hrs -> ((run_nfilter 2 t (maps h)).2 <> 1 <-> reported l (t_pidns t) /\ asked flag (u32 (t_id t)))).
Proof.
  intros F R P N A h os hrs I. split; [exact (verdict_sound l w rs t F R P h os hrs I)|]. destruct I as [H1 H2 H3 H4 H5 H6]. intros [E1 E2].
  apply (emitted_exact J tbl h0 os h hrs t _ G H0 H2 H1 (H4 N) H3 (H5 A) P eq_refl). rewrite H6. eapply regs_complete; [exact G|exact R|exact A|unfold some_ns in P; lia|exact E1|]. apply asked_s32. exact E2.
Qed.
Lemma inv_metrics l rs h os hrs t : length rs = length l -> hub_inv tbl J h0 l rs h os hrs -> exists os' hrs', hub_inv tbl J h0 l rs (set_maps h (run_nfilter 4 t (maps h)).1) os' hrs'.
Proof.
  intros L [H1 H2 H3 H4 H5 H6]. exists (os ++ [OKernel 4 t]), (hrs ++ [RVerdict (run_nfilter 4 t (maps h)).2]). split.
  - eapply hrun_join; [exact H1|apply kernel_step].
  - apply Forall_app. split; [exact H2|]. constructor; [right; reflexivity|constructor].
  - intros j ns nr Hin. apply elem_of_app in Hin as [Hin|Hin]; [exact (H3 _ _ _ Hin)|]. apply elem_of_list_singleton in Hin. discriminate.
  - intros N j c Hin. apply elem_of_app in Hin as [Hin|Hin]; [exact (H4 N _ _ Hin)|]. apply elem_of_list_singleton in Hin. discriminate.
  - intros N j Hin. apply elem_of_app in Hin as [Hin|Hin]; [exact (H5 N _ Hin)|]. apply elem_of_list_singleton in Hin. discriminate.
  - rewrite registrations_app by exact (hrun_len _ _ _ _ _ _ H1). exact H6.
Qed.

Lemma real_take l k : Forall real l -> Forall real (take k l).
Proof. apply Forall_take. Qed.
Lemma real_did l k o : Forall real l -> did l k o -> fits o.
Proof. intros F (su & sc & tr & lost & H). rewrite Forall_forall in F. destruct (F _ (elem_of_list_lookup_2 _ _ _ H)) as [X _]. exact X. Qed.
Lemma stopped_take l k : none_stopped l -> none_stopped (take k l).
Proof. intros N c Hc. apply elem_of_take in Hc as (j & Hj & _). exact (N c (elem_of_list_lookup_2 _ _ _ Hj)). Qed.
Lemma installed_take rs k : all_installed rs -> all_installed (take k rs).
Proof. intros N c Hc. apply elem_of_take in Hc as (j & Hj & _). exact (N c (elem_of_list_lookup_2 _ _ _ Hj)). Qed.

(** An entry that is kept was asked for. *)
Lemma kept_sound l w rs i tid t args ugid now : Forall real l -> wrun tbl J p tty w0 l = Some (w, rs) -> did l i (KEnter tid t args ugid now) -> kept rs i ->
  u32 (t_id t) <> 59 /\ reported (take i l) (t_pidns t) /\ asked flag (u32 (t_id t)).
Proof.
  intros F R D (r & Hr & Hs). destruct (task_at _ _ _ _ _ _ _ _ _ _ R D) as (wi & Ri & E). rewrite Hr in E. apply Some_inj, utask_inj in E. subst r.
  assert (N : o_saved (kstep tbl (kernel_of wi) (KEnter tid t args ugid now)).2 <> None) by (rewrite Hs; discriminate). apply saved_passes in N as [N1 N2]. split; [exact N1|].
  destruct (real_did _ _ _ F D) as (_ & _ & _ & P).
  destruct (run_inv tbl J p tty h0 w0 (trace_one id flag) H0 eq_refl _ _ _ (real_take l i F) Ri) as (os & hrs & I).
  destruct (inv_metrics _ _ _ _ _ t (wrun_length _ _ _ _ _ _ _ _ Ri) I) as (os' & hrs' & I').
  exact (verdict_sound _ _ _ t (real_take l i F) Ri P _ _ _ I' N2).
Qed.

(** There is room for every entry. *)
Lemma enough_room l w rs : few_tasks l -> wrun tbl J p tty w0 l = Some (w, rs) -> forall i r, rs !! i = Some (UTask r) -> o_saved r <> Some false.
Proof.
  intros FT. set (ks := list_to_set (entering l) : gset Z).
  assert (X : forall l' w' rs', (forall tid, tid ∈ entering l' -> tid ∈ ks) -> wrun tbl J p tty w0 l' = Some (w', rs') -> dom (w_calls w') ⊆ ks /\ forall i r, rs' !! i = Some (UTask r) -> o_saved r <> Some false).
  { intros l'. induction l' as [|o l' IH] using rev_ind; intros w' rs' K R.
    - cbn [wrun] in R. injection R as <- <-. cbn [w_calls]. rewrite dom_empty. split; [set_solver|]. intros i r H. rewrite lookup_nil in H. discriminate.
    - apply wrun_snoc in R as (w1 & rs1 & r & R & S & ->). destruct (IH w1 rs1) as [D N]; [intros tid H; apply K; unfold entering; rewrite omap_app; apply elem_of_app; left; exact H|exact R|].
      destruct o as [o su sc tr lost|start c|start ns|start c|j].
      + cbn [wstep] in S. apply Some_inj in S. unfold task_step in S.
        destruct (kstep_stored tbl (kernel_of w1) o ks D) as [D1 N1].
        { intros tid t args ugid now ->. apply K. unfold entering. rewrite omap_app. apply elem_of_app. right. left. }
        { unfold few_tasks in FT. unfold state_max. fold ks in FT. lia. }
        fold (kernel_of w1) in S. destruct (kstep tbl (kernel_of w1) o) as [s r']. apply pair_equal_spec in S as [<- <-]. cbn [w_calls fst snd] in D1, N1 |- *. split; [exact D1|].
        intros i r H. apply lookup_snoc in H as [H|[_ H]]; [exact (N i r H)|]. injection H as <-. exact N1.
      + pose proof (step_calls _ _ _ _ _ _ _ _ S) as C. cbn [task_op calls_after] in C. rewrite C. split; [exact D|]. intros i r' H. apply lookup_snoc in H as [H|[_ H]]; [exact (N i r' H)|]. subst r.
        cbn [wstep] in S. apply Some_inj, pair_equal_spec in S as [_ S]. discriminate.
      + pose proof (step_calls _ _ _ _ _ _ _ _ S) as C. cbn [task_op calls_after] in C. rewrite C. split; [exact D|]. intros i r' H. apply lookup_snoc in H as [H|[_ H]]; [exact (N i r' H)|]. subst r.
        cbn [wstep] in S. unfold meter_step in S. destruct (hstep _ _ _ _) as [[? ?]| |]; [|discriminate S..]. apply Some_inj, pair_equal_spec in S as [_ S]. discriminate.
      + pose proof (step_calls _ _ _ _ _ _ _ _ S) as C. cbn [task_op calls_after] in C. rewrite C. split; [exact D|]. intros i r' H. apply lookup_snoc in H as [H|[_ H]]; [exact (N i r' H)|]. subst r.
        cbn [wstep] in S. unfold match_step in S. destruct (0 <? _); [destruct (hstep _ _ _ _) as [[? [| | | |]]| |]; [..|discriminate S|discriminate S]|]; apply Some_inj, pair_equal_spec in S as [_ S]; discriminate.
      + pose proof (step_calls _ _ _ _ _ _ _ _ S) as C. cbn [task_op calls_after] in C. rewrite C. split; [exact D|]. intros i r' H. apply lookup_snoc in H as [H|[_ H]]; [exact (N i r' H)|]. subst r.
        pose proof (step_ring _ _ _ _ _ _ _ _ S) as E. cbn in E. destruct E as [[E _]|(? & ? & ? & ? & _ & _ & E)]; discriminate. }
  intros R. destruct (X l w rs) as [_ N]; [intros tid H; unfold ks; apply elem_of_list_to_set; exact H|exact R|exact N].
Qed.

Lemma kept_iff l w rs i tid t args ugid now : Forall real l -> none_stopped l -> all_installed rs -> few_tasks l -> wrun tbl J p tty w0 l = Some (w, rs) -> did l i (KEnter tid t args ugid now) ->
  (kept rs i <-> u32 (t_id t) <> 59 /\ reported (take i l) (t_pidns t) /\ asked flag (u32 (t_id t))).
Proof.
  intros F N A FT R D. split; [exact (kept_sound l w rs i tid t args ugid now F R D)|]. intros (N1 & N2 & N3).
  destruct (task_at _ _ _ _ _ _ _ _ _ _ R D) as (wi & Ri & E). eexists. split; [exact E|].
  destruct (real_did _ _ _ F D) as (_ & _ & _ & P).
  destruct (run_inv tbl J p tty h0 w0 (trace_one id flag) H0 eq_refl _ _ _ (real_take l i F) Ri) as (os & hrs & I).
  destruct (inv_metrics _ _ _ _ _ t (wrun_length _ _ _ _ _ _ _ _ Ri) I) as (os' & hrs' & I').
  pose proof (proj2 (verdict_exact' _ _ _ t (real_take l i F) Ri P (stopped_take l i N) (installed_take rs i A) _ _ _ I') (conj N2 N3)) as V.
  pose proof (enough_room l w rs FT R i _ E) as Room.
  assert (S : o_saved (kstep tbl (kernel_of wi) (KEnter tid t args ugid now)).2 <> None) by (apply saved_passes; split; [exact N1|exact V]).
  destruct (o_saved _) as [[]|]; [reflexivity|contradiction..].
Qed.

(** ** Calls that are left *)
Lemma sent_sound l w rs k tid t ret now cpu r e : Forall real l -> in_turn l -> wrun tbl J p tty w0 l = Some (w, rs) ->
  did l k (KExit tid t ret now cpu) -> rs !! k = Some (UTask r) -> o_event r = Some e ->
  cpu < 1024 /\ u32 (t_id t) <> 59 /\ asked flag (u32 (t_id t)) /\
  exists i t0 args ugid now0, a_call l i k tid t0 t args ugid now0 now ret cpu /\ t_id t0 = t_id t /\ reported (take i l) (t_pidns t0) /\
    e = KEvent tid ugid (u32 (t_id t)) now0 now (t_pidns t) args ret.
Proof.
  intros F T R D Hr He. destruct (proj1 (exit_iff _ _ _ _ _ _ _ _ _ _ _ _ _ _ _ _ w0_fresh R D Hr) He) as (Hc & i & t0 & args & ugid & now0 & Hik & Hi & Hs & Hj & Hid & ->).
  destruct (kept_sound _ _ _ _ _ _ _ _ _ F R Hi Hs) as (N1 & N2 & N3). rewrite Hid in N1, N3. split; [exact Hc|]. split; [exact N1|]. split; [exact N3|].
  exists i, t0, args, ugid, now0. split; [|split; [exact Hid|]; split; [exact N2|reflexivity]]. split; [exact Hik|]. split; [exact Hi|]. split; [exact D|].
  intros j Hjj. destruct (Hj j Hjj) as [A1 A2]. split; [|exact A1]. intros En.
  destruct (T tid i j (proj1 Hjj)) as (k' & [K1 K2] & Hk'); [exists t0, args, ugid, now0; exact Hi|exact En|].
  destruct (Hj k') as [B1 _]; [lia|]. exact (B1 Hk').
Qed.
Lemma sent_exit l w rs k tid t ret now cpu r e : Forall real l -> in_turn l -> none_stopped l -> all_installed rs -> few_tasks l -> wrun tbl J p tty w0 l = Some (w, rs) ->
  did l k (KExit tid t ret now cpu) -> rs !! k = Some (UTask r) ->
  (o_event r = Some e <->
   cpu < 1024 /\ u32 (t_id t) <> 59 /\ asked flag (u32 (t_id t)) /\
   exists i t0 args ugid now0, a_call l i k tid t0 t args ugid now0 now ret cpu /\ t_id t0 = t_id t /\ reported (take i l) (t_pidns t0) /\
     e = KEvent tid ugid (u32 (t_id t)) now0 now (t_pidns t) args ret).
Proof.
  intros F T N A FT R D Hr. split; [exact (sent_sound l w rs k tid t ret now cpu r e F T R D Hr)|].
  intros (Hc & N1 & N3 & i & t0 & args & ugid & now0 & (Hik & Hi & _ & Hj) & Hid & N2 & ->).
  apply (exit_iff _ _ _ _ _ _ _ _ _ _ _ _ _ _ _ _ w0_fresh R D Hr). split; [exact Hc|]. exists i, t0, args, ugid, now0. split; [exact Hik|]. split; [exact Hi|].
  split; [apply (kept_iff l w rs i tid t0 args ugid now0 F N A FT R Hi); rewrite Hid; split; [exact N1|]; split; assumption|].
  split; [|split; [exact Hid|reflexivity]]. intros j Hjj. destruct (Hj j Hjj) as [A1 A2]. split; [exact A2|]. intros [B _]. exact (A1 B).
Qed.

(** ** execve *)
Lemma execve_event s tid t args ugid now cpu e : o_event (kstep tbl s (KExecve tid t args ugid now cpu)).2 = Some e <->
  cpu < 1024 /\ (run_nfilter 2 t (ks_filter s)).2 <> 1 /\ e = KEvent tid ugid 59 now now (t_pidns t) args 0.
Proof.
  cbn [kstep]. unfold sys_execve, mode_syscall, action_drop. destruct (run_nfilter 2 t (ks_filter s)) as [f v]. cbn [snd]. unfold has_scratch.
  destruct (Z.eqb_spec v 1) as [->|V]; [cbn [snd o_event]; split; [discriminate|intros (_ & H & _); contradiction]|].
  destruct (Z.ltb_spec cpu 1024) as [C|C]; cbn [negb snd o_event].
  - split; [intros E; apply Some_inj in E; subst e; split; [exact C|]; split; [exact V|reflexivity]|intros (_ & _ & ->); reflexivity].
  - split; [discriminate|intros (H & _); lia].
Qed.
Lemma sent_execve_sound l w rs k tid t args ugid now cpu r e : Forall real l -> wrun tbl J p tty w0 l = Some (w, rs) ->
  did l k (KExecve tid t args ugid now cpu) -> rs !! k = Some (UTask r) -> o_event r = Some e ->
  cpu < 1024 /\ asked flag 59 /\ reported (take k l) (t_pidns t) /\ e = KEvent tid ugid 59 now now (t_pidns t) args 0.
Proof.
  intros F R D Hr He. destruct (task_at _ _ _ _ _ _ _ _ _ _ R D) as (wk & Rk & E). rewrite Hr in E. apply Some_inj, utask_inj in E. subst r.
  apply execve_event in He as (Hc & V & ->). destruct (real_did _ _ _ F D) as (_ & _ & _ & P & I59).
  destruct (run_inv tbl J p tty h0 w0 (trace_one id flag) H0 eq_refl _ _ _ (real_take l k F) Rk) as (os & hrs & I).
  destruct (verdict_sound _ _ _ t (real_take l k F) Rk P _ _ _ I V) as [E1 E2]. rewrite I59 in E2. split; [exact Hc|]. split; [exact E2|]. split; [exact E1|reflexivity].
Qed.
Lemma sent_execve l w rs k tid t args ugid now cpu r e : Forall real l -> none_stopped l -> all_installed rs -> wrun tbl J p tty w0 l = Some (w, rs) ->
  did l k (KExecve tid t args ugid now cpu) -> rs !! k = Some (UTask r) ->
  (o_event r = Some e <-> cpu < 1024 /\ asked flag 59 /\ reported (take k l) (t_pidns t) /\ e = KEvent tid ugid 59 now now (t_pidns t) args 0).
Proof.
  intros F N A R D Hr. split; [exact (sent_execve_sound l w rs k tid t args ugid now cpu r e F R D Hr)|]. intros (Hc & E2 & E1 & ->).
  destruct (task_at _ _ _ _ _ _ _ _ _ _ R D) as (wk & Rk & E). rewrite Hr in E. apply Some_inj, utask_inj in E. subst r.
  apply execve_event. split; [exact Hc|]. split; [|reflexivity]. destruct (real_did _ _ _ F D) as (_ & _ & _ & P & I59).
  destruct (run_inv tbl J p tty h0 w0 (trace_one id flag) H0 eq_refl _ _ _ (real_take l k F) Rk) as (os & hrs & I).
  apply (verdict_exact' _ _ _ t (real_take l k F) Rk P (stopped_take l k N) (installed_take rs k A) _ _ _ I). rewrite I59. split; [exact E1|exact E2].
Qed.
Lemma sent_from s o e : o_event (kstep tbl s o).2 = Some e ->
  (exists tid t ret now cpu, o = KExit tid t ret now cpu) \/ (exists tid t args ugid now cpu, o = KExecve tid t args ugid now cpu).
Proof.
  destruct o as [tid t args ugid now|tid t ret now cpu|tid t args ugid now cpu|o|ns]; intros H; [|left; eauto 6|right; eauto 7|discriminate H|discriminate H].
  exfalso. revert H. cbn [kstep]. unfold sys_enter. destruct (fill_metrics _ _ _). destruct (_ =? _); [discriminate|]. destruct (run_nfilter _ _ _). destruct (_ =? _); [discriminate|]. destruct (store _ _ _ _). discriminate.
Qed.
End trace.
