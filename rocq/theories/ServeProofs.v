(** Proofs about `swoll server`: the machine and the hub. *)
From Coq Require Import ZArith String Lia.
From stdpp Require Import base list numbers strings pretty gmap.
From Verif Require Import SyscallTable SyscallModel SyscallSpec SyscallProofs FilterModel FilterSpec FilterProofs
  HashModel HashTop HubModel HubSpec HubProofs HubEvents HubKernel HubTop HubDeliver KernelModel KernelSpec KernelProofs
  RawModel RawSpec RawProofs DecodeProofs CaptureModel CaptureSpec CaptureProofs LineModel LineSpec LineProofs LineTop DecodeModel MsgModel MsgSpec
  PlainModel PlainSpec PlainProofs LiveModel LiveSpec LiveProofs ServeModel ServeSpec ServeFrame.
From Verif Require PubSubModel WatchModel.

Local Open Scope string_scope.
Local Open Scope list_scope.
Local Open Scope Z_scope.
Local Opaque gSyscallMap gClassMap table emit.
Local Notation u32 := FilterModel.u32.
Local Notation s32 := FilterModel.s32.

Section serve.
Context (tbl : syscalls) (describe : HubModel.container -> TopoModel.container (list (string * string)))
  (srt : list PubSubModel.env -> list PubSubModel.env) (J : nat -> job).
Local Notation step := (sstep tbl describe srt J).
Local Notation run := (srun tbl describe srt J).

(** * Runs *)

Lemma srun_nil s s' rs : run s [] s' rs -> s' = s /\ rs = [].
Proof. intros R. inversion R as [|? l s1 rs1 o s2 r R1 S E0 E]; [split; reflexivity|]. destruct l; discriminate. Qed.
Lemma srun_snoc s l o s' rs : run s (l ++ [o]) s' rs -> exists s1 rs1 r, run s l s1 rs1 /\ step s1 o (Some (s', r)) /\ rs = rs1 ++ [r].
Proof.
  intros R. inversion R as [? E0 E|? l' s1 rs1 o' s2 r R1 S E0 E]; [destruct l; discriminate|]. apply app_inj_tail in E as [-> ->].
  exists s1, rs1, r. split; [exact R1|]. split; [exact S|reflexivity].
Qed.
Lemma srun_length s l s' rs : run s l s' rs -> length rs = length l.
Proof. intros R. induction R as [|s l s1 rs o s2 r R IH S]; [reflexivity|]. rewrite !app_length, IH. reflexivity. Qed.
Lemma srun_at s l s' rs k o : run s l s' rs -> l !! k = Some o ->
  exists sk sk' r, run s (take k l) sk (take k rs) /\ step sk o (Some (sk', r)) /\ rs !! k = Some r /\ run s (take (S k) l) sk' (take (S k) rs).
Proof.
  intros R. revert k o. induction R as [|s l s1 rs o' s2 r R IH S]; intros k o Hk; [rewrite lookup_nil in Hk; discriminate|].
  pose proof (srun_length _ _ _ _ R) as Len. apply lookup_snoc in Hk as [Hk|[-> ->]].
  - destruct (IH k o Hk) as (sk & sk' & rk & R1 & S1 & H1 & R2). pose proof (lookup_lt_Some _ _ _ Hk) as Lk. exists sk, sk', rk.
    rewrite !take_app_le by lia. split; [exact R1|]. split; [exact S1|]. split; [rewrite lookup_app_l by lia; exact H1|exact R2].
  - exists s1, s2, r. rewrite take_app, (take_app_alt rs [r] (length l)) by (symmetry; exact Len). split; [exact R|]. split; [exact S|]. split; [rewrite list_lookup_middle by (symmetry; exact Len); reflexivity|].
    rewrite !take_ge by (rewrite app_length; cbn [length]; lia). exact (sr_snoc _ _ _ _ _ _ _ _ _ _ _ R S).
Qed.
Lemma srun_out s l s' rs k r : run s l s' rs -> rs !! k = Some r ->
  exists o sk sk', l !! k = Some o /\ run s (take k l) sk (take k rs) /\ step sk o (Some (sk', r)) /\ run s (take (S k) l) sk' (take (S k) rs).
Proof.
  intros R H. pose proof (srun_length _ _ _ _ R) as Len. destruct (lookup_lt_is_Some_2 l k) as [o Ho]; [apply lookup_lt_Some in H; lia|].
  destruct (srun_at _ _ _ _ _ _ R Ho) as (sk & sk' & r' & R1 & S & Hr & R2). rewrite H in Hr. apply Some_inj in Hr. subst r'.
  exists o, sk, sk'. split; [exact Ho|]. split; [exact R1|]. split; [exact S|exact R2].
Qed.
Lemma srun_app s l2 : forall l1 s1 rs1 s2 rs2, run s l1 s1 rs1 -> run s1 l2 s2 rs2 -> run s (l1 ++ l2) s2 (rs1 ++ rs2).
Proof.
  induction l2 as [|o l2 IH] using rev_ind; intros l1 s1 rs1 s2 rs2 R1 R2.
  - apply srun_nil in R2 as [-> ->]. rewrite !app_nil_r. exact R1.
  - apply srun_snoc in R2 as (s3 & rs3 & r & R2 & S & ->). rewrite !app_assoc. eapply sr_snoc; [|exact S]. exact (IH _ _ _ _ _ R1 R2).
Qed.
Lemma srun_split s l s' rs k : run s l s' rs -> exists sk, run s (take k l) sk (take k rs) /\ run sk (drop k l) s' (drop k rs).
Proof.
  intros R. revert k. induction R as [|s l s1 rs o s2 r R IH S]; intros k.
  - exists s. rewrite !take_nil, !drop_nil. split; constructor.
  - pose proof (srun_length _ _ _ _ R) as Len. destruct (decide (k <= length l)%nat) as [Hk|Hk].
    + destruct (IH k) as (sk & R1 & R2). exists sk. rewrite !take_app_le, !drop_app_le by lia. split; [exact R1|]. exact (sr_snoc _ _ _ _ _ _ _ _ _ _ _ R2 S).
    + exists s2. rewrite !take_ge, !drop_ge by (rewrite app_length; cbn [length]; lia). split; [exact (sr_snoc _ _ _ _ _ _ _ _ _ _ _ R S)|constructor].
Qed.
Lemma srun_firsts s l s' rs q k : run s l s' rs -> (k <= q)%nat ->
  exists sk sq, run s (take k l) sk (take k rs) /\ run s (take q l) sq (take q rs) /\ run sk (take (q - k) (drop k l)) sq (take (q - k) (drop k rs)) /\ run sq (drop q l) s' (drop q rs).
Proof.
  intros R Hk. destruct (srun_split _ _ _ _ q R) as (sq & Rq & Rq'). destruct (srun_split _ _ _ _ k Rq) as (sk & Rk & Rk').
  rewrite !take_take, !(Nat.min_l k q) in Rk by exact Hk. exists sk, sq. split; [exact Rk|]. split; [exact Rq|]. split; [|exact Rq'].
  rewrite <- !skipn_firstn_comm in Rk' || idtac. rewrite !firstn_skipn_comm. replace (k + (q - k))%nat with q by lia. exact Rk'.
Qed.

Lemma step_do s o x : step s o x -> o <> SPublish -> sdo tbl describe srt J s o = x.
Proof. intros S N. inversion S; [reflexivity|]. subst. contradiction. Qed.

(** * The machine *)

(** A step that is none of the machine's business. *)
Lemma frame_other w o r h : (forall o' su sc tr lost, o <> STask o' su sc tr lost) -> (forall start c, o = SPod start c -> False) -> (forall i, o <> SRead i) ->
  (forall r', r <> VTask r') -> (forall k ps, r <> VRead k ps) -> frame tbl w (machine o) (outcome r) (with_hub w h).
Proof.
  intros A1 A2 A3 B1 B2.
  assert (C1 : forall r', outcome r <> UTask r') by (intros r'; destruct r; try discriminate; intros _; exact (B1 _ eq_refl)).
  assert (C2 : forall k ps line, outcome r <> URead k ps line) by (intros k ps line; destruct r; try discriminate; intros _; exact (B2 _ _ eq_refl)).
  destruct o; cbn [machine]; try (split; [reflexivity|reflexivity|reflexivity|split; [reflexivity|exact C2]|exact C1]); exfalso; [eapply A1; reflexivity|eapply A2; reflexivity|eapply A3; reflexivity].
Qed.
Lemma other_out s o s' r : step s o (Some (s', r)) -> (forall o' su sc tr lost, o <> STask o' su sc tr lost) -> (forall start c, o = SPod start c -> False) -> (forall i, o <> SRead i) ->
  (forall r', r <> VTask r') /\ (forall k ps, r <> VRead k ps) /\ exists h, sv_world s' = with_hub (sv_world s) h.
Proof.
  intros S A1 A2 A3. inversion S as [? ? _ E1 E2 E|? b path rest y _ _ _ _]; subst.
  2:{ split; [discriminate|]. split; [discriminate|]. eexists. reflexivity. }
  destruct o as [? ? ? ? ?|? ?|start ns|j start c|id|i| |p takes|a]; cbn [sdo] in E; try (exfalso; first [eapply A1; reflexivity|eapply A2; reflexivity|eapply A3; reflexivity]).
  - unfold meter_step in E. destruct (hstep J tbl _ _) as [[h r']| |]; [|discriminate..]. apply Some_inj, pair_equal_spec in E as [<- <-]. split; [discriminate|]. split; [discriminate|]. eexists. reflexivity.
  - unfold job_step in E. destruct (_ && _); [destruct (hstep J tbl _ _) as [[h []]| |]; [..|discriminate|discriminate]|]; apply Some_inj, pair_equal_spec in E as [<- <-]; (split; [discriminate|]; split; [discriminate|]; eexists; reflexivity).
  - unfold delete_step in E. destruct (busy s); [|destruct (hstep J tbl _ _) as [[h []]| |]; [..|discriminate|discriminate]]; apply Some_inj, pair_equal_spec in E as [<- <-]; (split; [discriminate|]; split; [discriminate|]; eexists; reflexivity).
  - apply Some_inj, pair_equal_spec in E as [<- <-]; (split; [discriminate|]; split; [discriminate|]; eexists; reflexivity).
  - unfold call_step, unless_crashed in E.
    destruct (sv_pub s) as [b|]; [|apply Some_inj, pair_equal_spec in E as [<- <-]; (split; [discriminate|]; split; [discriminate|]; eexists; reflexivity)].
    destruct (WatchModel.stall _); [apply Some_inj, pair_equal_spec in E as [<- <-]; (split; [discriminate|]; split; [discriminate|]; eexists; reflexivity)|].
    destruct (WatchModel.todo _) as [|w rest]; [apply Some_inj, pair_equal_spec in E as [<- <-]; (split; [discriminate|]; split; [discriminate|]; eexists; reflexivity)|].
    destruct (WatchModel.ws _ !! w) as [x|]; [|apply Some_inj, pair_equal_spec in E as [<- <-]; (split; [discriminate|]; split; [discriminate|]; eexists; reflexivity)].
    destruct (WatchModel.w_broken x).
    + destruct (WatchModel.crashed _); [discriminate|]. apply Some_inj, pair_equal_spec in E as [<- <-]; (split; [discriminate|]; split; [discriminate|]; eexists; reflexivity).
    + destruct (text_of _ _ _ _) as [text|]; [|discriminate]. destruct (WatchModel.crashed _); [discriminate|]. apply Some_inj, pair_equal_spec in E as [<- <-].
      split; [destruct (_ && _); discriminate|]. split; [destruct (_ && _); discriminate|]. eexists. reflexivity.
  - unfold client_step, unless_crashed in E. destruct a; try (apply Some_inj, pair_equal_spec in E as [<- <-]; (split; [discriminate|]; split; [discriminate|]; eexists; reflexivity));
      (destruct (WatchModel.crashed _); [discriminate|]); apply Some_inj, pair_equal_spec in E as [<- <-];
      (split; [|split; [|eexists; reflexivity]]; try discriminate).
    all: repeat match goal with |- context[match ?x with _ => _ end] => destruct x end; discriminate.
Qed.
Lemma read_step_cases s i s' r : step s (SRead i) (Some (s', r)) ->
  sv_sys s' = sv_sys s /\ ((s' = stays s /\ r = VNone /\ (busy s = true \/ w_ring (sv_world s) !! i = None)) \/
   (busy s = false /\ exists k bs, w_ring (sv_world s) !! i = Some (k, bs) /\
     ((ingest (InBytes bs) = IngestError /\ r = VRead k [] /\ sv_pub s' = None /\
       sv_world s' = World (w_hub (sv_world s)) (w_metrics (sv_world s)) (w_calls (sv_world s)) (w_cache (sv_world s)) (delete i (w_ring (sv_world s))) (S (w_now (sv_world s)))) \/
      exists t rw h ps, ingest (InBytes bs) = Ingested t /\ ingest_bytes bs = Some rw /\ nil_syscall tbl (sv_world s) t = false /\
        on_event J (w_hub (sv_world s)) (event_of tbl (sv_world s) t) = Ok (h, ps) /\ r = VRead k ps /\
        sv_world s' = World h (w_metrics (sv_world s)) (w_calls (sv_world s)) (w_cache (sv_world s)) (delete i (w_ring (sv_world s))) (S (w_now (sv_world s))) /\
        sv_pub s' = match w_cache (sv_world s) !! t_pid_ns t with Some c => Some (Publishing k t (r_args rw) c (map snd ps) []) | None => None end))).
Proof.
  intros S. pose proof (step_do _ _ _ S ltac:(discriminate)) as E. cbn [sdo] in E. unfold take_step in E.
  destruct (busy s) eqn:B. { apply Some_inj, pair_equal_spec in E as [<- <-]. split; [reflexivity|]. left. split; [reflexivity|]. split; [reflexivity|]. left. reflexivity. }
  destruct (w_ring (sv_world s) !! i) as [[k bs]|] eqn:Er.
  2:{ apply Some_inj, pair_equal_spec in E as [<- <-]. split; [reflexivity|]. left. split; [reflexivity|]. split; [reflexivity|]. right. reflexivity. }
  destruct (ingest (InBytes bs)) as [t| |] eqn:I; [| |destruct (ingest_bytes bs); discriminate].
  - destruct (ingest_bytes bs) as [rw|] eqn:Eb; [|discriminate]. destruct (nil_syscall tbl (sv_world s) t) eqn:N; [discriminate|].
    destruct (on_event J _ _) as [[h ps]| |] eqn:O; [|discriminate..]. apply Some_inj, pair_equal_spec in E as [<- <-]. split; [reflexivity|]. right. split; [reflexivity|]. exists k, bs. split; [reflexivity|]. right.
    exists t, rw, h, ps. split; [exact I|]. split; [exact Eb|]. split; [exact N|]. split; [exact O|]. split; [reflexivity|]. split; reflexivity.
  - assert (X : Some (Server (World (w_hub (sv_world s)) (w_metrics (sv_world s)) (w_calls (sv_world s)) (w_cache (sv_world s)) (delete i (w_ring (sv_world s))) (Datatypes.S (w_now (sv_world s)))) None (sv_sys s), VRead k []) = Some (s', r))
      by (destruct (ingest_bytes bs); exact E).
    apply Some_inj, pair_equal_spec in X as [<- <-]. split; [reflexivity|]. right. split; [reflexivity|]. exists k, bs. split; [reflexivity|]. left. split; [exact I|]. split; [reflexivity|]. split; reflexivity.
Qed.
Lemma step_frame s o s' r : step s o (Some (s', r)) -> frame tbl (sv_world s) (machine o) (outcome r) (sv_world s').
Proof.
  intros S. destruct o as [o su sc tr lost|start c|start ns|j start c|id|i| |p takes|a].
  - pose proof (step_do _ _ _ S ltac:(discriminate)) as E. cbn [sdo] in E. unfold task_step in E.
    pose proof (kstep_calls tbl (kernel_of (sv_world s)) o) as K. fold (kernel_of (sv_world s)) in E. destruct (kstep tbl (kernel_of (sv_world s)) o) as [ks kr] eqn:Ek.
    apply Some_inj, pair_equal_spec in E as [<- <-]. cbn [machine outcome with_world sv_world]. split.
    + reflexivity.
    + reflexivity.
    + exact K.
    + exists kr. split; reflexivity.
    + rewrite Ek. split; reflexivity.
  - pose proof (step_do _ _ _ S ltac:(discriminate)) as E. cbn [sdo] in E. apply Some_inj, pair_equal_spec in E as [<- <-]. cbn [machine outcome with_world sv_world]. split; try reflexivity; [split; [reflexivity|discriminate]|discriminate].
  - destruct (other_out _ _ _ _ S) as (B1 & B2 & h & ->); [discriminate..|]. apply frame_other; [discriminate..|exact B1|exact B2].
  - destruct (other_out _ _ _ _ S) as (B1 & B2 & h & ->); [discriminate..|]. apply frame_other; [discriminate..|exact B1|exact B2].
  - destruct (other_out _ _ _ _ S) as (B1 & B2 & h & ->); [discriminate..|]. apply frame_other; [discriminate..|exact B1|exact B2].
  - destruct (read_step_cases _ _ _ _ S) as (_ & [(-> & -> & _)|(_ & k & bs & Er & [(_ & -> & _ & ->)|(t & rw & h & ps & _ & _ & _ & _ & -> & -> & _)])]).
    + split; try reflexivity; [left; split; reflexivity|discriminate].
    + split; try reflexivity; [|discriminate]. right. exists k, bs. eexists _, _. split; [exact Er|]. split; reflexivity.
    + split; try reflexivity; [|discriminate]. right. exists k, bs. eexists _, _. split; [exact Er|]. split; reflexivity.
  - destruct (other_out _ _ _ _ S) as (B1 & B2 & h & ->); [discriminate..|]. apply frame_other; [discriminate..|exact B1|exact B2].
  - destruct (other_out _ _ _ _ S) as (B1 & B2 & h & ->); [discriminate..|]. apply frame_other; [discriminate..|exact B1|exact B2].
  - destruct (other_out _ _ _ _ S) as (B1 & B2 & h & ->); [discriminate..|]. apply frame_other; [discriminate..|exact B1|exact B2].
Qed.
Lemma srun_framed s l s' rs : run s l s' rs -> framed tbl (sv_world s) (story l) (sv_world s') (outcomes rs).
Proof.
  intros R. induction R as [s|s l s1 rs o s2 r R IH S]; [constructor|]. unfold story, outcomes. rewrite !map_app. eapply fr_snoc; [exact IH|exact (step_frame _ _ _ _ S)].
Qed.

(** * The hub *)

(** What a client does leaves the world alone. *)
Definition clients_only (o : sop) : Prop := match o with SPublish | SCall _ _ | SClient _ => True | _ => False end.
Lemma same_hub s o s' r : step s o (Some (s', r)) -> clients_only o ->
  w_hub (sv_world s') = w_hub (sv_world s) /\ (forall n ok, r <> VMatched n ok) /\ (forall b, r <> VDeleted b).
Proof.
  intros S Co. assert (X : sv_world s' = with_hub (sv_world s) (w_hub (sv_world s)) /\ (forall n ok, r <> VMatched n ok) /\ (forall b, r <> VDeleted b)).
  2:{ destruct X as [-> X]. split; [reflexivity|exact X]. }
  inversion S as [? ? _ E1 E2 E|? b path rest y _ _ _ _]; subst.
  2:{ split; [reflexivity|]. split; discriminate. }
  destruct o as [? ? ? ? ?|? ?|start ns|j start c|id|i| |p takes|a]; cbn [sdo] in E; try contradiction Co.
  - apply Some_inj, pair_equal_spec in E as [<- <-]; (split; [reflexivity|]; split; discriminate).
  - unfold call_step, unless_crashed in E.
    destruct (sv_pub s) as [b|]; [|apply Some_inj, pair_equal_spec in E as [<- <-]; (split; [reflexivity|]; split; discriminate)].
    destruct (WatchModel.stall _); [apply Some_inj, pair_equal_spec in E as [<- <-]; (split; [reflexivity|]; split; discriminate)|].
    destruct (WatchModel.todo _) as [|w rest]; [apply Some_inj, pair_equal_spec in E as [<- <-]; (split; [reflexivity|]; split; discriminate)|].
    destruct (WatchModel.ws _ !! w) as [x|]; [|apply Some_inj, pair_equal_spec in E as [<- <-]; (split; [reflexivity|]; split; discriminate)].
    destruct (WatchModel.w_broken x).
    + destruct (WatchModel.crashed _); [discriminate|]. apply Some_inj, pair_equal_spec in E as [<- <-]; (split; [reflexivity|]; split; discriminate).
    + destruct (text_of _ _ _ _) as [text|]; [|discriminate]. destruct (WatchModel.crashed _); [discriminate|]. apply Some_inj, pair_equal_spec in E as [<- <-].
      split; [reflexivity|]. split; destruct (_ && _); discriminate.
  - unfold client_step, unless_crashed in E. destruct a; try (apply Some_inj, pair_equal_spec in E as [<- <-]; (split; [reflexivity|]; split; discriminate));
      (destruct (WatchModel.crashed _); [discriminate|]); apply Some_inj, pair_equal_spec in E as [<- <-];
      (split; [reflexivity|]; split; try discriminate).
    all: repeat match goal with |- context[match ?x with _ => _ end] => destruct x end; discriminate.
Qed.

Lemma in_force_snoc l rs o r ns nr m i j : length rs = length l ->
  in_force J (l ++ [o]) (rs ++ [r]) ns nr m i j <->
  (in_force J l rs ns nr m i j /\ (forall b, o = SDelete (j_id (J j)) -> r <> VDeleted b)) \/
  (m = length l /\ exists c n ok name, o = SJob j true c /\ r = VMatched n ok /\ ct_ns c = ns /\ selects (J j) (ct_name c) /\
     j_calls (J j) !! i = Some name /\ names_call name nr /\ (ok = true \/ (i < n)%nat)).
Proof.
  intros L. split.
  - intros (c & n & ok & name & H1 & H2 & H3 & H4 & H5 & H6 & H7 & H8).
    apply lookup_snoc in H1 as [H1|[-> H1]].
    + left. pose proof (lookup_lt_Some _ _ _ H1) as Lm. apply lookup_snoc in H2 as [H2|[E _]]; [|lia]. split.
      * exists c, n, ok, name. split; [exact H1|]. split; [exact H2|]. split; [exact H3|]. split; [exact H4|]. split; [exact H5|]. split; [exact H6|]. split; [exact H7|].
        intros q b Hq Hl Hr. apply (H8 q b Hq); apply lookup_snoc; left; assumption.
      * intros b -> ->. apply (H8 (length l) b Lm); apply lookup_snoc; right; [split; reflexivity|]. split; [symmetry; exact L|reflexivity].
    + right. split; [reflexivity|]. apply lookup_snoc in H2 as [H2|[_ H2]]; [apply lookup_lt_Some in H2; lia|].
      exists c, n, ok, name. split; [exact H1|]. split; [exact H2|]. split; [exact H3|]. split; [exact H4|]. split; [exact H5|]. split; [exact H6|exact H7].
  - intros [[(c & n & ok & name & H1 & H2 & H3 & H4 & H5 & H6 & H7 & H8) N]|(-> & c & n & ok & name & -> & -> & H3 & H4 & H5 & H6 & H7)].
    + exists c, n, ok, name. split; [apply lookup_snoc; left; exact H1|]. split; [apply lookup_snoc; left; exact H2|]. split; [exact H3|]. split; [exact H4|]. split; [exact H5|]. split; [exact H6|]. split; [exact H7|].
      intros q b Hq Hl Hr. apply lookup_snoc in Hl as [Hl|[-> Hl]]; apply lookup_snoc in Hr as [Hr|[E Hr]].
      * exact (H8 q b Hq Hl Hr).
      * apply lookup_lt_Some in Hl. lia.
      * apply lookup_lt_Some in Hr. lia.
      * exact (N b Hl Hr).
    + exists c, n, ok, name. split; [apply lookup_snoc; right; split; reflexivity|]. split; [apply lookup_snoc; right; split; [symmetry; exact L|reflexivity]|]. split; [exact H3|]. split; [exact H4|]. split; [exact H5|]. split; [exact H6|]. split; [exact H7|].
      intros q b Hq Hl. exfalso. apply lookup_lt_Some in Hl. rewrite app_length in Hl. cbn [length] in Hl. lia.
Qed.
Lemma in_force_lt l rs ns nr m i j : in_force J l rs ns nr m i j -> (m < length l)%nat.
Proof. intros (c & n & ok & name & H1 & _). exact (lookup_lt_Some _ _ _ H1). Qed.

Lemma started_known : forall cs j ns h n h' n' ok, start_calls J tbl cs j ns h n = Ok (h', (n', ok)) ->
  forall i, (ok = true \/ (n + i < n')%nat) -> cs !! i <> Some None.
Proof.
  induction cs as [|[nr|] cs IH]; intros j ns h n h' n' ok E i Hi; [discriminate| |discriminate]. cbn [start_calls] in E.
  destruct (HubModel.install J tbl _ j ns nr) as [[m []]| |]; [| |discriminate..].
  - destruct i as [|i]; [discriminate|]. apply (IH _ _ _ _ _ _ _ E i). destruct Hi as [->|Hi]; [left; reflexivity|right; lia].
  - injection E as _ <- <-. destruct i as [|i]; [discriminate|]. destruct Hi as [Hi|Hi]; [discriminate|lia].
Qed.
Lemma nrs_at : forall (cs : list (option Z)) (n i : nat) (nr : Z), (forall i : nat, (i < n)%nat -> cs !! i <> Some None) -> (i < n)%nat ->
  omap id cs !! i = Some nr <-> cs !! i = Some (Some nr).
Proof.
  induction cs as [|[x|] cs IH]; intros n i nr K Hi; [split; discriminate| |].
  - cbn [omap list_omap id]. destruct i as [|i]; [cbn; split; [intros E; apply Some_inj in E; subst; reflexivity|intros E; injection E as <-; reflexivity]|].
    cbn [lookup list_lookup]. apply (IH (pred n)); [|lia]. intros i' Hi'. exact (K (S i') ltac:(lia)).
  - destruct (K 0%nat ltac:(lia)). reflexivity.
Qed.
Lemma start_nrs h j c h' n ok i nr : go_table tbl -> on_start J tbl h j c = Ok (h', (n, ok)) -> selects (J j) (ct_name c) ->
  (if ok then job_nrs tbl (J j) else take n (job_nrs tbl (J j))) !! i = Some nr <->
  exists name, j_calls (J j) !! i = Some name /\ names_call name nr /\ (ok = true \/ (i < n)%nat).
Proof.
  intros G E Sel. unfold on_start in E. rewrite (proj2 (host_selected_spec _ _) Sel) in E.
  pose proof (started_known _ _ _ _ _ _ _ _ E) as K. cbn [Nat.add] in K. clear E.
  assert (X : forall i nr, (ok = true \/ (i < n)%nat) -> job_nrs tbl (J j) !! i = Some nr <-> exists name, j_calls (J j) !! i = Some name /\ names_call name nr).
  { intros i0 nr0 Hi. rewrite <- calls_nrs. rewrite (nrs_at _ (S i0)).
    - unfold calls_of. rewrite list_lookup_fmap. split.
      + intros H. apply fmap_Some in H as (name & Hn & H). exists name. split; [exact Hn|]. rewrite (go_table_eq _ G) in H.
        destruct (lookup_sc table (ByString name)) as [sc|] eqn:Hs; [|discriminate]. cbn in H. apply Some_inj in H. subst nr0. exact (lookup_names _ _ Hs).
      + intros (name & Hn & H). rewrite Hn. cbn [fmap option_fmap option_map]. rewrite (go_table_eq _ G). destruct (names_lookup _ _ H) as (sc & -> & <-). reflexivity.
    - intros i' Hi'. apply K. destruct Hi as [->|Hi]; [left; reflexivity|right; lia].
    - lia. }
  destruct ok.
  - rewrite X by (left; reflexivity). split; [intros (name & H1 & H2); exists name; split; [exact H1|]; split; [exact H2|left; reflexivity]|intros (name & H1 & H2 & _); exists name; split; assumption].
  - destruct (decide (i < n)%nat) as [Hi|Hi].
    + rewrite lookup_take by exact Hi. rewrite X by (right; exact Hi). split; [intros (name & H1 & H2); exists name; split; [exact H1|]; split; [exact H2|right; exact Hi]|intros (name & H1 & H2 & _); exists name; split; assumption].
    + rewrite lookup_take_ge by lia. split; [discriminate|]. intros (name & _ & _ & [H|H]); [discriminate|lia].
Qed.

Lemma nodup_filter {A B} (P : A * B -> Prop) `{forall x, Decision (P x)} (T : list (A * B)) : NoDup (map fst T) -> NoDup (map fst (filter P T)).
Proof.
  induction T as [|x T IH]; intros N; [exact N|]. cbn [map] in N. apply NoDup_cons in N as [N1 N2]. rewrite filter_cons. destruct (decide (P x)); [|exact (IH N2)]. cbn [map]. apply NoDup_cons. split; [|exact (IH N2)].
  intros Hin. apply N1. apply elem_of_list_fmap in Hin as (y & E & Hy). apply elem_of_list_filter in Hy as [_ Hy]. apply elem_of_list_fmap. exists y. split; assumption.
Qed.

(** [T]: the registrations in order, each with the step and the position it stems from. *)
Record hub_inv (h0 : hub) (l : list sop) (rs : list sout) (h : hub) (os : list hop) (hrs : list hout) (T : list ((nat * nat) * HubSpec.reg)) : Prop := {
  hi_run : hrun J tbl h0 os = Ok (h, hrs);
  hi_ops : Forall kernel_op os;
  hi_pushes : no_pushes os;
  hi_stops : nothing_stopped l -> no_stops os;
  hi_ok : everything_installed rs -> updates_ok hrs;
  hi_regs : registrations J tbl os hrs = map snd T;
  hi_nodup : NoDup (map fst T);
  hi_force : forall m i g, ((m, i), g) ∈ T <-> in_force J l rs (g_ns g) (g_nr g) m i (g_job g)
}.

Lemma stopped_app l k : nothing_stopped (l ++ k) -> nothing_stopped l.
Proof. intros N j c Hc. apply (N j c), elem_of_app. left. exact Hc. Qed.
Lemma installed_app l k : everything_installed (l ++ k) -> everything_installed l.
Proof. intros N n Hc. apply (N n), elem_of_app. left. exact Hc. Qed.

Lemma hub_plain h0 l rs h os hrs T o r os2 hrs2 h2 : hub_inv h0 l rs h os hrs T -> length rs = length l ->
  hrun J tbl h os2 = Ok (h2, hrs2) -> Forall plain_op os2 -> (forall j c, o = SJob j true c -> forall n ok, r <> VMatched n ok) -> (forall b, r <> VDeleted b) ->
  hub_inv h0 (l ++ [o]) (rs ++ [r]) h2 (os ++ os2) (hrs ++ hrs2) T.
Proof.
  intros [H1 H2 H3 H4 H5 H6 H7 H8] L R F N1 N2. split.
  - eapply hrun_join; [exact H1|exact R].
  - apply Forall_app. split; [exact H2|]. eapply Forall_impl; [exact F|]. intros x P. destruct x; cbn [plain_op] in P; try contradiction P; exact P.
  - intros j ns nr Hin. apply elem_of_app in Hin as [Hin|Hin]; [exact (H3 _ _ _ Hin)|]. rewrite Forall_forall in F. exact (F _ Hin).
  - intros N j c Hin. apply elem_of_app in Hin as [Hin|Hin]; [exact (H4 (stopped_app _ _ N) j c Hin)|]. rewrite Forall_forall in F. exact (F _ Hin).
  - intros A n Hin. apply elem_of_app in Hin as [Hin|Hin]; [exact (H5 (installed_app _ _ A) n Hin)|]. exact (plain_out J tbl os2 h h2 hrs2 F R n false Hin).
  - rewrite registrations_app by exact (hrun_len _ _ _ _ _ _ H1). rewrite (plain_regs J tbl os2 hrs2 _ F). exact H6.
  - exact H7.
  - intros m i g. rewrite H8, in_force_snoc by exact L. split.
    + intros H. left. split; [exact H|]. intros b _. apply N2.
    + intros [[H _]|(_ & c & n & ok & name & E1 & E2 & _)]; [exact H|]. destruct (N1 _ _ E1 _ _ E2).
Qed.

Lemma hub_run h0 w0 : go_table tbl -> new_hub tbl = Some h0 -> w_hub (sv_world w0) = h0 ->
  forall l s rs, Forall plausible l -> run w0 l s rs -> exists os hrs T, hub_inv h0 l rs (w_hub (sv_world s)) os hrs T.
Proof.
  intros G H0 E0 l. induction l as [|o l IH] using rev_ind; intros s rs F R.
  - apply srun_nil in R as [-> ->]. rewrite E0. exists [], [], []. split; [reflexivity|constructor|intros j ns nr H; apply not_elem_of_nil in H; exact H|intros _ j c H; apply not_elem_of_nil in H; exact H|intros _ n H; apply not_elem_of_nil in H; exact H|reflexivity|constructor|].
    intros m i g. split; [intros H; apply not_elem_of_nil in H; contradiction|]. intros H. apply in_force_lt in H. cbn [length] in H. lia.
  - apply Forall_app in F as [F Fo]. apply Forall_cons in Fo as [Fo _]. apply srun_snoc in R as (s1 & rs1 & r & R & S & ->). destruct (IH s1 rs1 F R) as (os & hrs & T & I).
    pose proof (srun_length _ _ _ _ R) as L.
    assert (Still : w_hub (sv_world s) = w_hub (sv_world s1) -> (forall j c, o = SJob j true c -> forall n ok, r <> VMatched n ok) -> (forall b, r <> VDeleted b) ->
      exists os hrs T, hub_inv h0 (l ++ [o]) (rs1 ++ [r]) (w_hub (sv_world s)) os hrs T).
    { intros -> N1 N2. exists (os ++ []), (hrs ++ []), T. eapply hub_plain; [exact I|exact L|reflexivity|constructor|exact N1|exact N2]. }
    destruct o as [o su sc tr lost|start c|start ns|j start c|id|i| |p takes|a].
    + pose proof (step_do _ _ _ S ltac:(discriminate)) as E. cbn [sdo] in E. unfold task_step in E. destruct Fo as ((Fo & _) & _).
      destruct (task_hub J tbl (w_hub (sv_world s1)) (w_metrics (sv_world s1)) (w_calls (sv_world s1)) o) as (os2 & hrs2 & R2 & C2); [intros u ->; exact Fo|].
      destruct (kstep tbl _ o) as [s' r']. apply Some_inj, pair_equal_spec in E as [<- <-]. cbn [fst snd w_hub sv_world with_world] in R2 |- *.
      exists (os ++ os2), (hrs ++ hrs2), T. eapply hub_plain; [exact I|exact L|exact R2|exact (consult_plain _ C2)|discriminate|discriminate].
    + pose proof (step_do _ _ _ S ltac:(discriminate)) as E. cbn [sdo] in E. apply Some_inj, pair_equal_spec in E as [<- <-]. apply Still; [reflexivity|discriminate..].
    + pose proof (step_do _ _ _ S ltac:(discriminate)) as E. cbn [sdo] in E. unfold meter_step in E. destruct (hstep J tbl _ _) as [[h2 r2]| |] eqn:E2; [|discriminate..]. apply Some_inj, pair_equal_spec in E as [<- <-].
      exists (os ++ [if start then OMetricsAdd ns else OMetricsRemove ns]), (hrs ++ [r2]), T. eapply hub_plain; [exact I|exact L| | |discriminate|discriminate].
      * cbn [hrun]. rewrite E2. reflexivity.
      * constructor; [destruct start; exact Logic.I|constructor].
    + pose proof (step_do _ _ _ S ltac:(discriminate)) as E. cbn [sdo] in E. unfold job_step in E. destruct Fo as [_ Fo].
      destruct (Z.ltb_spec 0 (ct_ns c)) as [P|P]; cbn [andb] in E; [|apply Some_inj, pair_equal_spec in E as [<- <-]; apply Still; [reflexivity|discriminate..]].
      destruct (negb _); [|apply Some_inj, pair_equal_spec in E as [<- <-]; apply Still; [reflexivity|discriminate..]].
      destruct start.
      * destruct (hstep J tbl _ (OStart j c)) as [[h2 r2]| |] eqn:E2; [|discriminate..].
        assert (exists n ok, r2 = RStarted n ok /\ on_start J tbl (w_hub (sv_world s1)) j c = Ok (h2, (n, ok))) as (n & ok & -> & On).
        { cbn [hstep] in E2. destruct (on_start J tbl _ j c) as [[h3 [n ok]]| |]; [|discriminate..]. injection E2 as <- <-. eauto. }
        apply Some_inj, pair_equal_spec in E as [<- <-]. cbn [w_hub with_hub sv_world with_world]. destruct I as [H1 H2 H3 H4 H5 H6 H7 H8].
        set (nrs := if ok then job_nrs tbl (J j) else take n (job_nrs tbl (J j))).
        exists (os ++ [OStart j c]), (hrs ++ [RStarted n ok]), (T ++ if decide (selects (J j) (ct_name c)) then imap (fun i nr => ((length l, i), HubSpec.Reg j (ct_ns c) nr)) nrs else []). split.
        -- eapply hrun_join; [exact H1|]. cbn [hrun]. rewrite E2. reflexivity.
        -- apply Forall_app. split; [exact H2|]. constructor; [|constructor]. cbn [kernel_op]. unfold kernel_ns. lia.
        -- intros j' ns nr Hin. apply elem_of_app in Hin as [Hin|Hin]; [exact (H3 _ _ _ Hin)|]. apply elem_of_list_singleton in Hin. discriminate.
        -- intros N j' c' Hin. apply elem_of_app in Hin as [Hin|Hin]; [exact (H4 (stopped_app _ _ N) j' c' Hin)|]. apply elem_of_list_singleton in Hin. discriminate.
        -- intros A n' Hin. apply elem_of_app in Hin as [Hin|Hin]; [exact (H5 (installed_app _ _ A) n' Hin)|].
           apply elem_of_list_singleton in Hin. injection Hin as -> <-. apply (A n), elem_of_app. right. left.
        -- rewrite registrations_app by exact (hrun_len _ _ _ _ _ _ H1). cbn [zip zip_with fold_left reg_step]. fold nrs. rewrite H6, map_app. destruct (decide _).
           ++ f_equal. change (map snd) with (fmap (M:=list) (@snd (nat * nat) HubSpec.reg)). rewrite fmap_imap. symmetry. etransitivity; [|apply imap_const]. reflexivity.
           ++ rewrite app_nil_r. reflexivity.
        -- rewrite map_app. apply NoDup_app. split; [exact H7|]. split.
           ++ intros [m i] Hm Hn. apply elem_of_list_fmap in Hm as ([[m' i'] g] & Em & Hm). cbn [fst] in Em. injection Em as <- <-. apply H8, in_force_lt in Hm.
              destruct (decide _); [|apply not_elem_of_nil in Hn; exact Hn]. apply elem_of_list_fmap in Hn as ([[m' i'] g'] & En & Hn). cbn [fst] in En. injection En as <- <-.
              apply elem_of_lookup_imap in Hn as (i'' & nr & En & _). injection En as -> _ _. lia.
           ++ destruct (decide _); [|constructor]. change (map fst) with (fmap (M:=list) (@fst (nat * nat) HubSpec.reg)). rewrite fmap_imap. apply NoDup_alt.
              intros a b x Ha Hb. rewrite list_lookup_imap in Ha, Hb. destruct (nrs !! a) as [na|]; [|discriminate]. destruct (nrs !! b) as [nb|]; [|discriminate]. cbn in Ha, Hb. congruence.
        -- intros m i [gj gns gnr]. cbn [g_ns g_nr g_job]. rewrite in_force_snoc by exact L. rewrite elem_of_app, H8. cbn [g_ns g_nr g_job]. split.
           ++ intros [H|H]; [left; split; [exact H|discriminate]|]. destruct (decide _) as [Sel|]; [|apply not_elem_of_nil in H; contradiction]. apply elem_of_lookup_imap in H as (i' & nr & E & Hi).
              injection E as -> -> -> -> ->. right. split; [reflexivity|]. apply (start_nrs _ _ _ _ _ _ _ _ G On Sel) in Hi as (name & Hn & Hc & Ho). exists c, n, ok, name. split; [reflexivity|]. split; [reflexivity|]. split; [reflexivity|]. split; [exact Sel|]. split; [exact Hn|]. split; [exact Hc|exact Ho].
           ++ intros [[H _]|(-> & c' & n' & ok' & name & E1 & E3 & <- & Sel & Hn & Hc & Ho)]; [left; exact H|]. right. injection E1 as <- <-. injection E3 as <- <-. rewrite decide_True by exact Sel.
              apply elem_of_lookup_imap. exists i, gnr. split; [reflexivity|]. apply (start_nrs _ _ _ _ _ _ _ _ G On Sel). exists name. split; [exact Hn|]. split; [exact Hc|exact Ho].
      * destruct (hstep J tbl _ (OStop j c)) as [[h2 r2]| |] eqn:E2; [|discriminate..].
        assert (r2 = RNone) as ->. { cbn [hstep] in E2. destruct (on_stop J tbl _ j c) as [h3| |]; [|discriminate..]. injection E2 as <- <-. reflexivity. }
        apply Some_inj, pair_equal_spec in E as [<- <-]. cbn [w_hub with_hub sv_world with_world]. exists (os ++ [OStop j c]), (hrs ++ [RNone]), T. destruct I as [H1 H2 H3 H4 H5 H6 H7 H8]. split.
        -- eapply hrun_join; [exact H1|]. cbn [hrun]. rewrite E2. reflexivity.
        -- apply Forall_app. split; [exact H2|]. constructor; [|constructor]. cbn [kernel_op]. unfold kernel_ns. lia.
        -- intros j' ns nr Hin. apply elem_of_app in Hin as [Hin|Hin]; [exact (H3 _ _ _ Hin)|]. apply elem_of_list_singleton in Hin. discriminate.
        -- intros N. exfalso. apply (N j c), elem_of_app. right. left.
        -- intros A n' Hin. apply elem_of_app in Hin as [Hin|Hin]; [exact (H5 (installed_app _ _ A) n' Hin)|]. apply elem_of_list_singleton in Hin. discriminate.
        -- rewrite registrations_app by exact (hrun_len _ _ _ _ _ _ H1). exact H6.
        -- exact H7.
        -- intros m i g. rewrite H8, in_force_snoc by exact L. split; [intros H; left; split; [exact H|discriminate]|]. intros [[H _]|(_ & ? & ? & ? & ? & E1 & _)]; [exact H|discriminate].
    + pose proof (step_do _ _ _ S ltac:(discriminate)) as E. cbn [sdo] in E. unfold delete_step in E.
      destruct (busy s1); [apply Some_inj, pair_equal_spec in E as [<- <-]; apply Still; [reflexivity|discriminate..]|].
      destruct (delete_exact J tbl h0 os _ hrs id H0 (hi_run _ _ _ _ _ _ _ I)) as (h2 & b & E2 & _). rewrite E2 in E.
      apply Some_inj, pair_equal_spec in E as [<- <-]. cbn [w_hub with_hub sv_world with_world]. exists (os ++ [ODelete id]), (hrs ++ [RDeleted b]), (filter (fun x => j_id (J (g_job (snd x))) <> id) T). destruct I as [H1 H2 H3 H4 H5 H6 H7 H8]. split.
      * eapply hrun_join; [exact H1|]. cbn [hrun]. rewrite E2. reflexivity.
      * apply Forall_app. split; [exact H2|]. constructor; [exact Logic.I|constructor].
      * intros j' ns nr Hin. apply elem_of_app in Hin as [Hin|Hin]; [exact (H3 _ _ _ Hin)|]. apply elem_of_list_singleton in Hin. discriminate.
      * intros N j' c' Hin. apply elem_of_app in Hin as [Hin|Hin]; [exact (H4 (stopped_app _ _ N) j' c' Hin)|]. apply elem_of_list_singleton in Hin. discriminate.
      * intros A n' Hin. apply elem_of_app in Hin as [Hin|Hin]; [exact (H5 (installed_app _ _ A) n' Hin)|]. apply elem_of_list_singleton in Hin. discriminate.
      * rewrite registrations_app by exact (hrun_len _ _ _ _ _ _ H1). cbn [zip zip_with fold_left reg_step]. rewrite H6. clear. induction T as [|x T IH]; [reflexivity|]. cbn [map]. rewrite !filter_cons. destruct (decide _); cbn [map]; rewrite IH; reflexivity.
      * exact (nodup_filter _ T H7).
      * intros m i g. rewrite elem_of_list_filter, H8, in_force_snoc by exact L. cbn [snd]. split.
        -- intros [N H]. left. split; [exact H|]. intros b' E _. injection E as E. exact (N (eq_sym E)).
        -- intros [[H N]|(_ & ? & ? & ? & ? & E1 & _)]; [|discriminate]. split; [|exact H]. intros <-. exact (N b eq_refl eq_refl).
    + destruct (read_step_cases _ _ _ _ S) as (_ & [(-> & -> & _)|(_ & k & bs & Er & [(_ & -> & _ & Ew)|(t & rw & h & ps & _ & _ & _ & Oe & -> & Ew & _)])]).
      * apply Still; [reflexivity|discriminate..].
      * apply Still; [rewrite Ew; reflexivity|discriminate..].
      * rewrite Ew. cbn [w_hub]. exists (os ++ [OEvent (event_of tbl (sv_world s1) t)]), (hrs ++ [RPublished ps]), T. eapply hub_plain; [exact I|exact L| | |discriminate|discriminate].
        -- cbn [hrun hstep]. rewrite Oe. reflexivity.
        -- constructor; [exact Logic.I|constructor].
    + destruct (same_hub _ _ _ _ S) as (Ew & N1 & N2); [exact Logic.I|]. apply Still; [exact Ew|discriminate|exact N2].
    + destruct (same_hub _ _ _ _ S) as (Ew & N1 & N2); [exact Logic.I|]. apply Still; [exact Ew|discriminate|exact N2].
    + destruct (same_hub _ _ _ _ S) as (Ew & N1 & N2); [exact Logic.I|]. apply Still; [exact Ew|discriminate|exact N2].
Qed.

(** Registrations and jobs in force. *)
Lemma regs_force h0 l rs h os hrs T ns nr g : hub_inv h0 l rs h os hrs T ->
  g ∈ regs_at ns nr (registrations J tbl os hrs) <-> exists m i, in_force J l rs ns nr m i (g_job g) /\ g = HubSpec.Reg (g_job g) ns nr.
Proof.
  intros I. unfold regs_at. rewrite elem_of_list_filter, (hi_regs _ _ _ _ _ _ _ I). split.
  - intros [[<- <-] H]. apply elem_of_list_fmap in H as ([[m i] g'] & E & H). cbn [snd] in E. subst g'. apply (hi_force _ _ _ _ _ _ _ I) in H. exists m, i. split; [exact H|]. destruct g; reflexivity.
  - intros (m & i & H & E). rewrite E. cbn [g_ns g_nr]. split; [split; reflexivity|]. apply elem_of_list_fmap. exists ((m, i), HubSpec.Reg (g_job g) ns nr). split; [reflexivity|]. apply (hi_force _ _ _ _ _ _ _ I). exact H.
Qed.
Lemma regs_demanded h0 l rs h os hrs T ns nr : hub_inv h0 l rs h os hrs T ->
  regs_at ns nr (registrations J tbl os hrs) <> [] <-> demanded J l rs ns nr.
Proof.
  intros I. split.
  - intros H. destruct (regs_at ns nr (registrations J tbl os hrs)) as [|g gs] eqn:E; [contradiction|].
    assert (Hg : g ∈ regs_at ns nr (registrations J tbl os hrs)) by (rewrite E; left). apply (regs_force _ _ _ _ _ _ _ _ _ _ I) in Hg as (m & i & H' & _). exists m, i, (g_job g). exact H'.
  - intros (m & i & j & H) E. assert (Hg : HubSpec.Reg j ns nr ∈ regs_at ns nr (registrations J tbl os hrs)) by (apply (regs_force _ _ _ _ _ _ _ _ _ _ I); exists m, i; split; [exact H|reflexivity]).
    rewrite E in Hg. apply not_elem_of_nil in Hg. exact Hg.
Qed.
Lemma regs_times h0 l rs h os hrs T ns nr id n : hub_inv h0 l rs h os hrs T ->
  times_in_force J l rs ns nr id n <-> n = length (regs_of J id (regs_at ns nr (registrations J tbl os hrs))).
Proof.
  intros I. rewrite (hi_regs _ _ _ _ _ _ _ I).
  set (P := fun x : (nat * nat) * HubSpec.reg => j_id (J (g_job (snd x))) = id /\ g_ns (snd x) = ns /\ g_nr (snd x) = nr).
  assert (Len : length (regs_of J id (regs_at ns nr (map snd T))) = length (map fst (filter P T))).
  { rewrite map_length. unfold regs_of, regs_at, P. generalize T. clear. intros T. induction T as [|x T IH]; [reflexivity|]. cbn [map]. rewrite !filter_cons.
    destruct (decide (g_ns (snd x) = ns /\ g_nr (snd x) = nr)) as [H1|H1].
    - rewrite filter_cons. destruct (decide (j_id (J (g_job (snd x))) = id)) as [H2|H2].
      + rewrite decide_True by (split; assumption). cbn [length]. rewrite IH. reflexivity.
      + rewrite decide_False by (intros [H _]; exact (H2 H)). exact IH.
    - rewrite decide_False by (intros [_ H]; exact (H1 H)). exact IH. }
  assert (N : NoDup (map fst (filter P T))) by exact (nodup_filter P T (hi_nodup _ _ _ _ _ _ _ I)).
  assert (M : forall m i, (m, i) ∈ map fst (filter P T) <-> exists j, in_force J l rs ns nr m i j /\ j_id (J j) = id).
  { intros m i. split.
    - intros H. apply elem_of_list_fmap in H as ([[m' i'] g] & E & H). cbn [fst] in E. injection E as <- <-. apply elem_of_list_filter in H as [(H1 & <- & <-) H]. cbn [snd] in *. apply (hi_force _ _ _ _ _ _ _ I) in H. exists (g_job g). split; assumption.
    - intros (j & H & E). apply elem_of_list_fmap. exists ((m, i), HubSpec.Reg j ns nr). split; [reflexivity|]. apply elem_of_list_filter. split; [split; [exact E|]; split; reflexivity|]. apply (hi_force _ _ _ _ _ _ _ I). exact H. }
  rewrite Len. split.
  - intros (xs & Nx & <- & Mx). apply Permutation_length, NoDup_Permutation; [exact Nx|exact N|]. intros [m i]. rewrite Mx, M. reflexivity.
  - intros ->. exists (map fst (filter P T)). split; [exact N|]. split; [reflexivity|exact M].
Qed.

Lemma force_range l rs ns nr m i j : in_force J l rs ns nr m i j -> 0 <= nr <= 332.
Proof. intros (c & n & ok & name & _ & _ & _ & _ & _ & (cl & g & full & _ & N & _) & _). exact (nr_range _ _ N). Qed.
Lemma demanded_s32 l rs ns x : demanded J l rs ns (s32 (u32 x)) <-> demanded J l rs ns (u32 x).
Proof.
  assert (R : 0 <= u32 x < 2 ^ 32) by (apply Z.mod_pos_bound; lia). split; intros (m & i & j & H).
  - pose proof (force_range _ _ _ _ _ _ _ H) as B. unfold s32 in B, H. rewrite Z.mod_small in B, H by exact R. exists m, i, j. destruct (u32 x <? 2 ^ 31) eqn:E; [exact H|lia].
  - pose proof (force_range _ _ _ _ _ _ _ H) as B. rewrite FilterProofs.s32_small by lia. exists m, i, j. exact H.
Qed.

(** * What the kernel sends *)
Context (G : go_table tbl) (h0 : hub) (H0 : new_hub tbl = Some h0) (s0 : server) (E0 : start_server tbl = Some s0).
Lemma start_eq : sv_world s0 = World h0 ∅ ∅ ∅ [] 0 /\ sv_pub s0 = None /\ sv_sys s0 = WatchModel.start.
Proof. unfold start_server, start_world in E0. rewrite H0 in E0. apply Some_inj in E0. subst s0. split; [reflexivity|]. split; reflexivity. Qed.
Lemma start_fresh : fresh (sv_world s0).
Proof. rewrite (proj1 start_eq). repeat split. Qed.
Lemma start_hub : w_hub (sv_world s0) = h0.
Proof. rewrite (proj1 start_eq). reflexivity. Qed.

Lemma verdict_sound l rs t h os hrs T : hub_inv h0 l rs h os hrs T -> some_ns (t_pidns t) -> (run_nfilter 2 t (maps h)).2 <> 1 -> demanded J l rs (t_pidns t) (u32 (t_id t)).
Proof.
  intros I P V. pose proof (emitted_wanted J tbl h0 os h hrs t _ G H0 (hi_ops _ _ _ _ _ _ _ I) (hi_run _ _ _ _ _ _ _ I) P eq_refl V) as E.
  apply demanded_s32, (regs_demanded _ _ _ _ _ _ _ _ _ I). exact E.
Qed.
Lemma verdict_exact' l rs t h os hrs T : hub_inv h0 l rs h os hrs T -> some_ns (t_pidns t) -> nothing_stopped l -> everything_installed rs ->
  ((run_nfilter 2 t (maps h)).2 <> 1 <-> demanded J l rs (t_pidns t) (u32 (t_id t))).
Proof.
  intros I P N A. rewrite (emitted_exact J tbl h0 os h hrs t _ G H0 (hi_ops _ _ _ _ _ _ _ I) (hi_run _ _ _ _ _ _ _ I) (hi_stops _ _ _ _ _ _ _ I N) (hi_pushes _ _ _ _ _ _ _ I) (hi_ok _ _ _ _ _ _ _ I A) P eq_refl).
  rewrite (regs_demanded _ _ _ _ _ _ _ _ _ I). apply demanded_s32.
Qed.
Lemma inv_metrics l rs h os hrs T t : hub_inv h0 l rs h os hrs T -> exists os' hrs' T', hub_inv h0 l rs (set_maps h (run_nfilter 4 t (maps h)).1) os' hrs' T'.
Proof.
  intros [H1 H2 H3 H4 H5 H6 H7 H8]. exists (os ++ [OKernel 4 t]), (hrs ++ [RVerdict (run_nfilter 4 t (maps h)).2]), T. split.
  - eapply hrun_join; [exact H1|apply kernel_step].
  - apply Forall_app. split; [exact H2|]. constructor; [right; reflexivity|constructor].
  - intros j ns nr Hin. apply elem_of_app in Hin as [Hin|Hin]; [exact (H3 _ _ _ Hin)|]. apply elem_of_list_singleton in Hin. discriminate.
  - intros N j c Hin. apply elem_of_app in Hin as [Hin|Hin]; [exact (H4 N _ _ Hin)|]. apply elem_of_list_singleton in Hin. discriminate.
  - intros N j Hin. apply elem_of_app in Hin as [Hin|Hin]; [exact (H5 N _ Hin)|]. apply elem_of_list_singleton in Hin. discriminate.
  - rewrite registrations_app by exact (hrun_len _ _ _ _ _ _ H1). exact H6.
  - exact H7.
  - exact H8.
Qed.
Lemma stopped_take l k : nothing_stopped l -> nothing_stopped (take k l).
Proof. intros N j c Hc. apply elem_of_take in Hc as (i & Hi & _). exact (N j c (elem_of_list_lookup_2 _ _ _ Hi)). Qed.
Lemma installed_take rs k : everything_installed rs -> everything_installed (take k rs).
Proof. intros N c Hc. apply elem_of_take in Hc as (j & Hj & _). exact (N c (elem_of_list_lookup_2 _ _ _ Hj)). Qed.
Lemma plausible_real l : Forall plausible l -> Forall real (story l).
Proof. intros F. apply Forall_fmap. eapply Forall_impl; [exact F|]. intros o [H _]. exact H. Qed.
Lemma story_take k l : story (take k l) = take k (story l).
Proof. unfold story. symmetry. apply firstn_map. Qed.
Lemma outcomes_take k rs : outcomes (take k rs) = take k (outcomes rs).
Proof. unfold outcomes. symmetry. apply firstn_map. Qed.
Lemma story_task l k o su sc tr lost : story l !! k = Some (WTask o su sc tr lost) <-> l !! k = Some (STask o su sc tr lost).
Proof.
  unfold story. rewrite list_lookup_fmap. split.
  - intros H. apply fmap_Some in H as (x & Hx & E). destruct x; try discriminate E. injection E as -> -> -> -> ->. exact Hx.
  - intros ->. reflexivity.
Qed.
Lemma outcome_task rs k r : outcomes rs !! k = Some (UTask r) <-> rs !! k = Some (VTask r).
Proof.
  unfold outcomes. rewrite list_lookup_fmap. split.
  - intros H. apply fmap_Some in H as (x & Hx & E). destruct x; try discriminate E. apply utask_inj in E. subst r. exact Hx.
  - intros ->. reflexivity.
Qed.
Lemma outcome_read rs k i ps line : outcomes rs !! k = Some (URead i ps line) <-> rs !! k = Some (VRead i ps) /\ line = None.
Proof.
  unfold outcomes. rewrite list_lookup_fmap. split.
  - intros H. apply fmap_Some in H as (x & Hx & E). destruct x; try discriminate E. injection E as -> -> ->. split; [exact Hx|reflexivity].
  - intros [-> ->]. reflexivity.
Qed.

(** The hub's state before a step of the machine. *)
Lemma task_at l s rs k o : Forall plausible l -> run s0 l s rs -> did (story l) k o ->
  exists wk os hrs T, framed tbl (sv_world s0) (story (take k l)) wk (outcomes (take k rs)) /\ outcomes rs !! k = Some (UTask (kstep tbl (kernel_of wk) o).2) /\
    hub_inv h0 (take k l) (take k rs) (w_hub wk) os hrs T.
Proof.
  intros F R (su & sc & tr & lost & D). apply story_task in D. destruct (srun_at _ _ _ _ _ _ R D) as (sk & sk' & r & Rk & S & Hr & _).
  destruct (hub_run h0 s0 G H0 start_hub (take k l) sk (take k rs) (Forall_take _ _ _ F) Rk) as (os & hrs & T & I).
  exists (sv_world sk), os, hrs, T. split; [exact (srun_framed _ _ _ _ Rk)|]. split; [|exact I].
  pose proof (f_task _ _ _ _ _ (step_frame _ _ _ _ S)) as E. cbn [machine] in E. destruct E as [E _]. destruct r; try discriminate E. cbn [outcome] in E. apply utask_inj in E. subst.
  apply outcome_task. exact Hr.
Qed.

Lemma kept_sound l s rs i tid t args ugid now : Forall plausible l -> run s0 l s rs -> did (story l) i (KEnter tid t args ugid now) -> kept (outcomes rs) i ->
  u32 (t_id t) <> 59 /\ demanded J (take i l) (take i rs) (t_pidns t) (u32 (t_id t)).
Proof.
  intros F R D (r & Hr & Hs). destruct (task_at _ _ _ _ _ F R D) as (wi & os & hrs & T & _ & E & I). rewrite Hr in E. apply Some_inj, utask_inj in E. subst r.
  assert (N : o_saved (kstep tbl (kernel_of wi) (KEnter tid t args ugid now)).2 <> None) by (rewrite Hs; discriminate). apply saved_passes in N as [N1 N2]. split; [exact N1|].
  destruct (real_did _ _ _ (plausible_real _ F) D) as (_ & _ & _ & P).
  destruct (inv_metrics _ _ _ _ _ _ t I) as (os' & hrs' & T' & I'). exact (verdict_sound _ _ t _ _ _ _ I' P N2).
Qed.
Lemma kept_iff l s rs i tid t args ugid now : Forall plausible l -> nothing_stopped l -> everything_installed rs -> few_tasks (story l) -> run s0 l s rs -> did (story l) i (KEnter tid t args ugid now) ->
  (kept (outcomes rs) i <-> u32 (t_id t) <> 59 /\ demanded J (take i l) (take i rs) (t_pidns t) (u32 (t_id t))).
Proof.
  intros F N A FT R D. split; [exact (kept_sound l s rs i tid t args ugid now F R D)|]. intros (N1 & N2).
  destruct (task_at _ _ _ _ _ F R D) as (wi & os & hrs & T & _ & E & I). eexists. split; [exact E|].
  destruct (real_did _ _ _ (plausible_real _ F) D) as (_ & _ & _ & P).
  destruct (inv_metrics _ _ _ _ _ _ t I) as (os' & hrs' & T' & I').
  pose proof (proj2 (verdict_exact' _ _ t _ _ _ _ I' P (stopped_take l i N) (installed_take rs i A)) N2) as V.
  pose proof (f_enough_room tbl (sv_world s0) start_fresh _ _ _ FT (srun_framed _ _ _ _ R) i _ E) as Room.
  assert (X : o_saved (kstep tbl (kernel_of wi) (KEnter tid t args ugid now)).2 <> None) by (apply saved_passes; split; [exact N1|exact V]).
  destruct (o_saved _) as [[]|]; [reflexivity|contradiction..].
Qed.

Lemma sent_about l s rs k e su : Forall plausible l -> in_turn (story l) -> run s0 l s rs -> sends (story l) (outcomes rs) k e su -> about J l rs k e.
Proof.
  intros F Tn R (o & sc & tr & r & Hl & Hr & He). assert (D : did (story l) k o) by (exists su, sc, tr, false; exact Hl).
  destruct (task_at _ _ _ _ _ F R D) as (wk & os & hrs & T & _ & E & I). rewrite Hr in E. apply Some_inj, utask_inj in E.
  assert (He' := He). rewrite E in He'. apply sent_from in He' as [(tid & t & ret & now & cpu & ->)|(tid & t & args & ugid & now & cpu & ->)].
  - left. destruct (proj1 (f_exit_iff tbl (sv_world s0) start_fresh _ _ _ _ _ _ _ _ _ _ _ (srun_framed _ _ _ _ R) D Hr) He) as (Hc & i & t0 & args & ugid & now0 & Hik & Hi & Hs & Hj & Hid & ->).
    destruct (kept_sound _ _ _ _ _ _ _ _ _ F R Hi Hs) as (N1 & N2). rewrite Hid in N1, N2.
    exists i, tid, t0, t, args, ugid, now0, now, ret, cpu. split; [|split; [exact Hid|]; split; [exact Hc|]; split; [exact N1|]; split; [exact N2|reflexivity]].
    split; [exact Hik|]. split; [exact Hi|]. split; [exact D|]. intros j Hjj. destruct (Hj j Hjj) as [A1 A2]. split; [|exact A1]. intros En.
    destruct (Tn tid i j (proj1 Hjj)) as (k' & [K1 K2] & Hk'); [exists t0, args, ugid, now0; exact Hi|exact En|].
    destruct (Hj k') as [B1 _]; [lia|]. exact (B1 Hk').
  - right. subst r. apply execve_event in He as (Hc & V & ->). destruct (real_did _ _ _ (plausible_real _ F) D) as (_ & _ & _ & P & I59).
    pose proof (verdict_sound _ _ t _ _ _ _ I P V) as Dm. rewrite I59 in Dm. exists tid, t, args, ugid, now, cpu. split; [exact D|]. split; [exact Hc|]. split; [exact Dm|reflexivity].
Qed.
Lemma about_sent l s rs k e : Forall plausible l -> in_turn (story l) -> nothing_stopped l -> everything_installed rs -> few_tasks (story l) -> run s0 l s rs ->
  about J l rs k e -> exists o r, did (story l) k o /\ outcomes rs !! k = Some (UTask r) /\ o_event r = Some e.
Proof.
  intros F Tn N A FT R [(i & tid & t0 & t & args & ugid & now0 & now & ret & cpu & (Hik & Hi & D & Hj) & Hid & Hc & N1 & N2 & ->)|(tid & t & args & ugid & now & cpu & D & Hc & Dm & ->)].
  - destruct (task_at _ _ _ _ _ F R D) as (wk & os & hrs & T & _ & E & I). eexists _, _. split; [exact D|]. split; [exact E|].
    apply (f_exit_iff tbl (sv_world s0) start_fresh _ _ _ _ _ _ _ _ _ _ _ (srun_framed _ _ _ _ R) D E). split; [exact Hc|]. exists i, t0, args, ugid, now0. split; [exact Hik|]. split; [exact Hi|].
    split; [apply (kept_iff l s rs i tid t0 args ugid now0 F N A FT R Hi); rewrite Hid; split; assumption|].
    split; [|split; [exact Hid|reflexivity]]. intros j Hjj. destruct (Hj j Hjj) as [A1 A2]. split; [exact A2|]. intros [B _]. exact (A1 B).
  - destruct (task_at _ _ _ _ _ F R D) as (wk & os & hrs & T & _ & E & I). eexists _, _. split; [exact D|]. split; [exact E|].
    apply execve_event. split; [exact Hc|]. split; [|reflexivity]. destruct (real_did _ _ _ (plausible_real _ F) D) as (_ & _ & _ & P & I59).
    apply (verdict_exact' _ _ t _ _ _ _ I P (stopped_take l k N) (installed_take rs k A)). rewrite I59. exact Dm.
Qed.
End serve.
