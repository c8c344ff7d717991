(** Proofs about loading, the probe and its reader. *)
From Coq Require Import ZArith String Bool Lia.
From stdpp Require Import base list strings.
From Verif Require Import ProbeModel ProbeSpec.

Local Open Scope string_scope.
Local Open Scope Z_scope.
Local Open Scope list_scope.

(** * Loading *)

Lemma started_iff flag env read builtin o : started_with flag env read builtin = Some o <-> exists n, names flag env n /\ object_for read builtin n o.
Proof.
  unfold started_with, load_bpf. destruct (String.eqb_spec flag "") as [F|F].
  - destruct (String.eqb_spec env "") as [E|E].
    + split; [intros [= <-]; exists None; split; [apply not_named; assumption|apply no_file]|]. intros (n & N & O). inversion N; subst; try congruence. inversion O; subst; reflexivity.
    + destruct (read env) as [| |b] eqn:R.
      * split; [discriminate|]. intros (n & N & O). inversion N; subst; try congruence. inversion O; subst; congruence.
      * split; [discriminate|]. intros (n & N & O). inversion N; subst; try congruence. inversion O; subst; congruence.
      * split.
        -- intros [= <-]. exists (Some env). split; [apply named_by_env; assumption|]. destruct b as [|x b]; [apply empty_file, R|apply the_file; [exact R|discriminate]].
        -- intros (n & N & O). inversion N; subst; try congruence. inversion O as [n' b' R' Nb|n' R'|]; subst; rewrite R in R'; injection R' as ->; [destruct o; [congruence|reflexivity]|reflexivity].
  - destruct (String.eqb_spec flag ""); [contradiction|]. destruct (read flag) as [| |b] eqn:R.
    + split; [discriminate|]. intros (n' & N & O). inversion N; subst; try congruence. inversion O; subst; congruence.
    + split; [discriminate|]. intros (n' & N & O). inversion N; subst; try congruence. inversion O; subst; congruence.
    + split.
      * intros [= <-]. exists (Some flag). split; [apply named_by_flag; assumption|]. destruct b as [|x b]; [apply empty_file, R|apply the_file; [exact R|discriminate]].
      * intros (n' & N & O). inversion N; subst; try congruence. inversion O as [n2 b' R' Nb|n2 R'|]; subst; rewrite R in R'; injection R' as ->; [destruct o; [congruence|reflexivity]|reflexivity].
Qed.
Lemma missing_file flag env read builtin n : names flag env (Some n) -> read n = Missing -> load_bpf flag env read builtin = (builtin, true) /\ started_with flag env read builtin = None.
Proof.
  intros N R. assert (L : load_bpf flag env read builtin = (builtin, true)).
  { unfold load_bpf. inversion N; subst.
    - destruct (String.eqb_spec n ""); [contradiction|]. destruct (String.eqb_spec n ""); [contradiction|]. rewrite R. reflexivity.
    - cbn [String.eqb]. destruct (String.eqb_spec n ""); [contradiction|]. rewrite R. reflexivity. }
  split; [exact L|]. unfold started_with. rewrite L. reflexivity.
Qed.

(** * The probe *)

Lemma attempts_all oks : Forall (eq true) oks -> attempts oks = (length oks, true).
Proof. induction 1 as [|b oks <- F IH]; [reflexivity|]. cbn [attempts]. rewrite IH. reflexivity. Qed.
Lemma attempts_fail oks k : fails_at oks k -> attempts oks = (S k, false).
Proof. intros (r & ->). induction k as [|k IH]; [reflexivity|]. cbn [repeat app attempts]. rewrite IH. reflexivity. Qed.
Lemma attempts_cases oks : (Forall (eq true) oks /\ attempts oks = (length oks, true)) \/ exists k, fails_at oks k /\ attempts oks = (S k, false).
Proof.
  induction oks as [|[] oks IH].
  - left. split; [constructor|reflexivity].
  - destruct IH as [[F E]|(k & (r & ->) & E)].
    + left. split; [constructor; auto|]. cbn [attempts]. rewrite E. reflexivity.
    + right. exists (S k). split; [exists r; reflexivity|]. cbn [attempts]. rewrite E. reflexivity.
  - right. exists 0%nat. split; [exists oks; reflexivity|reflexivity].
Qed.
Lemma after_app h c : after (h ++ [c])%list = (pcall_do (after h) c).1.
Proof. unfold after. rewrite fold_left_app. reflexivity. Qed.
Lemma ready_snoc h c : c <> CClose -> ready (h ++ [c])%list <-> ready h \/ (exists load opts, c = CInit load opts /\ (pcall_do (after h) c).2 = true).
Proof.
  intros N. split.
  - intros (h1 & load & opts & h2 & E & R & D). destruct h2 as [|y h2 _] using rev_ind.
    + apply app_inj_tail in E as [-> ->]. right. eauto.
    + left. rewrite app_comm_cons, app_assoc in E. apply app_inj_tail in E as [-> _]. exists h1, load, opts, h2. split_and!; [reflexivity|exact R|].
      intros I. apply D, in_app_iff. left. exact I.
  - intros [(h1 & load & opts & h2 & -> & R & D)|(load & opts & -> & R)].
    + exists h1, load, opts, (h2 ++ [c])%list. split_and!; [rewrite <- app_assoc; reflexivity|exact R|]. intros I. apply in_app_iff in I as [I|[I|[]]]; [exact (D I)|congruence].
    + exists h, load, opts, []. split_and!; [reflexivity|exact R|intros []].
Qed.
Lemma ready_close h : ~ ready (h ++ [CClose])%list.
Proof.
  intros (h1 & load & opts & h2 & E & R & D). destruct h2 as [|y h2 _] using rev_ind.
  - apply app_inj_tail in E as [_ E]. discriminate.
  - rewrite app_comm_cons, app_assoc in E. apply app_inj_tail in E as [_ <-]. apply D, in_app_iff. right. left. reflexivity.
Qed.
Lemma ready_iff h : p_init (after h) = true <-> ready h.
Proof.
  induction h as [|c h IH] using rev_ind.
  - split; [discriminate|]. intros ([|? ?] & ? & ? & ? & E & _); discriminate.
  - rewrite after_app. destruct c as [load opts|oks| |oks perf].
    + rewrite ready_snoc by discriminate. rewrite <- IH. cbn [pcall_do]. unfold init_probe. destruct (p_init (after h)) eqn:P.
      * cbn [fst snd]. rewrite P. split; auto.
      * destruct load; cbn [negb].
        -- destruct (attempts opts) as [n ok] eqn:A. cbn [fst snd p_init]. split.
           ++ intros ->. right. exists true, opts. split; [reflexivity|]. cbn [pcall_do]; unfold init_probe; rewrite ?P; cbn [negb]; rewrite ?A; reflexivity.
           ++ intros [H|(l & o & E & R)]; [discriminate|]. exact R.
        -- cbn [fst snd]. rewrite P. split; [discriminate|]. intros [H|(l & o & E & R)]; [discriminate|]. discriminate R.
    + rewrite ready_snoc by discriminate. rewrite <- IH. cbn [pcall_do]. unfold init_tracepoints. destruct (p_tp (after h)); [|destruct (attempts oks)]; cbn [fst p_init]; (split; [auto|intros [H|(l & o & E & R)]; [exact H|discriminate]]).
    + split; [discriminate|]. intros R. destruct (ready_close h R).
    + rewrite ready_snoc by discriminate. rewrite <- IH. cbn [pcall_do]. unfold run_starts, init_tracepoints.
      destruct (p_init (after h)) eqn:P; cbn [negb].
      * destruct (p_tp (after h)); [|destruct (attempts oks)]; cbn [fst p_init]; (split; [auto|intros [H|(l & o & E & R)]; [first [exact P|reflexivity]|discriminate]]).
      * cbn [fst]. rewrite P. split; [discriminate|]. intros [H|(l & o & E & R)]; discriminate.
Qed.
Lemma run_needs_init h oks perf : (pcall_do (after h) (CRun oks perf)).2 = true -> ready h /\ perf = true /\ p_tp (pcall_do (after h) (CRun oks perf)).1 = true.
Proof.
  rewrite <- ready_iff. cbn [pcall_do]. unfold run_starts. destruct (p_init (after h)); cbn [negb]; [|discriminate].
  unfold init_tracepoints. destruct (p_tp (after h)) eqn:T.
  - cbn [fst snd]. intros H. apply andb_true_iff in H as [_ H]. auto.
  - destruct (attempts oks) as [n ok]. cbn [fst snd p_tp]. intros H. apply andb_true_iff in H as [-> H]. auto.
Qed.
Lemma run_unready h oks perf : ~ ready h -> pcall_do (after h) (CRun oks perf) = (after h, false).
Proof. rewrite <- ready_iff. intros N. cbn [pcall_do]. unfold run_starts. destruct (p_init (after h)); [destruct N; reflexivity|reflexivity]. Qed.
Lemma init_first h load opts : ~ ready h -> let '(p, ok) := pcall_do (after h) (CInit load opts) in
  (ok = true <-> load = true /\ Forall (eq true) opts)
  /\ p_called p = (p_called (after h) ++ (if load then match attempts opts with (n, _) => seq 0 n end else []))%list
  /\ (ok = true -> load = true -> p_called p = p_called (after h) ++ seq 0 (length opts))%list
  /\ (forall k, load = true -> fails_at opts k -> p_called p = p_called (after h) ++ seq 0 (S k))%list.
Proof.
  rewrite <- ready_iff. intros N. cbn [pcall_do]. unfold init_probe. destruct (p_init (after h)); [destruct N; reflexivity|]. destruct load; cbn [negb].
  - destruct (attempts_cases opts) as [[F E]|(k & F & E)]; rewrite E.
    + split_and!; [split; auto|reflexivity|reflexivity|]. intros k _ F'. apply attempts_fail in F'. congruence.
    + split_and!; [|reflexivity|discriminate|].
      * split; [discriminate|]. intros [_ F']. apply attempts_all in F'. congruence.
      * intros k' _ F'. apply attempts_fail in F'. rewrite E in F'. injection F' as ->. reflexivity.
  - split_and!; [split; [discriminate|intros [? _]; discriminate]|rewrite app_nil_r; reflexivity|discriminate|discriminate].
Qed.
Lemma init_exact h load opts : ~ ready h ->
  ((pcall_do (after h) (CInit load opts)).2 = true <-> load = true /\ Forall (eq true) opts)
  /\ ((pcall_do (after h) (CInit load opts)).2 = true -> p_called (after (h ++ [CInit load opts])) = p_called (after h) ++ seq 0 (length opts))%list
  /\ (forall k, load = true -> fails_at opts k -> p_called (after (h ++ [CInit load opts])) = p_called (after h) ++ seq 0 (S k))%list.
Proof.
  intros N. pose proof (init_first h load opts N) as H. rewrite after_app. destruct (pcall_do (after h) (CInit load opts)) as [p ok]. destruct H as (A & B & C & D). cbn [fst snd]. split_and!; [exact A| |exact D].
  intros E. apply C; [exact E|]. apply A, E.
Qed.
Lemma init_ignored h load opts : ready h -> pcall_do (after h) (CInit load opts) = (after h, true).
Proof. rewrite <- ready_iff. intros R. cbn [pcall_do]. unfold init_probe. rewrite R. reflexivity. Qed.
Lemma retry_repeats opts k opts' : fails_at opts k -> Forall (eq true) opts' ->
  let p := after [CInit true opts; CInit true opts'] in p_init p = true /\ p_loads p = 2%nat /\ p_called p = (seq 0 (S k) ++ seq 0 (length opts'))%list.
Proof.
  intros F G. unfold after. cbn [fold_left pcall_do]. unfold init_probe. cbn [p_init new_probe negb p_tp p_loads p_called p_attached]. rewrite (attempts_fail _ _ F). cbn [fst p_init p_loads p_called negb p_tp p_attached]. rewrite (attempts_all _ G). cbn [fst p_init p_loads p_called]. split_and!; reflexivity.
Qed.

(** Tracepoints. *)
Lemma attached_inv n h : Forall (attaches_cleanly n) h -> p_attached (after h) = if p_tp (after h) then seq 0 n else [].
Proof.
  induction h as [|c h IH] using rev_ind; intros F; [reflexivity|]. apply Forall_app in F as [F C]. inversion C as [|? ? C' _]; subst. specialize (IH F). rewrite after_app.
  assert (T : forall p, p_attached p = (if p_tp p then seq 0 n else []) -> p_attached (init_tracepoints p (repeat true n)).1 = if p_tp (init_tracepoints p (repeat true n)).1 then seq 0 n else []).
  { intros p H. unfold init_tracepoints. destruct (p_tp p) eqn:T; [cbn [fst]; rewrite T; exact H|].
    rewrite (attempts_all (repeat true n)) by (apply List.Forall_forall; intros x I; apply repeat_spec in I; auto). cbn [fst p_attached p_tp]. rewrite H, repeat_length. reflexivity. }
  destruct c as [load opts|oks| |oks perf]; cbn [pcall_do].
  - unfold init_probe. destruct (p_init (after h)); [exact IH|]. destruct load; [|exact IH]. cbn [negb]. destruct (attempts opts). exact IH.
  - cbn in C'. subst oks. apply T, IH.
  - reflexivity.
  - cbn in C'. subst oks. unfold run_starts. destruct (p_init (after h)); cbn [negb]; [|exact IH]. pose proof (T (after h) IH) as H. destruct (init_tracepoints (after h) (repeat true n)) as [p ok]. exact H.
Qed.
Lemma attached_once n h oks perf : Forall (attaches_cleanly n) h -> oks = repeat true n -> (pcall_do (after h) (CRun oks perf)).2 = true ->
  p_attached (after (h ++ [CRun oks perf])) = seq 0 n.
Proof.
  intros F -> R. assert (F' : Forall (attaches_cleanly n) (h ++ [CRun (repeat true n) perf])) by (apply Forall_app; split; [exact F|constructor; [reflexivity|constructor]]).
  rewrite (attached_inv n _ F'). apply run_needs_init in R as (_ & _ & T). rewrite after_app, T. reflexivity.
Qed.
Lemma attached_twice k r perf : let h := [CInit true []; CRun (repeat true k ++ false :: r) perf; CRun (repeat true (k + S (length r))) true] in
  p_attached (after h) = (seq 0 k ++ seq 0 (k + S (length r)))%list.
Proof.
  unfold after. cbn [fold_left pcall_do]. unfold init_probe. cbn [p_init new_probe negb attempts fst]. unfold run_starts at 2. cbn [p_init negb]. unfold init_tracepoints. cbn [p_tp].
  assert (F : fails_at (repeat true k ++ false :: r)%list k) by (exists r; reflexivity).
  rewrite (attempts_fail _ _ F). cbn [fst pred p_attached p_init p_loads p_called]. unfold run_starts. cbn [p_init negb]. unfold init_tracepoints. cbn [p_tp].
  rewrite (attempts_all (repeat true (k + S (length r)))) by (apply List.Forall_forall; intros x I; apply repeat_spec in I; auto). cbn [fst p_attached app]. rewrite repeat_length. reflexivity.
Qed.
Lemma close_all h : let p := after (h ++ [CClose])%list in p_attached p = [] /\ ~ ready (h ++ [CClose])%list.
Proof. rewrite after_app. split; [reflexivity|apply ready_close]. Qed.

(** * The loop *)

Lemma loop_waiting {M} cb k (ins : list (linput M)) : (forall j, cb j = true) -> ~ In LDone ins -> loop cb k ins = (omap deliver ins, Waiting, false).
Proof.
  intros C. revert k. induction ins as [|i ins IH]; intros k N; [reflexivity|]. assert (N' : ~ In LDone ins) by (intros I; apply N; right; exact I).
  destruct i as [m|n|]; cbn [loop deliver]; [| |destruct N; left; reflexivity]; rewrite C, (IH (S k) N'); reflexivity.
Qed.
Lemma loop_done {M} cb k (pre post : list (linput M)) : (forall j, cb j = true) -> ~ In LDone pre -> loop cb k (pre ++ LDone :: post) = (omap deliver pre, Cancelled, true).
Proof.
  intros C. revert k. induction pre as [|i pre IH]; intros k N; [reflexivity|]. assert (N' : ~ In LDone pre) by (intros I; apply N; right; exact I).
  destruct i as [m|n|]; cbn [loop app deliver]; [| |destruct N; left; reflexivity]; rewrite C, (IH (S k) N'); reflexivity.
Qed.
Lemma loop_failed {M} cb k (pre post : list (linput M)) i : ~ In LDone pre -> i <> LDone -> (forall j, (j < length pre)%nat -> cb (k + j)%nat = true) -> cb (k + length pre)%nat = false ->
  loop cb k (pre ++ i :: post) = (omap deliver (pre ++ [i]), CallbackFailed, false).
Proof.
  revert k. induction pre as [|x pre IH]; intros k N Ni C E.
  - cbn [length] in E. rewrite Nat.add_0_r in E. destruct i as [m|n|]; cbn [loop app omap list_omap deliver]; [| |congruence]; rewrite E; reflexivity.
  - assert (N' : ~ In LDone pre) by (intros I; apply N; right; exact I).
    assert (C0 : cb k = true) by (specialize (C 0%nat ltac:(cbn; lia)); rewrite Nat.add_0_r in C; exact C).
    assert (R : loop cb (S k) (pre ++ i :: post) = (omap deliver (pre ++ [i]), CallbackFailed, false)).
    { apply IH; [exact N'|exact Ni| |]. intros j Hj. specialize (C (S j) ltac:(cbn; lia)). rewrite <- C. f_equal. lia. rewrite <- E. f_equal. cbn [length]. lia. }
    destruct x as [m|n|]; cbn [loop app omap list_omap deliver]; [| |destruct N; left; reflexivity]; rewrite C0, R; reflexivity.
Qed.

(** * The reader *)

Definition in_flight {M} (s : pipe M) : list M := match k_pc s with RSending m => [m] | _ => [] end.
Definition pinv {M} (ok : bool) (s : pipe M) : Prop :=
  k_polled s = (k_got s ++ in_flight s)%list
  /\ (k_run s = true -> k_cancelled s = true)
  /\ (k_stopped s = true -> k_cancelled s = true /\ k_pc s = RReturned)
  /\ (ok = false -> k_pc s = RReturned /\ k_polled s = [] /\ k_got s = [] /\ k_stopped s = false).
Lemma pinv_step {M} ok (s : pipe M) a : pinv ok s -> pinv ok (pstep_do s a).
Proof.
  intros (P & R & S & O). destruct s as [pc ca ru co po go st]. unfold pinv, in_flight in *. cbn [k_pc k_cancelled k_run k_consumer k_polled k_got k_stopped] in *.
  assert (NO : pc <> RReturned -> ok = true) by (intros H; destruct ok; [reflexivity|destruct (O eq_refl) as [E _]; contradiction]).
  destruct a as [m|n| | | | |]; unfold pstep_do; cbn [k_pc k_cancelled k_run k_consumer k_polled k_got k_stopped].
  - destruct pc; try (split_and!; assumption). cbn [k_pc k_cancelled k_run k_consumer k_polled k_got k_stopped]. rewrite NO by discriminate. rewrite app_nil_r in P. subst po. split_and!; try assumption; [reflexivity| |discriminate].
    intros H. destruct (S H) as [_ E]. discriminate.
  - destruct pc; split_and!; assumption.
  - destruct pc; try (split_and!; assumption). destruct ca; [|split_and!; assumption]. cbn [k_pc k_cancelled k_run k_consumer k_polled k_got k_stopped]. rewrite NO by discriminate. split_and!; auto. discriminate.
  - destruct pc as [|m|]; try (split_and!; assumption). destruct co; [|split_and!; assumption]. cbn [k_pc k_cancelled k_run k_consumer k_polled k_got k_stopped]. rewrite NO by discriminate. rewrite app_nil_r. split_and!; try assumption; [|discriminate].
    intros H. destruct (S H) as [_ E]. discriminate.
  - cbn [k_pc k_cancelled k_run k_consumer k_polled k_got k_stopped]. split_and!; auto. intros H. destruct (S H). auto.
  - destruct ca; [|split_and!; assumption]. cbn [k_pc k_cancelled k_run k_consumer k_polled k_got k_stopped]. split_and!; auto.
  - cbn [k_pc k_cancelled k_run k_consumer k_polled k_got k_stopped]. split_and!; auto.
Qed.
Lemma pinv_start {M} ok : pinv ok (pipe_start (M := M) ok).
Proof. unfold pinv, pipe_start, in_flight. cbn. destruct ok; split_and!; auto; discriminate. Qed.
Lemma pinv_run {M} ok (acts : list (pstep M)) : pinv ok (pipe_run ok acts).
Proof.
  unfold pipe_run. assert (H : forall s, pinv ok s -> pinv ok (fold_left pstep_do acts s)).
  { induction acts as [|a acts IH]; intros s I; [exact I|]. cbn [fold_left]. apply IH, pinv_step, I. }
  apply H, pinv_start.
Qed.
Lemma polled_acts {M} (acts : list (pstep M)) : forall s, exists l, k_polled (fold_left pstep_do acts s) = (k_polled s ++ l)%list /\ sublist l (omap (fun a => match a with SPoll m => Some m | _ => None end) acts).
Proof.
  induction acts as [|a acts IH]; intros s; [exists []; split; [rewrite app_nil_r; reflexivity|constructor]|]. cbn [fold_left]. destruct (IH (pstep_do s a)) as (l & E & S). rewrite E.
  destruct a as [m|n| | | | |]; cbn [omap list_omap]; cbv iota beta.
  1: { destruct (k_pc s) eqn:P; unfold pstep_do; rewrite P; cbn [k_polled].
       - exists (m :: l). split; [rewrite <- app_assoc; reflexivity|apply sublist_skip, S].
       - exists l. split; [reflexivity|apply sublist_cons, S].
       - exists l. split; [reflexivity|apply sublist_cons, S]. }
  all: exists l; split; [|exact S]; f_equal; unfold pstep_do; destruct (k_pc s); try reflexivity; destruct (k_cancelled s); try reflexivity; destruct (k_consumer s); reflexivity.
Qed.
Lemma reader_order {M} ok (acts : list (pstep M)) : let s := pipe_run ok acts in
  k_polled s = k_got s \/ exists m, k_polled s = (k_got s ++ [m])%list.
Proof.
  destruct (pinv_run ok acts) as (P & _). cbv zeta. unfold in_flight in P. destruct (k_pc (pipe_run ok acts)); [left; rewrite app_nil_r in P; exact P|right; eauto|left; rewrite app_nil_r in P; exact P].
Qed.
Lemma blocked_forever {M} (s : pipe M) m acts : k_pc s = RSending m -> k_consumer s = false ->
  let s' := fold_left pstep_do acts s in k_pc s' = RSending m /\ k_consumer s' = false /\ k_got s' = k_got s /\ k_polled s' = k_polled s /\ k_stopped s' = k_stopped s.
Proof.
  revert s. induction acts as [|a acts IH]; intros s P C; [auto|]. cbn [fold_left].
  assert (H : k_pc (pstep_do s a) = RSending m /\ k_consumer (pstep_do s a) = false /\ k_got (pstep_do s a) = k_got s /\ k_polled (pstep_do s a) = k_polled s /\ k_stopped (pstep_do s a) = k_stopped s).
  { destruct s as [pc ca ru co po go st]. cbn [k_pc k_consumer] in P, C. subst pc co. destruct a; unfold pstep_do; cbn [k_pc k_cancelled k_run k_consumer k_polled k_got k_stopped]; auto. destruct ca; auto. }
  destruct H as (P' & C' & G & PO & ST). destruct (IH _ P' C') as (A & B & D & E & F). split_and!; [exact A|exact B|rewrite D; exact G|rewrite E; exact PO|rewrite F; exact ST].
Qed.
Lemma quit_blocks {M} (m : M) : forall more, let s := pipe_run true ([SPoll m; SQuit; SCancel; SReturn] ++ more)%list in
  k_cancelled s = true /\ k_run s = true /\ k_stopped s = false /\ k_pc s = RSending m.
Proof.
  intros more. unfold pipe_run. rewrite fold_left_app.
  assert (E : fold_left pstep_do [SPoll m; SQuit; SCancel; SReturn] (pipe_start true) = Pipe (RSending m) true true false [m] [] false) by reflexivity. rewrite E.
  destruct (blocked_forever (Pipe (RSending m) true true false [m] [] false) m more eq_refl eq_refl) as (A & _ & _ & _ & D).
  assert (K : forall acts (s : pipe M), k_cancelled s = true -> k_run s = true -> k_cancelled (fold_left pstep_do acts s) = true /\ k_run (fold_left pstep_do acts s) = true).
  { induction acts as [|a acts IH]; intros s C R; [auto|]. cbn [fold_left]. apply IH; destruct s as [pc ca ru co po go st]; cbn in C, R; subst; destruct a; unfold pstep_do; cbn [k_pc k_cancelled k_run k_consumer]; destruct pc; try reflexivity; destruct co; reflexivity. }
  destruct (K more (Pipe (RSending m) true true false [m] [] false) eq_refl eq_refl). auto.
Qed.
Lemma can_stop {M} (acts : list (pstep M)) : let s := pipe_run true acts in k_consumer s = true -> k_cancelled s = true -> exists more, k_stopped (pipe_run true (acts ++ more)) = true.
Proof.
  cbv zeta. intros C K. destruct (k_pc (pipe_run true acts)) as [|m|] eqn:P.
  - exists [SSee]. unfold pipe_run in *. rewrite fold_left_app. destruct (fold_left pstep_do acts (pipe_start true)) as [pc ca ru co po go st]. cbn [k_pc k_consumer k_cancelled] in P, C, K. subst. reflexivity.
  - exists [STake; SSee]. unfold pipe_run in *. rewrite fold_left_app. destruct (fold_left pstep_do acts (pipe_start true)) as [pc ca ru co po go st]. cbn [k_pc k_consumer k_cancelled] in P, C, K. subst. reflexivity.
  - exists []. rewrite app_nil_r. clear C K. revert P. unfold pipe_run. 
    assert (H : forall s : pipe M, (k_pc s = RReturned -> k_stopped s = true) -> k_pc (fold_left pstep_do acts s) = RReturned -> k_stopped (fold_left pstep_do acts s) = true).
    { induction acts as [|a acts IH]; intros s I; [exact I|]. cbn [fold_left]. apply IH. destruct s as [pc ca ru co po go st]. cbn [k_pc k_stopped] in I. destruct a; unfold pstep_do; cbn [k_pc k_cancelled k_run k_consumer]; destruct pc; try destruct ca; try destruct co; cbn [k_pc k_stopped]; auto; discriminate. }
    apply H. discriminate.
Qed.
Lemma silent_failure {M} (acts : list (pstep M)) : let s := pipe_run false acts in k_got s = [] /\ (k_run s = true -> k_cancelled s = true).
Proof. destruct (pinv_run false acts) as (_ & R & _ & O). destruct (O eq_refl) as (_ & _ & G & _). auto. Qed.
