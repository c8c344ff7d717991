(** Proofs about schedules of concurrent callbacks. *)
From stdpp Require Import gmap strings list.
From Coq Require Import ZArith Lia.
From Verif Require Import SyscallModel SyscallSpec SyscallProofs FilterModel FilterSpec FilterProofs HashModel HubModel HubSpec HubProofs HubKernel HubEvents HubTop ThreadModel ThreadSpec.
Open Scope Z_scope.
Local Opaque lookup_sc add_syscall add_sampled_syscall remove_syscall add_metrics remove_metrics run_nfilter.

(** ** The indexes under every schedule *)
Lemma exec_repr J tbl h C t h' t' r : repr J h C -> exec J tbl h t = Ok (h', t', r) ->
  exists C', repr J h' C' /\ map reg_of C' = match r with TOPushed j ns nr => map reg_of C ++ [Reg j ns nr] | _ => map reg_of C end /\
    (forall x, r <> TOHub x).
Proof.
  intros Hr. unfold exec. destruct (t_prog t) as [|[|nr|nr|nr|nr|nr] p].
  - intros [= <- <- <-]. by exists C.
  - done.
  - intros [= <- <- <-]. exists (C ++ [Ctx (next_uid h) (t_job t) (t_ns t) nr]). split; [by apply push_repr|]. split; [|done].
    by rewrite map_app.
  - destruct (lowest J h nr (t_ns t)) as [[l|]| |]; [..|done|done]; intros [= <- <- <-]; by exists C.
  - intros [= <- <- <-]. exists C. split; [by apply repr_set_maps|done].
  - intros [= <- <- <-]. exists C. split; [by apply repr_set_maps|done].
  - intros [= <- <- <-]. exists C. split; [by apply repr_set_maps|done].
Qed.
Lemma exec_total J tbl h C t : repr J h C -> exec J tbl h t <> Fatal.
Proof.
  intros Hr. unfold exec. destruct (t_prog t) as [|[|nr|nr|nr|nr|nr] p]; try done.
  destruct (lowest_repr J h C nr (t_ns t) Hr) as [[_ ->]|(c & -> & _)]; done.
Qed.
Lemma tstep_repr J tbl s C o s' r : repr J (t_hub s) C -> tstep J tbl s o = Ok (s', r) ->
  exists C', repr J (t_hub s') C' /\ map reg_of C' = treg_step J tbl (map reg_of C) (o, r).
Proof.
  intros Hr. destruct o as [j c|i|o]; cbn [tstep].
  - destruct (host_selected _ _); intros [= <- <-]; exists C; cbn; (split; [|done]); [by apply repr_set_hosts|done].
  - destruct (t_threads s !! i) as [t|]; [|intros [= <- <-]; by exists C].
    destruct (exec J tbl (t_hub s) t) as [[[h' t'] r']| |] eqn:E; [|done|done]. intros [= <- <-].
    destruct (exec_repr _ _ _ _ _ _ _ _ Hr E) as (C' & H1 & H2 & H3). exists C'. split; [done|]. rewrite H2. by destruct r'.
  - destruct (hstep J tbl (t_hub s) o) as [[h' r']| |] eqn:E; [|done|done]. intros [= <- <-].
    destruct (step_repr _ _ _ _ _ _ _ Hr E) as (C' & H1 & H2). by exists C'.
Qed.
Lemma trun_repr J tbl : forall l s C s' rs, repr J (t_hub s) C -> trun J tbl s l = Ok (s', rs) ->
  exists C', repr J (t_hub s') C' /\ map reg_of C' = fold_left (treg_step J tbl) (zip l rs) (map reg_of C).
Proof.
  induction l as [|o l IH]; intros s C s' rs Hr; cbn [trun].
  - intros [= <- <-]. by exists C.
  - destruct (tstep J tbl s o) as [[s1 r]| |] eqn:Es; [|done|done]. destruct (trun J tbl s1 l) as [[s2 rs2]| |] eqn:Er; [|done|done].
    intros [= <- <-]. destruct (tstep_repr _ _ _ _ _ _ _ Hr Es) as (C1 & H1 & E1).
    destruct (IH _ _ _ _ H1 Er) as (C2 & H2 & E2). exists C2. split; [done|]. cbn [zip zip_with fold_left]. by rewrite <- E1.
Qed.
Lemma threads_indexes J tbl h0 l s rs : new_hub tbl = Some h0 -> trun J tbl (TState h0 []) l = Ok (s, rs) ->
  (forall ns nr, bucket (t_hub s) ns nr = regs_at ns nr (tregistrations J tbl l rs)) /\
  (forall id, job_list (t_hub s) id = regs_of J id (tregistrations J tbl l rs)) /\
  (forall ns nr, find_list (t_hub s) ns nr <> Some []).
Proof.
  intros H0 Hr. destruct (trun_repr J tbl l (TState h0 []) [] _ _ (new_hub_repr J tbl h0 H0) Hr) as (C & HC & EC).
  unfold tregistrations. cbn [map] in EC. rewrite <- EC. split; [|split].
  - intros. by apply (bucket_repr J).
  - intros. by apply job_list_repr.
  - intros ns nr. rewrite (find_list_repr _ _ _ _ _ HC). unfold ne. by destruct (filter _ C).
Qed.

(** ** What a delete does to the kernel's rules, rule by rule *)
Definition someone (C : list ctx) (ns nr : Z) : Prop := exists c, c ∈ C /\ at_ ns nr c.
Definition numbered (tbl : syscalls) (C : list ctx) : Prop := forall c, c ∈ C -> known tbl (c_nr c) /\ kernel_ns (c_ns c).
Lemma someone_dec C ns nr : someone C ns nr \/ ~ someone C ns nr.
Proof.
  destruct (filter (at_ ns nr) C) as [|c l] eqn:E.
  - right. intros (c & Hc & Ha). assert (c ∈ filter (at_ ns nr) C) as H by (by apply elem_of_list_filter). rewrite E in H. by apply elem_of_nil in H.
  - left. exists c. assert (c ∈ filter (at_ ns nr) C) as H by (rewrite E; left). apply elem_of_list_filter in H as [? ?]. done.
Qed.
Lemma same_uid (C : list ctx) c c' : NoDup (map c_uid C) -> c ∈ C -> c' ∈ C -> c_uid c = c_uid c' -> c = c'.
Proof.
  intros Hu Hc Hc' E. induction C as [|x C IH]; [by apply elem_of_nil in Hc|]. cbn in Hu. apply NoDup_cons in Hu as [Hx Hu].
  apply elem_of_cons in Hc as [->|Hc], Hc' as [->|Hc']; [done|..|by apply IH].
  - destruct Hx. rewrite E. by apply elem_of_list_In, in_map, elem_of_list_In.
  - destruct Hx. rewrite <- E. by apply elem_of_list_In, in_map, elem_of_list_In.
Qed.
Definition deletes (m m' : kmaps) (C C' : list ctx) : Prop := forall ns nr,
  (someone C' ns nr \/ ~ someone C ns nr -> nfilter m' !! syscall_rule ns nr = nfilter m !! syscall_rule ns nr) /\
  (someone C ns nr -> ~ someone C' ns nr -> nfilter m' !! syscall_rule ns nr = None).
Lemma delete_one_deletes tbl c l h C : go_table tbl -> buckets h C -> NoDup (map c_uid C) -> c ∈ C -> numbered tbl C ->
  find_list h (c_ns c) (c_nr c) = Some l -> deletes (maps h) (maps (delete_one tbl c l h)) C (filter (gone [c]) C).
Proof.
  intros Ht Hbk Hu Hc Hn Hf. destruct (delete_one_buckets tbl c l h C Hbk Hu Hc Hf) as [El _].
  destruct (delete_one_other tbl c l h) as (_ & _ & _ & _ & Em). rewrite Em. rewrite list_remove_gone, El, filter_comm.
  destruct (Hn c Hc) as [Hk Hns].
  assert (forall c', c' ∈ filter (at_ (c_ns c) (c_nr c)) (filter (gone [c]) C) <-> at_ (c_ns c) (c_nr c) c' /\ c' ∈ filter (gone [c]) C) as Hin.
  { intros c'. by rewrite elem_of_list_filter. }
  destruct (filter (at_ (c_ns c) (c_nr c)) (filter (gone [c]) C)) as [|c1 l1].
  - intros ns nr. rewrite remove_syscall_eq by done. cbn [fst nfilter].
    destruct (decide (ns = c_ns c /\ nr = c_nr c)) as [[-> ->]|Hne].
    + split; [|intros _ _; apply lookup_delete]. intros [(c' & Hc' & Ha)|H].
      * destruct (not_elem_of_nil c'). by apply Hin.
      * destruct H. by exists c.
    + assert (syscall_rule (c_ns c) (c_nr c) <> syscall_rule ns nr) as Hk' by (intros E; apply syscall_rule_inj in E as [E1 E2]; by destruct Hne).
      split; [intros _; by apply lookup_delete_ne|]. intros (c' & Hc' & Ha) Hno. destruct Hno. exists c'. split; [|done].
      apply elem_gone. split; [done|]. intros E. assert (c' = c) as -> by (by apply (same_uid C)). destruct Ha as [<- <-]. by destruct Hne.
  - intros ns nr. split; [done|]. intros (c' & Hc' & Ha) Hno. destruct Hno.
    destruct (decide (c_uid c' = c_uid c)) as [E|Hne]; [|exists c'; by rewrite elem_gone].
    assert (c' = c) as -> by (by apply (same_uid C)). destruct Ha as [<- <-]. 
    assert (at_ (c_ns c) (c_nr c) c1 /\ c1 ∈ filter (gone [c]) C) as [A1 A2] by (apply Hin; left). by exists c1.
Qed.
Lemma delete_loop_deletes tbl : go_table tbl -> forall todo h jid C, buckets h C -> NoDup (map c_uid C) -> numbered tbl C ->
  Forall (fun c => c ∈ C) todo -> NoDup (map c_uid todo) ->
  deletes (maps h) (maps (delete_loop tbl todo h jid).1) C (filter (gone todo) C).
Proof.
  intros Ht. induction todo as [|c todo IH]; intros h jid C Hb Hu Hn Hin Hd.
  - cbn. assert (forall l : list ctx, filter (gone []) l = l) as E.
    { intros l. induction l as [|x l IH]; [done|]. rewrite filter_cons_True by (apply not_elem_of_nil). by rewrite IH. }
    rewrite E. intros ns nr. split; [done|]. by intros.
  - rewrite delete_loop_cons. apply Forall_cons in Hin as [Hc Hin]. cbn in Hd. apply NoDup_cons in Hd as [Hct Hd].
    destruct (find_list h (c_ns c) (c_nr c)) as [l|] eqn:Ef.
    2: { exfalso. destruct Hb as [Hl _]. rewrite Hl in Ef. apply ne_none in Ef.
         assert (c ∈ filter (at_ (c_ns c) (c_nr c)) C) as H by (by apply elem_of_list_filter). rewrite Ef in H. by apply elem_of_nil in H. }
    destruct (delete_one_buckets tbl c l h C Hb Hu Hc Ef) as [El Hb'].
    pose proof (delete_one_deletes tbl c l h C Ht Hb Hu Hc Hn Ef) as M1.
    rewrite (gone_cons c todo C).
    assert (deletes (maps (delete_one tbl c l h)) (maps (delete_loop tbl todo (delete_one tbl c l h) (list_remove c jid)).1) (filter (gone [c]) C) (filter (gone todo) (filter (gone [c]) C))) as M2.
    { apply IH; try done.
      - by apply nodup_map_filter.
      - intros x Hx. apply elem_gone in Hx as [Hx _]. by apply Hn.
      - rewrite Forall_forall in Hin |- *. intros x Hx. apply elem_gone. split; [by apply Hin|].
        intros E. destruct Hct. rewrite <- E. by apply elem_of_list_In, in_map, elem_of_list_In. }
    assert (forall ns nr, someone (filter (gone todo) (filter (gone [c]) C)) ns nr -> someone (filter (gone [c]) C) ns nr) as S1.
    { intros ns nr (x & Hx & Ha). apply elem_of_list_filter in Hx as [_ Hx]. by exists x. }
    assert (forall ns nr, someone (filter (gone [c]) C) ns nr -> someone C ns nr) as S2.
    { intros ns nr (x & Hx & Ha). apply elem_of_list_filter in Hx as [_ Hx]. by exists x. }
    intros ns nr. destruct (M1 ns nr) as [A1 A2], (M2 ns nr) as [B1 B2]. split.
    + intros [H|H].
      * rewrite B1, A1; auto.
      * rewrite B1, A1; auto.
    + intros Hs Hno. destruct (someone_dec (filter (gone [c]) C) ns nr) as [H|H]; [by apply B2|].
      rewrite B1 by auto. by apply A2.
Qed.
Lemma delete_deletes J tbl h C id h' b : go_table tbl -> repr J h C -> numbered tbl C -> delete_trace tbl h id = Ok (h', b) ->
  exists C', repr J h' C' /\ C' = filter (fun c => j_id (J (c_job c)) <> id) C /\ deletes (maps h) (maps h') C C'.
Proof.
  intros Ht Hr Hn Hd. pose proof (delete_repr J tbl h C id Hr) as H.
  destruct (filter (fun c => j_id (J (c_job c)) = id) C) as [|c0 todo] eqn:E.
  - rewrite Hd in H. injection H as -> _. exists C.
    assert (forall D : list ctx, filter (fun c => j_id (J (c_job c)) = id) D = [] -> filter (fun c => j_id (J (c_job c)) <> id) D = D) as Hnone.
    { induction D as [|c D IH]; [done|]. rewrite !filter_cons. destruct (decide (j_id (J (c_job c)) = id)); [done|].
      rewrite decide_True by done. intros E'. by rewrite IH. }
    split; [done|]. split; [by rewrite Hnone|]. intros ns nr. split; [done|]. by intros.
  - destruct H as (h1 & Hd1 & H1 & H2 & _). rewrite Hd in Hd1. injection Hd1 as -> ->.
    rewrite <- E in H2. eexists. split; [exact H1|]. split; [done|]. destruct Hr as [Hbk Hid Hu Huid].
    pose proof (delete_loop_deletes tbl Ht (filter (fun c => j_id (J (c_job c)) = id) C) h (filter (fun c => j_id (J (c_job c)) = id) C) C) as I.
    rewrite (filter_gone_all _ C Hu), <- H2 in I. apply I; try done.
    + apply Forall_forall. intros x Hx. by apply elem_of_list_filter in Hx as [_ Hx].
    + by apply nodup_map_filter.
Qed.

(** ** Registered implies filtered, or about to be *)
(** Everything a program touches, it later adds. *)
Fixpoint ends_in_add (p : list tinstr) : Prop :=
  match p with
  | [] => True
  | TNil :: p | TAdd _ :: p => ends_in_add p
  | TPush nr :: p | TLow nr :: p | TDrop nr :: p | TSample nr :: p => TAdd nr ∈ p /\ ends_in_add p
  end.
Definition numbers (i : tinstr) : option Z :=
  match i with TNil => None | TPush nr | TLow nr | TDrop nr | TSample nr | TAdd nr => Some nr end.
Definition good_thread (tbl : syscalls) (t : thread) : Prop :=
  kernel_ns (t_ns t) /\ ends_in_add (t_prog t) /\ forall i nr, i ∈ t_prog t -> numbers i = Some nr -> known tbl nr.
Lemma ends_app p q : ends_in_add p -> ends_in_add q -> ends_in_add (p ++ q).
Proof.
  induction p as [|[] p IH]; cbn; try tauto; intros [H1 H2] Hq; (split; [apply elem_of_app; by left|by apply IH]).
Qed.
Lemma start_prog_good tbl jb ns rate : go_table tbl -> kernel_ns ns -> forall j, good_thread tbl (Thread j ns (start_prog rate (calls_of tbl jb))).
Proof.
  intros Ht Hns j. split; [done|]. cbn [t_prog].
  assert (forall nr, Some nr ∈ calls_of tbl jb -> known tbl nr) as Hk by (intros nr; by apply calls_known).
  revert Hk. induction (calls_of tbl jb) as [|sc cs IH]; intros Hk.
  - split; [done|]. intros i nr Hi. by apply elem_of_nil in Hi.
  - destruct IH as [IH1 IH2]; [intros nr Hnr; apply Hk; by right|]. unfold start_prog. cbn [flat_map]. split.
    + apply ends_app; [|done]. destruct sc as [nr|]; cbn; [|done]. destruct (0 <? rate); cbn; repeat split; repeat (first [left|right]).
    + intros i nr Hi E. apply elem_of_app in Hi as [Hi|Hi]; [|by eapply IH2]. apply Hk.
      assert (sc = Some nr) as ->; [|left]. destruct sc as [m|]; cbn [call_prog] in Hi.
      * destruct (0 <? rate); repeat (apply elem_of_cons in Hi as [->|Hi]; [by cbn in E; injection E as ->|]); by apply elem_of_nil in Hi.
      * apply elem_of_list_singleton in Hi as ->. done.
Qed.
Definition in_flight' (ths : list thread) (ns nr : Z) : Prop := exists t, t ∈ ths /\ t_ns t = ns /\ TAdd nr ∈ t_prog t.
Definition tcovered (m : kmaps) (ths : list thread) (C : list ctx) : Prop := forall ns nr, someone C ns nr ->
  present m ns nr \/ in_flight' ths ns nr.
Record tinv (J : nat -> job) (tbl : syscalls) (s : tstate) (C : list ctx) : Prop := TInv {
  ti_repr : repr J (t_hub s) C;
  ti_numbered : numbered tbl C;
  ti_good : Forall (good_thread tbl) (t_threads s);
  ti_covered : tcovered (maps (t_hub s)) (t_threads s) C }.

Lemma elem_insert {A} (l : list A) i x t y : l !! i = Some t -> y ∈ <[i := x]> l -> y = x \/ y ∈ l.
Proof.
  intros Hi Hy. apply elem_of_list_lookup in Hy as (k & Hk). destruct (decide (i = k)) as [->|Hne].
  - rewrite list_lookup_insert in Hk by (by eapply lookup_lt_Some). left. by injection Hk.
  - rewrite list_lookup_insert_ne in Hk by done. right. by apply elem_of_list_lookup_2 in Hk.
Qed.
Lemma insert_elem {A} (l : list A) i x t : l !! i = Some t -> x ∈ <[i := x]> l.
Proof. intros Hi. apply elem_of_list_lookup. exists i. apply list_lookup_insert. by eapply lookup_lt_Some. Qed.
Lemma insert_other {A} (l : list A) i x t y : l !! i = Some t -> y ∈ l -> y = t \/ y ∈ <[i := x]> l.
Proof.
  intros Hi Hy. apply elem_of_list_lookup in Hy as (k & Hk). destruct (decide (i = k)) as [->|Hne].
  - left. congruence.
  - right. apply elem_of_list_lookup. exists k. by rewrite list_lookup_insert_ne.
Qed.
(** A thread that moved from program p to q, not dropping an add other than [nr]. *)
Lemma flight_step ths i t q ns nr : ths !! i = Some t ->
  (forall n, TAdd n ∈ t_prog t -> TAdd n ∈ q \/ (t_ns t = ns /\ n = nr)) ->
  forall ns' nr', in_flight' ths ns' nr' -> in_flight' (<[i := Thread (t_job t) (t_ns t) q]> ths) ns' nr' \/ (ns' = ns /\ nr' = nr).
Proof.
  intros Hi Hq ns' nr' (t0 & H0 & <- & H2).
  destruct (insert_other ths i (Thread (t_job t) (t_ns t) q) t t0 Hi H0) as [->|Hin]; [|left; by exists t0].
  destruct (Hq _ H2) as [H|[<- ->]]; [|by right]. left. eexists. split; [by eapply insert_elem|]. done.
Qed.
Lemma good_step tbl ths i t q : ths !! i = Some t -> Forall (good_thread tbl) ths -> good_thread tbl (Thread (t_job t) (t_ns t) q) ->
  Forall (good_thread tbl) (<[i := Thread (t_job t) (t_ns t) q]> ths).
Proof. intros Hi H Hg. by apply Forall_insert. Qed.

Lemma exec_tinv J tbl h ths C i t h' t' r : go_table tbl -> tinv J tbl (TState h ths) C -> ths !! i = Some t ->
  exec J tbl h t = Ok (h', t', r) -> r <> TOUpdate false -> exists C', tinv J tbl (TState h' (<[i := t']> ths)) C'.
Proof.
  intros Ht [Hr Hn Hg Hc] Hi He Hok. cbn [t_hub t_threads] in *. pose proof (proj1 (Forall_lookup _ _) Hg _ _ Hi) as (Hns & Hend & Hk).
  unfold exec in He. destruct (t_prog t) as [|[|nr|nr|nr|nr|nr] p] eqn:Ep.
  - injection He as <- <- <-. exists C. constructor; cbn [t_hub t_threads]; [done|done|by rewrite list_insert_id|by rewrite list_insert_id].
  - done.
  - injection He as <- <- <-. exists (C ++ [Ctx (next_uid h) (t_job t) (t_ns t) nr]). cbn in Hend. constructor; cbn [t_hub t_threads].
    + by apply push_repr.
    + intros c Hc'. apply elem_of_app in Hc' as [Hc'|Hc']; [by apply Hn|]. apply elem_of_list_singleton in Hc' as ->. cbn.
      split; [|done]. apply (Hk (TPush nr)); [left|done].
    + apply good_step; [done|done|]. split; [done|]. split; [by apply Hend|]. intros i0 n Hi0. apply Hk. by right.
    + intros ns' nr' (c & Hc' & Ha). cbn [maps push_job]. apply elem_of_app in Hc' as [Hc'|Hc'].
      * destruct (Hc ns' nr') as [Hp|Hf]; [by exists c|by left|]. right.
        destruct (flight_step ths i t p (t_ns t) nr Hi) with (ns' := ns') (nr' := nr') as [H|[-> ->]]; [|done|done|].
        { intros n Hin. rewrite Ep in Hin. apply elem_of_cons in Hin as [Hin|Hin]; [done|by left]. }
        eexists. split; [by eapply insert_elem|]. split; [done|]. by apply Hend.
      * apply elem_of_list_singleton in Hc' as ->. destruct Ha as [<- <-]. right. cbn.
        eexists. split; [by eapply insert_elem|]. split; [done|]. by apply Hend.
  - assert (exists q, h' = h /\ t' = Thread (t_job t) (t_ns t) q /\ (q = p \/ q = TDrop nr :: p)) as (q & -> & -> & Hq).
    { destruct (lowest J h nr (t_ns t)) as [[l|]| |]; [..|done|done].
      - injection He as <- <- <-. destruct (_ <? _); eauto.
      - injection He as <- <- <-. eauto. }
    cbn in Hend. exists C. constructor; cbn [t_hub t_threads]; [done|done|..].
    + apply good_step; [done|done|]. split; [done|]. cbn [t_prog]. destruct Hq as [->| ->].
      * split; [by apply Hend|]. intros i0 n Hi0. apply Hk. by right.
      * split; [by cbn|]. intros i0 n Hi0 E. apply elem_of_cons in Hi0 as [->|Hi0].
        -- apply (Hk (TLow nr)); [left|done].
        -- apply (Hk i0); [by right|done].
    + intros ns' nr' Hs. destruct (Hc _ _ Hs) as [Hp|Hf]; [by left|]. right.
      destruct (flight_step ths i t q (t_ns t) nr Hi) with (ns' := ns') (nr' := nr') as [H|[-> ->]]; [|done|done|].
      { intros n Hin. rewrite Ep in Hin. apply elem_of_cons in Hin as [Hin|Hin]; [done|left]. destruct Hq as [->| ->]; [done|by right]. }
      eexists. split; [by eapply insert_elem|]. split; [done|]. cbn [t_prog]. destruct Hq as [->| ->]; [|right]; by apply Hend.
  - injection He as <- <- <-. cbn in Hend. exists C. assert (known tbl nr) as Hkn by (apply (Hk (TDrop nr)); [left|done]).
    constructor; cbn [t_hub t_threads]; [by apply repr_set_maps|done|..].
    + apply good_step; [done|done|]. split; [done|]. split; [by apply Hend|]. intros i0 n Hi0. apply Hk. by right.
    + intros ns' nr' Hs. cbn [maps set_maps].
      assert (in_flight' (<[i:=Thread (t_job t) (t_ns t) p]> ths) (t_ns t) nr) as Hmine.
      { eexists. split; [by eapply insert_elem|]. split; [done|]. by apply Hend. }
      destruct (Hc _ _ Hs) as [Hp|Hf].
      * destruct (decide (ns' = t_ns t /\ nr' = nr)) as [[-> ->]|Hne]; [by right|]. left. unfold present.
        rewrite remove_syscall_eq by done. cbn [fst nfilter]. rewrite lookup_delete_ne; [done|].
        intros E. apply syscall_rule_inj in E as [E1 E2]. by destruct Hne.
      * right. destruct (flight_step ths i t p (t_ns t) nr Hi) with (ns' := ns') (nr' := nr') as [H|[-> ->]]; [|done|done|done].
        intros n Hin. rewrite Ep in Hin. apply elem_of_cons in Hin as [Hin|Hin]; [done|by left].
  - cbn in Hend. exists C. assert (known tbl nr) as Hkn by (apply (Hk (TSample nr)); [left|done]).
    pose proof (add_sampled_puts tbl nr (t_ns t) (j_rate (J (t_job t))) (maps h) Ht Hkn Hns) as [Hp1 _].
    unfold after_update in He. destruct ((add_sampled_syscall tbl (ByInt nr) (t_ns t) (j_rate (J (t_job t))) (maps h)).2) eqn:E2.
    2: { injection He as <- <- <-. done. }
    injection He as <- <- <-. destruct (Hp1 eq_refl) as [Hf _].
    constructor; cbn [t_hub t_threads]; [by apply repr_set_maps|done|..].
    + apply good_step; [done|done|]. split; [done|]. split; [by apply Hend|]. intros i0 n Hi0. apply Hk. by right.
    + intros ns' nr' Hs. cbn [maps set_maps]. destruct (Hc _ _ Hs) as [Hp|Hfl].
      * left. unfold present. rewrite Hf. apply lookup_insert_is_Some. destruct (decide (syscall_rule (t_ns t) nr = syscall_rule ns' nr')); [by left|by right].
      * destruct (flight_step ths i t p (t_ns t) nr Hi) with (ns' := ns') (nr' := nr') as [H|[-> ->]]; [|done|by right|].
        { intros n Hin. rewrite Ep in Hin. apply elem_of_cons in Hin as [Hin|Hin]; [done|by left]. }
        left. unfold present. rewrite Hf, lookup_insert. by eexists.
  - cbn in Hend. exists C. assert (known tbl nr) as Hkn by (apply (Hk (TAdd nr)); [left|done]).
    pose proof (add_syscall_puts tbl nr (t_ns t) (maps h) Ht Hkn Hns) as [Hp1 _].
    unfold after_update in He. destruct ((add_syscall tbl (ByInt nr) (t_ns t) (maps h)).2) eqn:E2.
    2: { injection He as <- <- <-. done. }
    injection He as <- <- <-. destruct (Hp1 eq_refl) as [Hf _].
    constructor; cbn [t_hub t_threads]; [by apply repr_set_maps|done|..].
    + apply good_step; [done|done|]. split; [done|]. split; [by apply Hend|]. intros i0 n Hi0. apply Hk. by right.
    + intros ns' nr' Hs. cbn [maps set_maps]. destruct (Hc _ _ Hs) as [Hp|Hfl].
      * left. unfold present. rewrite Hf. apply lookup_insert_is_Some. destruct (decide (syscall_rule (t_ns t) nr = syscall_rule ns' nr')); [by left|by right].
      * destruct (flight_step ths i t p (t_ns t) nr Hi) with (ns' := ns') (nr' := nr') as [H|[-> ->]]; [|done|by right|].
        { intros n Hin. rewrite Ep in Hin. apply elem_of_cons in Hin as [Hin|Hin]; [|by left]. right. split; [done|]. by injection Hin. }
        left. unfold present. rewrite Hf, lookup_insert. by eexists.
Qed.

(** Hub operations other than starts, stops, pushes and deletes leave the set of
    syscall rules and the contexts alone. *)
Lemma other_frame J tbl h C o h' r : repr J h C -> plain_op (TOther o) -> (forall id, o <> ODelete id) -> hstep J tbl h o = Ok (h', r) ->
  repr J h' C /\ forall ns nr, present (maps h') ns nr <-> present (maps h) ns nr.
Proof.
  intros Hr Hp Hnd Hs. destruct o as [j c|j c|j ns nr|id|ev|ns|ns|mode t]; cbn [hstep plain_op] in *; try done.
  - by destruct (Hnd id).
  - destruct (on_event J h ev) as [[h1 ps]| |] eqn:Ee; [|done|done]. injection Hs as <- <-.
    apply on_event_frame in Ee as (E1 & E2 & E3 & E4 & E5). split; [by eapply repr_frame|]. by rewrite E3.
  - injection Hs as <- <-. split; [by apply repr_set_maps|]. destruct (add_metrics_any tbl ns (maps h)) as (k & Hk & H1 & H2). intros ns' nr'.
    unfold present. cbn [maps set_maps]. destruct ((add_metrics tbl ns (maps h)).2).
    + destruct (H1 eq_refl) as [-> _]. rewrite lookup_insert_ne; [done|]. intros E. symmetry in E. by apply (syscall_not_metrics_key ns' nr') in Hk.
    + by destruct (H2 eq_refl) as [-> _].
  - injection Hs as <- <-. split; [by apply repr_set_maps|]. destruct (remove_metrics_any tbl ns (maps h)) as (Hc & k & Hk & Hq). intros ns' nr'.
    unfold present. cbn [maps set_maps]. rewrite Hq, lookup_delete_ne; [done|]. intros E. symmetry in E. by apply (syscall_not_metrics_key ns' nr') in Hk.
  - destruct (run_nfilter mode t (maps h)) as [m v] eqn:E. injection Hs as <- <-. split; [by apply repr_set_maps|].
    destruct (run_nfilter_frame mode t (maps h)) as [Hc Hf]. rewrite E in Hf. cbn [fst] in Hf. intros ns nr. unfold present. cbn [maps set_maps].
    destruct (Hf (syscall_rule ns nr)) as [->|(v0 & -> & ->)]; [done|]. split; by eexists.
Qed.
Lemma tstep_tinv J tbl s C o s' r : go_table tbl -> tinv J tbl s C -> plain_op o -> tstep J tbl s o = Ok (s', r) -> r <> TOUpdate false ->
  exists C', tinv J tbl s' C'.
Proof.
  intros Ht Hinv Hp Hs Hok. destruct s as [h ths]. destruct o as [j c|i|o]; cbn [tstep t_hub t_threads] in Hs.
  - destruct Hinv as [Hr Hn Hg Hc]. destruct (host_selected _ _); injection Hs as <- <-; [|by exists C].
    exists C. constructor; cbn [t_hub t_threads] in *; [by apply repr_set_hosts|done|..].
    + apply Forall_app. split; [done|]. apply Forall_singleton. by apply start_prog_good.
    + intros ns nr Hso. destruct (Hc _ _ Hso) as [H|(t & H1 & H2)]; [by left|right]. exists t. split; [|done]. apply elem_of_app. by left.
  - destruct (ths !! i) as [t|] eqn:Hi; [|injection Hs as <- <-; by exists C].
    destruct (exec J tbl h t) as [[[h' t'] r']| |] eqn:E; [|done|done]. injection Hs as <- <-. by eapply exec_tinv.
  - destruct (hstep J tbl h o) as [[h' r']| |] eqn:E; [|done|done]. injection Hs as <- <-.
    destruct Hinv as [Hr Hn Hg Hc]; cbn [t_hub t_threads] in *.
    assert ((exists id, o = ODelete id) \/ forall id, o <> ODelete id) as [[id ->]|Hnd] by (destruct o; (by right) || (left; eauto)).
    + cbn [hstep] in E. destruct (delete_trace tbl h id) as [[h1 b]| |] eqn:Ed; [|done|done]. injection E as <- <-.
      destruct (delete_deletes J tbl h C id _ _ Ht Hr Hn Ed) as (C' & HC' & EC & Hd). exists C'.
      constructor; cbn [t_hub t_threads]; [done|..|done|].
      * intros c Hcin. rewrite EC in Hcin. apply elem_of_list_filter in Hcin as [_ Hcin]. by apply Hn.
      * intros ns nr Hso. assert (someone C ns nr) as Hso'.
        { destruct Hso as (c & Hcin & Ha). rewrite EC in Hcin. apply elem_of_list_filter in Hcin as [_ Hcin]. by exists c. }
        destruct (Hc _ _ Hso') as [H|H]; [left|by right]. unfold present. destruct (Hd ns nr) as [-> _]; [done|by left].
    + destruct (other_frame _ _ _ _ _ _ _ Hr Hp Hnd E) as [H1 H2]. exists C.
      constructor; cbn [t_hub t_threads]; [done|done|done|]. intros ns nr Hso. rewrite H2. by apply Hc.
Qed.
Lemma trun_tinv J tbl : go_table tbl -> forall l s C s' rs, tinv J tbl s C -> Forall plain_op l -> trun J tbl s l = Ok (s', rs) -> tupdates_ok rs ->
  exists C', tinv J tbl s' C'.
Proof.
  intros Ht. induction l as [|o l IH]; intros s C s' rs Hi Hp; cbn [trun].
  - intros [= <- <-] _. by exists C.
  - destruct (tstep J tbl s o) as [[s1 r]| |] eqn:Es; [|done|done]. destruct (trun J tbl s1 l) as [[s2 rs2]| |] eqn:Er; [|done|done].
    intros [= <- <-] Hok. apply Forall_cons in Hp as [Hp1 Hp].
    destruct (tstep_tinv _ _ _ _ _ _ _ Ht Hi Hp1 Es) as (C1 & H1); [intros ->; apply Hok; left|].
    apply (IH s1 C1 s2 rs2); [done|done|done|]. intros Hin. apply Hok. by right.
Qed.
Lemma tinv_start J tbl h0 : new_hub tbl = Some h0 -> tinv J tbl (TState h0 []) [].
Proof.
  intros H0. constructor; cbn; [by eapply new_hub_repr|..|done|].
  - intros c Hc. by apply elem_of_nil in Hc.
  - intros ns nr (c & Hc & _). by apply elem_of_nil in Hc.
Qed.
Lemma bucket_someone J h C ns nr : repr J h C -> bucket h ns nr <> [] <-> someone C ns nr.
Proof.
  intros Hr. unfold bucket. rewrite (find_list_repr _ _ _ _ _ Hr), default_ne. split.
  - destruct (filter (at_ ns nr) C) as [|c l] eqn:E; [done|]. intros _.
    assert (c ∈ filter (at_ ns nr) C) as H by (rewrite E; left). apply elem_of_list_filter in H as [? ?]. by exists c.
  - intros (c & Hc & Ha). assert (c ∈ filter (at_ ns nr) C) as H by (by apply elem_of_list_filter). destruct (filter (at_ ns nr) C); [by apply elem_of_nil in H|done].
Qed.
Lemma registered_filtered J tbl h0 l s rs ns nr : go_table tbl -> new_hub tbl = Some h0 -> Forall plain_op l ->
  trun J tbl (TState h0 []) l = Ok (s, rs) -> tupdates_ok rs ->
  regs_at ns nr (tregistrations J tbl l rs) <> [] -> has_rule (t_hub s) ns nr \/ in_flight s ns nr.
Proof.
  intros Ht H0 Hp Hr Hok. destruct (threads_indexes _ _ _ _ _ _ H0 Hr) as [Eb _]. rewrite <- Eb.
  destruct (trun_tinv J tbl Ht l _ [] _ _ (tinv_start J tbl h0 H0) Hp Hr Hok) as (C & [HC _ _ Hc]).
  rewrite (bucket_someone J _ C) by done. apply Hc.
Qed.

(** ** A rule without a registration needs an overlapping delete *)
(** The program tells the kernel about [nr] without registering for it first. *)
Fixpoint fed (p : list tinstr) (nr : Z) : Prop :=
  match p with
  | [] => False
  | TPush n :: p => n <> nr /\ fed p nr
  | TSample n :: p | TAdd n :: p => n = nr \/ fed p nr
  | TNil :: p | TLow _ :: p | TDrop _ :: p => fed p nr
  end.
Definition owns (t : thread) (C : list ctx) : Prop := forall nr, fed (t_prog t) nr ->
  exists c, c ∈ C /\ at_ (t_ns t) nr c /\ c_job c = t_job t.
Lemma fed_start rate cs nr : ~ fed (start_prog rate cs) nr.
Proof.
  unfold start_prog. induction cs as [|[m|] cs IH]; cbn; [tauto| |done].
  destruct (0 <? rate); cbn; tauto.
Qed.
Record binv (J : nat -> job) (tbl : syscalls) (s : tstate) (C : list ctx) : Prop := BInv {
  bi_repr : repr J (t_hub s) C;
  bi_numbered : numbered tbl C;
  bi_good : Forall (good_thread tbl) (t_threads s);
  bi_owns : Forall (fun t => owns t C) (t_threads s);
  bi_backed : forall ns nr, present (maps (t_hub s)) ns nr -> someone C ns nr \/ stub ns nr }.
Lemma owns_more t C C' : (forall c, c ∈ C -> c ∈ C') -> owns t C -> owns t C'.
Proof. intros H Ho nr Hf. destruct (Ho nr Hf) as (c & Hc & Ha). exists c. split; [by apply H|done]. Qed.
Lemma owns_sub t C q : owns t C -> (forall nr, fed q nr -> fed (t_prog t) nr) -> owns (Thread (t_job t) (t_ns t) q) C.
Proof. intros Ho H nr Hf. by apply Ho, H. Qed.

Lemma exec_binv J tbl h ths C i t h' t' r : go_table tbl -> binv J tbl (TState h ths) C -> ths !! i = Some t ->
  exec J tbl h t = Ok (h', t', r) -> exists C', binv J tbl (TState h' (<[i := t']> ths)) C'.
Proof.
  intros Ht [Hr Hn Hg Ho Hb] Hi He. cbn [t_hub t_threads] in *. pose proof (proj1 (Forall_lookup _ _) Hg _ _ Hi) as (Hns & Hend & Hk).
  pose proof (proj1 (Forall_lookup _ _) Ho _ _ Hi) as Hot.
  unfold exec in He. destruct (t_prog t) as [|[|nr|nr|nr|nr|nr] p] eqn:Ep.
  - injection He as <- <- <-. exists C. rewrite list_insert_id by done. constructor; cbn [t_hub t_threads]; done.
  - done.
  - injection He as <- <- <-. exists (C ++ [Ctx (next_uid h) (t_job t) (t_ns t) nr]). cbn in Hend. constructor; cbn [t_hub t_threads].
    + by apply push_repr.
    + intros c Hc'. apply elem_of_app in Hc' as [Hc'|Hc']; [by apply Hn|]. apply elem_of_list_singleton in Hc' as ->. cbn.
      split; [|done]. apply (Hk (TPush nr)); [left|done].
    + apply good_step; [done|done|]. split; [done|]. split; [by apply Hend|]. intros i0 n Hi0. apply Hk. by right.
    + apply Forall_insert.
      * eapply Forall_impl; [exact Ho|]. intros t0. apply owns_more. intros c Hc. apply elem_of_app. by left.
      * intros n Hf. destruct (decide (n = nr)) as [->|Hne].
        -- eexists. split; [apply elem_of_app; right; left|]. done.
        -- destruct (Hot n) as (c & Hc & Ha); [rewrite Ep; cbn; split; [by intros ->|done]|]. exists c. split; [apply elem_of_app; by left|done].
    + intros ns' nr' Hp. destruct (Hb ns' nr' Hp) as [(c & Hc & Ha)|H]; [left|by right]. exists c. split; [apply elem_of_app; by left|done].
  - assert (exists q, h' = h /\ t' = Thread (t_job t) (t_ns t) q /\ (q = p \/ q = TDrop nr :: p)) as (q & -> & -> & Hq).
    { destruct (lowest J h nr (t_ns t)) as [[l|]| |]; [..|done|done].
      - injection He as <- <- <-. destruct (_ <? _); eauto.
      - injection He as <- <- <-. eauto. }
    cbn in Hend. exists C. constructor; cbn [t_hub t_threads]; [done|done|..|done].
    + apply good_step; [done|done|]. split; [done|]. cbn [t_prog]. destruct Hq as [->| ->].
      * split; [by apply Hend|]. intros i0 n Hi0. apply Hk. by right.
      * split; [by cbn|]. intros i0 n Hi0 E. apply elem_of_cons in Hi0 as [->|Hi0].
        -- apply (Hk (TLow nr)); [left|done].
        -- apply (Hk i0); [by right|done].
    + apply Forall_insert; [done|]. apply owns_sub; [done|]. intros n. rewrite Ep. by destruct Hq as [->| ->].
  - injection He as <- <- <-. cbn in Hend. exists C. 
    constructor; cbn [t_hub t_threads]; [by apply repr_set_maps|done|..].
    + apply good_step; [done|done|]. split; [done|]. split; [by apply Hend|]. intros i0 n Hi0. apply Hk. by right.
    + apply Forall_insert; [done|]. apply owns_sub; [done|]. intros n. by rewrite Ep.
    + intros ns' nr' [v Hv]. apply Hb. exists v. cbn [maps set_maps] in Hv.
      destruct (remove_any tbl (ByInt nr) (t_ns t) (maps h)) as [_ [E|[k E]]]; rewrite E in Hv; [done|]. by apply lookup_delete_Some in Hv as [_ Hv].
  - cbn in Hend. exists C. assert (known tbl nr) as Hkn by (apply (Hk (TSample nr)); [left|done]).
    pose proof (add_sampled_puts tbl nr (t_ns t) (j_rate (J (t_job t))) (maps h) Ht Hkn Hns) as [Hp1 Hp2].
    injection He as <- <- <-.
    destruct (Hot nr) as (c0 & Hc0 & Ha0 & _); [rewrite Ep; cbn; by left|].
    constructor; cbn [t_hub t_threads]; [by apply repr_set_maps|done|..].
    + apply good_step; [done|done|]. split; [done|]. destruct (snd _); (split; [cbn; tauto|]).
      * intros i0 n Hi0. apply Hk. by right.
      * intros i0 n Hi0. by apply elem_of_nil in Hi0.
    + apply Forall_insert; [done|]. apply owns_sub; [done|]. intros n. rewrite Ep. destruct (snd _); cbn; tauto.
    + intros ns' nr' [v Hv]. cbn [maps set_maps] in Hv. destruct ((add_sampled_syscall tbl (ByInt nr) (t_ns t) (j_rate (J (t_job t))) (maps h)).2).
      * destruct (Hp1 eq_refl) as [Hf _]. rewrite Hf in Hv. apply lookup_insert_Some in Hv as [[E _]|[_ Hv]].
        -- apply syscall_rule_inj in E as [<- <-]. left. by exists c0.
        -- apply Hb. by exists v.
      * destruct (Hp2 eq_refl) as [Hf _]. rewrite Hf in Hv. apply Hb. by exists v.
  - cbn in Hend. exists C. assert (known tbl nr) as Hkn by (apply (Hk (TAdd nr)); [left|done]).
    pose proof (add_syscall_puts tbl nr (t_ns t) (maps h) Ht Hkn Hns) as [Hp1 Hp2].
    injection He as <- <- <-.
    destruct (Hot nr) as (c0 & Hc0 & Ha0 & _); [rewrite Ep; cbn; by left|].
    constructor; cbn [t_hub t_threads]; [by apply repr_set_maps|done|..].
    + apply good_step; [done|done|]. split; [done|]. destruct (snd _); (split; [cbn; tauto|]).
      * intros i0 n Hi0. apply Hk. by right.
      * intros i0 n Hi0. by apply elem_of_nil in Hi0.
    + apply Forall_insert; [done|]. apply owns_sub; [done|]. intros n. rewrite Ep. destruct (snd _); cbn; tauto.
    + intros ns' nr' [v Hv]. cbn [maps set_maps] in Hv. destruct ((add_syscall tbl (ByInt nr) (t_ns t) (maps h)).2).
      * destruct (Hp1 eq_refl) as [Hf _]. rewrite Hf in Hv. apply lookup_insert_Some in Hv as [[E _]|[_ Hv]].
        -- apply syscall_rule_inj in E as [<- <-]. left. by exists c0.
        -- apply Hb. by exists v.
      * destruct (Hp2 eq_refl) as [Hf _]. rewrite Hf in Hv. apply Hb. by exists v.
Qed.
Lemma tstep_binv J tbl s C o s' r : go_table tbl -> binv J tbl s C -> plain_op o -> tstep J tbl s o = Ok (s', r) ->
  (forall id t, o = TOther (ODelete id) -> t ∈ t_threads s -> t_prog t <> [] -> j_id (J (t_job t)) <> id) ->
  exists C', binv J tbl s' C'.
Proof.
  intros Ht Hinv Hp Hs Hov. destruct s as [h ths]. destruct o as [j c|i|o]; cbn [tstep t_hub t_threads] in *.
  - destruct Hinv as [Hr Hn Hg Ho Hb]. destruct (host_selected _ _); injection Hs as <- <-; [|by exists C].
    exists C. constructor; cbn [t_hub t_threads] in *; [by apply repr_set_hosts|done|..|done].
    + apply Forall_app. split; [done|]. apply Forall_singleton. by apply start_prog_good.
    + apply Forall_app. split; [done|]. apply Forall_singleton. intros nr Hf. by apply fed_start in Hf.
  - destruct (ths !! i) as [t|] eqn:Hi; [|injection Hs as <- <-; by exists C].
    destruct (exec J tbl h t) as [[[h' t'] r']| |] eqn:E; [|done|done]. injection Hs as <- <-. by eapply exec_binv.
  - destruct (hstep J tbl h o) as [[h' r']| |] eqn:E; [|done|done]. injection Hs as <- <-.
    destruct Hinv as [Hr Hn Hg Ho Hb]; cbn [t_hub t_threads] in *.
    assert ((exists id, o = ODelete id) \/ forall id, o <> ODelete id) as [[id ->]|Hnd] by (destruct o; (by right) || (left; eauto)).
    + cbn [hstep] in E. destruct (delete_trace tbl h id) as [[h1 b]| |] eqn:Ed; [|done|done]. injection E as <- <-.
      destruct (delete_deletes J tbl h C id _ _ Ht Hr Hn Ed) as (C' & HC' & EC & Hd). exists C'.
      constructor; cbn [t_hub t_threads]; [done|..|done| |].
      * intros c Hcin. rewrite EC in Hcin. apply elem_of_list_filter in Hcin as [_ Hcin]. by apply Hn.
      * apply Forall_forall. intros t Htin nr Hf. rewrite Forall_forall in Ho. destruct (Ho _ Htin nr Hf) as (c & Hc & Ha & Hj).
        exists c. split; [|done]. rewrite EC. apply elem_of_list_filter. split; [|done]. rewrite Hj. apply (Hov id t); [done|done|].
        intros E. rewrite E in Hf. done.
      * intros ns nr Hpr. destruct (someone_dec C' ns nr) as [H|H]; [by left|].
        destruct (someone_dec C ns nr) as [H'|H'].
        -- destruct (Hd ns nr) as [_ H2]. specialize (H2 H' H). unfold present in Hpr. rewrite H2 in Hpr. by destruct Hpr.
        -- unfold present in Hpr. destruct (Hd ns nr) as [H1 _]. rewrite H1 in Hpr by auto. destruct (Hb _ _ Hpr); [done|by right].
    + destruct (other_frame _ _ _ _ _ _ _ Hr Hp Hnd E) as [H1 H2]. exists C.
      constructor; cbn [t_hub t_threads]; [done|done|done|done|]. intros ns nr. rewrite H2. apply Hb.
Qed.
Lemma trun_binv J tbl : go_table tbl -> forall l s C s' rs, binv J tbl s C -> Forall plain_op l -> trun J tbl s l = Ok (s', rs) -> no_overlap J tbl s l ->
  exists C', binv J tbl s' C'.
Proof.
  intros Ht. induction l as [|o l IH]; intros s C s' rs Hi Hp; cbn [trun].
  - intros [= <- <-] _. by exists C.
  - destruct (tstep J tbl s o) as [[s1 r]| |] eqn:Es; [|done|done]. destruct (trun J tbl s1 l) as [[s2 rs2]| |] eqn:Er; [|done|done].
    intros [= <- <-] Hov. apply Forall_cons in Hp as [Hp1 Hp].
    destruct (tstep_binv _ _ _ _ _ _ _ Ht Hi Hp1 Es) as (C1 & H1).
    { intros id t -> Hin. exact (Hov [] id l s [] eq_refl eq_refl t Hin). }
    apply (IH s1 C1 s2 rs2); [done|done|done|]. intros l1 id l2 s3 rs3 -> Hr3. apply (Hov (o :: l1) id l2 s3 (r :: rs3) eq_refl).
    cbn [trun]. by rewrite Es, Hr3.
Qed.
Lemma binv_start J tbl h0 : go_table tbl -> new_hub tbl = Some h0 -> binv J tbl (TState h0 []) [].
Proof.
  intros Ht H0. constructor; cbn; [by eapply new_hub_repr|..|done|done|].
  - intros c Hc. by apply elem_of_nil in Hc.
  - intros ns nr Hp. destruct (new_hub_kinv tbl h0 Ht H0) as [(_ & _ & Hb) _]. destruct (Hb ns nr Hp) as [(c & Hc & Ha)|H]; [by apply elem_of_nil in Hc|by right].
Qed.
Lemma filtered_registered J tbl h0 l s rs ns nr : go_table tbl -> new_hub tbl = Some h0 -> Forall plain_op l ->
  trun J tbl (TState h0 []) l = Ok (s, rs) -> no_overlap J tbl (TState h0 []) l -> ~ (ns = 0 /\ nr = 218) ->
  has_rule (t_hub s) ns nr -> regs_at ns nr (tregistrations J tbl l rs) <> [].
Proof.
  intros Ht H0 Hp Hr Hov Hst Hru. destruct (threads_indexes _ _ _ _ _ _ H0 Hr) as [Eb _]. rewrite <- Eb.
  destruct (trun_binv J tbl Ht l _ [] _ _ (binv_start J tbl h0 Ht H0) Hp Hr Hov) as (C & [HC _ _ _ Hb]).
  rewrite (bucket_someone J _ C) by done. destruct (Hb _ _ Hru); [done|]. by destruct Hst.
Qed.

(** ** The sequential model is one of the schedules *)
Lemma trun_app J tbl : forall l1 l2 s s1 rs1, trun J tbl s l1 = Ok (s1, rs1) ->
  trun J tbl s (l1 ++ l2) = match trun J tbl s1 l2 with Ok (s2, rs2) => Ok (s2, rs1 ++ rs2)%list | Panic => Panic | Fatal => Fatal end.
Proof.
  induction l1 as [|o l1 IH]; intros l2 s s1 rs1; cbn [trun app].
  - intros [= <- <-]. by destruct (trun J tbl s l2) as [[? ?]| |].
  - destruct (tstep J tbl s o) as [[s2 r]| |]; [|done|done]. destruct (trun J tbl s2 l1) as [[s3 rs3]| |] eqn:E; [|done|done].
    intros [= <- <-]. rewrite (IH l2 _ _ _ E). by destruct (trun J tbl s3 l2) as [[? ?]| |].
Qed.
Lemma run_one J tbl h ths i t h' t' r : ths !! i = Some t -> exec J tbl h t = Ok (h', t', r) ->
  tstep J tbl (TState h ths) (TStep i) = Ok (TState h' (<[i := t']> ths), r).
Proof. intros Hi He. cbn [tstep t_threads t_hub]. by rewrite Hi, He. Qed.
Lemma solo J tbl j ns : forall cs h n h' n' ok ths i, ths !! i = Some (Thread j ns (start_prog (j_rate (J j)) cs)) ->
  start_calls J tbl cs j ns h n = Ok (h', (n', ok)) ->
  exists k rs, trun J tbl (TState h ths) (repeat (TStep i) k) = Ok (TState h' (<[i := Thread j ns []]> ths), rs).
Proof.
  assert (forall k i h ths h1 ths1 r h2 ths2 rs, tstep J tbl (TState h ths) (TStep i) = Ok (TState h1 ths1, r) ->
    trun J tbl (TState h1 ths1) (repeat (TStep i) k) = Ok (TState h2 ths2, rs) ->
    trun J tbl (TState h ths) (repeat (TStep i) (S k)) = Ok (TState h2 ths2, r :: rs)) as Hcons.
  { intros k i h ths h1 ths1 r h2 ths2 rs H1 H2. cbn [repeat trun]. by rewrite H1, H2. }
  induction cs as [|[nr|] cs IH]; intros h n h' n' ok ths i Hi; cbn [start_calls]; [..|done].
  { intros [= <- <- <-]. exists 0%nat, []. cbn. by rewrite list_insert_id. }
  set (P := start_prog (j_rate (J j)) cs) in *.
  assert (i < length ths)%nat as Hlt by (by eapply lookup_lt_Some).
  assert (forall p, <[i := Thread j ns p]> ths !! i = Some (Thread j ns p)) as Hself by (intros; by apply list_lookup_insert).
  set (h1 := push_job J h j ns nr).
  assert (forall h2 q, ths !! i = Some (Thread j ns (TPush nr :: q)) -> forall k rs,
    trun J tbl (TState h1 (<[i := Thread j ns q]> ths)) (repeat (TStep i) k) = Ok (h2, rs) ->
    exists k rs, trun J tbl (TState h ths) (repeat (TStep i) k) = Ok (h2, rs)) as Hpush.
  { intros [h2 ths2] q Hq k rs Hrun. exists (S k), (TOPushed j ns nr :: rs). eapply Hcons; [|exact Hrun]. by apply (run_one J tbl h ths i (Thread j ns (TPush nr :: q))). }
  (* the last instruction and the rest of the loop *)
  assert (forall h2, maps h2 = maps h2 -> forall m ok2, add_syscall tbl (ByInt nr) ns (maps h2) = (m, ok2) ->
     (ok2 = true -> start_calls J tbl cs j ns (set_maps h2 m) (S n) = Ok (h', (n', ok))) -> (ok2 = false -> h' = set_maps h2 m) ->
     exists k rs, trun J tbl (TState h2 (<[i := Thread j ns (TAdd nr :: P)]> ths)) (repeat (TStep i) k) = Ok (TState h' (<[i := Thread j ns []]> ths), rs)) as Hadd.
  { intros h2 _ m ok2 Ea Hrest Hfail.
    assert (tstep J tbl (TState h2 (<[i := Thread j ns (TAdd nr :: P)]> ths)) (TStep i) =
      Ok (TState (set_maps h2 m) (<[i := Thread j ns (if ok2 then P else [])]> ths), TOUpdate ok2)) as Hs.
    { rewrite (run_one J tbl h2 _ i (Thread j ns (TAdd nr :: P)) (set_maps h2 m) (Thread j ns (if ok2 then P else [])) (TOUpdate ok2)).
      - by rewrite list_insert_insert.
      - apply Hself.
      - unfold exec, after_update. cbn [t_prog t_ns t_job]. rewrite Ea. done. }
    destruct ok2.
    - destruct (IH (set_maps h2 m) (S n) h' n' ok (<[i := Thread j ns P]> ths) i (Hself _) (Hrest eq_refl)) as (k & rs & Hk).
      rewrite list_insert_insert in Hk. exists (S k), (TOUpdate true :: rs). by eapply Hcons.
    - rewrite (Hfail eq_refl). exists 1%nat, [TOUpdate false]. eapply Hcons; [exact Hs|]. done. }
  unfold start_prog in Hi. cbn [flat_map call_prog] in Hi. fold (start_prog (j_rate (J j)) cs) in Hi. fold P in Hi.
  unfold install. destruct (0 <? j_rate (J j)) eqn:Erate; cbn [app] in Hi.
  - destruct (lowest J h1 nr ns) as [low| |] eqn:El; [|done|done]. cbv zeta.
    set (sw := match low with Some l => j_rate (J (c_job l)) <? j_rate (J j) | None => false end).
    set (m1 := if sw then (remove_syscall tbl (ByInt nr) ns (maps h1)).1 else maps h1).
    destruct (add_sampled_syscall tbl (ByInt nr) ns (j_rate (J j)) m1) as [m2 ok2] eqn:E2.
    intros Hrun.
    assert (exists k rs, trun J tbl (TState (set_maps h1 m1) (<[i := Thread j ns (TSample nr :: TAdd nr :: P)]> ths)) (repeat (TStep i) k) =
       Ok (TState h' (<[i := Thread j ns []]> ths), rs)) as (k & rs & Hk).
    { assert (tstep J tbl (TState (set_maps h1 m1) (<[i := Thread j ns (TSample nr :: TAdd nr :: P)]> ths)) (TStep i) =
        Ok (TState (set_maps h1 m2) (<[i := Thread j ns (if ok2 then TAdd nr :: P else [])]> ths), TOUpdate ok2)) as Hs.
      { rewrite (run_one J tbl _ _ i (Thread j ns (TSample nr :: TAdd nr :: P)) (set_maps h1 m2) (Thread j ns (if ok2 then TAdd nr :: P else [])) (TOUpdate ok2)).
        - by rewrite list_insert_insert.
        - apply Hself.
        - unfold exec, after_update. cbn [t_prog t_ns t_job maps set_maps]. rewrite E2. done. }
      destruct ok2.
      - destruct (add_syscall tbl (ByInt nr) ns m2) as [m3 ok3] eqn:E3.
        destruct (Hadd (set_maps h1 m2) eq_refl m3 ok3) as (k & rs & Hk).
        + exact E3.
        + intros ->. exact Hrun.
        + intros ->. by injection Hrun.
        + exists (S k), (TOUpdate true :: rs). by eapply Hcons.
      - injection Hrun as <- <- <-. exists 1%nat, [TOUpdate false]. eapply Hcons; [exact Hs|]. done. }
    assert (tstep J tbl (TState h1 (<[i := Thread j ns (TLow nr :: TSample nr :: TAdd nr :: P)]> ths)) (TStep i) =
      Ok (TState h1 (<[i := Thread j ns (if sw then TDrop nr :: TSample nr :: TAdd nr :: P else TSample nr :: TAdd nr :: P)]> ths), TONone)) as Hs.
    { rewrite (run_one J tbl h1 _ i (Thread j ns (TLow nr :: TSample nr :: TAdd nr :: P)) h1 (Thread j ns (if sw then TDrop nr :: TSample nr :: TAdd nr :: P else TSample nr :: TAdd nr :: P)) TONone).
      - by rewrite list_insert_insert.
      - apply Hself.
      - unfold exec. cbn [t_prog t_ns t_job]. rewrite El. unfold sw. destruct low as [l|]; [|done]. by destruct (_ <? _). }
    destruct sw.
    + eapply (Hpush _ _ Hi (S (S k))). eapply Hcons; [exact Hs|]. eapply Hcons; [|exact Hk].
      rewrite (run_one J tbl h1 _ i (Thread j ns (TDrop nr :: TSample nr :: TAdd nr :: P)) (set_maps h1 m1) (Thread j ns (TSample nr :: TAdd nr :: P)) TONone).
      * by rewrite list_insert_insert.
      * apply Hself.
      * done.
    + eapply (Hpush _ _ Hi (S k)). eapply Hcons; [exact Hs|]. exact Hk.
  - destruct (add_syscall tbl (ByInt nr) ns (maps h1)) as [m ok2] eqn:Ea. intros Hrun.
    destruct (Hadd h1 eq_refl m ok2 Ea) as (k & rs & Hk).
    + intros ->. exact Hrun.
    + intros ->. by injection Hrun.
    + by eapply (Hpush _ _ Hi k).
Qed.
Lemma start_is_a_schedule J tbl h ths j c h' n ok : on_start J tbl h j c = Ok (h', (n, ok)) ->
  exists k rs ths', trun J tbl (TState h ths) (TStart j c :: repeat (TStep (length ths)) k) = Ok (TState h' ths', rs) /\
    (ths' = ths \/ ths' = ths ++ [Thread j (ct_ns c) []]).
Proof.
  unfold on_start. cbn [trun tstep t_hub t_threads]. destruct (host_selected (J j) (ct_name c)).
  - intros Hs. set (t0 := Thread j (ct_ns c) _). 
    destruct (solo J tbl j (ct_ns c) (calls_of tbl (J j)) _ _ _ _ _ (ths ++ [t0]) (length ths) (list_lookup_middle ths [] t0 _ eq_refl) Hs) as (k & rs & Hk).
    exists k, (TONone :: rs), (ths ++ [Thread j (ct_ns c) []]). rewrite Hk. split; [|by right].
    f_equal. f_equal. f_equal. rewrite insert_app_r_alt by lia. by rewrite Nat.sub_diag.
  - intros [= <- _ _]. exists 0%nat, [TONone], ths. split; [done|by left].
Qed.

(** ** How a schedule ends *)
Lemma exec_sampled J tbl h t h' t' r : exec J tbl h t = Ok (h', t', r) -> sampled h' = sampled h.
Proof.
  unfold exec, after_update. destruct (t_prog t) as [|[|nr|nr|nr|nr|nr] p]; try done; try (intros [= <- <- <-]; done).
  destruct (lowest J h nr (t_ns t)) as [[l|]| |]; try done; by intros [= <- <- <-].
Qed.
Lemma tstep_ctrs J tbl s C o s' r : repr J (t_hub s) C -> ctrs_ok (t_hub s) -> tstep J tbl s o = Ok (s', r) -> ctrs_ok (t_hub s').
Proof.
  intros Hr Hc. destruct o as [j c|i|o]; cbn [tstep].
  - destruct (host_selected _ _); intros [= <- <-]; done.
  - destruct (t_threads s !! i) as [t|]; [|by intros [= <- <-]].
    destruct (exec J tbl (t_hub s) t) as [[[h' t'] r']| |] eqn:E; [|done|done]. intros [= <- <-]. cbn [t_hub].
    intros j. unfold ctr. rewrite (exec_sampled _ _ _ _ _ _ _ E). apply Hc.
  - destruct (hstep J tbl (t_hub s) o) as [[h' r']| |] eqn:E; [|done|done]. intros [= <- <-]. cbn [t_hub].
    apply (ctrs_preserved J tbl [o] _ C h' [r'] Hr Hc). cbn [hrun]. by rewrite E.
Qed.
Lemma tstep_no_fatal J tbl s C o : repr J (t_hub s) C -> ctrs_ok (t_hub s) -> tstep J tbl s o <> Fatal.
Proof.
  intros Hr Hc. destruct o as [j c|i|o]; cbn [tstep].
  - by destruct (host_selected _ _).
  - destruct (t_threads s !! i) as [t|]; [|done]. pose proof (exec_total J tbl _ _ t Hr) as H. by destruct (exec J tbl (t_hub s) t) as [[[h' t'] r']| |].
  - pose proof (step_no_fatal J tbl _ _ o Hr Hc) as H. by destruct (hstep J tbl (t_hub s) o) as [[h' r']| |].
Qed.
(** What is left of a callback speaks of an unknown call only if its job does. *)
Definition nil_means (J : nat -> job) (tbl : syscalls) (s : tstate) : Prop :=
  forall t, t ∈ t_threads s -> TNil ∈ t_prog t -> unknown_name tbl (J (t_job t)).
Lemma start_nil tbl jb rate : TNil ∈ start_prog rate (calls_of tbl jb) -> unknown_name tbl jb.
Proof.
  unfold start_prog, calls_of. intros H. apply elem_of_list_In, in_flat_map in H as (x & Hx & H).
  apply in_map_iff in Hx as (s & <- & Hs). exists s. split; [by apply elem_of_list_In|].
  destruct (lookup_sc tbl (ByString s)) as [sc|]; [|done]. exfalso. cbn [call_prog] in H. destruct (0 <? rate); cbn in H; intuition discriminate.
Qed.
Lemma exec_nil J tbl h t h' t' r : exec J tbl h t = Ok (h', t', r) -> t_job t' = t_job t /\ (TNil ∈ t_prog t' -> TNil ∈ t_prog t).
Proof.
  unfold exec, after_update. destruct t as [j ns [|[|nr|nr|nr|nr|nr] p]]; cbn [t_prog t_job t_ns]; try done; try (intros [= <- <- <-]; cbn; split; [done|]; intros H; by right).
  - intros [= <- <- <-]. done.
  - destruct (lowest J h nr ns) as [[l|]| |]; try done; intros [= <- <- <-]; cbn; (split; [done|]); intros H; right; [|done].
    destruct (_ <? _); [|done]. apply elem_of_cons in H as [H|H]; [discriminate H|done].
  - intros [= <- <- <-]. cbn [t_prog t_job]. split; [done|]. intros H. right. destruct (add_sampled_syscall _ _ _ _ _) as [? [|]]; [done|]. by apply not_elem_of_nil in H.
  - intros [= <- <- <-]. cbn [t_prog t_job]. split; [done|]. intros H. right. destruct (add_syscall _ _ _ _) as [? [|]]; [done|]. by apply not_elem_of_nil in H.
Qed.
Lemma tstep_nil J tbl s o s' r : nil_means J tbl s -> tstep J tbl s o = Ok (s', r) -> nil_means J tbl s'.
Proof.
  intros N. destruct o as [j c|i|o]; cbn [tstep].
  - destruct (host_selected _ _); intros [= <- <-]; [|done]. intros t. cbn [t_threads]. rewrite elem_of_app, elem_of_list_singleton. intros [H| ->]; [by apply N|]. cbn [t_prog t_job]. apply start_nil.
  - destruct (t_threads s !! i) as [t|] eqn:Ei; [|by intros [= <- <-]].
    destruct (exec J tbl (t_hub s) t) as [[[h' t'] r']| |] eqn:E; [|done|done]. intros [= <- <-]. intros x Hx Hn. cbn [t_threads] in Hx.
    destruct (exec_nil _ _ _ _ _ _ _ E) as [Ej En]. destruct (elem_insert _ _ _ _ _ Ei Hx) as [->|H]; [|by apply N].
    rewrite Ej. apply N; [by eapply elem_of_list_lookup_2|by apply En].
  - destruct (hstep J tbl (t_hub s) o) as [[h' r']| |]; [|done|done]. by intros [= <- <-].
Qed.
Lemma tstep_panic J tbl s C o : repr J (t_hub s) C -> nil_means J tbl s -> tstep J tbl s o = Panic ->
  (exists i t, o = TStep i /\ t_threads s !! i = Some t /\ unknown_name tbl (J (t_job t))) \/ exists o', o = TOther o' /\ hstep J tbl (t_hub s) o' = Panic.
Proof.
  intros Hr N. destruct o as [j c|i|o]; cbn [tstep].
  - by destruct (host_selected _ _).
  - destruct (t_threads s !! i) as [t|] eqn:Ei; [|done].
    destruct (exec J tbl (t_hub s) t) as [[[h' t'] r']| |] eqn:E; [done| |done]. intros _. left. exists i, t. split; [done|]. split; [done|].
    apply N; [by eapply elem_of_list_lookup_2|]. revert E. unfold exec. destruct (t_prog t) as [|[|nr|nr|nr|nr|nr] p]; try done; [intros _; left|].
    destruct (lowest_repr J _ C nr (t_ns t) Hr) as [[_ ->]|(c & -> & _)]; done.
  - destruct (hstep J tbl (t_hub s) o) as [[h' r']| |] eqn:E; [done| |done]. intros _. right. exists o. split; [done|exact E].
Qed.
Lemma trun_ends J tbl : forall l s C, repr J (t_hub s) C -> ctrs_ok (t_hub s) -> nil_means J tbl s ->
  match trun J tbl s l with
  | Ok _ => True
  | Fatal => False
  | Panic => exists l1 o l2 s1 rs1, l = (l1 ++ o :: l2)%list /\ trun J tbl s l1 = Ok (s1, rs1)
      /\ ((exists i t, o = TStep i /\ t_threads s1 !! i = Some t /\ unknown_name tbl (J (t_job t))) \/ exists o', o = TOther o' /\ hstep J tbl (t_hub s1) o' = Panic)
  end.
Proof.
  induction l as [|o l IH]; intros s C Hr Hc N; cbn [trun]; [done|].
  pose proof (tstep_no_fatal J tbl s C o Hr Hc) as F. pose proof (tstep_panic J tbl s C o Hr N) as P.
  destruct (tstep J tbl s o) as [[s1 r]| |] eqn:E; [| |done].
  - destruct (tstep_repr _ _ _ _ _ _ _ Hr E) as (C1 & Hr1 & _). specialize (IH s1 C1 Hr1 (tstep_ctrs _ _ _ _ _ _ _ Hr Hc E) (tstep_nil _ _ _ _ _ _ N E)).
    destruct (trun J tbl s1 l) as [[s2 rs]| |]; [done| |done]. destruct IH as (l1 & o1 & l2 & s2 & rs2 & -> & R & W). exists (o :: l1), o1, l2, s2, (r :: rs2).
    split; [done|]. split; [cbn [trun]; by rewrite E, R|exact W].
  - exists [], o, l, s, []. split; [done|]. split; [done|]. by apply P.
Qed.
Lemma schedule_ends J tbl h0 l : new_hub tbl = Some h0 ->
  trun J tbl (TState h0 []) l <> Fatal /\
  (trun J tbl (TState h0 []) l = Panic ->
   exists l1 o l2 s1 rs1, l = (l1 ++ o :: l2)%list /\ trun J tbl (TState h0 []) l1 = Ok (s1, rs1)
      /\ ((exists i t, o = TStep i /\ t_threads s1 !! i = Some t /\ unknown_name tbl (J (t_job t))) \/ exists o', o = TOther o' /\ hstep J tbl (t_hub s1) o' = Panic)).
Proof.
  intros H0. assert (Hc : ctrs_ok h0) by (intros j; rewrite (new_hub_ctrs _ _ j H0); lia).
  assert (N : nil_means J tbl (TState h0 [])) by (intros t H; by apply not_elem_of_nil in H).
  pose proof (trun_ends J tbl l (TState h0 []) [] (new_hub_repr J tbl h0 H0) Hc N) as H. destruct (trun J tbl (TState h0 []) l); done.
Qed.
