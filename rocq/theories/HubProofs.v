(** Proofs about the hub model: representation invariant. *)
From stdpp Require Import gmap strings list.
From Coq Require Import ZArith Lia.
From Verif Require Import SyscallModel SyscallSpec SyscallProofs FilterModel FilterSpec FilterProofs HashModel HubModel HubSpec.
Open Scope Z_scope.
Local Opaque lookup_sc add_syscall add_sampled_syscall remove_syscall add_metrics remove_metrics run_nfilter.

Definition ne {A} (l : list A) : option (list A) := match l with [] => None | _ => Some l end.
Lemma default_ne {A} (l : list A) : default [] (ne l) = l.
Proof. by destruct l. Qed.
Lemma ne_none {A} (l : list A) : ne l = None <-> l = [].
Proof. by destruct l. Qed.

Definition at_ (ns nr : Z) (c : ctx) : Prop := c_ns c = ns /\ c_nr c = nr.
Global Instance at_dec ns nr c : Decision (at_ ns nr c).
Proof. unfold at_. apply _. Defined.

Record buckets (h : hub) (C : list ctx) : Prop := Buckets {
  b_list : forall ns nr, find_list h ns nr = ne (filter (at_ ns nr) C);
  b_inner : forall ns t, nsmap h !! ns = Some t -> t <> ∅ }.
Record repr (J : nat -> job) (h : hub) (C : list ctx) : Prop := Repr {
  r_buckets : buckets h C;
  r_ids : forall id, idmap h !! id = ne (filter (fun c => j_id (J (c_job c)) = id) C);
  r_uids : NoDup (map c_uid C);
  r_next : Forall (fun c => (c_uid c < next_uid h)%nat) C }.

(** PushJob appends. *)
Lemma find_set h ns nr l ns' nr' :
  find_list (set_list h ns nr l) ns' nr' = if decide (ns = ns' /\ nr = nr') then Some l else find_list h ns' nr'.
Proof.
  unfold find_list, set_list, set_nsmap. cbn [nsmap]. destruct (decide (ns = ns')) as [->|Hne].
  - rewrite lookup_insert. destruct (decide (nr = nr')) as [->|Hne].
    + rewrite lookup_insert, decide_True by done. done.
    + rewrite lookup_insert_ne, decide_False by naive_solver. by destruct (nsmap h !! ns').
  - rewrite lookup_insert_ne, decide_False by naive_solver. done.
Qed.

Lemma push_repr J h C j ns nr : repr J h C -> repr J (push_job J h j ns nr) (C ++ [Ctx (next_uid h) j ns nr]).
Proof.
  intros [[Hl Hi] Hid Hu Hn]. unfold push_job. set (c := Ctx (next_uid h) j ns nr). split; [split|..].
  - intros ns' nr'. change (find_list _ ns' nr') with (find_list (set_list h ns nr (default [] (find_list h ns nr) ++ [c])) ns' nr').
    rewrite find_set, filter_app, !Hl, default_ne. destruct (decide _) as [[-> ->]|Hne].
    + rewrite (filter_cons_True _ c []) by done. rewrite filter_nil. by destruct (filter _ C).
    + rewrite (filter_cons_False _ c []) by (unfold at_; naive_solver). by rewrite filter_nil, app_nil_r.
  - intros ns' t. unfold set_list, set_nsmap. cbn [nsmap]. destruct (decide (ns = ns')) as [->|Hne].
    + rewrite lookup_insert. intros [= <-]. apply insert_non_empty.
    + rewrite lookup_insert_ne by done. apply Hi.
  - intros id. cbn [idmap]. rewrite filter_app, Hid, default_ne. destruct (decide (j_id (J j) = id)) as [<-|Hne].
    + rewrite lookup_insert, (filter_cons_True _ c []) by done. rewrite filter_nil. by destruct (filter _ C).
    + rewrite lookup_insert_ne, (filter_cons_False _ c []) by done. by rewrite filter_nil, app_nil_r, Hid.
  - rewrite map_app. apply NoDup_app. split; [done|]. split; [|apply NoDup_singleton].
    intros u Hin. cbn. rewrite elem_of_list_singleton. intros ->. apply elem_of_list_In, in_map_iff in Hin as (x & Hx & Hin).
    rewrite Forall_forall in Hn. specialize (Hn x). rewrite elem_of_list_In in Hn. specialize (Hn Hin). lia.
  - cbn [next_uid]. apply Forall_app. split; [|repeat constructor; done].
    eapply Forall_impl; [exact Hn|]. cbn. intros. lia.
Qed.

(** DeleteTrace. *)
Definition gone (todo : list ctx) (c : ctx) : Prop := c_uid c ∉ map c_uid todo.
Global Instance gone_dec todo c : Decision (gone todo c).
Proof. unfold gone. apply _. Defined.

Lemma list_remove_gone c l : list_remove c l = filter (gone [c]) l.
Proof.
  unfold list_remove. induction l as [|x l IH]; [done|]. cbn [List.filter].
  destruct (Nat.eqb_spec (c_uid x) (c_uid c)) as [E|E]; cbn [negb].
  - rewrite filter_cons_False; [done|]. unfold gone. cbn. rewrite elem_of_list_singleton. tauto.
  - rewrite filter_cons_True; [by rewrite IH|]. unfold gone. cbn. by rewrite elem_of_list_singleton.
Qed.
Lemma filter_comm {A} (P Q : A -> Prop) `{!forall x, Decision (P x), !forall x, Decision (Q x)} (l : list A) :
  filter P (filter Q l) = filter Q (filter P l).
Proof. rewrite !list_filter_filter. apply list_filter_iff. tauto. Qed.
Lemma gone_cons c todo (l : list ctx) : filter (gone (c :: todo)) l = filter (gone todo) (filter (gone [c]) l).
Proof.
  rewrite list_filter_filter. apply list_filter_iff. intros x. unfold gone. cbn. rewrite !elem_of_cons, elem_of_nil. tauto.
Qed.
Lemma filter_gone_other c ns nr (C : list ctx) : NoDup (map c_uid C) -> c ∈ C -> ~ at_ ns nr c ->
  filter (at_ ns nr) (filter (gone [c]) C) = filter (at_ ns nr) C.
Proof.
  intros Hu Hin Hne. rewrite list_filter_filter. 
  assert (forall x, x ∈ C -> at_ ns nr x -> gone [c] x) as H.
  { intros x Hx Ha. unfold gone. cbn. rewrite elem_of_list_singleton. intros E. assert (x = c) as ->; [|done].
    clear Ha Hne. induction C as [|y C IH]; [by apply elem_of_nil in Hx|]. cbn in Hu. apply NoDup_cons in Hu as [Hy Hu].
    apply elem_of_cons in Hx as [->|Hx], Hin as [->|Hin]; [done|..|by apply IH].
    - destruct Hy. rewrite E. by apply elem_of_list_In, in_map, elem_of_list_In.
    - destruct Hy. rewrite <- E. by apply elem_of_list_In, in_map, elem_of_list_In. }
  clear Hu Hin. induction C as [|x C IH]; [done|]. rewrite !filter_cons.
  assert (filter (λ x, at_ ns nr x /\ gone [c] x) C = filter (at_ ns nr) C) as E.
  { apply IH. intros y Hy. apply H. by right. }
  destruct (decide (at_ ns nr x)) as [Ha|Ha].
  - rewrite decide_True by (split; [done|apply H; [left|done]]). by rewrite E.
  - rewrite decide_False by tauto. done.
Qed.

(** One iteration of the delete loop. *)
Definition delete_one (tbl : syscalls) (c : ctx) (l : list ctx) (h : hub) : hub :=
  let l' := list_remove c l in
  let h1 := set_list h (c_ns c) (c_nr c) l' in
  let h2 := match l' with
            | [] => clear_list (set_maps h1 (remove_syscall tbl (ByInt (c_nr c)) (c_ns c) (maps h1)).1) (c_ns c) (c_nr c)
            | _ => h1
            end in
  match nsmap h2 !! c_ns c with
  | Some t => if decide (t = ∅) then set_nsmap h2 (delete (c_ns c) (nsmap h2)) else h2
  | None => h2
  end.
Lemma delete_loop_cons tbl c todo h jid : delete_loop tbl (c :: todo) h jid =
  match find_list h (c_ns c) (c_nr c) with
  | None => delete_loop tbl todo h jid
  | Some l => delete_loop tbl todo (delete_one tbl c l h) (list_remove c jid)
  end.
Proof. reflexivity. Qed.

Lemma delete_one_other tbl c l h :
  idmap (delete_one tbl c l h) = idmap h /\ next_uid (delete_one tbl c l h) = next_uid h /\
  sampled (delete_one tbl c l h) = sampled h /\ hosts (delete_one tbl c l h) = hosts h /\
  maps (delete_one tbl c l h) =
    match list_remove c l with [] => (remove_syscall tbl (ByInt (c_nr c)) (c_ns c) (maps h)).1 | _ => maps h end.
Proof.
  unfold delete_one. destruct (list_remove c l) as [|x l'].
  - unfold clear_list. cbn [nsmap set_maps set_list set_nsmap]. rewrite lookup_insert. cbn [nsmap set_nsmap].
    rewrite lookup_insert. by destruct (decide _).
  - cbn [nsmap set_maps set_list set_nsmap]. rewrite lookup_insert. by destruct (decide _).
Qed.

Lemma delete_one_buckets tbl c l h C : buckets h C -> NoDup (map c_uid C) -> c ∈ C ->
  find_list h (c_ns c) (c_nr c) = Some l ->
  l = filter (at_ (c_ns c) (c_nr c)) C /\ buckets (delete_one tbl c l h) (filter (gone [c]) C).
Proof.
  intros [Hl Hi] Hu Hin Hf. assert (l = filter (at_ (c_ns c) (c_nr c)) C) as El.
  { rewrite Hl in Hf. destruct (filter _ C); cbn in Hf; congruence. }
  split; [done|]. pose proof (list_remove_gone c l) as Er. rewrite El, filter_comm in Er. rewrite <- El in Er.
  set (ns := c_ns c) in *. set (nr := c_nr c) in *.
  unfold delete_one. fold ns nr.
  assert (forall h2, 
     (forall ns' nr', find_list h2 ns' nr' = ne (filter (at_ ns' nr') (filter (gone [c]) C))) ->
     (forall ns' t, ns' <> ns -> nsmap h2 !! ns' = Some t -> t <> ∅) ->
     buckets (match nsmap h2 !! ns with
      | Some t => if decide (t = ∅) then set_nsmap h2 (delete ns (nsmap h2)) else h2
      | None => h2 end) (filter (gone [c]) C)) as Hfin.
  { intros h2 H1 H2. destruct (nsmap h2 !! ns) as [t|] eqn:Et.
    - destruct (decide (t = ∅)) as [->|Hne].
      + split.
        * intros ns' nr'. rewrite <- H1. unfold find_list, set_nsmap. cbn [nsmap]. destruct (decide (ns' = ns)) as [->|Hne'].
          -- rewrite lookup_delete, Et, lookup_empty. done.
          -- by rewrite lookup_delete_ne by done.
        * intros ns' t. unfold set_nsmap. cbn [nsmap]. destruct (decide (ns' = ns)) as [->|Hne'].
          -- by rewrite lookup_delete.
          -- rewrite lookup_delete_ne by done. by apply H2.
      + split; [done|]. intros ns' t' Ht'. destruct (decide (ns' = ns)) as [->|Hne']; [congruence|]. by eapply H2.
    - split; [done|]. intros ns' t' Ht'. destruct (decide (ns' = ns)) as [->|Hne']; [congruence|]. by eapply H2. }
  assert (forall ns' nr', ~ (ns = ns' /\ nr = nr') ->
     find_list h ns' nr' = ne (filter (at_ ns' nr') (filter (gone [c]) C))) as Hother.
  { intros ns' nr' Hne. rewrite Hl. f_equal. symmetry. by apply filter_gone_other. }
  cbv zeta. destruct (list_remove c l) as [|x l'] eqn:E'.
  - apply Hfin.
    + intros ns' nr'. unfold clear_list. cbn [nsmap set_maps set_list set_nsmap]. rewrite lookup_insert.
      unfold find_list. cbn [nsmap set_nsmap]. destruct (decide (ns = ns')) as [->|Hne].
      * rewrite lookup_insert. destruct (decide (nr = nr')) as [->|Hne].
        -- by rewrite lookup_delete, <- Er.
        -- rewrite lookup_delete_ne, lookup_insert_ne by done. rewrite <- Hother by naive_solver.
           unfold find_list. destruct (nsmap h !! ns') as [t|]; cbn; [done|by rewrite lookup_empty].
      * rewrite !lookup_insert_ne by done. rewrite <- Hother by naive_solver. done.
    + intros ns' t Hne. unfold clear_list. cbn [nsmap set_maps set_list set_nsmap]. rewrite lookup_insert. cbn [nsmap set_nsmap].
      rewrite !lookup_insert_ne by done. apply Hi.
  - apply Hfin.
    + intros ns' nr'. rewrite find_set. destruct (decide _) as [[<- <-]|Hne].
      * by rewrite <- Er.
      * by apply Hother.
    + intros ns' t Hne. cbn [nsmap set_list set_nsmap]. rewrite lookup_insert_ne by done. apply Hi.
Qed.

Lemma nodup_map_filter {A B} (f : A -> B) (P : A -> Prop) `{!forall x, Decision (P x)} (l : list A) :
  NoDup (map f l) -> NoDup (map f (filter P l)).
Proof.
  induction l as [|x l IH]; intros Hd; [done|]. cbn in Hd. apply NoDup_cons in Hd as [Hx Hd].
  rewrite filter_cons. destruct (decide (P x)); [|by apply IH]. cbn. apply NoDup_cons. split; [|by apply IH].
  intros Hin. apply Hx. apply elem_of_list_In, in_map_iff in Hin as (y & Ey & Hy). apply elem_of_list_In, elem_of_list_filter in Hy as [_ Hy].
  rewrite <- Ey. by apply elem_of_list_In, in_map, elem_of_list_In.
Qed.

Lemma delete_loop_buckets tbl : forall todo h jid C, buckets h C -> NoDup (map c_uid C) ->
  Forall (fun c => c ∈ C) todo -> NoDup (map c_uid todo) ->
  buckets (delete_loop tbl todo h jid).1 (filter (gone todo) C) /\
  (delete_loop tbl todo h jid).2 = filter (gone todo) jid /\
  idmap (delete_loop tbl todo h jid).1 = idmap h /\ next_uid (delete_loop tbl todo h jid).1 = next_uid h /\
  sampled (delete_loop tbl todo h jid).1 = sampled h /\ hosts (delete_loop tbl todo h jid).1 = hosts h.
Proof.
  induction todo as [|c todo IH]; intros h jid C Hb Hu Hin Ht.
  - cbn. assert (forall l : list ctx, filter (gone []) l = l) as E.
    { intros l. induction l as [|x l IH]; [done|]. rewrite filter_cons_True by (apply not_elem_of_nil). by rewrite IH. }
    rewrite !E. done.
  - rewrite delete_loop_cons. apply Forall_cons in Hin as [Hc Hin]. cbn in Ht. apply NoDup_cons in Ht as [Hct Ht].
    destruct (find_list h (c_ns c) (c_nr c)) as [l|] eqn:Ef.
    2: { exfalso. destruct Hb as [Hl _]. rewrite Hl in Ef. apply ne_none in Ef.
         assert (c ∈ filter (at_ (c_ns c) (c_nr c)) C) as H by (by apply elem_of_list_filter). rewrite Ef in H. by apply elem_of_nil in H. }
    destruct (delete_one_buckets tbl c l h C Hb Hu Hc Ef) as [El Hb'].
    destruct (delete_one_other tbl c l h) as (H1 & H2 & H3 & H4 & _).
    destruct (IH (delete_one tbl c l h) (list_remove c jid) (filter (gone [c]) C)) as (I1 & I2 & I3 & I4 & I5 & I6); [done|..|done|].
    + by apply nodup_map_filter.
    + rewrite Forall_forall in Hin |- *. intros x Hx. apply elem_of_list_filter. split; [|by apply Hin].
      unfold gone. cbn. rewrite elem_of_list_singleton. intros E. destruct Hct. rewrite <- E.
      by apply elem_of_list_In, in_map, elem_of_list_In.
    + rewrite (gone_cons c todo C), (gone_cons c todo jid), <- (list_remove_gone c jid).
      rewrite I3, I4, I5, I6, H1, H2, H3, H4. done.
Qed.

Lemma filter_gone_all (P : ctx -> Prop) `{!forall x, Decision (P x)} (C : list ctx) : NoDup (map c_uid C) ->
  filter (gone (filter P C)) C = filter (fun c => ~ P c) C.
Proof.
  intros Hu. assert (forall x, x ∈ C -> (gone (filter P C) x <-> ~ P x)) as Hgo.
  { intros x Hx. unfold gone. split.
    - intros Hn HP. apply Hn. apply elem_of_list_In, in_map, elem_of_list_In, elem_of_list_filter. done.
    - intros HP Hn. apply elem_of_list_In, in_map_iff in Hn as (y & Ey & Hy). apply elem_of_list_In, elem_of_list_filter in Hy as [HPy Hy].
      assert (x = y) as ->; [|done]. clear HP HPy. induction C as [|z C IH]; [by apply elem_of_nil in Hx|].
      cbn in Hu. apply NoDup_cons in Hu as [Hz Hu]. apply elem_of_cons in Hx as [->|Hx], Hy as [->|Hy]; [done|..|by apply IH].
      + destruct Hz. rewrite <- Ey. by apply elem_of_list_In, in_map, elem_of_list_In.
      + destruct Hz. rewrite Ey. by apply elem_of_list_In, in_map, elem_of_list_In. }
  revert Hgo. generalize (filter P C). intros T. clear Hu. induction C as [|x C IH]; intros Hgo; [done|].
  rewrite !filter_cons. rewrite IH by (intros y Hy; apply Hgo; by right).
  destruct (decide (gone T x)) as [Hg|Hg].
  - rewrite decide_True; [done|]. apply Hgo; [left|done].
  - rewrite decide_False; [done|]. intros HP. apply Hg, Hgo; [left|done].
Qed.

Lemma delete_repr J tbl h C id : repr J h C ->
  match filter (fun c => j_id (J (c_job c)) = id) C with
  | [] => delete_trace tbl h id = Ok (h, false)
  | todo => exists h', delete_trace tbl h id = Ok (h', true) /\ repr J h' (filter (fun c => j_id (J (c_job c)) <> id) C) /\
      maps h' = maps (delete_loop tbl todo h todo).1 /\ sampled h' = sampled h /\ hosts h' = hosts h /\ next_uid h' = next_uid h
  end.
Proof.
  intros [Hb Hid Hu Hn]. unfold delete_trace. rewrite Hid. set (P := fun c => j_id (J (c_job c)) = id).
  destruct (filter P C) as [|c0 todo0] eqn:E; [done|]. rewrite <- E. cbn [ne].
  assert (ne (filter P C) = Some (filter P C)) as -> by (by rewrite E).
  destruct (delete_loop_buckets tbl (filter P C) h (filter P C) C) as (H1 & H2 & H3 & H4 & H5 & H6); [done|done|..].
  { apply Forall_forall. intros x Hx. by apply elem_of_list_filter in Hx as [_ Hx]. }
  { by apply nodup_map_filter. }
  assert (filter (gone (filter P C)) (filter P C) = []) as Enil.
  { rewrite filter_comm, (filter_gone_all P C Hu), list_filter_filter.
    clear. induction C as [|x C IH]; [done|]. rewrite filter_cons_False by tauto. done. }
  rewrite Enil in H2. destruct (delete_loop tbl (filter P C) h (filter P C)) as [h' jid'] eqn:Ed. cbn [fst snd] in *. subst jid'.
  eexists. split; [reflexivity|]. split; [|repeat split; done].
  rewrite (filter_gone_all P C Hu) in H1. split.
  - destruct H1 as [Ha Hc]. split; [exact Ha|exact Hc].
  - intros id'. cbn [idmap set_idmap]. rewrite H3. destruct (decide (id' = id)) as [->|Hne].
    + rewrite lookup_delete. symmetry. apply ne_none. rewrite list_filter_filter. 
      clear. induction C as [|x C IH]; [done|]. rewrite filter_cons_False by tauto. done.
    + rewrite lookup_delete_ne by done. rewrite Hid, list_filter_filter. f_equal. apply list_filter_iff. unfold P. naive_solver.
  - by apply nodup_map_filter.
  - cbn [next_uid set_idmap]. rewrite H4. rewrite Forall_forall in Hn |- *. intros x Hx. apply elem_of_list_filter in Hx as [_ Hx]. by apply Hn.
Qed.

(** Registrations as the image of the contexts. *)
Lemma filter_map_reg (P : reg -> Prop) `{!forall g, Decision (P g)} (C : list ctx) :
  filter P (map reg_of C) = map reg_of (filter (fun c => P (reg_of c)) C).
Proof.
  induction C as [|c C IH]; [done|]. cbn [map]. rewrite !filter_cons. destruct (decide (P (reg_of c))); cbn; by rewrite IH.
Qed.
Lemma bucket_repr J h C ns nr : repr J h C -> bucket h ns nr = regs_at ns nr (map reg_of C).
Proof.
  intros [[Hl _] _ _ _]. unfold bucket, regs_at. rewrite Hl, default_ne, filter_map_reg. done.
Qed.
Lemma job_list_repr J h C id : repr J h C -> job_list h id = regs_of J id (map reg_of C).
Proof. intros [_ Hid _ _]. unfold job_list, regs_of. rewrite Hid, default_ne, filter_map_reg. done. Qed.
Lemma find_list_repr J h C ns nr : repr J h C -> find_list h ns nr = ne (filter (at_ ns nr) C).
Proof. intros [[Hl _] _ _ _]. apply Hl. Qed.

Lemma repr_set_maps J h C m : repr J h C -> repr J (set_maps h m) C.
Proof. intros [[Hl Hi] Hid Hu Hn]. split; [split|..]; [exact Hl|exact Hi|exact Hid|exact Hu|exact Hn]. Qed.
Lemma repr_set_sampled J h C m : repr J h C -> repr J (set_sampled h m) C.
Proof. intros [[Hl Hi] Hid Hu Hn]. split; [split|..]; [exact Hl|exact Hi|exact Hid|exact Hu|exact Hn]. Qed.
Lemma repr_set_hosts J h C m : repr J h C -> repr J (set_hosts h m) C.
Proof. intros [[Hl Hi] Hid Hu Hn]. split; [split|..]; [exact Hl|exact Hi|exact Hid|exact Hu|exact Hn]. Qed.

(** findLowestSampleJob. *)
Definition rate_of (J : nat -> job) (c : ctx) : Z := j_rate (J (c_job c)).
Definition first_min (J : nat -> job) (l : list ctx) (c : ctx) : Prop :=
  exists i, l !! i = Some c /\ (forall c', c' ∈ l -> rate_of J c <= rate_of J c') /\
    forall i' c', (i' < i)%nat -> l !! i' = Some c' -> rate_of J c < rate_of J c'.
Lemma fold_min J l c : forall done_, done_ ++ l <> [] -> first_min J done_ c ->
  first_min J (done_ ++ l) (fold_left (fun m x => if j_rate (J (c_job x)) <? j_rate (J (c_job m)) then x else m) l c).
Proof.
  revert c. induction l as [|x l IH]; intros c dn _ Hc; [by rewrite app_nil_r|]. cbn [fold_left].
  replace (dn ++ x :: l) with ((dn ++ [x]) ++ l) by (by rewrite <- app_assoc).
  apply IH; [by destruct dn|]. destruct Hc as (i & Hi & Hm & Hf). fold (rate_of J x) (rate_of J c).
  destruct (Z.ltb_spec (rate_of J x) (rate_of J c)).
  - exists (length dn). split; [by apply list_lookup_middle|]. split.
    + intros c' Hc'. apply elem_of_app in Hc' as [Hc'|Hc']; [specialize (Hm _ Hc'); lia|].
      apply elem_of_list_singleton in Hc' as ->. lia.
    + intros i' c' Hlt Hl. rewrite lookup_app_l in Hl by done. apply elem_of_list_lookup_2 in Hl. specialize (Hm _ Hl). lia.
  - exists i. assert (i < length dn)%nat by (by eapply lookup_lt_Some). split; [by rewrite lookup_app_l|]. split.
    + intros c' Hc'. apply elem_of_app in Hc' as [Hc'|Hc']; [by apply Hm|]. apply elem_of_list_singleton in Hc' as ->. lia.
    + intros i' c' Hlt Hl. rewrite lookup_app_l in Hl by lia. by eapply Hf.
Qed.
Lemma first_min_unique J l c c' : first_min J l c -> first_min J l c' -> c = c'.
Proof.
  intros (i & Hi & Hm & Hf) (i' & Hi' & Hm' & Hf'). destruct (Nat.lt_total i i') as [Hl|[->|Hl]]; [|congruence|].
  - specialize (Hf' _ _ Hl Hi). specialize (Hm c' (elem_of_list_lookup_2 _ _ _ Hi')). lia.
  - specialize (Hf _ _ Hl Hi'). specialize (Hm' c (elem_of_list_lookup_2 _ _ _ Hi)). lia.
Qed.
Lemma lowest_repr J h C ns nr : repr J h C ->
  (filter (at_ ns nr) C = [] /\ lowest J h ns nr = Ok None) \/
  (exists c, lowest J h ns nr = Ok (Some c) /\ first_min J (filter (at_ ns nr) C) c).
Proof.
  intros Hr. unfold lowest. rewrite (find_list_repr _ _ _ _ _ Hr). destruct (filter (at_ ns nr) C) as [|c l]; [by left|].
  right. cbn [ne]. eexists. split; [reflexivity|]. cbn [fold_left]. rewrite Z.ltb_irrefl.
  apply (fold_min J l c [c]); [done|]. exists 0%nat. split; [done|]. split; [|intros; lia].
  intros c' Hc'. apply elem_of_list_singleton in Hc' as ->. lia.
Qed.

(** Starting. *)
Lemma install_total J tbl h C j ns nr : repr J h C -> exists r, install J tbl h j ns nr = Ok r.
Proof.
  intros Hr. unfold install. destruct (0 <? _); [|eauto].
  destruct (lowest_repr J h C nr ns Hr) as [[_ ->]|(c & -> & _)].
  - destruct (add_sampled_syscall _ _ _ _ _) as [m2 []]; eauto.
  - destruct (add_sampled_syscall _ _ _ _ _) as [m2 []]; eauto.
Qed.
Lemma start_repr J tbl j ns : forall cs h C n, repr J h C ->
  match start_calls J tbl cs j ns h n with
  | Ok (h', (n', ok)) => exists D, repr J h' (C ++ D) /\ sampled h' = sampled h /\ hosts h' = hosts h /\
      (n <= n')%nat /\
      map reg_of D = map (Reg j ns) (if ok then omap id cs else take (n' - n) (omap id cs)) /\
      (ok = true -> None ∉ cs)
  | Panic => None ∈ cs
  | Fatal => False
  end.
Proof.
  induction cs as [|[nr|] cs IH]; intros h C n Hr; cbn [start_calls].
  - exists []. rewrite app_nil_r. split; [done|]. split; [done|]. split; [done|]. split; [lia|]. split; [by destruct (n - n)%nat|]. intros _. apply not_elem_of_nil.
  - pose proof (push_repr J h C j ns nr Hr) as Hp.
    destruct (install_total J tbl _ _ j ns nr Hp) as [[m [|]] Ei]; rewrite Ei.
    + specialize (IH (set_maps (push_job J h j ns nr) m) _ (S n) (repr_set_maps _ _ _ m Hp)).
      destruct (start_calls J tbl cs j ns _ (S n)) as [[h' [n' ok]]| |]; [|by right|done].
      destruct IH as (D & HD & H1 & H2 & H3 & H4 & H5). rewrite <- app_assoc in HD.
      eexists. split; [exact HD|]. split; [done|]. split; [done|]. split; [lia|]. split.
      * cbn [map app omap list_omap]. rewrite H4. unfold reg_of at 1. cbn [c_job c_ns c_nr id]. 
        destruct ok; [done|]. replace (n' - n)%nat with (S (n' - S n)) by lia. done.
      * intros Hok Hin. apply elem_of_cons in Hin as [?|Hin]; [done|]. by apply H5.
    + eexists. split; [apply repr_set_maps, Hp|]. split; [done|]. split; [done|]. split; [lia|]. split; [|done].
      replace (S n - n)%nat with 1%nat by lia. done.
  - left.
Qed.
Lemma stop_repr J tbl ns : forall cs h C, repr J h C ->
  match stop_calls tbl cs ns h with
  | Ok h' => repr J h' C /\ sampled h' = sampled h /\ hosts h' = hosts h /\ None ∉ cs
  | Panic => None ∈ cs
  | Fatal => False
  end.
Proof.
  induction cs as [|[nr|] cs IH]; intros h C Hr; cbn [stop_calls].
  - split; [done|]. split; [done|]. split; [done|]. apply not_elem_of_nil.
  - specialize (IH (set_maps h (remove_syscall tbl (ByInt nr) ns (maps h)).1) C (repr_set_maps _ _ _ _ Hr)).
    destruct (stop_calls tbl cs ns _) as [h'| |]; [|by right|done]. destruct IH as (H1 & H2 & H3 & H4).
    split; [done|]. split; [done|]. split; [done|]. intros Hin. apply elem_of_cons in Hin as [?|Hin]; done.
  - left.
Qed.
Lemma calls_nrs tbl jb : omap id (calls_of tbl jb) = job_nrs tbl jb.
Proof.
  unfold calls_of, job_nrs. induction (j_calls jb) as [|s l IH]; [done|]. cbn [map omap list_omap].
  destruct (lookup_sc tbl (ByString s)); cbn [id]; by rewrite IH.
Qed.
Lemma host_selected_spec jb name : host_selected jb name = true <-> selects jb name.
Proof.
  unfold host_selected, selects. destruct (j_hosts jb) as [|x l]; [naive_solver|].
  rewrite existsb_exists. split.
  - intros (y & Hy & E). right. apply String.eqb_eq in E as ->. by apply elem_of_list_In.
  - intros [?|H]; [done|]. exists name. split; [by apply elem_of_list_In|apply String.eqb_refl].
Qed.

(** Events. *)
Lemma write_event_frame J h j ns nr h' b : write_event J h j ns nr = Ok (h', b) ->
  nsmap h' = nsmap h /\ idmap h' = idmap h /\ maps h' = maps h /\ next_uid h' = next_uid h /\ hosts h' = hosts h.
Proof.
  unfold write_event. destruct (0 <? _); [|by intros [= <- <-]].
  destruct (lowest _ _ _ _) as [[c|]| |]; try done. destruct (_ =? _)%nat; [by intros [= <- <-]|].
  destruct (_ =? 0); [done|]. by intros [= <- <-].
Qed.
Lemma write_jobs_frame J ns nr : forall l h h' ps, write_jobs J l ns nr h = Ok (h', ps) ->
  nsmap h' = nsmap h /\ idmap h' = idmap h /\ maps h' = maps h /\ next_uid h' = next_uid h /\ hosts h' = hosts h.
Proof.
  induction l as [|c l IH]; intros h h' ps; cbn [write_jobs]; [by intros [= <- <-]|].
  destruct (write_event J h (c_job c) ns nr) as [[h1 b]| |] eqn:Ew; [|done|done]. apply write_event_frame in Ew as (E1 & E2 & E3 & E4 & E5).
  destruct (write_jobs J l ns nr h1) as [[h2 ps']| |] eqn:Ej; [|done|done]. intros [= <- <-].
  apply IH in Ej as (F1 & F2 & F3 & F4 & F5). repeat split; congruence.
Qed.
Lemma repr_frame J h h' C : nsmap h' = nsmap h -> idmap h' = idmap h -> next_uid h' = next_uid h ->
  repr J h C -> repr J h' C.
Proof.
  intros E1 E2 E3 [[Hl Hi] Hid Hu Hn]. split; [split|..].
  - intros ns nr. unfold find_list. rewrite E1. apply Hl.
  - rewrite E1. exact Hi.
  - rewrite E2. exact Hid.
  - exact Hu.
  - rewrite E3. exact Hn.
Qed.
Lemma on_event_frame J h ev h' ps : on_event J h ev = Ok (h', ps) ->
  nsmap h' = nsmap h /\ idmap h' = idmap h /\ maps h' = maps h /\ next_uid h' = next_uid h /\ hosts h' = hosts h.
Proof.
  unfold on_event. destruct (e_container ev) as [c|]; [|by intros [= <- <-]].
  destruct (find_list h _ _) as [l|]; [|by intros [= <- <-]].
  destruct (write_jobs _ _ _ _ _) as [[h1 qs]| |] eqn:E; [|done|done]. intros [= <- <-]. by apply write_jobs_frame in E.
Qed.

(** One step, any step. *)
Lemma step_repr J tbl h C o h' r : repr J h C -> hstep J tbl h o = Ok (h', r) ->
  exists C', repr J h' C' /\ map reg_of C' = reg_step J tbl (map reg_of C) (o, r).
Proof.
  intros Hr. destruct o as [j c|j c|j ns nr|id|ev|ns|ns|mode t]; cbn [hstep].
  - unfold on_start. destruct (host_selected (J j) (ct_name c)) eqn:Hs.
    + apply host_selected_spec in Hs.
      pose proof (start_repr J tbl j (ct_ns c) (calls_of tbl (J j)) (set_hosts h (<[j := add_container (default ∅ (hosts h !! j)) (ct_pod c) (ct_name c)]> (hosts h))) C 0 (repr_set_hosts _ _ _ _ Hr)) as H.
      destruct (start_calls _ _ _ _ _ _ _) as [[h1 [n ok]]| |]; [|done|done]. intros [= <- <-].
      destruct H as (D & HD & _ & _ & _ & H & _). exists (C ++ D). split; [done|]. cbn [reg_step]. rewrite decide_True by done.
      rewrite map_app, H, Nat.sub_0_r, calls_nrs. done.
    + intros [= <- <-]. exists C. split; [done|]. cbn [reg_step]. rewrite decide_False; [done|].
      intros Hx. apply host_selected_spec in Hx. congruence.
  - unfold on_stop.
    pose proof (stop_repr J tbl (ct_ns c) (calls_of tbl (J j)) (set_hosts h (<[j := remove_container (default ∅ (hosts h !! j)) (ct_pod c) (ct_name c)]> (hosts h))) C (repr_set_hosts _ _ _ _ Hr)) as H.
    destruct (stop_calls _ _ _ _) as [h1| |]; [|done|done]. intros [= <- <-]. exists C. split; [apply H|done].
  - intros [= <- <-]. eexists. split; [by apply push_repr|]. by rewrite map_app.
  - pose proof (delete_repr J tbl h C id Hr) as H. cbn [reg_step]. rewrite filter_map_reg. cbn [reg_of g_job].
    destruct (filter (fun c => j_id (J (c_job c)) = id) C) as [|c0 todo] eqn:E.
    + rewrite H. intros [= <- <-]. exists C. split; [done|]. f_equal. symmetry.
      clear H Hr. induction C as [|c C IH]; [done|]. rewrite filter_cons in E |- *. destruct (decide _) as [Ha|Ha]; [done|].
      rewrite decide_True by done. by rewrite IH.
    + destruct H as (h1 & -> & H1 & _). intros [= <- <-]. eexists. split; [exact H1|]. done.
  - destruct (on_event J h ev) as [[h1 ps]| |] eqn:E; [|done|done]. intros [= <- <-].
    apply on_event_frame in E as (E1 & E2 & E3 & E4 & E5). exists C. split; [|done]. by eapply repr_frame.
  - intros [= <- <-]. exists C. split; [by apply repr_set_maps|done].
  - intros [= <- <-]. exists C. split; [by apply repr_set_maps|done].
  - destruct (run_nfilter mode t (maps h)) as [m v]. intros [= <- <-]. exists C. split; [by apply repr_set_maps|done].
Qed.
Lemma run_repr J tbl : forall os h C h' rs, repr J h C -> hrun J tbl h os = Ok (h', rs) ->
  exists C', repr J h' C' /\ map reg_of C' = fold_left (reg_step J tbl) (zip os rs) (map reg_of C).
Proof.
  induction os as [|o os IH]; intros h C h' rs Hr; cbn [hrun]; [intros [= <- <-]; by exists C|].
  destruct (hstep J tbl h o) as [[h1 r]| |] eqn:Es; [|done|done].
  destruct (hrun J tbl h1 os) as [[h2 rs2]| |] eqn:Er; [|done|done]. intros [= <- <-].
  destruct (step_repr _ _ _ _ _ _ _ Hr Es) as (C1 & H1 & E1). destruct (IH _ _ _ _ H1 Er) as (C2 & H2 & E2).
  exists C2. split; [done|]. cbn [zip zip_with fold_left]. by rewrite <- E1.
Qed.
Lemma new_hub_repr J tbl h : new_hub tbl = Some h -> repr J h [].
Proof.
  unfold new_hub. destruct (new_hub_maps tbl) as [m|]; [|done]. intros [= <-]. split; [split|..].
  - intros ns nr. unfold find_list. cbn [nsmap]. by rewrite lookup_empty.
  - intros ns t. cbn [nsmap]. by rewrite lookup_empty.
  - intros id. cbn [idmap]. by rewrite lookup_empty.
  - constructor.
  - constructor.
Qed.
(** What a reachable hub knows. *)
Lemma reachable J tbl h0 os h rs : new_hub tbl = Some h0 -> hrun J tbl h0 os = Ok (h, rs) ->
  exists C, repr J h C /\ map reg_of C = registrations J tbl os rs.
Proof. intros H0 Hr. destruct (run_repr _ _ _ _ _ _ _ (new_hub_repr J _ _ H0) Hr) as (C & H1 & H2). by exists C. Qed.
