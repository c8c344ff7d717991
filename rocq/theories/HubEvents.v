(** Proofs about the hub model: events, sampling, hosts, panics. *)
From stdpp Require Import gmap strings list.
From Coq Require Import ZArith Lia.
From Verif Require Import SyscallTable SyscallModel SyscallSpec SyscallProofs FilterModel FilterSpec FilterProofs HashModel HubModel HubSpec HubProofs.
Open Scope Z_scope.
Local Opaque lookup_sc add_syscall add_sampled_syscall remove_syscall add_metrics remove_metrics run_nfilter.

Lemma first_min_reg J C ns nr c : first_min J (filter (at_ ns nr) C) c ->
  lowest_reg J (regs_at ns nr (map reg_of C)) (reg_of c).
Proof.
  intros (i & Hi & Hm & Hf). unfold regs_at. rewrite filter_map_reg.
  change (filter (λ c0, g_ns (reg_of c0) = ns ∧ g_nr (reg_of c0) = nr) C) with (filter (at_ ns nr) C).
  exists i. split; [rewrite list_lookup_fmap; by rewrite Hi|]. split.
  - intros g' Hg'. apply elem_of_list_In, in_map_iff in Hg' as (c' & <- & Hc'). apply Hm. by apply elem_of_list_In.
  - intros i' g' Hlt Hg'. rewrite list_lookup_fmap in Hg'. apply fmap_Some in Hg' as (c' & Hc' & ->). by apply (Hf i' c').
Qed.
Lemma lowest_reg_unique J L g g' : lowest_reg J L g -> lowest_reg J L g' -> g = g'.
Proof.
  intros (i & Hi & Hm & Hf) (i' & Hi' & Hm' & Hf'). destruct (Nat.lt_total i i') as [Hl|[->|Hl]]; [|congruence|].
  - specialize (Hf' _ _ Hl Hi). specialize (Hm g' (elem_of_list_lookup_2 _ _ _ Hi')). lia.
  - specialize (Hf _ _ Hl Hi'). specialize (Hm' g (elem_of_list_lookup_2 _ _ _ Hi)). lia.
Qed.

Lemma lowest_frame J h h' ns nr : nsmap h' = nsmap h -> lowest J h' ns nr = lowest J h ns nr.
Proof. intros E. unfold lowest, find_list. by rewrite E. Qed.

Lemma div_step s d : 0 < d -> (s + 1) / d = s / d + (if (s + 1) mod d =? 0 then 1 else 0).
Proof.
  intros Hd. pose proof (Z.div_mod s d) as H1. pose proof (Z.mod_pos_bound s d Hd) as H2.
  pose proof (Z.div_mod (s + 1) d) as H3. pose proof (Z.mod_pos_bound (s + 1) d Hd) as H4.
  destruct (Z.eqb_spec ((s + 1) mod d) 0); nia.
Qed.

Definition countn (j : nat) (l : list nat) : Z := Z.of_nat (length (filter (fun x => x = j) l)).
Lemma countn_cons j x l : countn j (x :: l) = (if decide (x = j) then 1 else 0) + countn j l.
Proof. unfold countn. rewrite filter_cons. destruct (decide (x = j)); cbn [length]; lia. Qed.
Lemma countn_sublist j l k : l `sublist_of` k -> countn j l <= countn j k.
Proof. induction 1; rewrite ?countn_cons; [done|destruct (decide _); lia|destruct (decide _); lia]. Qed.
Definition ctr (h : hub) (j : nat) : Z := default 0 (sampled h !! j).
Definition step_of (J : nat -> job) (c0 : ctx) (j : nat) : Z :=
  if decide (c_job c0 = j) then j_rate (J j) else j_rate (J j) - rate_of J c0.

(** One WriteEvent. *)
Lemma write_event_eq J h j ns nr c0 : lowest J h ns nr = Ok (Some c0) -> 0 <= ctr h j -> rate_of J c0 <= j_rate (J j) ->
  write_event J h j ns nr =
    if decide (j_rate (J j) <= 0) then Ok (h, true)
    else if decide (step_of J c0 j = 0) then Panic
    else Ok (set_sampled h (<[j := ctr h j + 1]> (sampled h)), (ctr h j + 1) mod step_of J c0 j =? 0).
Proof.
  intros Hl Hc Hmin. unfold write_event. destruct (decide (j_rate (J j) <= 0)) as [Hr|Hr].
  - destruct (Z.ltb_spec 0 (j_rate (J j))); [lia|done].
  - destruct (Z.ltb_spec 0 (j_rate (J j))); [|lia]. fold (ctr h j).
    rewrite (lowest_frame J h) by done. rewrite Hl. unfold step_of.
    destruct (Nat.eqb_spec (c_job c0) j) as [E|E].
    + rewrite !(decide_True (P := c_job c0 = j)) by done. rewrite decide_False by lia. rewrite Z.rem_mod_nonneg by lia. done.
    + rewrite !(decide_False (P := c_job c0 = j)) by done. fold (rate_of J c0).
      destruct (Z.eqb_spec (j_rate (J j) - rate_of J c0) 0) as [E0|E0].
      * by rewrite decide_True.
      * rewrite decide_False by done. rewrite Z.rem_mod_nonneg by lia. done.
Qed.

(** The loop over the bucket. *)
Lemma write_jobs_ok J ns nr c0 : forall l h h' qs, lowest J h ns nr = Ok (Some c0) -> (forall j, 0 <= ctr h j) ->
  Forall (fun c => rate_of J c0 <= rate_of J c) l ->
  write_jobs J l ns nr h = Ok (h', qs) ->
  qs `sublist_of` map c_job l /\
  filter (fun j => j_rate (J j) <= 0) qs = filter (fun j => j_rate (J j) <= 0) (map c_job l) /\
  (forall j, 0 < j_rate (J j) -> ctr h' j = ctr h j + countn j (map c_job l)) /\
  (forall j, j_rate (J j) <= 0 -> ctr h' j = ctr h j) /\
  (forall j, 0 < j_rate (J j) -> 0 < step_of J c0 j -> countn j qs = ctr h' j / step_of J c0 j - ctr h j / step_of J c0 j).
Proof.
  induction l as [|c l IH]; intros h h' qs Hl Hc Hmin; cbn [write_jobs].
  - intros [= <- <-]. split; [done|]. split; [done|]. split; [intros; unfold countn; cbn; lia|]. split; [done|]. intros; unfold countn; cbn; lia.
  - apply Forall_cons in Hmin as [Hmc Hmin]. rewrite (write_event_eq J h (c_job c) ns nr c0 Hl (Hc _) Hmc).
    destruct (decide (j_rate (J (c_job c)) <= 0)) as [Hr|Hr].
    + destruct (write_jobs J l ns nr h) as [[h2 ps]| |] eqn:Ej; [|done|done]. intros [= <- <-].
      destruct (IH _ _ _ Hl Hc Hmin Ej) as (I1 & I2 & I3 & I4 & I5). cbn [map].
      split; [by apply sublist_skip|]. split; [rewrite !filter_cons, !decide_True by done; by rewrite I2|].
      split; [|split; [done|]].
      * intros j Hj. rewrite countn_cons, decide_False by (intros <-; lia). rewrite I3 by done. lia.
      * intros j Hj Hs. rewrite countn_cons, decide_False by (intros <-; lia). by rewrite <- I5.
    + destruct (decide (step_of J c0 (c_job c) = 0)) as [|Hs0]; [done|].
      set (h1 := set_sampled h _). destruct (write_jobs J l ns nr h1) as [[h2 ps]| |] eqn:Ej; [|done|done].
      assert (forall j, ctr h1 j = ctr h j + if decide (c_job c = j) then 1 else 0) as Hc1.
      { intros j. unfold ctr, h1. cbn [sampled set_sampled]. destruct (decide (c_job c = j)) as [->|Hne].
        - by rewrite lookup_insert.
        - rewrite lookup_insert_ne by done. lia. }
      assert (lowest J h1 ns nr = Ok (Some c0)) as Hl1 by (by rewrite (lowest_frame J h)).
      destruct (IH _ _ _ Hl1 (fun j => ltac:(rewrite Hc1; specialize (Hc j); destruct (decide _); lia)) Hmin Ej) as (I1 & I2 & I3 & I4 & I5).
      intros [= <- <-]. cbn [map]. split; [|split; [|split; [|split]]].
      * destruct (_ =? 0); [by apply sublist_skip|by apply sublist_cons].
      * rewrite (filter_cons_False _ (c_job c)) by lia. destruct (_ =? 0); [|done]. by rewrite filter_cons_False by lia.
      * intros j Hj. rewrite I3, Hc1, countn_cons by done. lia.
      * intros j Hj. rewrite I4, Hc1 by done. rewrite decide_False by (intros <-; lia). lia.
      * intros j Hj Hs. specialize (I5 j Hj Hs). rewrite (Hc1 j) in I5. destruct (decide (c_job c = j)) as [<-|Hne].
        -- rewrite div_step in I5 by done. destruct (_ =? 0); [rewrite countn_cons, decide_True by done|]; lia.
        -- rewrite Z.add_0_r in I5. destruct (_ =? 0); [rewrite countn_cons, decide_False by done|]; lia.
Qed.
Lemma write_jobs_panic J ns nr c0 : forall l h, lowest J h ns nr = Ok (Some c0) -> (forall j, 0 <= ctr h j) ->
  Forall (fun c => rate_of J c0 <= rate_of J c) l ->
  (write_jobs J l ns nr h = Panic <-> exists c, c ∈ l /\ 0 < rate_of J c /\ step_of J c0 (c_job c) = 0) /\
  write_jobs J l ns nr h <> Fatal.
Proof.
  induction l as [|c l IH]; intros h Hl Hc Hmin; cbn [write_jobs].
  - split; [|done]. split; [done|]. intros (c & Hin & _). by apply elem_of_nil in Hin.
  - apply Forall_cons in Hmin as [Hmc Hmin]. rewrite (write_event_eq J h (c_job c) ns nr c0 Hl (Hc _) Hmc).
    destruct (decide (j_rate (J (c_job c)) <= 0)) as [Hr|Hr].
    + destruct (IH h Hl Hc Hmin) as [I1 I2]. destruct (write_jobs J l ns nr h) as [[h2 ps]| |] eqn:Ej; [|..|done].
      * split; [|done]. split; [done|]. intros (c1 & [->|Hin]%elem_of_cons & Hr1 & Hs1); [unfold rate_of in Hr1; lia|].
        assert (@Ok (hub * list nat) (h2, ps) = Panic); [|done]. apply I1. by exists c1.
      * split; [|done]. split; [|done]. intros _. destruct (proj1 I1 eq_refl) as (c1 & Hin & H). exists c1. split; [by right|done].
    + destruct (decide (step_of J c0 (c_job c) = 0)) as [Hs0|Hs0].
      * split; [|done]. split; [|done]. intros _. exists c. split; [left|]. unfold rate_of. split; [lia|done].
      * set (h1 := set_sampled h _).
        assert (forall j, 0 <= ctr h1 j) as Hc1.
        { intros j. unfold ctr, h1. cbn [sampled set_sampled]. destruct (decide (c_job c = j)) as [<-|Hne].
          - rewrite lookup_insert. cbn. specialize (Hc (c_job c)). lia.
          - rewrite lookup_insert_ne by done. apply Hc. }
        assert (lowest J h1 ns nr = Ok (Some c0)) as Hl1 by (by rewrite (lowest_frame J h)).
        destruct (IH h1 Hl1 Hc1 Hmin) as [I1 I2]. destruct (write_jobs J l ns nr h1) as [[h2 ps]| |] eqn:Ej; [|..|done].
        -- split; [|done]. split; [done|]. intros (c1 & [->|Hin]%elem_of_cons & Hr1 & Hs1); [done|].
           assert (@Ok (hub * list nat) (h2, ps) = Panic); [|done]. apply I1. by exists c1.
        -- split; [|done]. split; [|done]. intros _. destruct (proj1 I1 eq_refl) as (c1 & Hin & H). exists c1. split; [by right|done].
Qed.

(** The event callback in a reachable state. *)
Definition ctrs_ok (h : hub) : Prop := forall j, 0 <= ctr h j.
Lemma regs_at_map ns nr C : regs_at ns nr (map reg_of C) = map reg_of (filter (at_ ns nr) C).
Proof. unfold regs_at. by rewrite filter_map_reg. Qed.
Lemma map_job_regs C : map g_job (map reg_of C) = map c_job C.
Proof. rewrite map_map. done. Qed.
Lemma count_job_countn j C : count_job j (map reg_of C) = countn j (map c_job C).
Proof.
  unfold count_job, countn. rewrite filter_map_reg, map_length. cbn [reg_of g_job]. f_equal.
  induction C as [|c C IH]; [done|]. cbn [map]. rewrite !filter_cons. destruct (decide (c_job c = j)); cbn [length]; by rewrite IH.
Qed.
Lemma stride_step J C ns nr c0 j d : first_min J (filter (at_ ns nr) C) c0 ->
  stride J (regs_at ns nr (map reg_of C)) j d -> d = step_of J c0 j.
Proof.
  intros Hm (g & Hg & ->). pose proof (lowest_reg_unique _ _ _ _ Hg (first_min_reg _ _ _ _ _ Hm)) as ->. done.
Qed.
Lemma step_stride J C ns nr c0 j : first_min J (filter (at_ ns nr) C) c0 ->
  stride J (regs_at ns nr (map reg_of C)) j (step_of J c0 j).
Proof. intros Hm. exists (reg_of c0). split; [by apply first_min_reg|done]. Qed.

Lemma published_pubs J ev c qs j : published_by j (publications J ev c qs) = countn j qs.
Proof.
  unfold published_by, publications, countn. rewrite filter_cons_False by done. f_equal.
  induction qs as [|q qs IH]; [done|]. cbn [map]. rewrite !filter_cons.
  destruct (decide (q = j)) as [->|Hne].
  - rewrite decide_True by done. cbn [length]. by rewrite IH.
  - rewrite decide_False by (cbn; congruence). done.
Qed.

Lemma on_event_ok J h C ev h' ps : repr J h C -> ctrs_ok h -> on_event J h ev = Ok (h', ps) ->
  match e_container ev, regs_at (e_ns ev) (e_nr ev) (map reg_of C) with
  | Some c, (_ :: _) as L =>
      exists qs, ps = publications J ev c qs /\ qs `sublist_of` map g_job L /\
        filter (fun j => j_rate (J j) <= 0) qs = filter (fun j => j_rate (J j) <= 0) (map g_job L)
  | _, _ => ps = []
  end /\
  ctrs_ok h' /\
  (forall j, 0 < j_rate (J j) -> ctr h' j = ctr h j + offer (map reg_of C) j ev) /\
  (forall j, j_rate (J j) <= 0 -> ctr h' j = ctr h j /\ published_by j ps = offer (map reg_of C) j ev) /\
  (forall j d, 0 < j_rate (J j) -> 0 < d ->
     (offer (map reg_of C) j ev <> 0 -> stride J (regs_at (e_ns ev) (e_nr ev) (map reg_of C)) j d) ->
     published_by j ps = ctr h' j / d - ctr h j / d).
Proof.
  intros Hr Hc He. unfold on_event in He. unfold offer. destruct (e_container ev) as [c|].
  2: { injection He as <- <-. split; [done|]. split; [done|]. split; [intros; lia|]. split; [done|]. intros. unfold published_by. cbn. lia. }
  rewrite (find_list_repr _ _ _ _ _ Hr) in He. rewrite regs_at_map. destruct (filter (at_ (e_ns ev) (e_nr ev)) C) as [|x l] eqn:Ef; cbn [ne] in He.
  { injection He as <- <-. split; [done|]. split; [done|]. split; [intros; unfold count_job; cbn; lia|]. split; [done|].
    intros. unfold published_by. cbn. lia. }
  rewrite <- Ef in He. destruct (write_jobs J _ _ _ h) as [[h1 qs]| |] eqn:Ew; [|done|done]. injection He as <- <-.
  destruct (lowest_repr J h C (e_ns ev) (e_nr ev) Hr) as [[E _]|(c0 & El & Hm)]; [congruence|].
  assert (Forall (fun c => rate_of J c0 <= rate_of J c) (filter (at_ (e_ns ev) (e_nr ev)) C)) as Hmin.
  { apply Forall_forall. destruct Hm as (i & _ & Hm & _). done. }
  destruct (write_jobs_ok J _ _ c0 _ _ _ _ El Hc Hmin Ew) as (W1 & W2 & W3 & W4 & W5).
  split; [|split; [|split; [|split]]].
  - cbn [map]. exists qs. split; [done|]. rewrite Ef in W1, W2. change (reg_of x :: map reg_of l) with (map reg_of (x :: l)). rewrite map_job_regs. done.
  - intros j. destruct (decide (j_rate (J j) <= 0)) as [Hj|Hj]; [rewrite W4 by done; apply Hc|]. rewrite W3 by lia.
    specialize (Hc j). unfold countn. lia.
  - intros j Hj. rewrite W3 by done. rewrite <- Ef, count_job_countn. done.
  - intros j Hj. split; [by apply W4|]. rewrite published_pubs, <- Ef, count_job_countn. unfold countn. f_equal. 
    assert (forall l : list nat, filter (λ x, x = j) l = filter (λ x, x = j) (filter (λ j, j_rate (J j) <= 0) l)) as E.
    { intros l0. rewrite list_filter_filter. apply list_filter_iff. intros y. split; [intros ->; done|tauto]. }
    rewrite E, W2, <- E. done.
  - intros j d Hj Hd Hst. rewrite published_pubs. rewrite <- Ef, count_job_countn in Hst.
    destruct (decide (countn j (map c_job (filter (at_ (e_ns ev) (e_nr ev)) C)) = 0)) as [E0|E0].
    + assert (ctr h1 j = ctr h j) as -> by (rewrite W3 by done; lia).
      assert (countn j qs <= countn j (map c_job (filter (at_ (e_ns ev) (e_nr ev)) C))).
      { by apply countn_sublist. }
      unfold countn in *. lia.
    + specialize (Hst E0). rewrite <- regs_at_map in Hst. pose proof (stride_step _ _ _ _ _ _ _ Hm Hst) as ->. by apply W5.
Qed.

(** Steps other than events leave the counters alone. *)
Lemma step_sampled J tbl h C o h' r : repr J h C -> hstep J tbl h o = Ok (h', r) ->
  (forall ev, o <> OEvent ev) -> sampled h' = sampled h.
Proof.
  intros Hr. destruct o as [j c|j c|j ns nr|id|ev|ns|ns|mode t]; cbn [hstep]; intros Hs Hne.
  - unfold on_start in Hs. destruct (host_selected (J j) (ct_name c)); [|by injection Hs as <- <-].
    pose proof (start_repr J tbl j (ct_ns c) (calls_of tbl (J j)) (set_hosts h (<[j := add_container (default ∅ (hosts h !! j)) (ct_pod c) (ct_name c)]> (hosts h))) C 0 (repr_set_hosts _ _ _ _ Hr)) as H.
    destruct (start_calls _ _ _ _ _ _ _) as [[h1 [n ok]]| |]; [|done|done]. injection Hs as <- <-.
    destruct H as (D & _ & H & _). exact H.
  - unfold on_stop in Hs.
    pose proof (stop_repr J tbl (ct_ns c) (calls_of tbl (J j)) (set_hosts h (<[j := remove_container (default ∅ (hosts h !! j)) (ct_pod c) (ct_name c)]> (hosts h))) C (repr_set_hosts _ _ _ _ Hr)) as H.
    destruct (stop_calls _ _ _ _) as [h1| |]; [|done|done]. injection Hs as <- <-. apply H.
  - by injection Hs as <- <-.
  - pose proof (delete_repr J tbl h C id Hr) as H.
    destruct (filter (fun c => j_id (J (c_job c)) = id) C) as [|c0 todo] eqn:E.
    + rewrite H in Hs. by injection Hs as <- <-.
    + destruct H as (h1 & E1 & _ & _ & H & _). rewrite E1 in Hs. injection Hs as <- <-. done.
  - by destruct (Hne ev).
  - by injection Hs as <- <-.
  - by injection Hs as <- <-.
  - destruct (run_nfilter mode t (maps h)) as [m v]. by injection Hs as <- <-.
Qed.
Lemma step_out J tbl h o h' r : hstep J tbl h o = Ok (h', r) -> (forall ev, o <> OEvent ev) ->
  forall j, published_total j [r] = 0.
Proof.
  intros Hs Hne j. destruct o as [j' c|j' c|j' ns nr|id|ev|ns|ns|mode t]; cbn [hstep] in Hs.
  - destruct (on_start _ _ _ _ _) as [[? [? ?]]| |]; [|done|done]. by injection Hs as <- <-.
  - destruct (on_stop _ _ _ _ _) as [?| |]; [|done|done]. by injection Hs as <- <-.
  - by injection Hs as <- <-.
  - destruct (delete_trace _ _ _) as [[? ?]| |]; [|done|done]. by injection Hs as <- <-.
  - by destruct (Hne ev).
  - by injection Hs as <- <-.
  - by injection Hs as <- <-.
  - destruct (run_nfilter mode t (maps h)) as [m v]. by injection Hs as <- <-.
Qed.
Lemma published_total_cons j r rs : published_total j (r :: rs) = published_total j [r] + published_total j rs.
Proof. destruct r; cbn [published_total]; lia. Qed.

(** Along a history. [R] are the registrations so far. *)
Lemma run_counts J tbl j : 0 < j_rate (J j) -> forall os h C h' rs, repr J h C -> ctrs_ok h -> hrun J tbl h os = Ok (h', rs) ->
  ctrs_ok h' /\ ctr h' j = ctr h j + offers J tbl j (map reg_of C) (zip os rs) /\
  (forall d, 0 < d ->
     (forall os1 ev os2 rs1 h1, os = (os1 ++ OEvent ev :: os2)%list -> hrun J tbl h os1 = Ok (h1, rs1) ->
        let R1 := fold_left (reg_step J tbl) (zip os1 rs1) (map reg_of C) in
        offer R1 j ev <> 0 -> stride J (regs_at (e_ns ev) (e_nr ev) R1) j d) ->
     published_total j rs = ctr h' j / d - ctr h j / d).
Proof.
  intros Hj. induction os as [|o os IH]; intros h C h' rs Hr Hc; cbn [hrun].
  - intros [= <- <-]. split; [done|]. split; [cbn; lia|]. intros d Hd _. cbn. lia.
  - destruct (hstep J tbl h o) as [[h1 r]| |] eqn:Es; [|done|done].
    destruct (hrun J tbl h1 os) as [[h2 rs2]| |] eqn:Er; [|done|done]. intros [= <- <-].
    destruct (step_repr _ _ _ _ _ _ _ Hr Es) as (C1 & Hr1 & E1).
    assert (ctrs_ok h1 /\ ctr h1 j = ctr h j + (match o with OEvent ev => offer (map reg_of C) j ev | _ => 0 end) /\
      (forall d, 0 < d -> (forall ev, o = OEvent ev -> offer (map reg_of C) j ev <> 0 -> stride J (regs_at (e_ns ev) (e_nr ev) (map reg_of C)) j d) ->
        published_total j [r] = ctr h1 j / d - ctr h j / d)) as (Hc1 & Hct1 & Hd1).
    { assert ((exists ev, o = OEvent ev) \/ forall ev, o <> OEvent ev) as [[ev ->]|Hne] by (destruct o; eauto).
      - cbn [hstep] in Es. destruct (on_event J h ev) as [[h1' ps]| |] eqn:Ee; [|done|done]. injection Es as <- <-.
        destruct (on_event_ok J h C ev _ _ Hr Hc Ee) as (_ & O1 & O2 & _ & O3). split; [done|]. split; [by apply O2|].
        intros d Hd Hst. cbn [published_total]. rewrite Z.add_0_r. apply O3; [done|done|]. by apply Hst.
      - pose proof (step_sampled _ _ _ _ _ _ _ Hr Es Hne) as Esm. unfold ctrs_ok, ctr in *. rewrite Esm.
        split; [done|]. split; [destruct o; try lia; by destruct (Hne ev)|]. intros d _ _. rewrite (step_out _ _ _ _ _ _ Es Hne). lia. }
    destruct (IH _ _ _ _ Hr1 Hc1 Er) as (I1 & I2 & I3). split; [done|]. split.
    + cbn [zip zip_with offers fst]. rewrite I2, Hct1, E1. destruct o; lia.
    + intros d Hd Hst. rewrite published_total_cons, (Hd1 d Hd), (I3 d Hd); [lia|..].
      * intros os1 ev os2 rs1 h1' -> Hrun. cbv zeta. rewrite E1. intros Hof.
        apply (Hst (o :: os1) ev os2 (r :: rs1) h1'); [done|cbn [hrun]; by rewrite Es, Hrun|done].
      * intros ev -> Hof. by apply (Hst [] ev os [] h).
Qed.
Lemma run_counts_unsampled J tbl j : j_rate (J j) <= 0 -> forall os h C h' rs, repr J h C -> ctrs_ok h -> hrun J tbl h os = Ok (h', rs) ->
  published_total j rs = offers J tbl j (map reg_of C) (zip os rs).
Proof.
  intros Hj. induction os as [|o os IH]; intros h C h' rs Hr Hc; cbn [hrun].
  - by intros [= <- <-].
  - destruct (hstep J tbl h o) as [[h1 r]| |] eqn:Es; [|done|done].
    destruct (hrun J tbl h1 os) as [[h2 rs2]| |] eqn:Er; [|done|done]. intros [= <- <-].
    destruct (step_repr _ _ _ _ _ _ _ Hr Es) as (C1 & Hr1 & E1).
    assert (ctrs_ok h1 /\ published_total j [r] = match o with OEvent ev => offer (map reg_of C) j ev | _ => 0 end) as [Hc1 Hp].
    { assert ((exists ev, o = OEvent ev) \/ forall ev, o <> OEvent ev) as [[ev ->]|Hne] by (destruct o; eauto).
      - cbn [hstep] in Es. destruct (on_event J h ev) as [[h1' ps]| |] eqn:Ee; [|done|done]. injection Es as <- <-.
        destruct (on_event_ok J h C ev _ _ Hr Hc Ee) as (_ & O1 & _ & O2 & _). split; [done|]. cbn [published_total]. rewrite Z.add_0_r. by apply O2.
      - pose proof (step_sampled _ _ _ _ _ _ _ Hr Es Hne) as Esm. unfold ctrs_ok, ctr in *. rewrite Esm. split; [done|].
        rewrite (step_out _ _ _ _ _ _ Es Hne). destruct o; try done. by destruct (Hne ev). }
    rewrite published_total_cons, Hp, (IH _ _ _ _ Hr1 Hc1 Er). cbn [zip zip_with offers fst]. rewrite E1. destruct o; lia.
Qed.
Lemma ctrs_preserved J tbl : forall os h C h' rs, repr J h C -> ctrs_ok h -> hrun J tbl h os = Ok (h', rs) -> ctrs_ok h'.
Proof.
  induction os as [|o os IH]; intros h C h' rs Hr Hc; cbn [hrun]; [by intros [= <- <-]|].
  destruct (hstep J tbl h o) as [[h1 r]| |] eqn:Es; [|done|done].
  destruct (hrun J tbl h1 os) as [[h2 rs2]| |] eqn:Er; [|done|done]. intros [= <- <-].
  destruct (step_repr _ _ _ _ _ _ _ Hr Es) as (C1 & Hr1 & E1). apply (IH h1 C1 h2 rs2 Hr1); [|done].
  assert ((exists ev, o = OEvent ev) \/ forall ev, o <> OEvent ev) as [[ev ->]|Hne] by (destruct o; eauto).
  - cbn [hstep] in Es. destruct (on_event J h ev) as [[h1' ps]| |] eqn:Ee; [|done|done]. injection Es as <- <-.
    by destruct (on_event_ok J h C ev _ _ Hr Hc Ee) as (_ & O1 & _).
  - pose proof (step_sampled _ _ _ _ _ _ _ Hr Es Hne) as Esm. unfold ctrs_ok, ctr in *. by rewrite Esm.
Qed.
Lemma new_hub_ctrs tbl h j : new_hub tbl = Some h -> ctr h j = 0.
Proof. unfold new_hub. destruct (new_hub_maps tbl); [|done]. intros [= <-]. done. Qed.

(** Panics. *)
Lemma on_event_panic J h C ev : repr J h C -> ctrs_ok h ->
  (on_event J h ev = Panic <-> e_container ev <> None /\
     exists g g0, g ∈ regs_at (e_ns ev) (e_nr ev) (map reg_of C) /\ lowest_reg J (regs_at (e_ns ev) (e_nr ev) (map reg_of C)) g0 /\
       0 < j_rate (J (g_job g)) /\ g_job g <> g_job g0 /\ j_rate (J (g_job g)) = j_rate (J (g_job g0))) /\
  on_event J h ev <> Fatal.
Proof.
  intros Hr Hc. unfold on_event. destruct (e_container ev) as [c|]; [|split; [|done]; split; [done|by intros [? _]]].
  rewrite (find_list_repr _ _ _ _ _ Hr). rewrite regs_at_map.
  destruct (lowest_repr J h C (e_ns ev) (e_nr ev) Hr) as [[E _]|(c0 & El & Hm)].
  { rewrite E. cbn [ne]. split; [|done]. split; [done|]. intros (_ & g & g0 & Hg & _). by apply elem_of_nil in Hg. }
  assert (Forall (fun c => rate_of J c0 <= rate_of J c) (filter (at_ (e_ns ev) (e_nr ev)) C)) as Hmin.
  { apply Forall_forall. destruct Hm as (i & _ & Hm' & _). done. }
  destruct (write_jobs_panic J _ _ c0 _ h El Hc Hmin) as [P1 P2].
  assert (ne (filter (at_ (e_ns ev) (e_nr ev)) C) = Some (filter (at_ (e_ns ev) (e_nr ev)) C)) as ->.
  { destruct Hm as (i & Hi & _). by destruct (filter _ C). }
  pose proof (first_min_reg _ _ _ _ _ Hm) as Hlr. rewrite regs_at_map in Hlr.
  assert ((exists c, c ∈ filter (at_ (e_ns ev) (e_nr ev)) C /\ 0 < rate_of J c /\ step_of J c0 (c_job c) = 0) <->
    (exists g g0, g ∈ map reg_of (filter (at_ (e_ns ev) (e_nr ev)) C) /\ lowest_reg J (map reg_of (filter (at_ (e_ns ev) (e_nr ev)) C)) g0 /\
       0 < j_rate (J (g_job g)) /\ g_job g <> g_job g0 /\ j_rate (J (g_job g)) = j_rate (J (g_job g0)))) as Heq.
  { split.
    - intros (c1 & Hin & Hr1 & Hs1). exists (reg_of c1), (reg_of c0). split; [by apply elem_of_list_In, in_map, elem_of_list_In|].
      split; [done|]. cbn [reg_of g_job]. unfold step_of in Hs1. unfold rate_of in *.
      destruct (decide (c_job c0 = c_job c1)); [lia|]. split; [done|]. split; [done|]. lia.
    - intros (g & g0 & Hg & Hg0 & H1 & H2 & H3). apply elem_of_list_In, in_map_iff in Hg as (c1 & <- & Hc1).
      pose proof (lowest_reg_unique _ _ _ _ Hg0 Hlr) as ->. exists c1. split; [by apply elem_of_list_In|].
      cbn [reg_of g_job] in *. unfold step_of, rate_of. split; [done|]. rewrite decide_False by done. lia. }
  destruct (write_jobs J _ _ _ h) as [[h1 qs]| |]; [|..|done].
  - split; [|done]. split; [done|]. intros [_ H]. apply Heq, P1 in H. done.
  - split; [|done]. split; [|done]. intros _. split; [done|]. apply Heq, P1. done.
Qed.
(** No reachable step reaches log.Fatal. *)
Lemma step_no_fatal J tbl h C o : repr J h C -> ctrs_ok h -> hstep J tbl h o <> Fatal.
Proof.
  intros Hr Hc. destruct o as [j c|j c|j ns nr|id|ev|ns|ns|mode t]; cbn [hstep]; try done.
  - unfold on_start. destruct (host_selected (J j) (ct_name c)); [|done].
    pose proof (start_repr J tbl j (ct_ns c) (calls_of tbl (J j)) (set_hosts h (<[j := add_container (default ∅ (hosts h !! j)) (ct_pod c) (ct_name c)]> (hosts h))) C 0 (repr_set_hosts _ _ _ _ Hr)) as H.
    by destruct (start_calls _ _ _ _ _ _ _) as [[h1 [n ok]]| |].
  - unfold on_stop.
    pose proof (stop_repr J tbl (ct_ns c) (calls_of tbl (J j)) (set_hosts h (<[j := remove_container (default ∅ (hosts h !! j)) (ct_pod c) (ct_name c)]> (hosts h))) C (repr_set_hosts _ _ _ _ Hr)) as H.
    by destruct (stop_calls _ _ _ _).
  - pose proof (delete_repr J tbl h C id Hr) as H.
    destruct (filter (fun c => j_id (J (c_job c)) = id) C) as [|c0 todo] eqn:E; [by rewrite H|].
    by destruct H as (h1 & -> & _).
  - destruct (on_event_panic J h C ev Hr Hc) as [_ H]. by destruct (on_event J h ev) as [[? ?]| |].
  - by destruct (run_nfilter mode t (maps h)).
Qed.
Lemma run_no_fatal J tbl : forall os h C, repr J h C -> ctrs_ok h -> hrun J tbl h os <> Fatal.
Proof.
  induction os as [|o os IH]; intros h C Hr Hc; cbn [hrun]; [done|].
  pose proof (step_no_fatal J tbl h C o Hr Hc) as Hnf.
  destruct (hstep J tbl h o) as [[h1 r]| |] eqn:Es; [|done|done].
  destruct (step_repr _ _ _ _ _ _ _ Hr Es) as (C1 & Hr1 & _).
  assert (ctrs_ok h1) as Hc1.
  { apply (ctrs_preserved J tbl [o] h C h1 [r] Hr Hc). cbn [hrun]. by rewrite Es. }
  specialize (IH h1 C1 Hr1 Hc1). by destruct (hrun J tbl h1 os) as [[h2 rs]| |].
Qed.
(** Unknown syscall names (C42). *)
Lemma unknown_calls tbl jb : unknown_name tbl jb <-> None ∈ calls_of tbl jb.
Proof.
  unfold unknown_name, calls_of. split.
  - intros (s & Hs & E). apply elem_of_list_In, in_map_iff. exists s. rewrite E. split; [done|by apply elem_of_list_In].
  - intros H. apply elem_of_list_In, in_map_iff in H as (s & E & Hs). exists s. split; [by apply elem_of_list_In|].
    by destruct (lookup_sc tbl (ByString s)).
Qed.
Lemma start_panic J tbl h C j c : repr J h C ->
  (on_start J tbl h j c = Panic -> selects (J j) (ct_name c) /\ unknown_name tbl (J j)) /\
  (selects (J j) (ct_name c) -> unknown_name tbl (J j) ->
     on_start J tbl h j c = Panic \/ exists h' n, on_start J tbl h j c = Ok (h', (n, false))).
Proof.
  intros Hr. unfold on_start.
  pose proof (start_repr J tbl j (ct_ns c) (calls_of tbl (J j)) (set_hosts h (<[j := add_container (default ∅ (hosts h !! j)) (ct_pod c) (ct_name c)]> (hosts h))) C 0 (repr_set_hosts _ _ _ _ Hr)) as H.
  destruct (host_selected (J j) (ct_name c)) eqn:Hs.
  - apply host_selected_spec in Hs. split.
    + intros E. rewrite E in H. split; [done|]. by apply unknown_calls.
    + intros _ Hu. destruct (start_calls _ _ _ _ _ _ _) as [[h1 [n [|]]]| |]; [|right; eauto|by left|done].
      exfalso. destruct H as (D & _ & _ & _ & _ & _ & H). apply H; [done|]. by apply unknown_calls.
  - split; [done|]. intros Hx. apply host_selected_spec in Hx. congruence.
Qed.
Lemma stop_panic J tbl h C j c : repr J h C -> (on_stop J tbl h j c = Panic <-> unknown_name tbl (J j)).
Proof.
  intros Hr. unfold on_stop. rewrite unknown_calls.
  pose proof (stop_repr J tbl (ct_ns c) (calls_of tbl (J j)) (set_hosts h (<[j := remove_container (default ∅ (hosts h !! j)) (ct_pod c) (ct_name c)]> (hosts h))) C (repr_set_hosts _ _ _ _ Hr)) as H.
  destruct (stop_calls _ _ _ _) as [h1| |]; [|done|done]. split; [done|]. intros Hin. by destruct H as (_ & _ & _ & H).
Qed.
