(** Proofs about the container cache. *)
From stdpp Require Import base list strings gmap.
From Coq Require Import ZArith Lia.
From Verif Require Import TopoModel TopoSpec.

Local Open Scope Z_scope.

(** * The cache as a map of values *)

Definition known1 (k : gmap Z cval) (o : op) : gmap Z cval :=
  match announce o with
  | Some (Started c) => <[c_pidns c := c]> k
  | Some (Stopped c) => delete (c_pidns c) k
  | None => k
  end.

Definition known (past : list op) : gmap Z cval := foldl known1 ∅ past.

Lemma known_snoc past o : known (past ++ [o]) = known1 (known past) o.
Proof. unfold known. by rewrite foldl_app. Qed.

Lemma snoc_split {A} (past : list A) o before x after :
  (past ++ [o] = before ++ x :: after)%list ->
  (after = [] /\ o = x /\ past = before)
  \/ exists after', after = (after' ++ [o])%list /\ past = (before ++ x :: after')%list.
Proof.
  intros H. destruct after as [|y after'] using rev_ind.
  - apply app_inj_tail in H as [-> ->]. auto.
  - right. rewrite app_comm_cons, app_assoc in H. apply app_inj_tail in H as [-> ->].
    exists after'. auto.
Qed.

Lemma known_last past ns c : known past !! ns = Some c <-> last_in ns past c.
Proof.
  induction past as [|o past IH] using rev_ind.
  { split; [done|]. intros (b & o & a & H & _). by destruct b. }
  rewrite known_snoc. unfold known1. destruct (announce o) as [[c'|c']|] eqn:E.
  - destruct (decide (c_pidns c' = ns)) as [<-|N].
    + rewrite lookup_insert. split.
      * intros [= ->]. exists past, o, []. repeat split; auto.
      * intros (b & x & a & H & Hx & Hn & Ha). apply snoc_split in H as [(-> & -> & ->)|(a' & -> & ->)].
        -- congruence.
        -- exfalso. apply Forall_app in Ha as [_ Ha]. inversion Ha as [|? ? Ho _]; subst.
           exact (Ho _ E eq_refl).
    + rewrite lookup_insert_ne by done. rewrite IH. split.
      * intros (b & x & a & -> & Hx & Hn & Ha). exists b, x, (a ++ [o])%list.
        rewrite <- app_assoc. repeat split; auto. apply Forall_app. split; [done|].
        constructor; [|done]. intros a' Ha'. rewrite E in Ha'. injection Ha' as <-. exact N.
      * intros (b & x & a & H & Hx & Hn & Ha). apply snoc_split in H as [(-> & -> & ->)|(a' & -> & ->)].
        -- congruence.
        -- apply Forall_app in Ha as [Ha _]. exists b, x, a'. auto.
  - destruct (decide (c_pidns c' = ns)) as [<-|N].
    + rewrite lookup_delete. split; [done|].
      intros (b & x & a & H & Hx & Hn & Ha). apply snoc_split in H as [(-> & -> & ->)|(a' & -> & ->)].
      -- congruence.
      -- exfalso. apply Forall_app in Ha as [_ Ha]. inversion Ha as [|? ? Ho _]; subst.
         exact (Ho _ E eq_refl).
    + rewrite lookup_delete_ne by done. rewrite IH. split.
      * intros (b & x & a & -> & Hx & Hn & Ha). exists b, x, (a ++ [o])%list.
        rewrite <- app_assoc. repeat split; auto. apply Forall_app. split; [done|].
        constructor; [|done]. intros a' Ha'. rewrite E in Ha'. injection Ha' as <-. exact N.
      * intros (b & x & a & H & Hx & Hn & Ha). apply snoc_split in H as [(-> & -> & ->)|(a' & -> & ->)].
        -- congruence.
        -- apply Forall_app in Ha as [Ha _]. exists b, x, a'. auto.
  - rewrite IH. split.
    + intros (b & x & a & -> & Hx & Hn & Ha). exists b, x, (a ++ [o])%list.
      rewrite <- app_assoc. repeat split; auto. apply Forall_app. split; [done|].
      constructor; [|done]. intros a' Ha'. congruence.
    + intros (b & x & a & H & Hx & Hn & Ha). apply snoc_split in H as [(-> & -> & ->)|(a' & -> & ->)].
      * congruence.
      * apply Forall_app in Ha as [Ha _]. exists b, x, a'. auto.
Qed.

(** * The heap *)

(** Addresses of objects and maps that lookups made, as opposed to the observer. *)
Definition inv (s : topo) (k : gmap Z cval) (um : gset nat) : Prop :=
  (* the cache holds readable objects no lookup ever returned *)
  (forall ns p, cache s !! ns = Some p ->
     p ∉ held s /\ (p < next s)%nat /\
     exists (o : cobj) m l, heap s !! p = Some o /\ c_labels o = Some m /\ m ∉ um /\ (m < next s)%nat
       /\ maps s !! m = Some l /\ k !! ns = Some (with_labels o l : cval))
  /\ (forall ns, cache s !! ns = None -> k !! ns = None)
  (* returned objects have maps of their own *)
  /\ (forall p, p ∈ held s -> (p < next s)%nat /\
       forall (o : cobj) m, heap s !! p = Some o -> c_labels o = Some m -> m ∈ um)
  /\ (forall m, m ∈ um -> (m < next s)%nat).

Lemma with_labels_twice {A B C} (c : container A) (x : B) (y : C) :
  with_labels (with_labels c x) y = with_labels c y.
Proof. reflexivity. Qed.

Lemma with_own_labels {A} (c : container A) : with_labels c (c_labels c) = c.
Proof. by destruct c. Qed.

Lemma copy_labels (l : labels) : map_fold (fun k v (m : labels) => <[k := v]> m) ∅ l = l.
Proof.
  apply (map_fold_ind (fun r m => r = m)); [done|]. intros i x m r _ ->. done.
Qed.

Lemma deref_alloc s c : deref (alloc s c).1 (alloc s c).2 = Some c.
Proof.
  unfold alloc, deref. cbn. rewrite lookup_insert. cbn. rewrite lookup_insert.
  by rewrite with_labels_twice, with_own_labels.
Qed.

Lemma inv_init : inv init ∅ ∅.
Proof.
  split; [intros ns p H; cbn in H; by rewrite lookup_empty in H|].
  split; [intros; by rewrite lookup_empty|].
  split; [intros p H; cbn in H; by apply elem_of_nil in H|].
  intros m H. by apply not_elem_of_empty in H.
Qed.

Definition set_cache (s : topo) (c : gmap Z nat) (g : list nat) : topo :=
  Topo (heap s) (maps s) (next s) c (held s) g.

(** Allocation by the observer. *)
Lemma inv_alloc s k um c : inv s k um -> inv (alloc s c).1 k um.
Proof.
  intros (H1 & H2 & H3 & H4). cbn. split; [|split; [|split]]; cbn.
  - intros ns p Hp. destruct (H1 ns p Hp) as (Ha & Hb & o & m & l & Ho & Hm & Hu & Hlt & Hl & Hk).
    split; [done|]. split; [lia|]. exists o, m, l.
    rewrite !lookup_insert_ne by lia. repeat split; auto with lia.
  - exact H2.
  - intros p Hp. destruct (H3 p Hp) as [Hb Ho]. split; [lia|]. intros o m.
    rewrite lookup_insert_ne by lia. apply Ho.
  - intros m Hm. pose proof (H4 m Hm). lia.
Qed.

Lemma inv_start s k um c g : inv s k um ->
  inv (set_cache (alloc s c).1 (<[c_pidns c := next s]> (cache s)) g) (<[c_pidns c := c]> k) um.
Proof.
  intros I. pose proof (inv_alloc s k um c I) as (H1 & H2 & H3 & H4).
  destruct I as (_ & _ & I3 & I4).
  split; [|split; [|split]]; cbn.
  - intros ns p. destruct (decide (c_pidns c = ns)) as [<-|N].
    + rewrite !lookup_insert. intros [= <-]. split; [|split; [lia|]].
      * intros Hh. destruct (I3 _ Hh). lia.
      * exists (with_labels c (Some (S (next s)))), (S (next s)), (c_labels c).
        rewrite !lookup_insert. split; [done|]. split; [done|].
        split; [intros Hu; specialize (I4 _ Hu); lia|]. split; [lia|]. split; [done|].
        by rewrite with_labels_twice, with_own_labels.
    + rewrite !(lookup_insert_ne _ (c_pidns c) ns) by done. exact (H1 ns p).
  - intros ns. destruct (decide (c_pidns c = ns)) as [<-|N].
    + by rewrite lookup_insert.
    + rewrite !lookup_insert_ne by done. exact (H2 ns).
  - exact H3.
  - exact H4.
Qed.

Lemma inv_stop s k um c g : inv s k um ->
  inv (set_cache (alloc s c).1 (delete (c_pidns c) (cache s)) g) (delete (c_pidns c) k) um.
Proof.
  intros I. pose proof (inv_alloc s k um c I) as (H1 & H2 & H3 & H4).
  split; [|split; [|split]]; cbn.
  - intros ns p. destruct (decide (c_pidns c = ns)) as [<-|N].
    + by rewrite lookup_delete.
    + intros Hq. rewrite lookup_delete_ne in Hq by done. rewrite lookup_delete_ne by done. exact (H1 ns p Hq).
  - intros ns. destruct (decide (c_pidns c = ns)) as [<-|N].
    + intros _. apply lookup_delete.
    + intros Hq. rewrite lookup_delete_ne in Hq by done. rewrite lookup_delete_ne by done. exact (H2 ns Hq).
  - exact H3.
  - exact H4.
Qed.

(** A lookup finds the value and leaves everything in place. *)
Lemma inv_lookup s k um ns : inv s k um ->
  let '(s', out) := lookup_container s ns in
  (exists um', inv s' k um')
  /\ out = match k !! ns with Some c => Found (Some c) | None => NotFound end.
Proof.
  intros I. pose proof I as (H1 & H2 & H3 & H4). unfold lookup_container.
  destruct (cache s !! ns) as [p|] eqn:E.
  2: { rewrite (H2 ns E). eauto. }
  destruct (H1 ns p E) as (Ha & Hb & o & m & l & Ho & Hm & Hu & Hlt & Hl & Hk).
  unfold copy. assert (Hd : deref s p = Some (with_labels o l)).
  { unfold deref. by rewrite Ho, Hm, Hl. }
  rewrite Hd, copy_labels, with_own_labels.
  assert (k !! ns = Some (with_labels o l : cval)) as -> by exact Hk.
  destruct (alloc s (with_labels o l)) as [s1 q] eqn:Ea.
  assert (s1 = (alloc s (with_labels o l)).1) as -> by (by rewrite Ea).
  assert (q = next s) as -> by (unfold alloc in Ea; congruence).
  split.
  - exists (um ∪ {[S (next s)]}).
    pose proof (inv_alloc s k um (with_labels o l) I) as (G1 & G2 & G3 & G4).
    split; [|split; [|split]]; cbn.
    + intros ns' p' Hp'. destruct (G1 ns' p' Hp') as (Ga & Gb & o' & m' & l' & Go & Gm & Gu & Glt & Gl & Gk).
      destruct (H1 ns' p' Hp') as (_ & Hlt' & o'' & m'' & l'' & Ho'' & Hm'' & _ & Hmlt'' & _ & _).
      cbn in Go. rewrite lookup_insert_ne in Go by lia.
      assert (o'' = o') as -> by congruence. assert (m'' = m') as -> by congruence.
      split. { rewrite elem_of_app, elem_of_list_singleton. intros [?|?]; [done|lia]. }
      split; [cbn in *; lia|]. exists o', m', l'. rewrite lookup_insert_ne by lia.
      split; [exact Go|]. split; [done|].
      split; [rewrite elem_of_union, elem_of_singleton; intros [?|?]; [done|lia]|].
      split; [lia|]. split; [|done]. exact Gl.
    + exact G2.
    + intros p' Hp'. apply elem_of_app in Hp' as [Hp'|Hp'].
      * destruct (G3 p' Hp') as [Gb Go]. split; [done|]. intros o' m' Ho' Hm'.
        apply elem_of_union. left. exact (Go o' m' Ho' Hm').
      * apply elem_of_list_singleton in Hp' as ->. split; [lia|].
        intros o' m'. rewrite lookup_insert. intros [= <-] [= <-].
        apply elem_of_union. right. by apply elem_of_singleton.
    + intros m'. rewrite elem_of_union, elem_of_singleton. intros [Hm'| ->]; [|lia].
      specialize (G4 m' Hm'). exact G4.
  - f_equal. exact (deref_alloc s (with_labels o l)).
Qed.

(** Writing through a returned pointer touches nothing the cache can reach. *)
Lemma inv_put s k um p w : inv s k um -> p ∈ held s -> inv (put s p w) k um.
Proof.
  intros I Hp. pose proof I as (H1 & H2 & H3 & H4). unfold put.
  destruct (heap s !! p) as [o|] eqn:Ep; [|exact I].
  destruct (H3 p Hp) as [Hb Hown]. specialize (fun m => Hown o m Ep) as Hown'. clear Hown. rename Hown' into Hown.
  assert (Hobj : forall o', (forall m, c_labels o' = Some m -> m ∈ um) ->
    inv (Topo (<[p:=o']> (heap s)) (maps s) (next s) (cache s) (held s) (given s)) k um).
  { intros o' Ho'. split; [|split; [|split]]; cbn.
    - intros ns q Hq. destruct (H1 ns q Hq) as (Ha & Hlt & o1 & m & l & Ho1 & Hm & Hu & Hmlt & Hl & Hk).
      split; [done|]. split; [done|]. exists o1, m, l.
      rewrite lookup_insert_ne by (intros ->; contradiction). auto 10.
    - exact H2.
    - intros q Hq. destruct (H3 q Hq) as [Hqlt Hqo]. split; [done|]. intros o1 m.
      destruct (decide (p = q)) as [<-|N].
      + rewrite lookup_insert. intros [= <-]. apply Ho'.
      + rewrite lookup_insert_ne by done. apply Hqo.
    - exact H4. }
  assert (Hmap : forall f,
    inv match c_labels o with
        | Some m => Topo (heap s) (alter f m (maps s)) (next s) (cache s) (held s) (given s)
        | None => s end k um).
  { intros f. destruct (c_labels o) as [m|] eqn:Em; [|exact I].
    assert (Hmu : m ∈ um) by (apply Hown; exact eq_refl).
    split; [|split; [|split]]; cbn.
    - intros ns q Hq. destruct (H1 ns q Hq) as (Ha & Hlt & o1 & m1 & l & Ho1 & Hm & Hu & Hmlt & Hl & Hk).
      split; [done|]. split; [done|]. exists o1, m1, l.
      rewrite lookup_alter_ne by (intros ->; contradiction). auto 10.
    - exact H2.
    - exact H3.
    - exact H4. }
  destruct w.
  - apply Hobj. cbn. intros m Hm. apply Hown; exact Hm.
  - apply Hmap.
  - apply Hmap.
  - apply Hobj. cbn. discriminate.
Qed.

(** * Histories *)

Definition found (k : gmap Z cval) (o : op) : list output :=
  match o with
  | Lookup ns => [match k !! ns with Some c => Found (Some c) | None => NotFound end]
  | _ => told o
  end.

Lemma step_ok s k um o : inv s k um -> read_only o ->
  exists um', inv (step s o).1 (known1 k o) um' /\ (step s o).2 = found k o.
Proof.
  intros I R. destruct o as [ev|ns|i w|i w]; [| | |done].
  - cbn [step]. destruct ev as [|ty [c|]]; [exists um; done| |].
    2: { exists um. cbn. split; [|by destruct ty as [|[]|]].
         replace (known1 k _) with k; [done|]. unfold known1, announce. by destruct ty as [|[]|]. }
    unfold process_event. destruct (alloc s c) as [s1 p] eqn:Ea.
    assert (s1 = (alloc s c).1) as -> by (by rewrite Ea).
    assert (p = next s) as -> by (unfold alloc in Ea; congruence). clear Ea.
    destruct (Z.leb_spec (c_pidns c) 0) as [Hle|Hgt].
    { exists um. cbn [fst snd]. assert (Hn : announce (Observe (OEvent ty (Some c))) = None).
      { unfold announce. destruct (Z.ltb_spec 0 (c_pidns c)); [lia|]. by destruct ty as [|[]|]. }
      unfold known1, found, told. rewrite Hn. split; [by apply inv_alloc|done]. }
    assert (Hpos : (0 <? c_pidns c) = true) by (apply Z.ltb_lt; lia).
    unfold EventTypeStart, EventTypeStop.
    destruct (Z.eqb_spec ty 0) as [->|N0].
    { exists um. unfold known1, found, told, announce. rewrite Hpos. cbn [fst snd].
      split; [exact (inv_start s k um c _ I)|]. do 2 f_equal.
      exact (deref_alloc s c). }
    destruct (Z.eqb_spec ty 1) as [->|N1].
    { exists um. unfold known1, found, told, announce. rewrite Hpos. cbn [fst snd].
      split; [exact (inv_stop s k um c _ I)|]. do 2 f_equal.
      exact (deref_alloc s c). }
    exists um. cbn [fst snd]. assert (Hn : announce (Observe (OEvent ty (Some c))) = None).
    { unfold announce. destruct ty as [|[]|]; try done. }
    unfold known1, found, told. rewrite Hn. split; [by apply inv_alloc|done].
  - cbn [step]. pose proof (inv_lookup s k um ns I) as H.
    destruct (lookup_container s ns) as [s1 out]. destruct H as [[um' H] ->].
    exists um'. split; [exact H|done].
  - cbn [step]. exists um. split; [|done]. cbn.
    destruct (held s !! i) as [p|] eqn:E; [|exact I].
    apply inv_put; [exact I|]. by eapply elem_of_list_lookup_2.
Qed.

Fixpoint expected (past : list op) (ops : list op) : list output :=
  match ops with
  | [] => []
  | o :: ops => (found (known past) o ++ expected (past ++ [o]) ops)%list
  end.

Lemma run_ok ops : forall s past um, inv s (known past) um -> Forall read_only ops ->
  exists um', inv (run s ops).1 (known (past ++ ops)) um' /\ (run s ops).2 = expected past ops.
Proof.
  induction ops as [|o ops IH]; intros s past um I R.
  - exists um. rewrite app_nil_r. done.
  - inversion R as [|? ? Ho Hr]; subst. destruct (step_ok s _ um o I Ho) as (um' & I' & Hout).
    cbn [run expected]. destruct (step s o) as [s1 out]. cbn [fst snd] in *. subst out.
    rewrite <- known_snoc in I'. destruct (IH s1 _ um' I' Hr) as (um'' & I'' & Houts).
    destruct (run s1 ops) as [s2 outs]. cbn [fst snd] in *. subst outs.
    exists um''. rewrite <- app_assoc in I''. done.
Qed.

Lemma run_init_ok ops : Forall read_only ops ->
  exists um, inv (run init ops).1 (known ops) um /\ (run init ops).2 = expected [] ops.
Proof.
  intros R. destruct (run_ok ops init [] ∅ inv_init R) as (um & H). exists um. exact H.
Qed.

Lemma lookup_last past ns c : Forall read_only past ->
  (lookup_container (run init past).1 ns).2 = Found (Some c) <-> last_in ns past c.
Proof.
  intros R. destruct (run_init_ok past R) as (um & I & _).
  pose proof (inv_lookup _ _ um ns I) as H.
  destruct (lookup_container _ ns) as [s out]. destruct H as [_ ->]. cbn [snd].
  rewrite <- known_last. destruct (known past !! ns); split; congruence.
Qed.

Lemma lookup_none past ns : Forall read_only past ->
  (lookup_container (run init past).1 ns).2 = NotFound <-> forall c, ~ last_in ns past c.
Proof.
  intros R. destruct (run_init_ok past R) as (um & I & _).
  pose proof (inv_lookup _ _ um ns I) as H.
  destruct (lookup_container _ ns) as [s out]. destruct H as [_ ->]. cbn [snd].
  split.
  - intros E c Hc. apply known_last in Hc. rewrite Hc in E. discriminate.
  - intros Hc. destruct (known past !! ns) as [c|] eqn:E; [|done].
    exfalso. apply (Hc c). by apply known_last.
Qed.

(** Every lookup inside a history. *)
Lemma lookup_inside past ns rest : Forall read_only (past ++ Lookup ns :: rest)%list ->
  (run init (past ++ Lookup ns :: rest)).2
  = ((run init past).2 ++ [(lookup_container (run init past).1 ns).2]
     ++ (run (lookup_container (run init past).1 ns).1 rest).2)%list.
Proof.
  intros _. generalize init. induction past as [|o past IH]; intros s.
  - cbn. destruct (lookup_container s ns) as [s1 out]. cbn. by destruct (run s1 rest).
  - cbn. destruct (step s o) as [s1 out]. specialize (IH s1).
    destruct (run s1 past) as [s2 outs]. destruct (run s1 (past ++ _)) as [s3 outs']. cbn in *.
    rewrite IH. by rewrite <- app_assoc.
Qed.

Lemma reports_told ops : Forall read_only ops ->
  List.filter is_report (run init ops).2 = List.concat (List.map told ops).
Proof.
  intros R. destruct (run_init_ok ops R) as (_ & _ & ->). generalize ([] : list op). revert R.
  induction 1 as [|o ops Ho R IH]; intros past; [done|]. cbn [expected List.map List.concat].
  rewrite List.filter_app, IH. f_equal.
  destruct o; cbn [found]; [|by destruct (known past !! ns)| |]; try done.
  unfold told. destruct (announce _) as [[]|]; done.
Qed.

Lemma lookup_known past ns : Forall read_only past ->
  (lookup_container (run init past).1 ns).2
  = match known past !! ns with Some c => Found (Some c) | None => NotFound end.
Proof.
  intros R. destruct (run_init_ok past R) as (um & I & _).
  pose proof (inv_lookup _ _ um ns I) as H.
  destruct (lookup_container _ ns) as [s out]. destruct H as [_ ->]. reflexivity.
Qed.

Lemma other_namespace past ev ns : Forall read_only past ->
  (forall ty c, ev = OEvent ty (Some c) -> c_pidns c <> ns) ->
  (lookup_container (run init (past ++ [Observe ev])).1 ns).2
  = (lookup_container (run init past).1 ns).2.
Proof.
  intros R H. rewrite !lookup_known; [|exact R|].
  2: { apply Forall_app. split; [exact R|]. constructor; [exact I|constructor]. }
  rewrite known_snoc.
  assert (known1 (known past) (Observe ev) !! ns = known past !! ns) as ->; [|done].
  unfold known1, announce. destruct ev as [|ty [c|]]; [done| |by destruct ty as [|[]|]].
  specialize (H ty c eq_refl). destruct (0 <? c_pidns c); destruct ty as [|[]|]; try done.
  - by rewrite lookup_insert_ne.
  - by rewrite lookup_delete_ne.
Qed.
