(** Facts about the syscall tables: finite computations lifted over walks. *)
From stdpp Require Import gmap strings list.
From Coq Require Import ZArith Lia.
From Verif Require Import SyscallTable SyscallModel SyscallSpec.
Open Scope Z_scope.

(** All (class, group, name) triples. *)
Definition triples (cm : list (string * list (string * list string))) : list (string * string * string) :=
  cm ≫= (λ cg, cg.2 ≫= (λ gn, (λ n, (cg.1, gn.1, n)) <$> gn.2)).

Definition entry (t : string * string * string) : option syscall :=
  (λ nr, Syscall nr t.2 t.1.1 t.1.2) <$> syscall_nr t.2.
Fixpoint entries (ts : list (string * string * string)) : option (list syscall) :=
  match ts with
  | [] => Some []
  | t :: ts => match entry t, entries ts with Some a, Some b => Some (a :: b) | _, _ => None end
  end.
Definition put (s : syscalls) (sc : syscall) : syscalls :=
  Syscalls (<[sc_nr sc := sc]> (by_nr s)) (<[sc_name sc := sc]> (by_name s)).

Lemma init_one_entry c g s n : init_one c g s n = put s <$> entry (c, g, n).
Proof. unfold init_one, entry. cbn [fst snd]. by destruct (syscall_nr n). Qed.
Lemma entry_spec t sc : entry t = Some sc <->
  syscall_nr t.2 = Some (sc_nr sc) /\ t = (sc_class sc, sc_group sc, sc_name sc).
Proof.
  unfold entry. destruct t as [[c g] n]. cbn [fst snd]. generalize (syscall_nr n). intros o.
  destruct sc as [z n' c' g']. cbn. destruct o as [z'|]; cbn; split.
  - intros [= -> -> -> ->]. done.
  - intros [[= ->] [= -> -> ->]]. done.
  - done.
  - intros [? _]. done.
Qed.
Local Opaque syscall_nr entry.
Fixpoint puts (ts : list (string * string * string)) (s : syscalls) : option syscalls :=
  match ts with
  | [] => Some s
  | t :: ts => match entry t with None => None | Some sc => puts ts (put s sc) end
  end.
Lemma puts_app ts1 ts2 s : puts (ts1 ++ ts2) s = puts ts1 s ≫= puts ts2.
Proof.
  revert s. induction ts1 as [|t ts1 IH]; intros s; [done|]. cbn [app puts].
  by destruct (entry t).
Qed.
Lemma init_names_puts c g ns s : init_names c g ns s = puts ((λ n, (c, g, n)) <$> ns) s.
Proof.
  revert s. induction ns as [|n ns IH]; intros s; [done|].
  cbn [init_names fmap list_fmap puts]. rewrite init_one_entry. destruct (entry (c, g, n)); [apply IH|done].
Qed.
Lemma init_groups_puts c gs s :
  init_groups c gs s = puts (gs ≫= (λ gn, (λ n, (c, gn.1, n)) <$> gn.2)) s.
Proof.
  revert s. induction gs as [|[g ns] gs IH]; intros s; [done|].
  cbn [init_groups]. rewrite init_names_puts, bind_cons, puts_app. simpl.
  destruct (puts _ s); [apply IH|done].
Qed.
Lemma init_classes_puts cm s : init_classes cm s = puts (triples cm) s.
Proof.
  revert s. induction cm as [|[c gs] cm IH]; intros s; [done|].
  cbn [init_classes]. unfold triples. rewrite init_groups_puts, bind_cons, puts_app. simpl.
  destruct (puts _ s); [apply IH|done].
Qed.
Lemma puts_entries ts s : puts ts s = (λ l, fold_left put l s) <$> entries ts.
Proof.
  revert s. induction ts as [|t ts IH]; intros s; [done|]. cbn [puts entries].
  destruct (entry t) as [a|]; [|done]. rewrite IH. by destruct (entries ts).
Qed.

Lemma triples_walk cm walk : walks cm walk -> triples cm ≡ₚ triples walk.
Proof.
  intros (cm' & Hp & Hf). unfold triples. rewrite Hp. clear Hp cm.
  induction Hf as [|[c gs] [c' gs'] cm' walk [Hc Hg] Hf IH]; [done|].
  rewrite !bind_cons. simpl in *. subst c'. rewrite IH. f_equiv. by rewrite Hg.
Qed.
Lemma entries_perm ts ts' l : ts ≡ₚ ts' -> entries ts = Some l -> exists l', entries ts' = Some l' /\ l ≡ₚ l'.
Proof.
  intros Hp. revert l. induction Hp as [|t ts ts' Hp IH|t u ts|ts ts' ts'' H1 IH1 H2 IH2]; intros l He.
  - exists l. split; [done|]. by simplify_eq/=.
  - cbn [entries] in *. destruct (entry t) as [a|]; [|done].
    destruct (entries ts) as [b|] eqn:E; [|done]. destruct (IH b eq_refl) as (l' & -> & Hl). simplify_eq.
    eexists. split; [done|]. by constructor.
  - cbn [entries] in *. destruct (entry t), (entry u), (entries ts); simplify_eq.
    eexists. split; [done|]. constructor.
  - destruct (IH1 _ He) as (l1 & E1 & P1). destruct (IH2 _ E1) as (l2 & E2 & P2).
    exists l2. split; [done|]. by rewrite P1.
Qed.

Definition nr_map (l : list syscall) : gmap Z syscall := list_to_map ((λ sc, (sc_nr sc, sc)) <$> l).
Definition name_map (l : list syscall) : gmap string syscall := list_to_map ((λ sc, (sc_name sc, sc)) <$> l).
Lemma fold_put l s : NoDup (sc_nr <$> l) -> NoDup (sc_name <$> l) ->
  fold_left put l s = Syscalls (nr_map l ∪ by_nr s) (name_map l ∪ by_name s).
Proof.
  revert s. induction l as [|sc l IH]; intros s Hn Hm.
  - unfold nr_map, name_map. simpl. rewrite !(left_id_L ∅ (∪)). by destruct s.
  - cbn [fold_left fmap list_fmap] in *. apply NoDup_cons in Hn as [Hn1 Hn2], Hm as [Hm1 Hm2].
    rewrite IH by done. unfold put, nr_map, name_map in *. cbn [by_nr by_name fmap list_fmap list_to_map foldr fst snd].
    change (foldr (λ p, <[p.1:=p.2]>) ∅ ?l) with (list_to_map (M := gmap _ _) l).
    f_equal.
    + rewrite <- insert_union_r; [by rewrite insert_union_l|]. apply not_elem_of_list_to_map_1.
      by rewrite <- list_fmap_compose.
    + rewrite <- insert_union_r; [by rewrite insert_union_l|]. apply not_elem_of_list_to_map_1.
      by rewrite <- list_fmap_compose.
Qed.

(** The table in the order of the source file. *)
Definition all : list syscall := default [] (entries (triples gClassMap)).
Lemma all_ok : entries (triples gClassMap) = Some all.
Proof. vm_compute. reflexivity. Qed.
Lemma all_nodup_nr : NoDup (sc_nr <$> all).
Proof. refine (bool_decide_eq_true_1 _ _). vm_compute. reflexivity. Qed.
Lemma all_nodup_name : NoDup (sc_name <$> all).
Proof. refine (bool_decide_eq_true_1 _ _). vm_compute. reflexivity. Qed.

Local Opaque syscall_nr all gClassMap gSyscallMap.
Definition table : syscalls := Syscalls (nr_map all) (name_map all).

Lemma new_any_walk walk : walks gClassMap walk -> new_syscalls walk = Some table.
Proof.
  intros Hw. unfold new_syscalls. rewrite init_classes_puts, puts_entries.
  destruct (entries_perm _ _ _ (triples_walk _ _ Hw) all_ok) as (l & -> & Hp). cbn [fmap option_fmap option_map]. apply f_equal.
  rewrite fold_put; [|by rewrite <- Hp; apply all_nodup_nr|by rewrite <- Hp; apply all_nodup_name].
  cbn [by_nr by_name]. rewrite !(right_id_L ∅ (∪)). unfold table, nr_map, name_map. apply f_equal2.
  - apply list_to_map_proper; [|by rewrite Hp]. rewrite <- list_fmap_compose.
    change (NoDup (sc_nr <$> l)). rewrite <- Hp. apply all_nodup_nr.
  - apply list_to_map_proper; [|by rewrite Hp]. rewrite <- list_fmap_compose.
    change (NoDup (sc_name <$> l)). rewrite <- Hp. apply all_nodup_name.
Qed.
Lemma walk_refl cm : walks cm cm.
Proof. exists cm. split; [done|]. by induction cm; constructor. Qed.

Lemma by_nr_all n sc : by_nr table !! n = Some sc <-> sc_nr sc = n /\ sc ∈ all.
Proof.
  unfold table, nr_map. simpl. rewrite <- elem_of_list_to_map.
  - rewrite elem_of_list_fmap. split.
    + intros (y & ? & ?). by simplify_eq.
    + intros [<- ?]. by exists sc.
  - rewrite <- list_fmap_compose. apply all_nodup_nr.
Qed.
Lemma by_name_all v sc : by_name table !! v = Some sc <-> sc_name sc = v /\ sc ∈ all.
Proof.
  unfold table, name_map. simpl. rewrite <- elem_of_list_to_map.
  - rewrite elem_of_list_fmap. split.
    + intros (y & ? & ?). by simplify_eq.
    + intros [<- ?]. by exists sc.
  - rewrite <- list_fmap_compose. apply all_nodup_name.
Qed.

Lemma all_prefixed sc : sc ∈ all -> String.prefix "sys_" (sc_name sc) = true.
Proof.
  intros H. assert (forallb (λ sc, String.prefix "sys_" (sc_name sc)) all = true) as Hf by (vm_compute; reflexivity).
  rewrite forallb_forall in Hf. apply Hf. exact (proj1 (elem_of_list_In _ _) H).
Qed.
(** Membership of a (class, group, name) in the class map. *)
Lemma entries_elem ts l sc : entries ts = Some l -> sc ∈ l -> exists t, t ∈ ts /\ entry t = Some sc.
Proof.
  revert l. induction ts as [|t ts IH]; intros l He Hin; cbn [entries] in He.
  - simplify_eq. by apply elem_of_nil in Hin.
  - destruct (entry t) as [a|] eqn:Ea; [|discriminate He].
    destruct (entries ts) as [b|]; [|discriminate He]. injection He as <-.
    apply elem_of_cons in Hin as [->|Hin]; [exists t; split; [left|exact Ea]|].
    destruct (IH _ eq_refl Hin) as (t' & H1 & H2). exists t'. split; [right; exact H1|exact H2].
Qed.
Lemma elem_entries ts l t : entries ts = Some l -> t ∈ ts -> exists sc, sc ∈ l /\ entry t = Some sc.
Proof.
  revert l. induction ts as [|u ts IH]; intros l He Hin; cbn [entries] in He; [by apply elem_of_nil in Hin|].
  destruct (entry u) as [a|] eqn:Ea; [|discriminate He].
  destruct (entries ts) as [b|]; [|discriminate He]. injection He as <-.
  apply elem_of_cons in Hin as [->|Hin]; [exists a; split; [left|exact Ea]|].
  destruct (IH _ eq_refl Hin) as (sc & H1 & H2). exists sc. split; [right; exact H1|exact H2].
Qed.
Lemma triples_elem c g n : (c, g, n) ∈ triples gClassMap <-> in_class_map c g n.
Proof.
  unfold triples, in_class_map. rewrite elem_of_list_bind. split.
  - intros ([c' gs] & Hin & Hc). apply elem_of_list_bind in Hin as ([g' ns] & Hin & Hg).
    apply elem_of_list_fmap in Hin as (n' & Heq & Hn). simplify_eq/=. eauto.
  - intros (gs & ns & Hc & Hg & Hn). exists (c, gs). split; [|done].
    apply elem_of_list_bind. exists (g, ns). split; [|done].
    apply elem_of_list_fmap. by exists n.
Qed.
Lemma nr_nodup : NoDup gSyscallMap.*1.
Proof. refine (bool_decide_eq_true_1 _ _). vm_compute. reflexivity. Qed.
Local Transparent syscall_nr.
Lemma syscall_nr_elem n z : syscall_nr n = Some z <-> (n, z) ∈ gSyscallMap.
Proof. unfold syscall_nr, syscall_numbers. symmetry. apply elem_of_list_to_map. exact nr_nodup. Qed.
Local Opaque syscall_nr.
Lemma all_elem sc : sc ∈ all <->
  in_class_map (sc_class sc) (sc_group sc) (sc_name sc) /\ (sc_name sc, sc_nr sc) ∈ gSyscallMap.
Proof.
  rewrite <- triples_elem, <- syscall_nr_elem. split.
  - intros Hin. destruct (entries_elem _ _ _ all_ok Hin) as ([[c g] n] & Ht & He).
    apply entry_spec in He as [He [= -> -> ->]]. split; [exact Ht|exact He].
  - intros [Ht Hn]. destruct (elem_entries _ _ _ all_ok Ht) as (sc' & Hin & He).
    apply entry_spec in He as [He [= E1 E2 E3]]. cbn [snd] in He. rewrite Hn in He. injection He as E4.
    destruct sc as [a1 a2 a3 a4], sc' as [b1 b2 b3 b4]. cbn [sc_nr sc_name sc_class sc_group] in E1, E2, E3, E4. subst. exact Hin.
Qed.

Lemma decides_iff (P Q : Prop) `{Decision P} `{Decision Q} :
  eqb (bool_decide P) (bool_decide Q) = true -> P <-> Q.
Proof.
  intros He. apply eqb_prop in He. split; intros Hx; eapply bool_decide_eq_true_1;
  [rewrite <- He|rewrite He]; by apply bool_decide_eq_true_2.
Qed.
Lemma unclassified_exact n z : (n, z) ∈ gSyscallMap ->
  (by_nr table !! z = None <-> n ∈ unclassified) /\ (by_name table !! n = None <-> n ∈ unclassified).
Proof.
  intros Hin.
  assert ((λ table, forallb (λ p, eqb (bool_decide (by_nr table !! p.2 = None)) (bool_decide (p.1 ∈ unclassified)) &&
    eqb (bool_decide (by_name table !! p.1 = None)) (bool_decide (p.1 ∈ unclassified))) gSyscallMap) table = true) as Hf
    by (vm_compute; reflexivity).
  cbv beta in Hf. rewrite forallb_forall in Hf. specialize (Hf (n, z)). rewrite elem_of_list_In in Hin. specialize (Hf Hin).
  cbn [fst snd] in Hf. apply andb_true_iff in Hf as [H1 H2].
  split; [exact (decides_iff _ _ H1)|exact (decides_iff _ _ H2)].
Qed.
Lemma nr_range n z : (n, z) ∈ gSyscallMap -> 0 <= z <= 332.
Proof.
  intros Hin. assert (forallb (λ p, (0 <=? p.2) && (p.2 <=? 332)) gSyscallMap = true) as Hf by (vm_compute; reflexivity).
  rewrite forallb_forall in Hf. rewrite elem_of_list_In in Hin. specialize (Hf _ Hin). simpl in Hf. lia.
Qed.
Lemma nr_onto z : 0 <= z <= 332 -> exists n, (n, z) ∈ gSyscallMap.
Proof.
  intros Hz. assert (forallb (λ i, bool_decide (Z.of_nat i ∈ gSyscallMap.*2)) (seq 0 333) = true) as Hf
    by (vm_compute; reflexivity).
  rewrite forallb_forall in Hf. specialize (Hf (Z.to_nat z)). rewrite in_seq in Hf.
  assert (Hi : (0 <= Z.to_nat z < 0 + 333)%nat) by lia. specialize (Hf Hi).
  apply bool_decide_eq_true_1 in Hf. rewrite Z2Nat.id in Hf by lia.
  apply elem_of_list_fmap in Hf as ([n z'] & -> & Hin). by exists n.
Qed.
Lemma table_nr_range z sc : by_nr table !! z = Some sc -> sc_nr sc = z /\ 0 <= z <= 332.
Proof.
  intros H. apply by_nr_all in H as [<- H]. split; [done|]. apply all_elem in H as [_ H]. by apply nr_range in H.
Qed.

Lemma all_names_prefixed n z : (n, z) ∈ gSyscallMap -> String.prefix "sys_" n = true.
Proof.
  intros Hin. assert (forallb (λ p, String.prefix "sys_" p.1) gSyscallMap = true) as Hf by (vm_compute; reflexivity).
  rewrite forallb_forall in Hf. rewrite elem_of_list_In in Hin. exact (Hf _ Hin).
Qed.
Lemma lookup_prefixed s v : String.prefix "sys_" v = true -> lookup_sc s (ByString v) = by_name s !! v.
Proof. intros H. unfold lookup_sc. rewrite H. reflexivity. Qed.
Lemma prefix_optional s v : String.prefix "sys_" v = false ->
  lookup_sc s (ByString v) = lookup_sc s (ByString ("sys_" ++ v)).
Proof. intros H. rewrite (lookup_prefixed s ("sys_" ++ v)%string) by (destruct v; reflexivity). unfold lookup_sc. rewrite H. reflexivity. Qed.
Local Opaque table.
Lemma table_of walk s : walks gClassMap walk -> new_syscalls walk = Some s -> s = table.
Proof. intros Hw Hs. rewrite (new_any_walk _ Hw) in Hs. injection Hs as Hs. symmetry. exact Hs. Qed.
Lemma table_any_walk walk : walks gClassMap walk ->
  exists s, new_syscalls walk = Some s /\ new_syscalls gClassMap = Some s /\
    (forall n sc, lookup_sc s (ByInt n) = Some sc <->
       sc_nr sc = n /\ in_class_map (sc_class sc) (sc_group sc) (sc_name sc) /\ (sc_name sc, n) ∈ gSyscallMap) /\
    (forall v sc, String.prefix "sys_" v = true -> lookup_sc s (ByString v) = Some sc <->
       sc_name sc = v /\ in_class_map (sc_class sc) (sc_group sc) v /\ (v, sc_nr sc) ∈ gSyscallMap).
Proof.
  intros Hw. exists table. split; [exact (new_any_walk _ Hw)|]. split; [exact (new_any_walk _ (walk_refl _))|]. split.
  - intros n sc. cbn [lookup_sc]. rewrite by_nr_all, all_elem. split; intros [<- ?]; (split; [reflexivity|assumption]).
  - intros v sc Hp. rewrite lookup_prefixed, by_name_all, all_elem by assumption.
    split; intros [<- ?]; (split; [reflexivity|assumption]).
Qed.
Lemma lookups_inverse walk s : walks gClassMap walk -> new_syscalls walk = Some s ->
  forall sc, lookup_sc s (ByString (sc_name sc)) = Some sc <-> lookup_sc s (ByInt (sc_nr sc)) = Some sc.
Proof.
  intros Hw Hs sc. rewrite (table_of _ _ Hw Hs). split.
  - intros H. cbn [lookup_sc] in *. apply by_nr_all. split; [reflexivity|].
    destruct (String.prefix _ _); apply by_name_all in H as [_ H]; exact H.
  - intros H. cbn [lookup_sc] in H. apply by_nr_all in H as [_ H]. rewrite lookup_prefixed by (apply all_prefixed, H).
    apply by_name_all. split; [reflexivity|exact H].
Qed.
Lemma walk_reverse : walks gClassMap (reverse gClassMap).
Proof.
  exists (reverse gClassMap). split; [symmetry; apply reverse_Permutation|].
  induction (reverse gClassMap) as [|x l IH]; constructor; [split; reflexivity|exact IH].
Qed.
Lemma by_class_exact walk s class res : walks gClassMap walk -> new_syscalls walk = Some s ->
  get_by_class s class res ->
  NoDup res /\ forall sc, sc ∈ res <-> lookup_sc s (ByInt (sc_nr sc)) = Some sc /\ sc_class sc = class.
Proof.
  intros Hw Hs (order & Hp & ->). rewrite (table_of _ _ Hw Hs) in *. clear Hw Hs.
  assert (NoDup order) as Hnd.
  { rewrite Hp. apply (NoDup_fmap_1 sc_nr). 
    assert ((map_to_list (by_nr table)).*1 = sc_nr <$> (map_to_list (by_nr table)).*2) as <-.
    { assert (Forall (λ p, sc_nr p.2 = p.1) (map_to_list (by_nr table))) as Hall.
      { apply Forall_forall. intros [k x] Hin. apply elem_of_map_to_list, by_nr_all in Hin as [Hin _]. exact Hin. }
      clear Hp. induction Hall as [|p l E _ IH]; [reflexivity|]. cbn. rewrite E. f_equal. exact IH. }
    apply NoDup_fst_map_to_list. }
  split.
  - clear Hp. induction Hnd as [|x l Hx Hl IH]; cbn [List.filter]; [constructor|].
    destruct (String.eqb _ _); [|exact IH]. constructor; [|exact IH].
    intros H. apply Hx. apply elem_of_list_In, filter_In in H as [H _]. apply elem_of_list_In, H.
  - intros sc. rewrite elem_of_list_In, filter_In, String.eqb_eq, <- elem_of_list_In, Hp.
    cbn [lookup_sc]. split; intros [H ->]; (split; [|reflexivity]).
    + apply elem_of_list_fmap in H as ([k x] & -> & H). apply elem_of_map_to_list in H.
      cbn [snd]. pose proof H as H'. apply by_nr_all in H' as [-> _]. exact H.
    + apply elem_of_list_fmap. exists (sc_nr sc, sc). split; [reflexivity|]. apply elem_of_map_to_list, H.
Qed.
Lemma unclassified_nodup : NoDup unclassified.
Proof. refine (bool_decide_eq_true_1 _ _). vm_compute. reflexivity. Qed.
Lemma missing_exact walk s : walks gClassMap walk -> new_syscalls walk = Some s ->
  length unclassified = 28%nat /\ NoDup unclassified /\
  (forall n z, (n, z) ∈ gSyscallMap ->
     (lookup_sc s (ByInt z) = None <-> n ∈ unclassified) /\
     (lookup_sc s (ByString n) = None <-> n ∈ unclassified)) /\
  (forall z, z < 0 \/ 332 < z -> lookup_sc s (ByInt z) = None) /\
  (forall z, 0 <= z <= 332 -> exists n, (n, z) ∈ gSyscallMap).
Proof.
  intros Hw Hs. rewrite (table_of _ _ Hw Hs). split; [reflexivity|]. split; [exact unclassified_nodup|]. split; [|split].
  - intros n z Hin. rewrite lookup_prefixed by (eapply all_names_prefixed, Hin). cbn [lookup_sc].
    exact (unclassified_exact _ _ Hin).
  - intros z Hz. cbn [lookup_sc]. destruct (by_nr table !! z) as [sc|] eqn:E; [|reflexivity].
    apply table_nr_range in E. lia.
  - exact nr_onto.
Qed.

Lemma go_table_eq tbl : go_table tbl -> tbl = table.
Proof. intros (walk & Hw & Hs). exact (table_of _ _ Hw Hs). Qed.
Lemma go_table_intro : go_table table.
Proof. exists gClassMap. split; [exact (walk_refl _)|exact (new_any_walk _ (walk_refl _))]. Qed.
Lemma known_sc tbl nr : go_table tbl -> known tbl nr ->
  exists sc, lookup_sc tbl (ByInt nr) = Some sc /\ sc_nr sc = nr /\ (0 <= nr <= 332)%Z.
Proof.
  intros Ht [sc H]. rewrite (go_table_eq _ Ht) in *. exists sc. split; [exact H|].
  cbn [lookup_sc] in H. exact (table_nr_range _ _ H).
Qed.
Lemma lookup_string_known tbl v sc : go_table tbl -> lookup_sc tbl (ByString v) = Some sc -> lookup_sc tbl (ByInt (sc_nr sc)) = Some sc.
Proof.
  intros Ht H. rewrite (go_table_eq _ Ht) in *. cbn [lookup_sc] in *. apply by_nr_all. split; [reflexivity|].
  destruct (String.prefix _ _); apply by_name_all in H as [_ H]; exact H.
Qed.
