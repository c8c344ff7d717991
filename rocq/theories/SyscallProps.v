(** Properties C41 and C42: the syscall table. *)
From stdpp Require Import gmap strings list.
From Coq Require Import ZArith Lia.
From Verif Require Import SyscallTable SyscallModel SyscallSpec SyscallProofs.
Open Scope Z_scope.

(** C41: New succeeds whatever order Go walks the maps in, and always builds the
    same table: the entries are exactly the names that have a class and a number. *)
Theorem C41_table_is_independent_of_walk_order : forall walk, walks gClassMap walk ->
  exists s, new_syscalls walk = Some s /\ new_syscalls gClassMap = Some s /\
    (forall n sc, lookup_sc s (ByInt n) = Some sc <->
       sc_nr sc = n /\ in_class_map (sc_class sc) (sc_group sc) (sc_name sc) /\ (sc_name sc, n) ∈ gSyscallMap) /\
    (forall v sc, String.prefix "sys_" v = true -> lookup_sc s (ByString v) = Some sc <->
       sc_name sc = v /\ in_class_map (sc_class sc) (sc_group sc) v /\ (v, sc_nr sc) ∈ gSyscallMap).
Proof. exact table_any_walk. Qed.
Print Assumptions C41_table_is_independent_of_walk_order.
Example C41_walk_exists : walks gClassMap (reverse gClassMap) /\ reverse gClassMap <> gClassMap.
Proof. split; [exact walk_reverse|]. intros H. apply (f_equal (fun l => option_map fst (head l))) in H. vm_compute in H. discriminate H. Qed.

Theorem C41_lookups_are_inverse : forall walk s, walks gClassMap walk -> new_syscalls walk = Some s ->
  forall sc, lookup_sc s (ByString (sc_name sc)) = Some sc <-> lookup_sc s (ByInt (sc_nr sc)) = Some sc.
Proof. exact lookups_inverse. Qed.
Print Assumptions C41_lookups_are_inverse.
Theorem C41_uint32_and_int_agree : forall s n, lookup_sc s (ByUint32 n) = lookup_sc s (ByInt n).
Proof. reflexivity. Qed.
Print Assumptions C41_uint32_and_int_agree.
Theorem C41_prefix_is_optional : forall s v, String.prefix "sys_" v = false ->
  lookup_sc s (ByString v) = lookup_sc s (ByString ("sys_" ++ v)).
Proof. exact prefix_optional. Qed.
Print Assumptions C41_prefix_is_optional.
Example C41_lookup_open : exists s, new_syscalls gClassMap = Some s /\
  lookup_sc s (ByString "open") = Some (Syscall 2 "sys_open" "FileSystem" "Files") /\
  lookup_sc s (ByInt 2) = lookup_sc s (ByString "sys_open").
Proof. exists table. split; [exact (new_any_walk _ (walk_refl _))|]. vm_compute. split; reflexivity. Qed.

(** GetByClass returns every syscall of the class once, in some order. *)
Theorem C41_get_by_class : forall walk s class res, walks gClassMap walk -> new_syscalls walk = Some s ->
  get_by_class s class res ->
  NoDup res /\ forall sc, sc ∈ res <-> lookup_sc s (ByInt (sc_nr sc)) = Some sc /\ sc_class sc = class.
Proof. exact by_class_exact. Qed.
Print Assumptions C41_get_by_class.

Lemma by_group_exact l group : get_by_group l group `sublist_of` l /\ forall sc, sc ∈ get_by_group l group <-> sc ∈ l /\ sc_group sc = group.
Proof.
  unfold get_by_group. split.
  - induction l as [|sc l IH]; [constructor|]. cbn [List.filter]. destruct (String.eqb _ _); [by constructor|by apply sublist_cons].
  - intros sc. rewrite !elem_of_list_In, filter_In, String.eqb_eq. done.
Qed.
Lemma in_map_of {A} (m : list (string * A)) k v : NoDup (map fst m) -> (list_to_map m : gmap string A) !! k = Some v <-> (k, v) ∈ m.
Proof. intros H. symmetry. exact (elem_of_list_to_map m k v H). Qed.
Lemma class_map_nodup : NoDup (map fst gClassMap) /\ Forall (fun c => NoDup (map fst c.2)) gClassMap.
Proof. split; refine (bool_decide_eq_true_1 _ _); vm_compute; reflexivity. Qed.
Lemma in_calls (gs : list (string * list string)) group name : NoDup (map fst gs) ->
  name ∈ default [] ((list_to_map gs : gmap string (list string)) !! group) <-> exists names, (group, names) ∈ gs /\ name ∈ names.
Proof.
  intros N. split.
  - intros H. destruct ((list_to_map gs : gmap string (list string)) !! group) as [names|] eqn:E; [|by apply not_elem_of_nil in H].
    exists names. split; [by apply in_map_of|exact H].
  - intros (names & H1 & H2). apply (in_map_of gs group names N) in H1. rewrite H1. exact H2.
Qed.
Lemma calls_exact class group name : name ∈ calls class group <-> in_class_map class group name.
Proof.
  destruct class_map_nodup as [N1 N2]. rewrite Forall_forall in N2. unfold calls, in_class_map.
  destruct ((list_to_map gClassMap : gmap string (list (string * list string))) !! class) as [gs|] eqn:E.
  - apply (in_map_of gClassMap class gs N1) in E. pose proof (N2 _ E) as N. cbn [snd] in N. change (default [] (Some gs)) with gs. rewrite (in_calls gs group name N). split.
    + intros (names & H1 & H2). by exists gs, names.
    + intros (gs' & names & H1 & H2 & H3). exists names. split; [|exact H3].
      apply (in_map_of gClassMap class gs N1) in E. apply (in_map_of gClassMap class gs' N1) in H1. rewrite E in H1. by injection H1 as ->.
  - split.
    + intros H. by apply not_elem_of_nil in H.
    + intros (gs' & names & H1 & _). apply (in_map_of gClassMap class gs' N1) in H1. by rewrite E in H1.
Qed.

(** GetByGroup keeps, in order, the syscalls of the group. *)
Theorem C41_get_by_group : forall l group,
  get_by_group l group `sublist_of` l /\ forall sc, sc ∈ get_by_group l group <-> sc ∈ l /\ sc_group sc = group.
Proof. exact by_group_exact. Qed.
Print Assumptions C41_get_by_group.
(** Calls of a class and a group, Groups and Classes say what the table says. *)
Theorem C41_calls_are_the_groups_names : forall class group name,
  name ∈ calls class group <-> in_class_map class group name.
Proof. exact calls_exact. Qed.
Print Assumptions C41_calls_are_the_groups_names.

(** C42: exactly the 28 names of [unclassified] have a number but no entry, and no
    number outside 0..332 has one. *)
Theorem C42_missing_syscalls : forall walk s, walks gClassMap walk -> new_syscalls walk = Some s ->
  length unclassified = 28%nat /\ NoDup unclassified /\
  (forall n z, (n, z) ∈ gSyscallMap ->
     (lookup_sc s (ByInt z) = None <-> n ∈ unclassified) /\
     (lookup_sc s (ByString n) = None <-> n ∈ unclassified)) /\
  (forall z, z < 0 \/ 332 < z -> lookup_sc s (ByInt z) = None) /\
  (forall z, 0 <= z <= 332 -> exists n, (n, z) ∈ gSyscallMap).
Proof. exact missing_exact. Qed.
Print Assumptions C42_missing_syscalls.
Example C42_getcpu : ("sys_getcpu"%string, 309) ∈ gSyscallMap /\ "sys_getcpu"%string ∈ unclassified.
Proof. split; refine (bool_decide_eq_true_1 _ _); vm_compute; reflexivity. Qed.
