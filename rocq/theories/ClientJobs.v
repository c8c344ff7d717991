(** Proofs about lists of jobs and the create command. *)
From Coq Require Import ZArith String Ascii Bool Lia.
From stdpp Require Import base list numbers strings pretty gmap.
From Verif Require Import CodecModel CodecSpec JsonModel JsonSpec JsonProofs ClientModel ClientSpec ClientProofs.

Local Open Scope string_scope.
Local Open Scope Z_scope.

(** * Lists of jobs *)

Lemma bytes_of_bytes s : bytes (bytes_of s).
Proof.
  unfold bytes, bytes_of. apply List.Forall_forall. intros b I. apply in_map_iff in I as (c & <- & _). pose proof (Ascii.N_ascii_bounded c). lia.
Qed.
Lemma bytes_of_inj a b : bytes_of a = bytes_of b -> a = b.
Proof.
  unfold bytes_of, t. intros H. rewrite <- (String.string_of_list_ascii_of_string a), <- (String.string_of_list_ascii_of_string b). f_equal.
  revert H. generalize (String.list_ascii_of_string a) (String.list_ascii_of_string b). induction l as [|c l IH]; intros [|d k] H; try discriminate; [reflexivity|].
  cbn [map] in H. injection H as H1 H2. f_equal; [|apply IH, H2]. apply N2Z.inj in H1. rewrite <- (Ascii.ascii_N_embedding c), <- (Ascii.ascii_N_embedding d). congruence.
Qed.
Lemma plain_id {A} (table : gmap string A) id x : plain_ids table -> table !! id = Some x -> json_text (bytes_of id) = bytes_of id.
Proof. intros P E. apply json_text_iff; [apply bytes_of_bytes|]. apply (P id x E). Qed.

Section table.
  Context {A : Type}.
  Implicit Types (members : list (list Z * A)).
  Definition put (m : gmap (list Z) A) (e : list Z * A) : gmap (list Z) A := <[e.1 := e.2]> m.
  Lemma client_table_app m1 m2 : client_table (m1 ++ m2)%list = fold_left put m2 (client_table m1).
  Proof. unfold client_table. apply fold_left_app. Qed.
  Lemma client_table_lookup members k x : client_table members !! k = Some x -> In (k, x) members.
  Proof.
    induction members as [|e members IH] using rev_ind; [intros H; unfold client_table in H; cbn [fold_left] in H; rewrite lookup_empty in H; discriminate|].
    rewrite client_table_app. cbn [fold_left]. unfold put. destruct (decide (e.1 = k)) as [<-|N].
    - rewrite lookup_insert. intros [= <-]. apply in_app_iff. right. left. destruct e; reflexivity.
    - rewrite lookup_insert_ne by exact N. intros H. apply in_app_iff. left. apply IH, H.
  Qed.
  Lemma client_table_in members k x : In (k, x) members -> is_Some (client_table members !! k).
  Proof.
    induction members as [|e members IH] using rev_ind; [intros []|]. rewrite client_table_app. cbn [fold_left]. unfold put. intros I.
    destruct (decide (e.1 = k)) as [<-|N]; [rewrite lookup_insert; eauto|]. rewrite lookup_insert_ne by exact N. apply in_app_iff in I as [I|[I|[]]]; [exact (IH I)|subst e; cbn in N; congruence].
  Qed.
  Lemma client_table_list members : NoDup (map fst members) -> map_to_list (client_table members) ≡ₚ members.
  Proof.
    induction members as [|e members IH] using rev_ind; intros N; [unfold client_table; cbn [fold_left]; rewrite map_to_list_empty; reflexivity|].
    rewrite map_app in N. apply NoDup_app in N as (N1 & N2 & _). rewrite client_table_app. cbn [fold_left]. unfold put. destruct e as [k x]. cbn [fst snd map] in *.
    rewrite map_to_list_insert.
    - rewrite IH by exact N1. apply Permutation_cons_append.
    - destruct (client_table members !! k) as [y|] eqn:E; [|reflexivity]. apply client_table_lookup in E. exfalso. apply (N2 k).
      + apply elem_of_list_In, in_map_iff. exists (k, y). auto.
      + left.
  Qed.
  Lemma client_table_size members : (size (client_table members) <= length members)%nat.
  Proof.
    induction members as [|e members IH] using rev_ind; [apply Nat.le_0_l|]. rewrite client_table_app. cbn [fold_left]. unfold put. rewrite app_length. cbn [length].
    destruct (client_table members !! e.1) eqn:E; [rewrite map_size_insert_Some by eauto|rewrite map_size_insert_None by exact E]; lia.
  Qed.
  Lemma client_table_dup members : ~ NoDup (map fst members) -> (size (client_table members) < length members)%nat.
  Proof.
    induction members as [|e members IH] using rev_ind; intros N; [destruct N; constructor|]. rewrite client_table_app. cbn [fold_left]. unfold put. rewrite app_length. cbn [length].
    destruct (client_table members !! e.1) as [y|] eqn:E.
    - rewrite map_size_insert_Some by eauto. pose proof (client_table_size members). lia.
    - rewrite map_size_insert_None by exact E. assert (~ NoDup (map fst members)).
      { intros M. apply N. rewrite map_app. apply NoDup_app. split_and!; [exact M| |apply NoDup_singleton].
        intros k I J. cbn in J. apply elem_of_list_singleton in J as ->. apply elem_of_list_In, in_map_iff in I as ([k x] & F & I). cbn [fst] in F. subst k. apply client_table_in in I as [? I]. congruence. }
      specialize (IH H). lia.
  Qed.
End table.

Lemma table_json_snd {A} (l : list (string * A)) : map snd (table_json l) = map snd l.
Proof. unfold table_json. rewrite map_map. reflexivity. Qed.
Lemma table_json_fst {A} (l : list (string * A)) : map fst (table_json l) = map (fun e => json_text (bytes_of e.1)) l.
Proof. unfold table_json. rewrite map_map. reflexivity. Qed.
Lemma jobs_exact {A} walk (table : gmap string A) : any_order walk -> plain_ids table -> client_jobs walk table ≡ₚ (map_to_list table).*2.
Proof.
  intros W P. unfold client_jobs. rewrite (W _). rewrite client_table_list.
  - change (snd <$> table_json (map_to_list table)) with (map snd (table_json (map_to_list table))). rewrite table_json_snd. reflexivity.
  - rewrite table_json_fst. assert (E : map (fun e : string * A => json_text (bytes_of e.1)) (map_to_list table) = map bytes_of (map fst (map_to_list table))).
    { rewrite map_map. apply map_ext_in. intros [id x] I. cbn [fst]. apply elem_of_list_In, elem_of_map_to_list in I. apply (plain_id table id x P I). }
    rewrite E. apply (NoDup_fmap_2_strong bytes_of); [intros x y _ _; apply bytes_of_inj|]. apply (NoDup_fst_map_to_list table).
Qed.
Lemma jobs_real {A} walk (table : gmap string A) x : any_order walk -> In x (client_jobs walk table) -> exists id, table !! id = Some x.
Proof.
  intros W I. unfold client_jobs in I. apply elem_of_list_In in I. rewrite (W _) in I. apply elem_of_list_fmap in I as ([k y] & -> & I). cbn [snd]. apply elem_of_map_to_list in I. apply client_table_lookup in I.
  unfold table_json in I. apply in_map_iff in I as ([id z] & E & I). cbn [fst snd] in E. injection E as _ ->. exists id. apply elem_of_map_to_list, elem_of_list_In, I.
Qed.
Lemma jobs_length {A} walk (table : gmap string A) : any_order walk -> length (client_jobs walk table) = size (client_table (table_json (map_to_list table))).
Proof. intros W. unfold client_jobs. rewrite fmap_length, (Permutation_length (W _)). reflexivity. Qed.
Lemma table_json_length {A} (table : gmap string A) : length (table_json (map_to_list table)) = size table.
Proof. unfold table_json. rewrite map_length. reflexivity. Qed.
Lemma jobs_at_most {A} walk (table : gmap string A) : any_order walk -> (length (client_jobs walk table) <= size table)%nat.
Proof. intros W. rewrite (jobs_length walk table W), <- (table_json_length table). apply client_table_size. Qed.
Lemma jobs_lost {A} walk (table : gmap string A) id1 id2 x y : any_order walk -> table !! id1 = Some x -> table !! id2 = Some y -> id1 <> id2 -> json_text (bytes_of id1) = json_text (bytes_of id2) ->
  (length (client_jobs walk table) < size table)%nat.
Proof.
  intros W E1 E2 N J. rewrite (jobs_length walk table W), <- (table_json_length table). apply client_table_dup. rewrite table_json_fst. intros D.
  assert (I1 : In (id1, x) (map_to_list table)) by apply elem_of_list_In, elem_of_map_to_list, E1.
  assert (I2 : In (id2, y) (map_to_list table)) by apply elem_of_list_In, elem_of_map_to_list, E2.
  apply In_nth_error in I1 as [i I1]. apply In_nth_error in I2 as [j I2].
  assert (X : i = j).
  { rewrite NoDup_ListNoDup in D. rewrite NoDup_nth_error in D. apply D.
    - rewrite map_length. apply nth_error_Some. rewrite I1. discriminate.
    - rewrite !nth_error_map, I1, I2. cbn [option_map fst]. f_equal. exact J. }
  subst j. rewrite I1 in I2. injection I2 as -> _. congruence.
Qed.
(** "\xfe" and "\xff" *)
Definition id_fe : string := String (Ascii.ascii_of_nat 254) "".
Definition id_ff : string := String (Ascii.ascii_of_nat 255) "".
Lemma jobs_lost_witness : exists table : gmap string nat, size table = 2%nat /\ forall walk, any_order walk -> length (client_jobs walk table) = 1%nat.
Proof.
  exists (<[id_fe := 0%nat]> (<[id_ff := 1%nat]> ∅)).
  assert (S : size (<[id_fe := 0%nat]> (<[id_ff := 1%nat]> (∅ : gmap string nat))) = 2%nat).
  { rewrite map_size_insert_None; [rewrite map_size_insert_None by apply lookup_empty; rewrite map_size_empty; reflexivity|]. rewrite lookup_insert_ne by discriminate. apply lookup_empty. }
  split; [exact S|]. intros walk W.
  assert (L : (length (client_jobs walk (<[id_fe := 0%nat]> (<[id_ff := 1%nat]> ∅))) < 2)%nat).
  { eapply Nat.lt_le_trans; [|rewrite <- S; apply Nat.le_refl]. apply (jobs_lost walk _ id_fe id_ff 0%nat 1%nat W); [apply lookup_insert|rewrite lookup_insert_ne by discriminate; apply lookup_insert|discriminate|vm_compute; reflexivity]. }
  assert (G : (0 < length (client_jobs walk (<[id_fe := 0%nat]> (<[id_ff := 1%nat]> ∅))))%nat).
  { rewrite (jobs_length walk _ W). apply Nat.neq_0_lt_0. intros Z0. apply map_size_empty_iff in Z0.
    assert (I : In (json_text (bytes_of id_fe), 0%nat) (table_json (map_to_list (<[id_fe := 0%nat]> (<[id_ff := 1%nat]> (∅ : gmap string nat)))))).
    { unfold table_json. apply in_map_iff. exists (id_fe, 0%nat). split; [reflexivity|]. apply elem_of_list_In, elem_of_map_to_list, lookup_insert. }
    apply client_table_in in I as [? I]. rewrite Z0, lookup_empty in I. discriminate. }
  lia.
Qed.
Lemma all_jobs_exact {A} walk (running completed : gmap string A) : any_order walk -> plain_ids running -> plain_ids completed ->
  all_jobs walk running completed ≡ₚ ((map_to_list running).*2 ++ (map_to_list completed).*2)%list.
Proof. intros W P1 P2. unfold all_jobs. rewrite (jobs_exact walk running W P1), (jobs_exact walk completed W P2). reflexivity. Qed.

(** * The specification that is sent *)

Lemma spec_exact f : let file := default (Spec [] [] [] []) (f_file f) in
  replaces (given_list (f_syscalls f)) (s_syscalls file) (s_syscalls (spec_of f))
  /\ replaces (f_labels f) (s_labels file) (s_labels (spec_of f))
  /\ replaces (f_fields f) (s_fields file) (s_fields (spec_of f))
  /\ replaces (given_list (f_hosts f)) (s_hosts file) (s_hosts (spec_of f)).
Proof. destruct f as [file sc la fi ho]. unfold spec_of. cbn [f_file f_syscalls f_labels f_fields f_hosts]. destruct sc, la, fi, ho; cbn; split_and!; reflexivity. Qed.

(** * One shot *)

Definition oinv (n : nat) (s : oneshot) : Prop :=
  o_created s = seq 0 (o_next s) /\ length (o_threads s) = o_next s /\ (o_next s <= n)%nat
  /\ (if o_busy s then o_var s = o_next s /\ (o_next s < n)%nat else if o_exit s then o_var s = o_next s /\ (o_next s < n)%nat else o_var s = pred (o_next s))
  /\ (forall i e, In (i, e) (o_reads s) -> (i <= e <= o_var s /\ i < o_next s)%nat)
  /\ (forall i e, In (i, e) (o_deletes s) -> (i <= e <= o_var s /\ i < o_next s)%nat)
  /\ (forall i, In i (map fst (o_reads s)) <-> (i < o_next s)%nat /\ o_threads s !! i <> Some GStart)
  /\ (forall i, In i (map fst (o_deletes s)) <-> o_threads s !! i = Some GDone)
  /\ NoDup (map fst (o_reads s)) /\ NoDup (map fst (o_deletes s)).
Lemma oinv_start n : oinv n ostart.
Proof.
  unfold oinv, ostart. cbn [o_next o_busy o_var o_exit o_created o_threads o_reads o_deletes map In].
  split; [reflexivity|]. split; [reflexivity|]. split; [lia|]. split; [reflexivity|]. split; [intros ? ? []|]. split; [intros ? ? []|].
  split; [intros i; split; [intros []|intros [H _]; lia]|]. split; [intros i; split; [intros []|rewrite lookup_nil; discriminate]|]. split; constructor.
Qed.
Lemma nodup_snoc {A} (l : list A) x : NoDup l -> ~ In x l -> NoDup (l ++ [x])%list.
Proof. intros N I. apply NoDup_app. split_and!; [exact N| |apply NoDup_singleton]. intros y Hy Hz. apply elem_of_list_singleton in Hz as ->. apply I, elem_of_list_In, Hy. Qed.
Lemma oinv_step n s a : oinv n s -> oinv n (ostep_do n s a).
Proof.
  intros I. unfold ostep_do. destruct (o_exit s) eqn:X; [exact I|]. destruct s as [nx b v ex cr th rd dl]. cbn in X. subst ex.
  destruct I as (C & L & K & B & R & D & FR & FD & NR & ND). cbn [o_next o_busy o_var o_exit o_created o_threads o_reads o_deletes] in *.
  destruct a as [|ok|i].
  - destruct (negb b && Nat.ltb nx n) eqn:Q; [|split_and!; assumption]. apply andb_true_iff in Q as [Q1 Q2]. destruct b; [discriminate|]. apply Nat.ltb_lt in Q2.
    split_and!; cbn [o_next o_busy o_var o_exit o_created o_threads o_reads o_deletes]; try assumption; try (split; [reflexivity|exact Q2]).
    + intros i e I. destruct (R i e I). lia.
    + intros i e I. destruct (D i e I). lia.
  - destruct b; [|split_and!; assumption]. destruct B as [-> B]. destruct ok.
    + split_and!; cbn [o_next o_busy o_var o_exit o_created o_threads o_reads o_deletes]; try assumption.
      * rewrite C. replace (S nx) with (nx + 1)%nat by lia. rewrite seq_app. reflexivity.
      * rewrite app_length, L. cbn [length]. lia.
      * reflexivity.
      * intros i e I. destruct (R i e I). lia.
      * intros i e I. destruct (D i e I). lia.
      * intros i. rewrite FR. destruct (decide (i < nx)%nat) as [H|H].
        -- rewrite lookup_app_l by lia. split; intros [? ?]; split; auto; lia.
        -- split; [intros [? _]; lia|]. intros [H1 H2]. assert (i = nx) as -> by lia. rewrite lookup_app_r in H2 by lia. rewrite L, Nat.sub_diag in H2. destruct H2. reflexivity.
      * intros i. rewrite FD. destruct (decide (i < nx)%nat) as [H|H]; [rewrite lookup_app_l by lia; reflexivity|].
        split; [intros E; apply lookup_lt_Some in E; lia|]. intros E. assert (i = nx). { apply lookup_lt_Some in E. rewrite app_length in E. cbn [length] in E. lia. } subst i. rewrite lookup_app_r in E by lia. rewrite L, Nat.sub_diag in E. discriminate.
    + split_and!; cbn [o_next o_busy o_var o_exit o_created o_threads o_reads o_deletes]; try assumption. split; [reflexivity|exact B].
  - destruct (th !! i) as [[| |]|] eqn:E; try (split_and!; assumption).
    + assert (Hi : (i < nx)%nat) by (apply lookup_lt_Some in E; lia).
      assert (V : (i <= v)%nat) by (destruct b; lia).
      split_and!; cbn [o_next o_busy o_var o_exit o_created o_threads o_reads o_deletes]; try assumption.
      * rewrite insert_length. exact L.
      * intros j e I. apply in_app_iff in I as [I|[I|[]]]; [exact (R j e I)|]. injection I as <- <-. lia.
      * intros j. rewrite map_app, in_app_iff. cbn [map In fst]. rewrite FR. destruct (decide (i = j)) as [<-|N].
        -- rewrite list_lookup_insert by lia. split; [intros _; split; [exact Hi|discriminate]|intros _; right; left; reflexivity].
        -- rewrite list_lookup_insert_ne by exact N. split; [intros [H|[H|[]]]; [exact H|destruct (N H)]|intros H; left; exact H].
      * intros j. rewrite FD. destruct (decide (i = j)) as [<-|N]; [rewrite list_lookup_insert by lia; rewrite E; split; discriminate|rewrite list_lookup_insert_ne by exact N; reflexivity].
      * rewrite map_app. apply nodup_snoc; [exact NR|]. intros H. apply FR in H as [_ H]. exact (H E).
    + assert (Hi : (i < nx)%nat) by (apply lookup_lt_Some in E; lia).
      assert (V : (i <= v)%nat) by (destruct b; lia).
      split_and!; cbn [o_next o_busy o_var o_exit o_created o_threads o_reads o_deletes]; try assumption.
      * rewrite insert_length. exact L.
      * intros j e I. apply in_app_iff in I as [I|[I|[]]]; [exact (D j e I)|]. injection I as <- <-. lia.
      * intros j. rewrite FR. destruct (decide (i = j)) as [<-|N]; [rewrite list_lookup_insert by lia; rewrite E; split; intros [? _]; split; auto; discriminate|rewrite list_lookup_insert_ne by exact N; reflexivity].
      * intros j. rewrite map_app, in_app_iff. cbn [map In fst]. rewrite FD. destruct (decide (i = j)) as [<-|N].
        -- rewrite list_lookup_insert by lia. split; [intros _; reflexivity|intros _; right; left; reflexivity].
        -- rewrite list_lookup_insert_ne by exact N. split; [intros [H|[H|[]]]; [exact H|destruct (N H)]|intros H; left; exact H].
      * rewrite map_app. apply nodup_snoc; [exact ND|]. intros H. apply FD in H. cbn [fst] in H. rewrite E in H. discriminate.
Qed.
Lemma oinv_run n acts : oinv n (oneshot_run n acts).
Proof.
  unfold oneshot_run. assert (H : forall s, oinv n s -> oinv n (fold_left (ostep_do n) acts s)).
  { induction acts as [|a acts IH]; intros s I; [exact I|]. cbn [fold_left]. apply IH, oinv_step, I. }
  apply H, oinv_start.
Qed.
Lemma var_below n acts : (0 < n)%nat -> (o_var (oneshot_run n acts) < n)%nat.
Proof.
  intros P. destruct (oinv_run n acts) as (_ & _ & K & B & _). destruct (o_busy (oneshot_run n acts)); [lia|]. destruct (o_exit (oneshot_run n acts)); lia.
Qed.
Lemma created_prefix n acts : o_created (oneshot_run n acts) = seq 0 (length (o_created (oneshot_run n acts))) /\ (length (o_created (oneshot_run n acts)) <= n)%nat.
Proof. destruct (oinv_run n acts) as (C & _ & K & _). rewrite C, seq_length. auto. Qed.
Lemma oneshot_bounds n acts i e : In (i, e) (o_reads (oneshot_run n acts)) \/ In (i, e) (o_deletes (oneshot_run n acts)) -> (i <= e < n)%nat /\ In i (o_created (oneshot_run n acts)).
Proof.
  destruct (oinv_run n acts) as (C & _ & K & _ & R & D & _). intros H.
  assert (X : (i <= e <= o_var (oneshot_run n acts) /\ i < o_next (oneshot_run n acts))%nat) by (destruct H as [H|H]; [apply R, H|apply D, H]).
  pose proof (var_below n acts ltac:(lia)). split; [lia|]. rewrite C. apply in_seq. lia.
Qed.
Lemma oneshot_once n acts : NoDup (map fst (o_reads (oneshot_run n acts))) /\ NoDup (map fst (o_deletes (oneshot_run n acts))).
Proof. destruct (oinv_run n acts) as (_ & _ & _ & _ & _ & _ & _ & _ & NR & ND). auto. Qed.
Lemma complete_all n acts : complete n (oneshot_run n acts) -> forall i, (i < n)%nat -> In i (map fst (o_reads (oneshot_run n acts))) /\ In i (map fst (o_deletes (oneshot_run n acts))).
Proof.
  intros (Cn & F & L) i Hi. destruct (oinv_run n acts) as (C & L2 & K & B & R & D & FR & FD & _). 
  assert (E : o_threads (oneshot_run n acts) !! i = Some GDone).
  { destruct (lookup_lt_is_Some_2 (o_threads (oneshot_run n acts)) i ltac:(lia)) as [g E]. rewrite List.Forall_forall in F. rewrite <- (F g) in E by (apply elem_of_list_In, (elem_of_list_lookup_2 _ i), E). exact E. }
  split; [apply FR; split; [lia|rewrite E; discriminate]|apply FD, E].
Qed.
Lemma last_right n acts : complete n (oneshot_run n acts) -> (0 < n)%nat -> ~ left_behind (oneshot_run n acts) (pred n).
Proof.
  intros C P [_ N]. destruct (complete_all n acts C (pred n) ltac:(lia)) as [_ H]. apply N. apply in_map_iff in H as ([i e] & E & I). cbn [fst] in E. subst i.
  apply in_map_iff. exists (pred n, e). split; [|exact I]. cbn [snd]. destruct (oneshot_bounds n acts (pred n) e (or_intror I)). lia.
Qed.
Lemma one_endpoint acts : complete 1 (oneshot_run 1 acts) -> forall e, ~ left_behind (oneshot_run 1 acts) e.
Proof.
  intros C e L. assert (E : e = 0%nat). { destruct L as [H _]. destruct (oinv_run 1 acts) as (S & _ & K & _). rewrite S in H. apply in_seq in H. lia. }
  subst e. exact (last_right 1 acts C ltac:(lia) L).
Qed.

(** All the iterations first. *)
Definition loop (n : nat) : list ostep := flat_map (fun _ => [OAssign; OCreate true]) (seq 0 n).
Lemma loop_state n k : (k <= n)%nat -> fold_left (ostep_do n) (loop k) ostart = Oneshot k false (pred k) false (seq 0 k) (replicate k GStart) [] [].
Proof.
  intros H. induction k as [|k IH]; [reflexivity|]. unfold loop. replace (seq 0 (S k)) with (seq 0 k ++ [k])%list by (replace (S k) with (k + 1)%nat by lia; rewrite seq_app; reflexivity).
  rewrite flat_map_app, fold_left_app. fold (loop k). rewrite IH by lia. cbn [flat_map app fold_left]. unfold ostep_do at 2. cbn [o_exit o_busy o_next negb andb]. destruct (Nat.ltb_spec k n); [|lia].
  cbn [andb]. unfold ostep_do. cbn [o_exit o_busy o_next o_var o_created o_threads o_reads o_deletes pred].
  assert (E2 : replicate (S k) GStart = (replicate k GStart ++ [GStart])%list) by (replace (S k) with (k + 1)%nat by lia; rewrite replicate_add; reflexivity).
  rewrite E2. reflexivity.
Qed.
Definition drain (n : nat) : list ostep := flat_map (fun i => [OGo i; OGo i]) (seq 0 n).
Lemma drain_state n v : forall k m, fold_left (ostep_do n) (flat_map (fun i => [OGo i; OGo i]) (seq k m))
    (Oneshot (k + m) false v false (seq 0 (k + m)) (replicate k GDone ++ replicate m GStart) (map (fun i => (i, v)) (seq 0 k)) (map (fun i => (i, v)) (seq 0 k)))
  = Oneshot (k + m) false v false (seq 0 (k + m)) (replicate (k + m) GDone) (map (fun i => (i, v)) (seq 0 (k + m))) (map (fun i => (i, v)) (seq 0 (k + m))).
Proof.
  intros k m. revert k. induction m as [|m IH]; intros k.
  - cbn [seq flat_map fold_left replicate]. rewrite app_nil_r, Nat.add_0_r. reflexivity.
  - cbn [seq flat_map app fold_left]. unfold ostep_do at 3. cbn [o_exit o_threads].
    assert (L1 : (replicate k GDone ++ replicate (S m) GStart)%list !! k = Some GStart).
    { rewrite lookup_app_r by (rewrite replicate_length; lia). rewrite replicate_length, Nat.sub_diag. reflexivity. }
    rewrite L1. cbn [o_next o_busy o_var o_created o_reads o_deletes].
    assert (I1 : <[k := GReading]> (replicate k GDone ++ replicate (S m) GStart)%list = (replicate k GDone ++ GReading :: replicate m GStart)%list).
    { rewrite insert_app_r_alt by (rewrite replicate_length; lia). rewrite replicate_length, Nat.sub_diag. reflexivity. }
    rewrite I1. unfold ostep_do at 2. cbn [o_exit o_threads].
    assert (L2 : (replicate k GDone ++ GReading :: replicate m GStart)%list !! k = Some GReading).
    { rewrite lookup_app_r by (rewrite replicate_length; lia). rewrite replicate_length, Nat.sub_diag. reflexivity. }
    rewrite L2. cbn [o_next o_busy o_var o_created o_reads o_deletes].
    assert (I2 : <[k := GDone]> (replicate k GDone ++ GReading :: replicate m GStart)%list = (replicate (S k) GDone ++ replicate m GStart)%list).
    { rewrite insert_app_r_alt by (rewrite replicate_length; lia). rewrite replicate_length, Nat.sub_diag. cbn [insert list_insert]. replace (S k) with (k + 1)%nat by lia. rewrite replicate_add, <- app_assoc. reflexivity. }
    rewrite I2. assert (M : (map (fun i => (i, v)) (seq 0 k) ++ [(k, v)])%list = map (fun i => (i, v)) (seq 0 (S k))).
    { replace (S k) with (k + 1)%nat by lia. rewrite seq_app, map_app. reflexivity. }
    rewrite M. replace (k + S m)%nat with (S k + m)%nat by lia. apply IH.
Qed.
Lemma loop_drain n : oneshot_run n (loop n ++ drain n)%list = Oneshot n false (pred n) false (seq 0 n) (replicate n GDone) (map (fun i => (i, pred n)) (seq 0 n)) (map (fun i => (i, pred n)) (seq 0 n)).
Proof. unfold oneshot_run. rewrite fold_left_app, loop_state by lia. exact (drain_state n (pred n) 0 n). Qed.
Lemma oneshot_refuted n : exists acts, complete n (oneshot_run n acts)
  /\ (forall i e, In (i, e) (o_reads (oneshot_run n acts)) \/ In (i, e) (o_deletes (oneshot_run n acts)) -> e = pred n)
  /\ forall e, (e < pred n)%nat -> left_behind (oneshot_run n acts) e.
Proof.
  exists (loop n ++ drain n)%list. rewrite loop_drain. unfold complete, left_behind. cbn [o_created o_threads o_reads o_deletes].
  assert (M : map snd (map (fun i => (i, pred n)) (seq 0 n)) = map (fun _ => pred n) (seq 0 n)) by (rewrite map_map; reflexivity).
  split_and!.
  - apply seq_length.
  - apply Forall_replicate. reflexivity.
  - apply replicate_length.
  - intros i e [H|H]; apply in_map_iff in H as (j & [= _ <-] & _); reflexivity.
  - intros e He. rewrite M. split; [apply in_seq; lia|]. intros H. apply in_map_iff in H as (j & <- & _). lia.
Qed.
(** The job of endpoint [e] is deleted only if goroutine [e] or one before it gets to its
    deletion while the loop has not gone on. *)
Lemma exit_final n s a : o_exit s = true -> ostep_do n s a = s.
Proof. intros E. unfold ostep_do. rewrite E. reflexivity. Qed.
Lemma exit_run n acts more : o_exit (oneshot_run n acts) = true -> oneshot_run n (acts ++ more)%list = oneshot_run n acts.
Proof.
  intros E. unfold oneshot_run in *. rewrite fold_left_app. induction more as [|a more IH]; [reflexivity|]. cbn [fold_left]. rewrite (exit_final _ _ a E). exact IH.
Qed.
Lemma failure_leaves n k : (k < n)%nat -> exists acts, o_created (oneshot_run n acts) = seq 0 k /\ o_exit (oneshot_run n acts) = true
  /\ forall more e, (e < k)%nat -> left_behind (oneshot_run n (acts ++ more)%list) e.
Proof.
  intros H. exists (loop k ++ [OAssign; OCreate false])%list.
  assert (E : oneshot_run n (loop k ++ [OAssign; OCreate false])%list = Oneshot k false k true (seq 0 k) (replicate k GStart) [] []).
  { unfold oneshot_run. rewrite fold_left_app, loop_state by lia. cbn [fold_left]. unfold ostep_do at 2. cbn [o_exit o_busy o_next negb andb]. destruct (Nat.ltb_spec k n); [|lia]. cbn [andb]. reflexivity. }
  rewrite E. split_and!; [reflexivity|reflexivity|]. intros more e He. rewrite exit_run by (rewrite E; reflexivity). rewrite E. split; [apply in_seq; lia|intros []].
Qed.
