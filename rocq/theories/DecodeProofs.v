(** Proofs about the decoders and Ingest. *)
From stdpp Require Import base list numbers strings pretty.
From Coq Require Import ZArith Lia.
From Verif Require Import RawModel RawSpec RawProofs DecodeModel DecodeSpec.

Local Open Scope Z_scope.

(** * Reads *)

Lemma read_bytes_some args off n :
  (off + n <= length args)%nat -> read_bytes args off n = Some (take n (drop off args)).
Proof. intros H. unfold read_bytes. apply Nat.leb_le in H. by rewrite H. Qed.

Lemma read_bytes_inv args off n bs :
  read_bytes args off n = Some bs ->
  (off + n <= length args)%nat /\ bs = take n (drop off args).
Proof.
  unfold read_bytes. destruct (Nat.leb_spec (off + n) (length args)); [|done].
  intros E. apply (inj Some) in E. by subst.
Qed.

(** * The table *)

(** The bytes an assignment reads at once. *)
Definition eager (f : field) : nat * nat :=
  let off := slot_start (f_slot f) in
  match f_kind f with
  | KS32 | KU32 => (off, 4)
  | KS64 | KU64 => (off, 8)
  | KStr => (off, 128)
  | KSliceMin c | KSliceMax c => (slot_start c, 8)
  | KCopy n => (off, n)
  | _ => (off, 0)
  end%nat.

Definition field_ok (f : field) : bool :=
  ((eager f).1 + (eager f).2 <=? 640)%nat
  && (slot_start (f_slot f) + 110 <=? 640)%nat
  && match f_kind f with
     | KSlice n => (slot_start (f_slot f) + n <=? 640)%nat
     | KSliceMin _ => (slot_start (f_slot f) + 128 <=? 640)%nat
     | KPtr n => (slot_start (f_slot f) + n <=? 640)%nat
     | _ => true
     end.

Definition field_class_ok (nr : Z) (f : field) : bool :=
  field_ok f
  && match f_kind f with
     | KSliceMin c => existsb (Z.eqb nr) [0; 1; 89; 267]
     | KSliceMax c => Z.eqb nr 10
     | _ => true
     end.

Lemma decoders_ok :
  forallb (fun e => forallb (field_class_ok e.1.1) e.2) decoders = true.
Proof. vm_compute. reflexivity. Qed.

Lemma decoder_In nr fs :
  decoder nr = Some fs -> exists name, In (nr, name, fs) decoders.
Proof.
  unfold decoder. generalize decoders. intros tbl.
  destruct (List.find _ tbl) as [[[nr' name] fs']|] eqn:E; [|discriminate].
  intros H. apply (inj Some) in H. cbn in H. subst fs'.
  apply List.find_some in E as [I E]. cbn in E. apply Z.eqb_eq in E. subst nr'.
  by exists name.
Qed.

Lemma decoder_field_class nr fs f :
  decoder nr = Some fs -> In f fs -> field_class_ok nr f = true.
Proof.
  intros H I. apply decoder_In in H as [name H].
  pose proof decoders_ok as O. rewrite forallb_forall in O. specialize (O _ H).
  cbn [fst snd] in O. rewrite forallb_forall in O. exact (O f I).
Qed.

Lemma decoder_none nr :
  decoder nr = None <-> nr ∉ map (fun e => e.1.1) decoders.
Proof.
  unfold decoder. generalize decoders. intros tbl.
  destruct (List.find _ tbl) as [e|] eqn:E.
  - split; [discriminate|]. intros N. exfalso. apply N.
    apply List.find_some in E as [I E]. apply Z.eqb_eq in E.
    apply elem_of_list_In, in_map_iff. by exists e.
  - split; [|done]. intros _ I. apply elem_of_list_In, in_map_iff in I as (e & <- & I).
    pose proof (List.find_none _ _ E e I) as F. cbn in F. by rewrite Z.eqb_refl in F.
Qed.

(** * Decoding never fails, and where it points *)

Lemma decode_field_total args f :
  length args = args_size -> field_ok f = true ->
  exists v, decode_field args f = Some v.
Proof.
  intros L H. change args_size with 640%nat in L.
  apply andb_true_iff in H as [H _]. apply andb_true_iff in H as [H _].
  apply Nat.leb_le in H. destruct f as [nm s k]. unfold decode_field, eager in *.
  cbn [f_slot f_kind] in *. change arg_len with 128%nat.
  destruct k; cbn [fst snd] in H;
    unfold vint, c32, cu32, c64, cu64; rewrite ?read_bytes_some by lia; eauto.
Qed.

Lemma decode_fields_total args fs :
  length args = args_size -> forallb field_ok fs = true ->
  exists vs, decode_fields args fs = Some vs
    /\ Forall2 (fun f v => decode_field args f = Some v) fs vs.
Proof.
  intros L. induction fs as [|f fs IH]; intros H.
  - exists []. done.
  - cbn in H. apply andb_true_iff in H as [Hf H].
    destruct (decode_field_total args f L Hf) as [v V].
    destruct (IH H) as (vs & VS & F). exists (v :: vs). cbn. rewrite V, VS.
    split; [done|]. by constructor.
Qed.

Lemma decoder_total nr fs args :
  decoder nr = Some fs -> length args = args_size ->
  exists vs, decode_fields args fs = Some vs
    /\ Forall2 (fun f v => decode_field args f = Some v) fs vs.
Proof.
  intros H L. apply decode_fields_total; [done|].
  apply forallb_forall. intros f I.
  pose proof (decoder_field_class nr fs f H I) as O.
  unfold field_class_ok in O. by apply andb_true_iff in O as [O _].
Qed.

Lemma decoded_inside nr fs f args v :
  decoder nr = Some fs -> In f fs -> length args = args_size ->
  decode_field args f = Some v -> lazy_exception nr f = false -> inside_buffer v.
Proof.
  intros H I L V X. pose proof (decoder_field_class nr fs f H I) as O.
  unfold field_class_ok in O. apply andb_true_iff in O as [O C].
  unfold field_ok in O. apply andb_true_iff in O as [O O3].
  apply andb_true_iff in O as [O1 O2]. apply Nat.leb_le in O2.
  destruct f as [nm s k]. unfold decode_field, lazy_exception in *.
  cbn [f_slot f_kind f_name] in *. change (Z.of_nat arg_len) with 128 in V.
  destruct k; unfold vint in V.
  - destruct (c32 _ _); [|discriminate]. apply (inj Some) in V. by subst.
  - destruct (cu32 _ _); [|discriminate]. apply (inj Some) in V. by subst.
  - destruct (c64 _ _); [|discriminate]. apply (inj Some) in V. by subst.
  - destruct (cu64 _ _); [|discriminate]. apply (inj Some) in V. by subst.
  - destruct (read_bytes _ _ _); [|discriminate]. apply (inj Some) in V. by subst.
  - apply (inj Some) in V. subst v. apply Nat.leb_le in O3. unfold inside_buffer.
    change (Z.of_nat args_size) with 640. lia.
  - discriminate.
  - discriminate.
  - apply (inj Some) in V. subst v. unfold inside_buffer.
    change args_size with 640%nat. lia.
  - apply (inj Some) in V. subst v. apply Nat.leb_le in O3. unfold inside_buffer.
    change args_size with 640%nat. lia.
  - destruct (read_bytes _ _ _); [|discriminate]. apply (inj Some) in V. by subst.
  - apply (inj Some) in V. by subst.
  - apply (inj Some) in V. by subst.
Qed.

Lemma show_inside args v :
  length args = args_size -> inside_buffer v -> exists sh, show args v = Some sh.
Proof.
  intros L H. change args_size with 640%nat in *. destruct v; cbn in *; eauto.
  - destruct H as [H1 H2]. destruct (Z.ltb_spec len 0); [lia|].
    rewrite read_bytes_some by lia. eauto.
  - rewrite read_bytes_some by lia. eauto.
Qed.

Lemma show_slice_outside args off len :
  length args = args_size -> ~ inside_buffer (VSlice off len) -> show args (VSlice off len) = None.
Proof.
  intros L H. cbn. destruct (Z.ltb_spec len 0); [done|].
  unfold read_bytes. destruct (Nat.leb_spec (off + Z.to_nat len) (length args)); [|done].
  exfalso. apply H. cbn. rewrite L in *. change args_size with 640%nat in *. lia.
Qed.

(** The text of a socket address depends on 110 bytes. *)
Lemma take_mono (n m : nat) (a b : list Z) :
  (n <= m)%nat -> take m a = take m b -> take n a = take n b.
Proof.
  intros L E.
  assert (A : forall x : list Z, take n x = take n (take m x)).
  { intros x. rewrite take_take. f_equal. lia. }
  rewrite (A a), (A b). by rewrite E.
Qed.

Lemma nth_take_eq (i m : nat) (a b : list Z) d :
  (i < m)%nat -> take m a = take m b -> nth i a d = nth i b d.
Proof.
  intros L E.
  assert (A : forall x : list Z, nth i x d = nth i (take m x) d).
  { intros x. rewrite !nth_lookup. by rewrite lookup_take by lia. }
  rewrite (A a), (A b). by rewrite E.
Qed.

Lemma take_drop_eq (o n m : nat) (a b : list Z) :
  (o + n <= m)%nat -> take m a = take m b -> take n (drop o a) = take n (drop o b).
Proof.
  intros L E. rewrite !take_drop_commute. f_equal. by apply (take_mono _ m).
Qed.

Lemma parse_sockaddr_local a b :
  take 110 a = take 110 b -> parse_sockaddr a = parse_sockaddr b.
Proof.
  intros E. unfold parse_sockaddr, hex_pair.
  rewrite (take_mono 2 110 a b) by (done || lia).
  rewrite (take_drop_eq 2 2 110 a b) by (done || lia).
  rewrite (take_drop_eq 2 14 110 a b) by (done || lia).
  rewrite (make_cstring_ext (drop 2 a) (drop 2 b) 108)
    by (apply (take_drop_eq 2 108 110); [lia|done]).
  assert (N : forall i, (i < 110)%nat -> nth i a 0 = nth i b 0)
    by (intros; by apply (nth_take_eq _ 110)).
  rewrite (N 4%nat), (N 5%nat), (N 6%nat), (N 7%nat), (N 8%nat), (N 9%nat), (N 10%nat),
    (N 11%nat), (N 12%nat), (N 13%nat), (N 14%nat), (N 15%nat), (N 16%nat), (N 17%nat),
    (N 18%nat), (N 19%nat), (N 20%nat), (N 21%nat), (N 22%nat), (N 23%nat) by lia.
  reflexivity.
Qed.

(** * Ingest *)

Lemma ingest_bytes_args data r :
  ingest_bytes data = Some r -> length (r_args r) = args_size.
Proof.
  unfold ingest_bytes. destruct (Nat.ltb_spec (length data) swoll_event_size) as [|L]; [done|].
  cbv [take_le]. intros E. apply (inj Some) in E. subst r. cbn [r_args].
  change args_size with 640%nat. change swoll_event_size with 736%nat in L.
  rewrite take_length, !drop_length. lia.
Qed.

Lemma ingest_known bs r :
  ingest_bytes bs = Some r -> r_syscall r ∈ map (fun e => e.1.1) decoders ->
  exists t, ingest (InBytes bs) = Ingested t /\ ingest (InKernelEvent bs) = Ingested t.
Proof.
  intros E I. unfold ingest. rewrite E. unfold decode_syscall.
  destruct (decoder (r_syscall r)) as [fs|] eqn:D.
  - destruct (decoder_total _ fs (r_args r) D (ingest_bytes_args _ _ E)) as (vs & V & _).
    rewrite V. eauto.
  - apply decoder_none in D. done.
Qed.

Lemma ingest_unknown bs r :
  ingest_bytes bs = Some r -> r_syscall r ∉ map (fun e => e.1.1) decoders ->
  ingest (InBytes bs) = IngestPanic /\ ingest (InKernelEvent bs) = IngestPanic.
Proof.
  intros E N. unfold ingest. rewrite E. unfold decode_syscall.
  apply decoder_none in N. rewrite N. done.
Qed.

Lemma ingest_errors d :
  ingest d = IngestError <->
  match d with
  | InOther => True
  | InBytes bs | InKernelEvent bs => (length bs < swoll_event_size)%nat
  end.
Proof.
  destruct d as [bs|bs|]; cbn [ingest].
  - rewrite ingest_short. destruct (ingest_bytes bs) as [r|]; [|done].
    destruct (decode_syscall _ _) as [[?|]|]; split; discriminate.
  - rewrite ingest_short. destruct (ingest_bytes bs) as [r|]; [|done].
    destruct (decode_syscall _ _) as [[?|]|]; split; discriminate.
  - done.
Qed.

Lemma unmarshal_same : unmarshal_known = map (fun e => e.1.1) decoders.
Proof. vm_compute. reflexivity. Qed.

Lemma client_knows nr : nr ∈ unmarshal_known <-> decoder nr <> None.
Proof.
  rewrite unmarshal_same, decoder_none.
  destruct (decide (nr ∈ map (fun e => e.1.1) decoders)); tauto.
Qed.

Lemma decoders_nodup :
  NoDup (map (fun e => e.1.1) decoders).
Proof.
  apply (bool_decide_unpack (NoDup (map (fun e => e.1.1) decoders))). vm_compute. exact I.
Qed.

Lemma find_unique {A} (l : list (Z * A)) nr (x : A) :
  NoDup (map fst l) -> (nr, x) ∈ l -> List.find (fun e => Z.eqb (fst e) nr) l = Some (nr, x).
Proof.
  induction l as [|[n y] l IH]; intros N I; [by apply elem_of_nil in I|].
  cbn in N. apply NoDup_cons in N as [N1 N2]. cbn [List.find fst].
  apply elem_of_cons in I as [E|I].
  - injection E as -> ->. by rewrite Z.eqb_refl.
  - destruct (Z.eqb_spec n nr) as [->|_]; [|by apply IH].
    exfalso. apply N1. apply elem_of_list_fmap. by exists (nr, x).
Qed.

Lemma decoder_unique nr name fs :
  (nr, name, fs) ∈ decoders -> decoder nr = Some fs.
Proof.
  intros I. pose proof decoders_nodup as N. unfold decoder. revert N I.
  generalize decoders. intros l. induction l as [|[[n nm] y] l IH]; intros N I;
    [by apply elem_of_nil in I|].
  cbn in N. apply NoDup_cons in N as [N1 N2]. cbn [List.find fst].
  apply elem_of_cons in I as [E|I].
  - injection E as -> -> ->. by rewrite Z.eqb_refl.
  - destruct (Z.eqb_spec n nr) as [->|_]; [|by apply IH].
    exfalso. apply N1. apply elem_of_list_fmap. by exists (nr, name, fs).
Qed.

Lemma use_inside nr fs f args v :
  decoder nr = Some fs -> In f fs -> length args = args_size ->
  decode_field args f = Some v -> lazy_exception nr f = false ->
  inside_buffer v /\ exists sh, show args v = Some sh.
Proof.
  intros H I L V X. assert (B : inside_buffer v) by (by eapply decoded_inside).
  split; [done|]. by apply show_inside.
Qed.

Definition exception_ok (nr : Z) (f : field) : bool :=
  match f_kind f with
  | KSliceMin _ => existsb (Z.eqb nr) [0; 1; 89; 267] && String.eqb (f_name f) "buf"
  | KSliceMax c => Z.eqb nr 10 && String.eqb (f_name f) "addr_data" && Nat.eqb c 1
                   && Nat.eqb (f_slot f) 3
  | _ => true
  end.

Lemma exceptions_ok :
  forallb (fun e => forallb (exception_ok e.1.1) e.2) decoders = true.
Proof. vm_compute. reflexivity. Qed.

Lemma exceptions_are nr fs f :
  decoder nr = Some fs -> In f fs -> lazy_exception nr f = true ->
  (nr ∈ [0; 1; 89; 267] /\ f_name f = "buf" /\ exists c, f_kind f = KSliceMin c)
  \/ (nr = 10 /\ f_name f = "addr_data" /\ f_kind f = KSliceMax 1 /\ f_slot f = 3%nat).
Proof.
  intros H I X. apply decoder_In in H as [name H].
  pose proof exceptions_ok as O. rewrite forallb_forall in O. specialize (O _ H).
  cbn [fst snd] in O. rewrite forallb_forall in O. specialize (O f I).
  unfold exception_ok, lazy_exception in *. destruct (f_kind f) as [| | | | | |c|c| | | | |] eqn:K;
    try discriminate.
  - left. apply andb_true_iff in O as [O1 O2]. apply String.eqb_eq in O2.
    apply existsb_exists in O1 as (x & Ix & E). apply Z.eqb_eq in E. subst x.
    split; [by apply elem_of_list_In|]. eauto.
  - right. apply andb_true_iff in O as [O O4]. apply andb_true_iff in O as [O O3].
    apply andb_true_iff in O as [O1 O2]. apply String.eqb_eq in O2.
    apply Z.eqb_eq in O1. apply Nat.eqb_eq in O3, O4. by subst.
Qed.

Lemma counted_buffer nr fs f c args count :
  decoder nr = Some fs -> In f fs -> f_kind f = KSliceMin c -> length args = args_size ->
  c64 args (slot_start c) = Some count ->
  exists v, decode_field args f = Some v
    /\ (inside_buffer v <-> 0 <= count)
    /\ (count < 0 -> show args v = None).
Proof.
  intros H I K L C. pose proof (decoder_field_class nr fs f H I) as O.
  unfold field_class_ok in O. apply andb_true_iff in O as [O _].
  unfold field_ok in O. apply andb_true_iff in O as [_ O]. rewrite K in O.
  apply Nat.leb_le in O. destruct f as [nm s k]. cbn [f_slot f_kind] in K, O. subst k.
  unfold decode_field. cbn [f_kind f_slot]. rewrite C.
  change (Z.of_nat arg_len) with 128. eexists. split; [reflexivity|].
  unfold inside_buffer. change (Z.of_nat args_size) with 640. split.
  - destruct (Z.ltb_spec count 128); lia.
  - intros N. destruct (Z.ltb_spec count 128); [|lia]. cbn.
    by destruct (Z.ltb_spec count 0); [|lia].
Qed.

Lemma mprotect_buffer args len :
  length args = args_size -> c64 args 128 = Some len ->
  exists v, decode_field args (Field "addr_data" 3 (KSliceMax 1)) = Some v
    /\ (inside_buffer v <-> len <= 256)
    /\ (256 < len -> show args v = None).
Proof.
  intros L C. unfold decode_field. cbn [f_kind f_slot]. change (slot_start 1) with 128%nat.
  change (slot_start 3) with 384%nat. rewrite C.
  change (Z.of_nat arg_len) with 128. eexists. split; [reflexivity|].
  assert (B : inside_buffer (VSlice 384 (if 128 <? len then len else 128)) <-> len <= 256).
  { unfold inside_buffer. change (Z.of_nat args_size) with 640.
    change (Z.of_nat 384) with 384. destruct (Z.ltb_spec 128 len); lia. }
  split; [exact B|]. intros N. apply show_slice_outside; [done|]. rewrite B. lia.
Qed.

Lemma use_outside :
  (exists fs f args v, decoder 10 = Some fs /\ In f fs /\ length args = args_size
    /\ decode_field args f = Some v /\ show args v = None)
  /\ (exists fs f args v, decoder 0 = Some fs /\ In f fs /\ length args = args_size
    /\ decode_field args f = Some v /\ show args v = None).
Proof.
  split.
  - eexists _, (Field "addr_data" 3 (KSliceMax 1)), (repeat 0 129 ++ [2] ++ repeat 0 510), _.
    split; [vm_compute; reflexivity|]. split; [cbn; tauto|]. split; [reflexivity|].
    split; [vm_compute; reflexivity|]. vm_compute. reflexivity.
  - eexists _, (Field "buf" 1 (KSliceMin 2)), (repeat 255 640), _.
    split; [vm_compute; reflexivity|]. split; [cbn; tauto|]. split; [reflexivity|].
    split; [vm_compute; reflexivity|]. vm_compute. reflexivity.
Qed.
