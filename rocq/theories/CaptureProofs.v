(** Proofs: what the fillers store is what the decoders show. *)
From stdpp Require Import base list numbers strings pretty.
From Coq Require Import ZArith Lia.
From Verif Require Import RawModel RawSpec RawProofs DecodeModel DecodeSpec DecodeProofs
  KernelModel CaptureModel CaptureSpec.

Local Open Scope Z_scope.

(** * Slices of a written buffer *)

Definition sl (o n : nat) (b : list Z) : list Z := take n (drop o b).

Lemma write_at_length o bs buf :
  (o + length bs <= length buf)%nat -> length (write_at o bs buf) = length buf.
Proof.
  intros H. unfold write_at. rewrite !app_length, take_length, drop_length. lia.
Qed.

Lemma write_at_lookup o bs buf i :
  (o + length bs <= length buf)%nat ->
  write_at o bs buf !! i =
    (if decide (o <= i < o + length bs)%nat then bs !! (i - o)%nat else buf !! i).
Proof.
  intros H. unfold write_at.
  destruct (decide (o <= i < o + length bs)%nat) as [D|D].
  - rewrite lookup_app_r by (rewrite take_length; lia).
    rewrite take_length, lookup_app_l by lia. f_equal. lia.
  - destruct (decide (i < o)%nat).
    + rewrite lookup_app_l by (rewrite take_length; lia). apply lookup_take. lia.
    + rewrite lookup_app_r by (rewrite take_length; lia).
      rewrite lookup_app_r by (rewrite take_length; lia).
      rewrite lookup_drop, take_length. f_equal. lia.
Qed.

Lemma sl_lookup o n b i :
  sl o n b !! i = (if decide (i < n)%nat then b !! (o + i)%nat else None).
Proof.
  unfold sl. destruct (decide (i < n)%nat).
  - by rewrite lookup_take, lookup_drop by lia.
  - rewrite lookup_take_ge by lia. done.
Qed.

Lemma sl_write_same o n bs buf :
  (o + length bs <= length buf)%nat -> (n <= length bs)%nat ->
  sl o n (write_at o bs buf) = take n bs.
Proof.
  intros H L. apply list_eq. intros i. rewrite sl_lookup.
  destruct (decide (i < n)%nat).
  - rewrite write_at_lookup by done. rewrite decide_True by lia.
    rewrite lookup_take by lia. f_equal. lia.
  - by rewrite lookup_take_ge by lia.
Qed.

Lemma sl_write_other o o' n bs buf :
  (o + length bs <= length buf)%nat ->
  (o' + n <= o \/ o + length bs <= o')%nat ->
  sl o' n (write_at o bs buf) = sl o' n buf.
Proof.
  intros H D. apply list_eq. intros i. rewrite !sl_lookup.
  destruct (decide (i < n)%nat); [|done].
  rewrite write_at_lookup by done. rewrite decide_False by lia. done.
Qed.

(** * Running a filler *)

Definition op_width (op : fill_op) : nat :=
  match op with Reg _ _ => 8 | Mem _ _ n => n | Vec _ _ _ => 128 end.

Lemma load_length mem : forall n a bs, load mem a n = Some bs -> length bs = n.
Proof.
  induction n as [|n IH]; intros a bs; cbn.
  - intros [= <-]. done.
  - destruct (mem a); [|done]. destruct (load mem (a + 1) n) eqn:E; [|done].
    intros [= <-]. cbn. f_equal. by eapply IH.
Qed.

Lemma load_prefix mem : forall n m a bs,
  load mem a (n + m) = Some bs -> load mem a n = Some (take n bs).
Proof.
  induction n as [|n IH]; intros m a bs; cbn; [done|].
  destruct (mem a); [|done]. destruct (load mem (a + 1) (n + m)) eqn:E; [|done].
  intros [= <-]. cbn. by rewrite (IH _ _ _ E).
Qed.

Lemma load_mono mem n m a bs :
  (n <= m)%nat -> load mem a m = Some bs -> load mem a n = Some (take n bs).
Proof. intros L H. apply (load_prefix mem n (m - n)). by replace (n + (m - n))%nat with m by lia. Qed.

Lemma probe_read_length mem a n : length (probe_read mem a n) = n.
Proof.
  unfold probe_read. destruct (load mem a n) eqn:E; [by eapply load_length|].
  apply repeat_length.
Qed.

Lemma op_bytes_length regs mem op : length (op_bytes regs mem op) = op_width op.
Proof. destruct op; cbn [op_bytes op_width]; [apply to_le_length|apply probe_read_length..]. Qed.

Definition ops_ok (ops : list fill_op) : bool :=
  bool_decide (NoDup (map op_slot ops))
  && forallb (fun op => (op_slot op <? 5)%nat && (op_width op <=? 128)%nat) ops.

Lemma ops_ok_cons op ops :
  ops_ok (op :: ops) = true ->
  (op_slot op < 5 /\ op_width op <= 128)%nat /\ op_slot op ∉ map op_slot ops /\ ops_ok ops = true.
Proof.
  unfold ops_ok. intros H. apply andb_true_iff in H as [N H].
  cbn [forallb] in H. apply andb_true_iff in H as [H1 H2].
  apply andb_true_iff in H1 as [A B]. apply Nat.ltb_lt in A. apply Nat.leb_le in B.
  apply bool_decide_eq_true in N. cbn in N. apply NoDup_cons in N as [N1 N2].
  split; [done|]. split; [done|]. apply andb_true_iff. split; [|done].
  by apply bool_decide_eq_true.
Qed.

Lemma slot_room s w (args : list Z) :
  (s < 5)%nat -> (w <= 128)%nat -> length args = args_size ->
  (slot_start s + w <= length args)%nat.
Proof.
  intros H W L. rewrite L. change args_size with 640%nat. unfold slot_start.
  change arg_len with 128%nat. lia.
Qed.

Lemma slots_disjoint s s' w w' :
  s <> s' -> (w <= 128)%nat -> (w' <= 128)%nat ->
  (slot_start s' + w' <= slot_start s \/ slot_start s + w <= slot_start s')%nat.
Proof.
  intros N W W'. unfold slot_start. change arg_len with 128%nat.
  assert (s < s' \/ s' < s)%nat as [?|?] by lia; [right|left]; nia.
Qed.

Lemma fill_length regs mem args op :
  (op_slot op < 5 /\ op_width op <= 128)%nat -> length args = args_size ->
  length (fill regs mem args op) = args_size.
Proof.
  intros [S W] L. unfold fill. rewrite write_at_length; [done|].
  rewrite op_bytes_length. by apply slot_room.
Qed.

Lemma fills_length regs mem ops : forall args,
  ops_ok ops = true -> length args = args_size ->
  length (fold_left (fill regs mem) ops args) = args_size.
Proof.
  induction ops as [|op ops IH]; intros args H L; [done|].
  apply ops_ok_cons in H as (A & _ & H). cbn [fold_left]. apply IH; [done|].
  by apply fill_length.
Qed.

(** A slot no statement fills keeps its bytes... *)
Lemma fills_other regs mem ops s n : forall args,
  ops_ok ops = true -> length args = args_size -> s ∉ map op_slot ops -> (n <= 128)%nat ->
  sl (slot_start s) n (fold_left (fill regs mem) ops args) = sl (slot_start s) n args.
Proof.
  induction ops as [|op ops IH]; intros args H L I N; [done|].
  apply ops_ok_cons in H as ([A W] & _ & H). cbn in I.
  apply not_elem_of_cons in I as [I1 I2]. cbn [fold_left].
  rewrite IH by (done || by apply fill_length). unfold fill.
  apply sl_write_other; rewrite op_bytes_length.
  - by apply slot_room.
  - apply slots_disjoint; [congruence|done|done].
Qed.

(** ... and one that is filled starts with what its statement stores. *)
Lemma fills_same regs mem ops op n : forall args,
  ops_ok ops = true -> length args = args_size -> In op ops -> (n <= op_width op)%nat ->
  sl (slot_start (op_slot op)) n (fold_left (fill regs mem) ops args)
  = take n (op_bytes regs mem op).
Proof.
  induction ops as [|op' ops IH]; intros args H L I N; [done|].
  apply ops_ok_cons in H as ([A W] & N1 & H). cbn [fold_left].
  assert (L' : length (fill regs mem args op') = args_size) by by apply fill_length.
  destruct I as [->|I].
  - rewrite fills_other by (done || lia). unfold fill.
    apply sl_write_same; rewrite op_bytes_length; [by apply slot_room|done].
  - by apply IH.
Qed.

(** The rest of a filled slot keeps its bytes too. *)
Lemma fills_tail regs mem ops op : forall args,
  ops_ok ops = true -> length args = args_size -> In op ops ->
  sl (slot_start (op_slot op) + op_width op) (128 - op_width op)
     (fold_left (fill regs mem) ops args)
  = sl (slot_start (op_slot op) + op_width op) (128 - op_width op) args.
Proof.
  induction ops as [|op' ops IH]; intros args H L I; [done|].
  pose proof H as H0. apply ops_ok_cons in H as ([A W] & N1 & H). cbn [fold_left].
  assert (L' : length (fill regs mem args op') = args_size) by by apply fill_length.
  assert (T : forall b, length b = args_size -> op_slot op ∉ map op_slot ops ->
    (op_width op <= 128)%nat ->
    sl (slot_start (op_slot op) + op_width op) (128 - op_width op)
      (fold_left (fill regs mem) ops b)
    = sl (slot_start (op_slot op) + op_width op) (128 - op_width op) b).
  { intros b Lb Nb Wb.
    pose proof (fills_other regs mem ops (op_slot op) 128 b H Lb Nb ltac:(lia)) as E.
    unfold sl in *.
    assert (G : forall x : list Z, take (128 - op_width op) (drop (slot_start (op_slot op) + op_width op) x)
       = drop (op_width op) (take 128 (drop (slot_start (op_slot op)) x))).
    { intros x. rewrite <- drop_drop. rewrite take_drop_commute.
      replace (op_width op + (128 - op_width op))%nat with 128%nat by lia. done. }
    by rewrite !G, E. }
  destruct I as [->|I].
  - rewrite T by done. unfold fill. apply sl_write_other; rewrite op_bytes_length;
      [by apply slot_room|lia].
  - rewrite IH by done. unfold fill. apply sl_write_other; rewrite op_bytes_length.
    + by apply slot_room.
    + assert (D : op_slot op' <> op_slot op).
      { intros E. apply N1. rewrite E. apply elem_of_list_In. by apply in_map. }
      assert (W2 : (op_width op <= 128)%nat).
      { unfold ops_ok in H. apply andb_true_iff in H as [_ H]. rewrite forallb_forall in H.
        specialize (H _ I). apply andb_true_iff in H as [_ H]. by apply Nat.leb_le. }
      unfold slot_start. change arg_len with 128%nat.
      assert (op_slot op' < op_slot op \/ op_slot op < op_slot op')%nat as [?|?] by lia;
        [right|left]; nia.
Qed.

Lemma read_same regs mem ops op n args :
  ops_ok ops = true -> length args = args_size -> In op ops -> (n <= op_width op)%nat ->
  read_bytes (fold_left (fill regs mem) ops args) (slot_start (op_slot op)) n
  = Some (take n (op_bytes regs mem op)).
Proof.
  intros H L I N. rewrite <- (fills_same regs mem ops op n args H L I N).
  unfold sl. apply read_bytes_some. rewrite fills_length by done.
  unfold ops_ok in H. apply andb_true_iff in H as [_ H]. rewrite forallb_forall in H.
  specialize (H _ I). apply andb_true_iff in H as [A W].
  apply Nat.ltb_lt in A. apply Nat.leb_le in W.
  pose proof (slot_room (op_slot op) n args A ltac:(lia) L). by rewrite <- L.
Qed.

(** * The table *)

Definition ops_of (nr : Z) : list fill_op :=
  if Z.eqb nr 59 then execve_ops
  else match filler nr with Some (ops, _) => ops | None => [] end.

Definition fill_op_eqb (a b : fill_op) : bool :=
  match a, b with
  | Reg s r, Reg s' r' => Nat.eqb s s' && Nat.eqb r r'
  | Mem s r n, Mem s' r' n' => Nat.eqb s s' && Nat.eqb r r' && Nat.eqb n n'
  | Vec s r i, Vec s' r' i' => Nat.eqb s s' && Nat.eqb r r' && Nat.eqb i i'
  | _, _ => false
  end.

Lemma fill_op_eqb_eq a b : fill_op_eqb a b = true -> a = b.
Proof.
  destruct a, b; cbn; try discriminate; intros H; repeat rewrite andb_true_iff in H.
  - destruct H as [A B]. apply Nat.eqb_eq in A, B. by subst.
  - destruct H as [[A B] C]. apply Nat.eqb_eq in A, B, C. by subst.
  - destruct H as [[A B] C]. apply Nat.eqb_eq in A, B, C. by subst.
Qed.

Definition has (ops : list fill_op) (op : fill_op) : bool := existsb (fill_op_eqb op) ops.

Lemma has_In ops op : has ops op = true -> In op ops.
Proof.
  unfold has. intros H. apply existsb_exists in H as (x & I & E).
  by apply fill_op_eqb_eq in E as ->.
Qed.

Definition matches (ops : list fill_op) (f : field) (m : meaning) : bool :=
  let s := f_slot f in
  match f_kind f, m with
  | KS32, Arg Int i | KU32, Arg UInt i | KS64, Arg Long i | KU64, Arg ULong i =>
      has ops (Reg s i)
  | KStr, Text i => has ops (Mem s i 128)
  | KStr, Elem i k => has ops (Vec s i k)
  | KSlice n, Bytes i n' | KCopy n, Bytes i n' | KPtr n, Bytes i n' =>
      Nat.eqb n n' && (n <=? 128)%nat && (has ops (Mem s i 128) || (n <=? 8)%nat && has ops (Mem s i 8))
  | KSliceMin c, Data i cnt => has ops (Mem s i 128) && has ops (Reg c cnt)
  | KSock, Address i => has ops (Mem s i 128)
  | KS32, DerefInt i => has ops (Mem s i 128) || has ops (Mem s i 8)
  | KU64, DerefLong i => has ops (Mem s i 128)
  | _, _ => false
  end.

Lemma reg_read regs mem ops s i args n :
  ops_ok ops = true -> length args = args_size -> has ops (Reg s i) = true -> (n <= 8)%nat ->
  read_bytes (fold_left (fill regs mem) ops args) (slot_start s) n
  = Some (to_le n (reg regs i)).
Proof.
  intros O L H N. apply has_In in H.
  etransitivity; [exact (read_same regs mem ops (Reg s i) n args O L H N)|].
  f_equal. cbn [op_bytes].
  replace 8%nat with (n + (8 - n))%nat by lia. rewrite to_le_app.
  pose proof (to_le_length n (reg regs i)) as E. rewrite <- E at 1. apply take_app.
Qed.

Lemma mem_read regs mem ops s i w args n bs :
  ops_ok ops = true -> length args = args_size -> has ops (Mem s i w) = true ->
  (n <= w)%nat -> (w <= 128)%nat -> load mem (reg regs i) 128 = Some bs ->
  read_bytes (fold_left (fill regs mem) ops args) (slot_start s) n = Some (take n bs).
Proof.
  intros O L H N W B. apply has_In in H.
  etransitivity; [exact (read_same regs mem ops (Mem s i w) n args O L H N)|].
  f_equal. cbn [op_bytes].
  unfold probe_read. rewrite (load_mono mem w 128 _ bs W B).
  rewrite take_take. f_equal. lia.
Qed.

Lemma make_cstring_until bs : make_cstring bs 128 = until_nul (take 128 bs).
Proof.
  unfold make_cstring. generalize (take 128 bs). clear bs. intros bs.
  induction bs as [|b bs IH]; [done|]. cbn. destruct (Z.eqb b 0); [done|].
  cbn. by rewrite IH.
Qed.

Lemma s32_le v : s32 (le (to_le 4 v)) = s32 v.
Proof. rewrite le_to_le. change (256 ^ Z.of_nat 4) with (2 ^ 32). apply s32_mod. Qed.

Lemma s64_mod v : s64 (v mod 2 ^ 64) = s64 v.
Proof. unfold s64. by rewrite Z.mod_mod by lia. Qed.

Lemma s64_le v : s64 (le (to_le 8 v)) = s64 v.
Proof. rewrite le_to_le. change (256 ^ Z.of_nat 8) with (2 ^ 64). apply s64_mod. Qed.

Lemma u32_le v : RawModel.u32 (le (to_le 4 v)) = v mod 2 ^ 32.
Proof.
  rewrite le_to_le. change (256 ^ Z.of_nat 4) with (2 ^ 32). unfold RawModel.u32.
  by rewrite Z.mod_mod by lia.
Qed.

Lemma u64_le v : RawModel.u64 (le (to_le 8 v)) = v mod 2 ^ 64.
Proof.
  rewrite le_to_le. change (256 ^ Z.of_nat 8) with (2 ^ 64). unfold RawModel.u64.
  by rewrite Z.mod_mod by lia.
Qed.

(** What a member shows, given what its kind reads. *)
Lemma show_read args off (n : nat) bs :
  read_bytes args off n = Some bs -> show args (VSlice off (Z.of_nat n)) = Some (ShBytes bs).
Proof.
  intros H. cbn. destruct (Z.ltb_spec (Z.of_nat n) 0); [lia|].
  by rewrite Nat2Z.id, H.
Qed.

Lemma matches_sound ops f m regs mem args sh :
  ops_ok ops = true -> matches ops f m = true -> length args = args_size ->
  expected regs mem m = Some sh ->
  member_shown f (fold_left (fill regs mem) ops args) = Some sh.
Proof.
  intros O M L E. destruct f as [nm s k]. unfold matches in M. cbn [f_slot f_kind] in M.
  unfold member_shown, decode_field. cbn [f_slot f_kind]. change arg_len with 128%nat.
  set (b := fold_left (fill regs mem) ops args) in *.
  assert (R : forall s i n, has ops (Reg s i) = true -> (n <= 8)%nat ->
    read_bytes b (slot_start s) n = Some (to_le n (nth i regs 0)))
    by (intros; by apply reg_read).
  assert (D : forall s i w n bs, has ops (Mem s i w) = true -> (n <= w)%nat -> (w <= 128)%nat ->
    load mem (nth i regs 0) 128 = Some bs -> read_bytes b (slot_start s) n = Some (take n bs))
    by (intros; by eapply mem_read).
  destruct k; destruct m as [[]?|?|? ?|? ?|?|?|?|? ?|]; try discriminate; cbn [expected] in E.
  - unfold c32. rewrite (R _ _ 4%nat M) by lia. cbn [vint show]. by rewrite s32_le.
  - destruct (load mem (nth i regs 0) 128) as [bs|] eqn:B; [|discriminate].
    unfold c32. apply orb_true_iff in M as [M|M];
      rewrite (D _ _ _ 4%nat bs M) by (done || lia); cbn [vint show]; exact E.
  - unfold cu32. rewrite (R _ _ 4%nat M) by lia. cbn [vint show]. by rewrite u32_le.
  - unfold c64. rewrite (R _ _ 8%nat M) by lia. cbn [vint show]. by rewrite s64_le.
  - unfold cu64. rewrite (R _ _ 8%nat M) by lia. cbn [vint show]. by rewrite u64_le.
  - destruct (load mem (nth i regs 0) 128) as [bs|] eqn:B; [|discriminate].
    unfold cu64. rewrite (D _ _ _ 8%nat bs M) by (done || lia). cbn [vint show]. exact E.
  - destruct (load mem (nth i regs 0) 128) as [bs|] eqn:B; [|discriminate].
    rewrite (D _ _ _ 128%nat bs M) by (done || lia). cbn [show]. rewrite <- E.
    rewrite make_cstring_until, take_take. rewrite (take_ge bs); [done|].
    rewrite (load_length _ _ _ _ B). lia.
  - destruct (load mem (nth i regs 0 + 8 * Z.of_nat k) 8) as [p|] eqn:P; [|discriminate].
    destruct (load mem (le p) 128) as [bs|] eqn:B; [|discriminate].
    apply has_In in M.
    pose proof (read_same regs mem ops (Vec s i k) 128 args O L M ltac:(cbn; lia)) as Q.
    fold b in Q. cbn [op_slot] in Q. rewrite Q. cbn [op_bytes]. unfold reg.
    unfold probe_read at 2. rewrite P. unfold probe_read. change arg_len with 128%nat.
    rewrite B. cbn [show]. rewrite <- E.
    rewrite make_cstring_until, take_take. rewrite (take_ge bs); [done|].
    rewrite (load_length _ _ _ _ B). lia.
  - apply andb_true_iff in M as [M M3]. apply andb_true_iff in M as [M1 M2].
    apply Nat.eqb_eq in M1. subst n0. apply Nat.leb_le in M2.
    replace (n `max` 128)%nat with 128%nat in E by lia.
    destruct (load mem (nth i regs 0) 128) as [bs|] eqn:B; [|discriminate].
    rewrite <- E. apply show_read.
    apply orb_true_iff in M3 as [M3|M3]; [|apply andb_true_iff in M3 as [M4 M3];
      apply Nat.leb_le in M4]; by eapply (D _ _ _ n bs M3); lia || done.
  - apply andb_true_iff in M as [M1 M2].
    destruct (load mem (nth i regs 0) 128) as [bs|] eqn:B; [|discriminate].
    unfold c64. rewrite (R _ _ 8%nat M2) by lia. rewrite s64_le.
    change (Z.of_nat 128) with 128.
    destruct (Z.ltb_spec (s64 (nth cnt0 regs 0)) 0) as [|C]; [discriminate|].
    rewrite <- E. cbn [show].
    destruct (Z.ltb_spec (s64 (nth cnt0 regs 0)) 128) as [C2|C2].
    + destruct (Z.ltb_spec (s64 (nth cnt0 regs 0)) 0); [lia|].
      rewrite (D _ _ _ (Z.to_nat (s64 (nth cnt0 regs 0))) bs M1) by (done || lia). done.
    + cbn [Z.ltb Z.compare]. change (Z.to_nat 128) with 128%nat.
      rewrite (D _ _ _ 128%nat bs M1) by (done || lia). f_equal. f_equal.
      pose proof (load_length _ _ _ _ B). rewrite !take_ge by lia. done.
  - destruct (load mem (nth i regs 0) 128) as [bs|] eqn:B; [|discriminate].
    cbn [show]. rewrite <- E. f_equal. f_equal. apply parse_sockaddr_local.
    pose proof (D _ _ _ 110%nat bs M ltac:(lia) ltac:(lia) B) as Q.
    apply read_bytes_inv in Q as [_ Q]. by rewrite Q.
  - apply andb_true_iff in M as [M M3]. apply andb_true_iff in M as [M1 M2].
    apply Nat.eqb_eq in M1. subst n0. apply Nat.leb_le in M2.
    replace (n `max` 128)%nat with 128%nat in E by lia.
    destruct (load mem (nth i regs 0) 128) as [bs|] eqn:B; [|discriminate].
    rewrite <- E. cbn [show].
    apply orb_true_iff in M3 as [M3|M3]; [|apply andb_true_iff in M3 as [M4 M3];
      apply Nat.leb_le in M4]; rewrite (D _ _ _ n bs M3) by (done || lia); done.
  - apply andb_true_iff in M as [M M3]. apply andb_true_iff in M as [M1 M2].
    apply Nat.eqb_eq in M1. subst n0. apply Nat.leb_le in M2.
    replace (n `max` 128)%nat with 128%nat in E by lia.
    destruct (load mem (nth i regs 0) 128) as [bs|] eqn:B; [|discriminate].
    rewrite <- E.
    apply orb_true_iff in M3 as [M3|M3]; [|apply andb_true_iff in M3 as [M4 M3];
      apply Nat.leb_le in M4]; rewrite (D _ _ _ n bs M3) by (done || lia); done.
Qed.

(** * All members of all decoders *)

Definition member_ok (nr : Z) (f : field) : bool :=
  is_wrong nr (f_name f)
  || match doc nr (f_name f) with
     | Some m => matches (ops_of nr) f m
     | None => false
     end.

Lemma members_ok :
  forallb (fun e => ops_ok (ops_of e.1.1) && (Z.eqb e.1.1 59 || bool_decide (is_Some (filler e.1.1)))
                    && forallb (member_ok e.1.1) e.2) decoders = true.
Proof. vm_compute. reflexivity. Qed.

Lemma decoder_ops nr fs :
  decoder nr = Some fs ->
  ops_ok (ops_of nr) = true /\ (nr = 59 \/ is_Some (filler nr))
  /\ forall f, In f fs -> member_ok nr f = true.
Proof.
  intros H. apply decoder_In in H as [name H].
  pose proof members_ok as O. rewrite forallb_forall in O. specialize (O _ H).
  cbn [fst snd] in O. apply andb_true_iff in O as [O O3].
  apply andb_true_iff in O as [O1 O2]. rewrite forallb_forall in O3.
  split; [done|]. split; [|done]. apply orb_true_iff in O2 as [O2|O2].
  - left. by apply Z.eqb_eq in O2.
  - right. by apply bool_decide_eq_true in O2.
Qed.

Lemma captured_ops nr fs regs mem ret old :
  decoder nr = Some fs ->
  captured_args nr regs mem ret old = fold_left (fill regs mem) (ops_of nr) old.
Proof.
  intros H. apply decoder_ops in H as (_ & H & _).
  unfold captured_args, ops_of, capture, capture_execve.
  destruct (Z.eqb_spec nr 59) as [_|N]; [reflexivity|].
  destruct H as [H|[[ops e] H]]; [done|]. rewrite H. reflexivity.
Qed.

Lemma members_shown nr fs f :
  decoder nr = Some fs -> In f fs -> is_wrong nr (f_name f) = false ->
  exists m, doc nr (f_name f) = Some m /\
    forall regs mem ret old sh,
      length old = args_size -> expected regs mem m = Some sh ->
      member_shown f (captured_args nr regs mem ret old) = Some sh.
Proof.
  intros H I W. destruct (decoder_ops nr fs H) as (O & _ & M). specialize (M f I).
  unfold member_ok in M. rewrite W in M. cbn [orb] in M.
  destruct (doc nr (f_name f)) as [m|]; [|discriminate]. exists m. split; [done|].
  intros regs mem ret old sh L E. rewrite (captured_ops nr fs) by done.
  by apply (matches_sound _ _ m).
Qed.

(** * The wrong ones *)

Definition wrong_ok (e : Z * string * option meaning) : bool :=
  match e.2 with
  | None => true
  | Some m =>
      match decoder e.1.1 with
      | Some fs =>
          ops_ok (ops_of e.1.1)
          && forallb (fun f => negb (String.eqb (f_name f) e.1.2) || matches (ops_of e.1.1) f m) fs
      | None => false
      end
  end.

Lemma wrongs_ok : forallb wrong_ok wrong_members = true.
Proof. vm_compute. reflexivity. Qed.

Lemma wrong_shown nr name m fs f regs mem ret old sh :
  (nr, name, Some m) ∈ wrong_members -> decoder nr = Some fs -> In f fs -> f_name f = name ->
  length old = args_size -> expected regs mem m = Some sh ->
  member_shown f (captured_args nr regs mem ret old) = Some sh.
Proof.
  intros W H I N L E. apply elem_of_list_In in W.
  pose proof wrongs_ok as O. rewrite forallb_forall in O. specialize (O _ W).
  unfold wrong_ok in O. cbn [fst snd] in O. rewrite H in O.
  apply andb_true_iff in O as [O1 O2]. rewrite forallb_forall in O2. specialize (O2 f I).
  rewrite (captured_ops nr fs) by done. apply (matches_sound _ _ m); try done.
  apply orb_true_iff in O2 as [O2|O2]; [|done].
  apply negb_true_iff in O2. apply String.eqb_neq in O2. congruence.
Qed.

Global Instance shown_eq_dec : EqDecision shown.
Proof. solve_decision. Defined.

(** One call of each kind, in a memory that is readable everywhere; the 64-bit
    arguments shown as 32 bits need large values. *)
Definition wit_regs (nr : Z) : list Z :=
  if existsb (Z.eqb nr) [77; 101; 202]
  then [2 ^ 40 + 5; 2 ^ 41 + 3000000000; 30; 44; 58] else [5; 17; 30; 44; 58].
Definition wit_mem : memory := fun a => Some (1 + (a mod 7)).

Definition refuted_by (nr : Z) (f : field) (m : meaning) (regs : list Z) : bool :=
  match expected regs wit_mem m with
  | Some sh =>
      negb (bool_decide (member_shown f (captured_args nr regs wit_mem 0 (repeat 0 640)) = Some sh))
  | None => false
  end.

Definition refutation_ok (e : Z * string * option meaning) : bool :=
  match decoder e.1.1 with
  | Some fs =>
      match List.find (fun f => String.eqb (f_name f) e.1.2) fs with
      | Some f =>
          match doc e.1.1 e.1.2 with
          | Some Nothing => true
          | Some m => refuted_by e.1.1 f m (wit_regs e.1.1)
          | None => false
          end
      | None => false
      end
  | None => false
  end.

Lemma refutations_ok : forallb refutation_ok wrong_members = true.
Proof. vm_compute. reflexivity. Qed.

Lemma wrong_refuted nr name m' m :
  (nr, name, m') ∈ wrong_members -> doc nr name = Some m -> m <> Nothing ->
  exists fs f regs mem ret old sh,
    decoder nr = Some fs /\ In f fs /\ f_name f = name /\ length old = args_size
    /\ expected regs mem m = Some sh
    /\ member_shown f (captured_args nr regs mem ret old) <> Some sh.
Proof.
  intros W D N. apply elem_of_list_In in W.
  pose proof refutations_ok as O. rewrite forallb_forall in O. specialize (O _ W).
  unfold refutation_ok in O. cbn [fst snd] in O. rewrite D in O.
  destruct (decoder nr) as [fs|] eqn:H; [|discriminate].
  destruct (List.find _ fs) as [f|] eqn:F; [|discriminate].
  apply List.find_some in F as [I F]. apply String.eqb_eq in F.
  assert (X : refuted_by nr f m (wit_regs nr) = true) by (by destruct m).
  unfold refuted_by in X. revert X. generalize (wit_regs nr). intros regs X.
  destruct (expected regs wit_mem m) as [sh|] eqn:E; [|discriminate].
  exists fs, f, regs, wit_mem, 0, (repeat 0 640), sh.
  split; [done|]. split; [done|]. split; [done|]. split; [reflexivity|]. split; [done|].
  apply negb_true_iff in X. by apply bool_decide_eq_false in X.
Qed.

(** * Strings *)

Lemma text_member nr fs f i :
  decoder nr = Some fs -> In f fs -> is_wrong nr (f_name f) = false ->
  doc nr (f_name f) = Some (Text i) ->
  ops_ok (ops_of nr) = true /\ has (ops_of nr) (Mem (f_slot f) i 128) = true /\ f_kind f = KStr.
Proof.
  intros H I W D. destruct (decoder_ops nr fs H) as (O & _ & M). specialize (M f I).
  unfold member_ok in M. rewrite W, D in M. cbn [orb] in M. unfold matches in M.
  destruct (f_kind f); try discriminate. done.
Qed.

Lemma until_nul_app s rest : 0 ∉ s -> until_nul (s ++ 0 :: rest) = s.
Proof.
  induction s as [|b s IH]; intros N; [done|]. apply not_elem_of_cons in N as [N1 N2].
  cbn. destruct (Z.eqb_spec b 0); [congruence|]. by rewrite IH.
Qed.

Lemma until_nul_id s : 0 ∉ s -> until_nul s = s.
Proof.
  induction s as [|b s IH]; intros N; [done|]. apply not_elem_of_cons in N as [N1 N2].
  cbn. destruct (Z.eqb_spec b 0); [congruence|]. by rewrite IH.
Qed.

Lemma short_text nr fs f i regs mem ret old s rest :
  decoder nr = Some fs -> In f fs -> is_wrong nr (f_name f) = false ->
  doc nr (f_name f) = Some (Text i) -> length old = args_size ->
  0 ∉ s -> load mem (nth i regs 0) 128 = Some (s ++ 0 :: rest) ->
  member_shown f (captured_args nr regs mem ret old) = Some (ShBytes s).
Proof.
  intros H I W D L N B. destruct (members_shown nr fs f H I W) as (m & D' & M).
  rewrite D in D'. apply (inj Some) in D'. subst m. apply M; [done|].
  cbn [expected]. rewrite B. by rewrite until_nul_app.
Qed.

Lemma long_text nr fs f i regs mem ret old s :
  decoder nr = Some fs -> In f fs -> is_wrong nr (f_name f) = false ->
  doc nr (f_name f) = Some (Text i) -> length old = args_size ->
  0 ∉ s -> (128 <= length s)%nat -> load mem (nth i regs 0) (length s) = Some s ->
  member_shown f (captured_args nr regs mem ret old) = Some (ShBytes (take 128 s)).
Proof.
  intros H I W D L N G B. destruct (members_shown nr fs f H I W) as (m & D' & M).
  rewrite D in D'. apply (inj Some) in D'. subst m. apply M; [done|].
  cbn [expected]. rewrite (load_mono _ 128 _ _ _ G B). f_equal. f_equal.
  apply until_nul_id. intros X. apply N. by eapply elem_of_take in X as (? & X & _);
    eapply elem_of_list_lookup_2.
Qed.

Lemma unreadable_text nr fs f i regs mem ret old :
  decoder nr = Some fs -> In f fs -> is_wrong nr (f_name f) = false ->
  doc nr (f_name f) = Some (Text i) -> length old = args_size ->
  load mem (nth i regs 0) 128 = None ->
  member_shown f (captured_args nr regs mem ret old) = Some (ShBytes []).
Proof.
  intros H I W D L B. destruct (text_member nr fs f i H I W D) as (O & M & K).
  rewrite (captured_ops nr fs) by done. destruct f as [nm s k]. cbn [f_slot f_kind] in *.
  subst k. unfold member_shown, decode_field. cbn [f_slot f_kind].
  change arg_len with 128%nat. apply has_In in M.
  pose proof (read_same regs mem (ops_of nr) (Mem s i 128) 128 old O L M ltac:(cbn; lia)) as Q.
  cbn [op_slot] in Q. rewrite Q. cbn [op_bytes]. unfold probe_read, reg. rewrite B. reflexivity.
Qed.

(** * Stale bytes *)

Definition wide (ops : list fill_op) (s n : nat) : bool :=
  existsb (fun op => Nat.eqb (op_slot op) s && (n <=? op_width op)%nat) ops.

Definition covered (ops : list fill_op) (f : field) : bool :=
  let s := f_slot f in
  match f_kind f with
  | KS32 | KU32 => wide ops s 4
  | KS64 | KU64 => wide ops s 8
  | KStr => wide ops s 128
  | KSlice n | KPtr n | KCopy n => wide ops s n
  | KSliceMin c => wide ops s 128 && wide ops c 8
  | KSliceMax _ => false
  | KSock => wide ops s 110
  | KAddrs | KUnset => true
  end.

Lemma wide_same ops s n regs mem args args' :
  ops_ok ops = true -> wide ops s n = true -> length args = args_size -> length args' = args_size ->
  read_bytes (fold_left (fill regs mem) ops args) (slot_start s) n
  = read_bytes (fold_left (fill regs mem) ops args') (slot_start s) n.
Proof.
  intros O W L L'. apply existsb_exists in W as (op & I & W).
  apply andb_true_iff in W as [W1 W2]. apply Nat.eqb_eq in W1. apply Nat.leb_le in W2.
  subst s. by rewrite !(read_same regs mem ops op n).
Qed.

Lemma wide_le ops s n n' : (n' <= n)%nat -> wide ops s n = true -> wide ops s n' = true.
Proof.
  intros H W. apply existsb_exists in W as (op & I & W). apply existsb_exists. exists op.
  split; [done|]. apply andb_true_iff in W as [W1 W2]. apply andb_true_iff. split; [done|].
  apply Nat.leb_le in W2. apply Nat.leb_le. lia.
Qed.

Lemma covered_sound ops f regs mem args args' :
  ops_ok ops = true -> covered ops f = true -> length args = args_size -> length args' = args_size ->
  member_shown f (fold_left (fill regs mem) ops args)
  = member_shown f (fold_left (fill regs mem) ops args').
Proof.
  intros O C L L'. destruct f as [nm s k]. unfold covered in C. cbn [f_slot f_kind] in C.
  unfold member_shown, decode_field. cbn [f_slot f_kind]. change arg_len with 128%nat.
  set (b := fold_left (fill regs mem) ops args). set (b' := fold_left (fill regs mem) ops args').
  assert (R : forall s n, wide ops s n = true ->
    read_bytes b (slot_start s) n = read_bytes b' (slot_start s) n)
    by (intros; by apply wide_same).
  assert (Sl : forall s n z, wide ops s n = true -> z <= Z.of_nat n ->
    show b (VSlice (slot_start s) z) = show b' (VSlice (slot_start s) z)).
  { intros s' n z W Z. cbn. destruct (Z.ltb_spec z 0); [done|].
    rewrite (R s' (Z.to_nat z)); [done|]. apply (wide_le ops s' n); [lia|done]. }
  destruct k.
  - unfold c32. rewrite (R s 4%nat C). by destruct (read_bytes b' _ _).
  - unfold cu32. rewrite (R s 4%nat C). by destruct (read_bytes b' _ _).
  - unfold c64. rewrite (R s 8%nat C). by destruct (read_bytes b' _ _).
  - unfold cu64. rewrite (R s 8%nat C). by destruct (read_bytes b' _ _).
  - rewrite (R s 128%nat C). by destruct (read_bytes b' _ _).
  - by apply (Sl s n).
  - apply andb_true_iff in C as [C1 C2]. unfold c64. rewrite (R cnt 8%nat C2).
    destruct (read_bytes b' (slot_start cnt) 8) as [bs|]; [|done].
    change (Z.of_nat 128) with 128. apply (Sl s 128%nat); [done|].
    destruct (Z.ltb_spec (s64 (le bs)) 128); lia.
  - discriminate.
  - cbn [show]. f_equal. f_equal. apply parse_sockaddr_local.
    pose proof (R s 110%nat C) as E.
    apply existsb_exists in C as (op & I & W). apply andb_true_iff in W as [W1 W2].
    apply Nat.eqb_eq in W1. apply Nat.leb_le in W2. subst s.
    pose proof (fills_same regs mem ops op 110 args O L I W2) as E1.
    pose proof (fills_same regs mem ops op 110 args' O L' I W2) as E2.
    unfold sl in E1, E2. fold b in E1. fold b' in E2. by rewrite E1, E2.
  - cbn [show]. by rewrite (R s n C).
  - rewrite (R s n C). by destruct (read_bytes b' _ _).
  - reflexivity.
  - reflexivity.
Qed.

Lemma covers_ok :
  forallb (fun e => forallb (fun f => may_be_stale e.1.1 (f_name f) || covered (ops_of e.1.1) f) e.2)
    decoders = true.
Proof. vm_compute. reflexivity. Qed.

Lemma no_stale_bytes nr fs f regs mem ret ret' old old' :
  decoder nr = Some fs -> In f fs -> may_be_stale nr (f_name f) = false ->
  length old = args_size -> length old' = args_size ->
  member_shown f (captured_args nr regs mem ret old)
  = member_shown f (captured_args nr regs mem ret' old').
Proof.
  intros H I S L L'. rewrite !(captured_ops nr fs) by done.
  destruct (decoder_ops nr fs H) as (O & _ & _).
  apply decoder_In in H as [name H].
  pose proof covers_ok as C. rewrite forallb_forall in C. specialize (C _ H).
  cbn [fst snd] in C. rewrite forallb_forall in C. specialize (C f I).
  rewrite S in C. by apply covered_sound.
Qed.

(** A witness for each: the stale slots are all zeroes or all ones. *)
Definition stale_ok (e : Z * string) : bool :=
  match decoder e.1 with
  | Some fs =>
      match List.find (fun f => String.eqb (f_name f) e.2) fs with
      | Some f =>
          negb (bool_decide (
            member_shown f (captured_args e.1 [5; 150; 30; 44; 58] wit_mem 0 (repeat 0 640))
            = member_shown f (captured_args e.1 [5; 150; 30; 44; 58] wit_mem 0 (repeat 1 640))))
      | None => false
      end
  | None => false
  end.

Lemma stales_ok : forallb stale_ok stale_members = true.
Proof. vm_compute. reflexivity. Qed.

Lemma stale_bytes nr name :
  (nr, name) ∈ stale_members ->
  exists fs f regs mem ret old old',
    decoder nr = Some fs /\ In f fs /\ f_name f = name
    /\ length old = args_size /\ length old' = args_size
    /\ member_shown f (captured_args nr regs mem ret old)
       <> member_shown f (captured_args nr regs mem ret old').
Proof.
  intros W. apply elem_of_list_In in W.
  pose proof stales_ok as O. rewrite forallb_forall in O. specialize (O _ W).
  unfold stale_ok in O. cbn [fst snd] in O.
  destruct (decoder nr) as [fs|] eqn:H; [|discriminate].
  destruct (List.find _ fs) as [f|] eqn:F; [|discriminate].
  apply List.find_some in F as [I F]. apply String.eqb_eq in F.
  exists fs, f, [5; 150; 30; 44; 58], wit_mem, 0, (repeat 0 640), (repeat 1 640).
  split; [done|]. split; [done|]. split; [done|]. split; [reflexivity|].
  split; [reflexivity|]. apply negb_true_iff in O. by apply bool_decide_eq_false in O.
Qed.

Lemma faccessat_stale regs mem ret old :
  length old = args_size ->
  member_shown (Field "flags" 3 KS32) (captured_args 269 regs mem ret old)
  = Some (ShInt (s32 (le (take 4 (drop 384 old))))).
Proof.
  intros L. destruct (decoder 269) as [fs|] eqn:H; [|vm_compute in H; discriminate].
  rewrite (captured_ops 269 fs) by done. destruct (decoder_ops 269 fs H) as (O & _ & _).
  assert (N : 3%nat ∉ map op_slot (ops_of 269)).
  { apply (bool_decide_unpack (3%nat ∉ map op_slot (ops_of 269))). vm_compute. exact I. }
  pose proof (fills_other regs mem (ops_of 269) 3 4 old O L N ltac:(lia)) as E.
  unfold sl in E. change (slot_start 3) with 384%nat in E.
  unfold member_shown, decode_field. cbn [f_slot f_kind]. change (slot_start 3) with 384%nat.
  unfold c32. rewrite read_bytes_some.
  - rewrite E. reflexivity.
  - rewrite fills_length by done. change args_size with 640%nat. lia.
Qed.

(** The raw event: every slot the call does not fill still holds the bytes of
    the previous event of that CPU. *)
Lemma raw_slots_stale nr ops e regs mem ret old s n :
  filler nr = Some (ops, e) -> s ∉ map op_slot ops -> (n <= 128)%nat ->
  length old = args_size ->
  take n (drop (128 * s) (c_args (capture nr regs mem ret old)))
  = take n (drop (128 * s) old).
Proof.
  intros F N G L.
  assert (A : forallb (fun e => ops_ok (e.2).1) fillers = true) by (vm_compute; reflexivity).
  assert (O : ops_ok ops = true).
  { revert F A. unfold filler. generalize fillers. intros tbl F A.
    destruct (List.find _ tbl) as [x|] eqn:X; [|discriminate].
    apply (inj Some) in F. apply List.find_some in X as [X _].
    rewrite forallb_forall in A. specialize (A _ X). by rewrite F in A. }
  unfold capture. rewrite F. cbn [c_args].
  pose proof (fills_other regs mem ops s n old O L N G) as E.
  unfold sl, slot_start in E. change arg_len with 128%nat in E.
  by rewrite Nat.mul_comm in E.
Qed.

(** * Results *)

Lemma null_only_getcwd nr ops e :
  filler nr = Some (ops, e) -> nr <> 79 -> e = LtZero.
Proof.
  intros F N.
  assert (A : forallb (fun x => Z.eqb x.1 79 || match (x.2).2 with LtZero => true | _ => false end)
    fillers = true) by (vm_compute; reflexivity).
  revert F A. unfold filler. generalize fillers. intros tbl F A.
  destruct (List.find _ tbl) as [x|] eqn:X; [|discriminate].
  apply (inj Some) in F. apply List.find_some in X as [X Y]. apply Z.eqb_eq in Y.
  rewrite forallb_forall in A. specialize (A _ X). rewrite F, Y in A. cbn [fst snd] in A.
  destruct (Z.eqb_spec nr 79); [done|]. cbn [orb] in A. by destruct e.
Qed.

Lemma result_failed nr regs mem ret old :
  is_Some (filler nr) -> nr <> 79 -> -4095 <= ret < 0 ->
  c_errno (capture nr regs mem ret old) = - ret
  /\ c_ret (capture nr regs mem ret old) = 2 ^ 32 + ret.
Proof.
  intros [[ops e] F] N R. unfold capture. rewrite F. cbn [c_errno c_ret].
  rewrite (null_only_getcwd nr ops e F N). unfold errno_of.
  rewrite s32_small by lia. destruct (Z.ltb_spec ret 0); [|lia].
  unfold RawModel.u32. split.
  - apply Z.mod_small. lia.
  - symmetry. apply (Z.mod_unique _ _ (-1)); lia.
Qed.

Lemma result_ok nr regs mem ret old :
  is_Some (filler nr) -> nr <> 79 -> 0 <= ret < 2 ^ 31 ->
  c_errno (capture nr regs mem ret old) = 0
  /\ c_ret (capture nr regs mem ret old) = ret.
Proof.
  intros [[ops e] F] N R. unfold capture. rewrite F. cbn [c_errno c_ret].
  rewrite (null_only_getcwd nr ops e F N). unfold errno_of.
  rewrite s32_small by lia. destruct (Z.ltb_spec ret 0); [lia|].
  unfold RawModel.u32. split; [done|]. apply Z.mod_small. lia.
Qed.

Lemma result_getcwd regs mem ret old :
  - 2 ^ 31 <= ret < 2 ^ 31 -> ret <> 0 -> c_errno (capture 79 regs mem ret old) = 0.
Proof.
  intros R N. unfold capture.
  assert (F : filler 79 = Some ([Mem 0 0 128; Reg 1 1], NullError)) by (vm_compute; reflexivity).
  rewrite F. cbn [c_errno]. unfold errno_of, RawModel.u64.
  destruct (Z.eqb_spec (ret mod 2 ^ 64) 0) as [E|]; [|done].
  apply Z.mod_divide in E as [q E]; [|lia]. exfalso. lia.
Qed.

Lemma result_large nr regs mem ret old :
  is_Some (filler nr) -> nr <> 79 -> 2 ^ 31 <= ret mod 2 ^ 32 ->
  c_errno (capture nr regs mem ret old) <> 0.
Proof.
  intros [[ops e] F] N R. unfold capture. rewrite F. cbn [c_errno].
  rewrite (null_only_getcwd nr ops e F N). unfold errno_of, s32.
  pose proof (Z.mod_pos_bound ret (2 ^ 32) ltac:(lia)) as B.
  destruct (Z.ltb_spec (ret mod 2 ^ 32) (2 ^ 31)) as [|C]; [lia|].
  destruct (Z.ltb_spec (ret mod 2 ^ 32 - 2 ^ 32) 0); [|lia].
  unfold RawModel.u32. rewrite Z.mod_small; lia.
Qed.

(** * From the tracepoint to the trace event *)

Lemma fillers_ops nr ops e : filler nr = Some (ops, e) -> ops_ok ops = true.
Proof.
  intros F.
  assert (A : forallb (fun e => ops_ok (e.2).1) fillers = true) by (vm_compute; reflexivity).
  revert F A. unfold filler. generalize fillers. intros tbl F A.
  destruct (List.find _ tbl) as [x|] eqn:X; [|discriminate].
  apply (inj Some) in F. apply List.find_some in X as [X _].
  rewrite forallb_forall in A. specialize (A _ X). by rewrite F in A.
Qed.

Lemma errno_bound e ret : 0 <= errno_of e ret < 2 ^ 32.
Proof.
  destruct e; cbn [errno_of].
  - destruct (_ <? _); [|lia]. apply Z.mod_pos_bound. lia.
  - destruct (_ =? _); lia.
Qed.

Lemma zero_slots (args : list Z) ss :
  length args = args_size -> Forall (fun s => s < 5)%nat ss ->
  length (fold_left (fun b s => write_at (slot_start s) [0] b) ss args) = args_size.
Proof.
  revert args. induction ss as [|s ss IH]; intros args L F; [done|].
  apply Forall_cons in F as [S F]. cbn [fold_left]. apply IH; [|done].
  rewrite write_at_length; [done|]. cbn [length]. by apply slot_room; [|lia|].
Qed.

Lemma capture_sane nr regs mem ret args :
  length args = args_size ->
  let c := capture nr regs mem ret args in
  length (c_args c) = args_size /\ 0 <= c_ret c < 2 ^ 32 /\ 0 <= c_errno c < 2 ^ 32.
Proof.
  intros L. unfold capture. destruct (filler nr) as [[ops e]|] eqn:F; cbn [c_args c_ret c_errno].
  - split; [apply fills_length; [by eapply fillers_ops|done]|]. split.
    + apply Z.mod_pos_bound. lia.
    + apply errno_bound.
  - split; [|lia]. apply zero_slots; [done|]. repeat constructor; lia.
Qed.

Lemma event_members_ok e su scratch :
  surroundings_ok e su -> length scratch = swoll_event_size ->
  kernel_event_ok (event_members e su scratch).
Proof.
  intros S L.
  assert (A : length (scratch_args scratch) = args_size).
  { unfold scratch_args. rewrite take_length, drop_length, L.
    change swoll_event_size with 736%nat. reflexivity. }
  assert (C : length (c_args (capture_event e su scratch)) = args_size
    /\ 0 <= c_ret (capture_event e su scratch) < 2 ^ 32
    /\ 0 <= c_errno (capture_event e su scratch) < 2 ^ 32).
  { unfold capture_event. destruct (Z.eqb _ _); [|by apply capture_sane].
    unfold capture_execve. cbn [c_args c_ret c_errno]. split; [|lia].
    apply fills_length; [vm_compute; reflexivity|done]. }
  destruct C as (C1 & C2 & C3). destruct S.
  constructor; unfold event_members;
    cbn [k_pid_tid k_uid_gid k_syscall k_ns_pid k_entr k_exit k_session k_pid_ns k_uts_ns
         k_mnt_ns k_ipc_ns k_cgr_ns k_context_sw k_errno k_ret k_comm k_args]; assumption.
Qed.

Lemma capture_event_args e su scratch :
  c_args (capture_event e su scratch)
  = captured_args (ev_nr e) (ev_enter e) (su_mem su) (ev_ret e) (scratch_args scratch).
Proof.
  unfold capture_event, captured_args. change nr_execve with 59.
  by destruct (Z.eqb (ev_nr e) 59).
Qed.

Lemma Forall2_zip_lookup {A B} (P : A -> B -> Prop) (l : list A) (k : list B) j x :
  Forall2 P l k -> l !! j = Some x -> exists y, k !! j = Some y /\ P x y.
Proof. intros F H. by eapply Forall2_lookup_l. Qed.

Lemma end_to_end e su scratch trailing fs :
  surroundings_ok e su -> length scratch = swoll_event_size -> decoder (ev_nr e) = Some fs ->
  exists t,
    ingest (InBytes (emit e su scratch ++ trailing)) = Ingested t
    /\ t_syscall t = ev_nr e
    /\ t_pid t = ev_tid e mod 2 ^ 32 /\ t_tid t = ev_tid e / 2 ^ 32
    /\ t_uid t = ev_ugid e mod 2 ^ 32 /\ t_gid t = ev_ugid e / 2 ^ 32
    /\ t_pid_ns t = ev_pidns e
    /\ t_start t = s64 (ev_entr e) /\ t_finish t = s64 (ev_exit e)
    /\ t_comm t = until_nul (su_comm su)
    /\ t_return t = c_ret (capture_event e su scratch)
    /\ t_error t = c_errno (capture_event e su scratch)
    /\ length (t_argv t) = length fs
    /\ forall j f m sh,
         fs !! j = Some f -> is_wrong (ev_nr e) (f_name f) = false ->
         doc (ev_nr e) (f_name f) = Some m ->
         expected (ev_enter e) (su_mem su) m = Some sh ->
         exists v, t_argv t !! j = Some v
           /\ show (captured_args (ev_nr e) (ev_enter e) (su_mem su) (ev_ret e)
                      (scratch_args scratch)) v = Some sh.
Proof.
  intros S L D. pose proof (event_members_ok e su scratch S L) as K.
  pose proof (ingest_image _ scratch trailing K L) as G. fold (emit e su scratch) in G.
  unfold ingest. rewrite G. unfold decode_syscall. cbn [raw_of r_syscall r_args].
  cbn [event_members k_syscall k_args]. rewrite D.
  pose proof (ok_args _ K) as KA. cbn [event_members k_args] in KA.
  destruct (decoder_total _ fs _ D KA) as (vs & V & F). rewrite V.
  eexists. split; [reflexivity|].
  cbn [t_syscall t_pid t_tid t_uid t_gid t_pid_ns t_start t_finish t_comm t_return t_error t_argv
       r_syscall r_pid r_tid r_uid r_gid r_pid_ns r_start r_finish r_ret r_errno raw_of
       event_members k_syscall k_pid_tid k_uid_gid k_pid_ns k_entr k_exit k_ret k_errno].
  do 8 (split; [reflexivity|]). split.
  { apply commstr_spec. cbn [raw_of r_comm event_members k_comm].
    generalize (su_comm su). intros bs. clear.
    pose proof (nul_count_cstring bs) as C.
    assert (E : until_nul bs = take (nul_count bs) bs).
    { induction bs as [|b bs IH]; [done|]. cbn. destruct (Z.eqb b 0); [done|].
      cbn. f_equal. apply IH. apply nul_count_cstring. }
    by rewrite E. }
  split; [reflexivity|]. split; [reflexivity|].
  split; [symmetry; by eapply Forall2_length|].
  intros j f m sh J W M E. destruct (Forall2_lookup_l _ _ _ _ _ F J) as (v & Hv & Dv).
  exists v. split; [done|].
  assert (I : In f fs) by (apply elem_of_list_In; by eapply elem_of_list_lookup_2).
  destruct (members_shown (ev_nr e) fs f D I W) as (m' & M' & P).
  rewrite M in M'. apply (inj Some) in M'. subst m'.
  assert (A : length (scratch_args scratch) = args_size).
  { unfold scratch_args. rewrite take_length, drop_length, L.
    change swoll_event_size with 736%nat. reflexivity. }
  specialize (P (ev_enter e) (su_mem su) (ev_ret e) (scratch_args scratch) sh A E).
  unfold member_shown in P. rewrite capture_event_args in Dv. rewrite Dv in P. exact P.
Qed.
