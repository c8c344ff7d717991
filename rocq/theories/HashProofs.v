(** CRC-64 facts. *)
From Coq Require Import NArith ZArith Strings.String Strings.Ascii List Lia.
From Verif Require Import HashModel.
Import ListNotations.
Open Scope N_scope.

Lemma iter_S_r {A} n (f : A -> A) x : Nat.iter (S n) f x = Nat.iter n f (f x).
Proof. induction n as [|n IH]; [reflexivity|]. simpl in *. rewrite IH. reflexivity. Qed.
Lemma iter_plus {A} n m (f : A -> A) x : Nat.iter (n + m) f x = Nat.iter n f (Nat.iter m f x).
Proof. induction n as [|n IH]; [reflexivity|]. simpl. rewrite IH. reflexivity. Qed.
Lemma bit_step_xor x y : bit_step (N.lxor x y) = N.lxor (bit_step x) (bit_step y).
Proof.
  unfold bit_step. rewrite <- !N.bit0_odd, N.lxor_spec, N.shiftr_lxor.
  destruct (N.testbit x 0), (N.testbit y 0); simpl.
  - rewrite !N.lxor_assoc, (N.lxor_comm ecma), !N.lxor_assoc, N.lxor_nilpotent, N.lxor_0_r. reflexivity.
  - rewrite !N.lxor_assoc. f_equal. apply N.lxor_comm.
  - rewrite !N.lxor_assoc. reflexivity.
  - reflexivity.
Qed.
Lemma iter_xor n x y :
  Nat.iter n bit_step (N.lxor x y) = N.lxor (Nat.iter n bit_step x) (Nat.iter n bit_step y).
Proof. induction n as [|n IH]; simpl; [reflexivity|]. rewrite IH. apply bit_step_xor. Qed.
Lemma iter_shift n z : Nat.iter n bit_step (N.shiftl z (N.of_nat n)) = z.
Proof.
  revert z. induction n as [|n IH]; intros z.
  - simpl. apply N.shiftl_0_r.
  - rewrite iter_S_r.
    assert (bit_step (N.shiftl z (N.of_nat (S n))) = N.shiftl z (N.of_nat n)) as ->; [|apply IH].
    unfold bit_step. rewrite <- N.bit0_odd, N.shiftl_spec_low by lia.
    rewrite N.shiftr_shiftl_l by lia. f_equal. lia.
Qed.
(** Eight bit steps are one table lookup. *)
Lemma eight_bits x : Nat.iter 8 bit_step x = N.lxor (table_entry (N.land x 255)) (N.shiftr x 8).
Proof.
  assert (x = N.lxor (N.land x 255) (N.shiftl (N.shiftr x 8) 8)) as Hx.
  { apply N.bits_inj. intros i. rewrite N.lxor_spec, N.land_spec.
    change 255 with (N.ones 8). destruct (N.lt_ge_cases i 8) as [Hi|Hi].
    - rewrite N.ones_spec_low, N.shiftl_spec_low by lia. destruct (N.testbit x i); reflexivity.
    - rewrite N.ones_spec_high, N.shiftl_spec_high', N.shiftr_spec' by lia.
      replace (i - 8 + 8) with i by lia. destruct (N.testbit x i); reflexivity. }
  rewrite Hx at 1. rewrite iter_xor. unfold table_entry. f_equal.
  change 8 with (N.of_nat 8) at 2. apply iter_shift.
Qed.
Lemma table_lookup i : i < 256 -> nth (N.to_nat i) crc_table 0 = table_entry i.
Proof.
  intros Hi. unfold crc_table.
  rewrite (nth_indep _ 0 (table_entry (N.of_nat 0))) by (rewrite map_length, seq_length; lia).
  rewrite (map_nth (fun i => table_entry (N.of_nat i))), seq_nth by lia.
  simpl. rewrite N2Nat.id. reflexivity.
Qed.
Lemma land255 x : N.land x 255 = x mod 256.
Proof. change 255 with (N.ones 8). rewrite N.land_ones. reflexivity. Qed.
Lemma lxor_lt n x y : x < 2^n -> y < 2^n -> N.lxor x y < 2^n.
Proof.
  intros Hx Hy. destruct (N.eq_0_gt_0_cases (N.lxor x y)) as [->|Hp]; [lia|].
  apply N.log2_lt_pow2; [exact Hp|].
  eapply N.le_lt_trans; [apply N.log2_lxor|].
  destruct (N.eq_0_gt_0_cases x) as [->|Hx0]; destruct (N.eq_0_gt_0_cases y) as [->|Hy0];
    simpl in Hp; try lia.
  - change (N.log2 0) with 0. pose proof (proj1 (N.log2_lt_pow2 y n Hy0) Hy). lia.
  - change (N.log2 0) with 0. pose proof (proj1 (N.log2_lt_pow2 x n Hx0) Hx). lia.
  - pose proof (proj1 (N.log2_lt_pow2 y n Hy0) Hy). pose proof (proj1 (N.log2_lt_pow2 x n Hx0) Hx). lia.
Qed.
Lemma byte_step_index crc v : v < 256 -> N.lxor (N.land crc 255) v < 256.
Proof.
  intros Hv. apply (lxor_lt 8); [|exact Hv]. rewrite land255. apply N.mod_lt. discriminate.
Qed.
(** The Go update step is: xor the byte into the register, shift eight bits. *)
Lemma byte_step_bits crc v : v < 256 -> byte_step crc v = Nat.iter 8 bit_step (N.lxor crc v).
Proof.
  intros Hv. unfold byte_step. rewrite table_lookup by (apply byte_step_index; exact Hv).
  rewrite (eight_bits (N.lxor crc v)). rewrite N.shiftr_lxor.
  assert (N.shiftr v 8 = 0) as ->.
  { apply N.shiftr_eq_0. destruct (N.eq_0_gt_0_cases v) as [->|Hp]; [reflexivity|].
    apply N.log2_lt_pow2; [exact Hp|exact Hv]. }
  rewrite N.lxor_0_r.
  assert (N.lxor (N.land crc 255) v = N.land (N.lxor crc v) 255) as Hl; [|rewrite Hl; reflexivity].
  apply N.bits_inj. intros i. rewrite N.lxor_spec, !N.land_spec, N.lxor_spec.
  change 255 with (N.ones 8). destruct (N.lt_ge_cases i 8) as [Hi|Hi].
  - rewrite N.ones_spec_low by exact Hi. rewrite !Bool.andb_true_r. reflexivity.
  - rewrite N.ones_spec_high by exact Hi. rewrite !Bool.andb_false_r.
    destruct (N.testbit v i) eqn:E; [|reflexivity]. exfalso.
    rewrite N.bits_above_log2 in E; [discriminate|].
    destruct (N.eq_0_gt_0_cases v) as [->|Hp]; [simpl; lia|].
    eapply N.lt_le_trans; [|exact Hi]. apply N.log2_lt_pow2; [exact Hp|exact Hv].
Qed.

(** The one-bit step is injective on 64-bit registers. *)
Lemma bit_step_lt x : x < 2^64 -> bit_step x < 2^64.
Proof.
  intros Hx. unfold bit_step.
  assert (N.shiftr x 1 < 2^64) as Hs.
  { rewrite N.shiftr_div_pow2. change (2^1) with 2.
    pose proof (N.div_le_upper_bound x 2 x). lia. }
  destruct (N.odd x); [|exact Hs]. apply lxor_lt; [exact Hs|reflexivity].
Qed.
Lemma bit_step_top x : x < 2^64 -> N.testbit (bit_step x) 63 = N.odd x.
Proof.
  intros Hx.
  assert (N.testbit (N.shiftr x 1) 63 = false) as Hs.
  { rewrite N.shiftr_spec'. destruct (N.eq_0_gt_0_cases x) as [->|Hp]; [reflexivity|].
    apply N.bits_above_log2. apply (N.log2_lt_pow2 x 64); assumption. }
  unfold bit_step. destruct (N.odd x); [|exact Hs]. rewrite N.lxor_spec, Hs. reflexivity.
Qed.
Lemma bit_step_inj x y : x < 2^64 -> y < 2^64 -> bit_step x = bit_step y -> x = y.
Proof.
  intros Hx Hy H.
  assert (N.odd x = N.odd y) as Ho by (rewrite <- !bit_step_top, H; auto).
  assert (N.shiftr x 1 = N.shiftr y 1) as Hs.
  { unfold bit_step in H. rewrite Ho in H. destruct (N.odd y); [|exact H].
    apply (f_equal (fun z => N.lxor z ecma)) in H.
    rewrite !N.lxor_assoc, !N.lxor_nilpotent, !N.lxor_0_r in H. exact H. }
  rewrite !N.shiftr_div_pow2 in Hs. change (2^1) with 2 in Hs.
  rewrite (N.div_mod x 2), (N.div_mod y 2), Hs by discriminate. f_equal.
  rewrite <- !N.bit0_mod, !N.bit0_odd, Ho. reflexivity.
Qed.
Lemma iter_lt n x : x < 2^64 -> Nat.iter n bit_step x < 2^64.
Proof. intros Hx. induction n as [|n IH]; simpl; [exact Hx|apply bit_step_lt, IH]. Qed.
Lemma iter_inj n x y : x < 2^64 -> y < 2^64 -> Nat.iter n bit_step x = Nat.iter n bit_step y -> x = y.
Proof.
  intros Hx Hy. induction n as [|n IH]; simpl; [auto|]. intros H.
  apply IH. apply bit_step_inj; [apply iter_lt, Hx|apply iter_lt, Hy|exact H].
Qed.

(** Little-endian word of a byte string. *)
Fixpoint word (bs : list N) : N :=
  match bs with [] => 0 | b :: bs' => N.lxor b (N.shiftl (word bs') 8) end.
Lemma word_fold bs : Forall (fun b => b < 256) bs -> forall r,
  fold_left byte_step bs r = Nat.iter (8 * length bs) bit_step (N.lxor r (word bs)).
Proof.
  induction 1 as [|b bs Hb Hbs IH]; intros r.
  - simpl. rewrite N.lxor_0_r. reflexivity.
  - cbn [fold_left]. rewrite IH, byte_step_bits by exact Hb.
    cbn [word length]. replace (8 * S (length bs))%nat with (8 * length bs + 8)%nat by lia.
    rewrite iter_plus.
    rewrite <- N.lxor_assoc, (iter_xor 8 (N.lxor r b)).
    change (N.shiftl (word bs) 8) with (N.shiftl (word bs) (N.of_nat 8)).
    rewrite (iter_shift 8). reflexivity.
Qed.
Lemma word_lt bs : Forall (fun b => b < 256) bs -> word bs < 2^(8 * N.of_nat (length bs)).
Proof.
  induction 1 as [|b bs Hb Hbs IH].
  - reflexivity.
  - cbn [word length]. replace (8 * N.of_nat (S (length bs))) with (8 * N.of_nat (length bs) + 8) by lia.
    apply lxor_lt.
    + eapply N.lt_le_trans; [exact Hb|]. change 256 with (2^8). apply N.pow_le_mono_r; lia.
    + rewrite N.shiftl_mul_pow2, N.pow_add_r. apply N.mul_lt_mono_pos_r; [reflexivity|exact IH].
Qed.
Lemma word_inj bs1 : Forall (fun b => b < 256) bs1 -> forall bs2, Forall (fun b => b < 256) bs2 ->
  length bs1 = length bs2 -> word bs1 = word bs2 -> bs1 = bs2.
Proof.
  induction 1 as [|b1 bs1 Hb1 Hbs1 IH]; intros bs2 H2 Hlen Hw.
  - destruct bs2; [reflexivity|discriminate].
  - destruct bs2 as [|b2 bs2]; [discriminate|].
    inversion H2 as [|? ? Hb2 Hbs2]; subst. cbn [word] in Hw.
    assert (forall b w, b < 256 -> N.land (N.lxor b (N.shiftl w 8)) 255 = b) as Hlow.
    { intros b w Hb. apply N.bits_inj. intros i. rewrite N.land_spec, N.lxor_spec.
      change 255 with (N.ones 8). destruct (N.lt_ge_cases i 8) as [Hi|Hi].
      - rewrite N.ones_spec_low, N.shiftl_spec_low by lia. destruct (N.testbit b i); reflexivity.
      - rewrite N.ones_spec_high by lia. rewrite Bool.andb_false_r. symmetry.
        apply N.bits_above_log2. destruct (N.eq_0_gt_0_cases b) as [->|Hp]; [simpl; lia|].
        eapply N.lt_le_trans; [|exact Hi]. apply N.log2_lt_pow2; [exact Hp|exact Hb]. }
    assert (b1 = b2) as <- by (rewrite <- (Hlow b1 (word bs1) Hb1), Hw; apply Hlow, Hb2).
    f_equal. apply IH; [exact Hbs2|simpl in Hlen; lia|].
    apply (f_equal (N.lxor b1)) in Hw. rewrite <- !N.lxor_assoc, !N.lxor_nilpotent, !N.lxor_0_l in Hw.
    rewrite !N.shiftl_mul_pow2 in Hw. apply N.mul_cancel_r in Hw; [exact Hw|discriminate].
Qed.

(** CRC-64 is injective on byte strings of equal length up to 8. *)
Lemma checksum_inj bs1 bs2 :
  Forall (fun b => b < 256) bs1 -> Forall (fun b => b < 256) bs2 ->
  length bs1 = length bs2 -> (length bs1 <= 8)%nat ->
  checksum bs1 = checksum bs2 -> bs1 = bs2.
Proof.
  intros H1 H2 Hlen H8 H. unfold checksum in H.
  apply (f_equal (fun z => N.lxor z mask64)) in H.
  rewrite !N.lxor_assoc, !N.lxor_nilpotent, !N.lxor_0_r in H.
  rewrite !word_fold, Hlen in H by assumption.
  assert (forall bs, Forall (fun b => b < 256) bs -> (length bs <= 8)%nat ->
            N.lxor (N.lxor 0 mask64) (word bs) < 2^64) as Hlt.
  { intros bs Hbs Hl. apply lxor_lt; [reflexivity|].
    eapply N.lt_le_trans; [apply word_lt, Hbs|]. apply N.pow_le_mono_r; lia. }
  apply iter_inj in H; [|apply Hlt; assumption|apply Hlt; [assumption|lia]].
  apply word_inj; [assumption|assumption|assumption|].
  apply (f_equal (N.lxor (N.lxor 0 mask64))) in H.
  rewrite <- !N.lxor_assoc, !N.lxor_nilpotent, !N.lxor_0_l in H. exact H.
Qed.

Lemma bytes_lt s : Forall (fun b => b < 256) (bytes_of s).
Proof.
  unfold bytes_of. apply Forall_map. apply Forall_forall. intros a _. apply N_ascii_bounded.
Qed.
Lemma bytes_length s : length (bytes_of s) = String.length s.
Proof.
  unfold bytes_of. rewrite map_length. induction s as [|a s IH]; simpl; [reflexivity|]. rewrite IH. reflexivity.
Qed.
Lemma bytes_inj s1 s2 : bytes_of s1 = bytes_of s2 -> s1 = s2.
Proof.
  unfold bytes_of. intros H.
  assert (list_ascii_of_string s1 = list_ascii_of_string s2) as Hl.
  { revert H. generalize (list_ascii_of_string s1) (list_ascii_of_string s2).
    induction l as [|a l IH]; intros [|b l']; simpl; try discriminate; [reflexivity|].
    intros H. injection H as Hab Hl. f_equal; [|apply IH, Hl].
    rewrite <- (ascii_N_embedding a), Hab. apply ascii_N_embedding. }
  rewrite <- (string_of_list_ascii_of_string s1), Hl. apply string_of_list_ascii_of_string.
Qed.

Lemma hash_pos s : (hash s <> 0)%Z.
Proof.
  unfold hash. destruct (N.eqb_spec (checksum (bytes_of s)) 0) as [_|H]; [discriminate|]. lia.
Qed.
Lemma hash_cases s1 s2 : hash s1 = hash s2 ->
  checksum (bytes_of s1) = checksum (bytes_of s2) \/
  (checksum (bytes_of s1) = 0 /\ checksum (bytes_of s2) = 1) \/
  (checksum (bytes_of s1) = 1 /\ checksum (bytes_of s2) = 0).
Proof.
  unfold hash. destruct (N.eqb_spec (checksum (bytes_of s1)) 0) as [H1|H1];
  destruct (N.eqb_spec (checksum (bytes_of s2)) 0) as [H2|H2]; intros H; lia.
Qed.
Lemma hash_short_inj s1 s2 :
  String.length s1 = String.length s2 -> (String.length s1 <= 8)%nat -> hash s1 = hash s2 ->
  s1 = s2 \/
  (checksum (bytes_of s1) = 0 /\ checksum (bytes_of s2) = 1) \/
  (checksum (bytes_of s1) = 1 /\ checksum (bytes_of s2) = 0).
Proof.
  intros Hlen H8 H. apply hash_cases in H as [H|H]; [left|right; exact H].
  apply bytes_inj. apply checksum_inj; [apply bytes_lt|apply bytes_lt| | |exact H];
  rewrite ?bytes_length; assumption.
Qed.

(** The only 8-byte string with checksum 0. *)
Definition zero_preimage : list N := [5; 202; 96; 138; 231; 19; 106; 15].
Lemma zero_preimage_ok : checksum zero_preimage = 0.
Proof. vm_compute. reflexivity. Qed.
Lemma ascii8_not_zero s : String.length s = 8%nat -> Forall (fun b => b < 128) (bytes_of s) ->
  checksum (bytes_of s) <> 0.
Proof.
  intros Hlen Hasc H.
  assert (bytes_of s = zero_preimage) as Heq.
  { apply checksum_inj; [apply bytes_lt| | | |rewrite H, zero_preimage_ok; reflexivity].
    - repeat constructor.
    - rewrite bytes_length, Hlen. reflexivity.
    - rewrite bytes_length, Hlen. auto. }
  rewrite Heq in Hasc. unfold zero_preimage in Hasc.
  inversion Hasc as [|? ? _ Hasc']; subst. inversion Hasc' as [|? ? Hbad _]; subst. lia.
Qed.
Lemma hash_ascii8_inj s1 s2 :
  String.length s1 = 8%nat -> String.length s2 = 8%nat ->
  Forall (fun b => b < 128) (bytes_of s1) -> Forall (fun b => b < 128) (bytes_of s2) ->
  hash s1 = hash s2 -> s1 = s2.
Proof.
  intros H1 H2 A1 A2 H.
  destruct (hash_short_inj s1 s2) as [Heq|[[Hz _]|[_ Hz]]]; [lia|lia|exact H|exact Heq| |].
  - exfalso. exact (ascii8_not_zero _ H1 A1 Hz).
  - exfalso. exact (ascii8_not_zero _ H2 A2 Hz).
Qed.

(** Bursts: two strings that differ only inside a window of at most 8 bytes. *)
Lemma fold_lt bs : Forall (fun b => b < 256) bs -> forall r, r < 2^64 -> fold_left byte_step bs r < 2^64.
Proof.
  induction 1 as [|b bs Hb Hbs IH]; intros r Hr; cbn [fold_left]; [exact Hr|].
  apply IH. rewrite byte_step_bits by exact Hb. apply iter_lt. apply lxor_lt; [exact Hr|].
  eapply N.lt_trans; [exact Hb|]. reflexivity.
Qed.
Lemma fold_inj bs : Forall (fun b => b < 256) bs -> forall r1 r2, r1 < 2^64 -> r2 < 2^64 ->
  fold_left byte_step bs r1 = fold_left byte_step bs r2 -> r1 = r2.
Proof.
  induction 1 as [|b bs Hb Hbs IH]; intros r1 r2 H1 H2; cbn [fold_left]; [auto|].
  assert (forall r, r < 2^64 -> N.lxor r b < 2^64) as Hx.
  { intros r Hr. apply lxor_lt; [exact Hr|]. eapply N.lt_trans; [exact Hb|]. reflexivity. }
  rewrite !byte_step_bits by exact Hb. intros H.
  apply IH in H; [|apply iter_lt, Hx, H1|apply iter_lt, Hx, H2].
  apply iter_inj in H; [|apply Hx, H1|apply Hx, H2].
  apply (f_equal (fun z => N.lxor z b)) in H.
  rewrite !N.lxor_assoc, !N.lxor_nilpotent, !N.lxor_0_r in H. exact H.
Qed.
Lemma word_lt64 bs : Forall (fun b => b < 256) bs -> (length bs <= 8)%nat -> word bs < 2^64.
Proof.
  intros Hbs Hl. eapply N.lt_le_trans; [apply word_lt, Hbs|]. apply N.pow_le_mono_r; lia.
Qed.
Lemma checksum_burst p m1 m2 q :
  Forall (fun b => b < 256) p -> Forall (fun b => b < 256) m1 -> Forall (fun b => b < 256) m2 ->
  Forall (fun b => b < 256) q -> length m1 = length m2 -> (length m1 <= 8)%nat ->
  checksum (p ++ m1 ++ q) = checksum (p ++ m2 ++ q) -> m1 = m2.
Proof.
  intros Hp H1 H2 Hq Hlen H8 H. unfold checksum in H.
  apply (f_equal (fun z => N.lxor z mask64)) in H.
  rewrite !N.lxor_assoc, !N.lxor_nilpotent, !N.lxor_0_r in H.
  rewrite !fold_left_app in H.
  set (r := fold_left byte_step p (N.lxor 0 mask64)) in H.
  assert (r < 2^64) as Hr by (apply fold_lt; [exact Hp|reflexivity]).
  apply fold_inj in H; [|exact Hq|apply fold_lt; assumption|apply fold_lt; assumption].
  rewrite !word_fold, Hlen in H by assumption.
  apply iter_inj in H; [|apply lxor_lt; [exact Hr|apply word_lt64; assumption]
                        |apply lxor_lt; [exact Hr|apply word_lt64; [assumption|lia]]].
  apply word_inj; [assumption|assumption|assumption|].
  apply (f_equal (N.lxor r)) in H.
  rewrite <- !N.lxor_assoc, !N.lxor_nilpotent, !N.lxor_0_l in H. exact H.
Qed.
(** Checksums 0 and 1 (which [hash] identifies) never differ by a short suffix. *)
Lemma checksum_suffix_01 p m1 m2 :
  Forall (fun b => b < 256) p -> Forall (fun b => b < 256) m1 -> Forall (fun b => b < 256) m2 ->
  length m1 = length m2 -> (length m1 <= 7)%nat ->
  checksum (p ++ m1) = 0 -> checksum (p ++ m2) = 1 -> False.
Proof.
  intros Hp H1 H2 Hlen H7 C1 C2. unfold checksum in C1, C2.
  rewrite fold_left_app in C1, C2. set (r := fold_left byte_step p (N.lxor 0 mask64)) in C1, C2.
  rewrite word_fold in C1, C2 by assumption. rewrite <- Hlen in C2.
  set (n := (8 * length m1)%nat) in C1, C2.
  assert (Nat.iter n bit_step (N.lxor (word m1) (word m2)) = 1) as Hd.
  { rewrite iter_xor in C1, C2. rewrite iter_xor.
    set (a := Nat.iter n bit_step r) in *. set (b := Nat.iter n bit_step (word m1)) in *.
    set (c := Nat.iter n bit_step (word m2)) in *.
    assert (N.lxor (N.lxor (N.lxor a b) mask64) (N.lxor (N.lxor a c) mask64) = N.lxor b c) as Hx.
    { apply N.bits_inj. intros i. rewrite !N.lxor_spec.
      destruct (N.testbit a i), (N.testbit b i), (N.testbit c i), (N.testbit mask64 i); reflexivity. }
    rewrite <- Hx, C1, C2. reflexivity. }
  rewrite <- (iter_shift n 1) in Hd.
  assert (2 ^ N.of_nat n <= 2 ^ 56) as Hle by (apply N.pow_le_mono_r; lia).
  assert (N.lxor (word m1) (word m2) < 2 ^ N.of_nat n) as Hw.
  { apply lxor_lt; replace (N.of_nat n) with (8 * N.of_nat (length m1)) by lia;
    [|rewrite Hlen]; apply word_lt; assumption. }
  rewrite N.shiftl_1_l in Hd.
  assert (2 ^ 56 < 2 ^ 64) as H56 by reflexivity.
  apply iter_inj in Hd; [lia| |]; lia.
Qed.

Lemma bytes_app s1 s2 : bytes_of (s1 ++ s2) = (bytes_of s1 ++ bytes_of s2)%list.
Proof.
  unfold bytes_of. rewrite <- map_app. f_equal.
  induction s1 as [|a s1 IH]; simpl; [reflexivity|]. rewrite IH. reflexivity.
Qed.
(** Same prefix, different last characters (up to 7): different hashes. *)
Lemma hash_suffix_inj p s1 s2 :
  String.length s1 = String.length s2 -> (String.length s1 <= 7)%nat ->
  hash (p ++ s1) = hash (p ++ s2) -> s1 = s2.
Proof.
  intros Hlen H7 H. apply hash_cases in H as [H|[[H0 H1]|[H1 H0]]].
  - rewrite !bytes_app in H. apply bytes_inj.
    apply (checksum_burst (bytes_of p) _ _ []); try apply bytes_lt; rewrite ?bytes_length; try lia.
    { constructor. } rewrite !app_nil_r. exact H.
  - exfalso. rewrite bytes_app in H0, H1.
    refine (checksum_suffix_01 _ _ _ _ _ _ _ _ H0 H1); try apply bytes_lt; rewrite ?bytes_length; lia.
  - exfalso. rewrite bytes_app in H0, H1.
    refine (checksum_suffix_01 _ _ _ _ _ _ _ _ H0 H1); try apply bytes_lt; rewrite ?bytes_length; lia.
Qed.
