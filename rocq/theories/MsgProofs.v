(** Lengths of messages. *)
From Coq Require Import ZArith String Ascii Lia.
From stdpp Require Import base list numbers strings pretty gmap.
From Verif Require Import SyscallModel SyscallSpec SyscallProofs TopoModel RawModel CodecTables CodecModel JsonModel
  JsonSpec LineModel DecodeModel MsgModel.

Local Open Scope string_scope.
Local Open Scope list_scope.
Local Open Scope Z_scope.

Notation len := (@length Z).

(** * Numbers *)

Lemma txt_len s : length (txt s) = String.length s.
Proof.
  unfold txt. rewrite map_length. induction s as [|c s IH]; [reflexivity|].
  exact (f_equal S IH).
Qed.

Lemma go_len k : forall x s, (x < 10 ^ N.of_nat k)%N ->
  (String.length (pretty_N_go x s) <= k + String.length s)%nat.
Proof.
  induction k as [|k IH]; intros x s H.
  - assert (x = 0%N) as -> by (cbn in H; lia). rewrite pretty_N_go_0. lia.
  - destruct (decide (x = 0%N)) as [->|Hx]; [rewrite pretty_N_go_0; lia|].
    rewrite pretty_N_go_step by lia.
    eapply Nat.le_trans; [apply IH|cbn [String.length]; lia].
    apply N.div_lt_upper_bound; [lia|].
    replace (10 * 10 ^ N.of_nat k)%N with (10 ^ N.of_nat (S k))%N; [exact H|].
    rewrite Nat2N.inj_succ, N.pow_succ_r'. reflexivity.
Qed.

Lemma num_len z k : (1 <= k)%nat -> - 10 ^ Z.of_nat k < z < 10 ^ Z.of_nat k ->
  (length (num z) <= S k)%nat.
Proof.
  intros Hk H. unfold num. rewrite txt_len.
  assert (HN : forall p, Z.pos p < 10 ^ Z.of_nat k ->
            (String.length (pretty (N.pos p)) <= k)%nat).
  { intros p Hp. change (pretty (N.pos p)) with (pretty_N_go (N.pos p) "").
    eapply Nat.le_trans; [apply (go_len k)|cbn [String.length]; lia].
    apply N2Z.inj_lt. rewrite N2Z.inj_pow, nat_N_Z. exact Hp. }
  destruct z as [|p|p].
  - change (pretty 0) with "0". cbn. lia.
  - change (pretty (Z.pos p)) with (pretty (N.pos p)). specialize (HN p). lia.
  - change (pretty (Z.neg p)) with ("-" +:+ pretty (N.pos p)).
    change (S (String.length (pretty (N.pos p))) <= S k)%nat. specialize (HN p). lia.
Qed.

(** Any number a Go int64 or uint64 holds. *)
Definition fits (z : Z) : Prop := - 2 ^ 63 <= z < 2 ^ 64.

Lemma num_fits z : fits z -> (length (num z) <= 21)%nat.
Proof. intros H. apply (num_len z 20); [lia|]. unfold fits in H. lia. Qed.

(** * Texts *)

Lemma quote_len bs : length (quote bs) = (2 + length (esc bs))%nat.
Proof. unfold quote. rewrite !app_length. cbn. lia. Qed.

Lemma esc_byte_ge b : (1 <= length (esc_byte b))%nat.
Proof. unfold esc_byte. repeat case_match; cbn; lia. Qed.
Lemma esc_byte_le b : (length (esc_byte b) <= 6)%nat.
Proof. unfold esc_byte. repeat case_match; cbn; lia. Qed.

Lemma esc_len n : forall bs, (length bs <= n)%nat ->
  (length bs <= length (esc bs) <= 6 * length bs)%nat.
Proof.
  induction n as [|n IH]; intros bs H; [destruct bs; cbn in *; lia|].
  destruct bs as [|b0 t]; [cbn; lia|]. cbn [length] in H.
  assert (Ht : (length t <= n)%nat) by lia.
  assert (Hbad : (length (b0 :: t) <= length (txt "\ufffd" ++ esc t) <= 6 * length (b0 :: t))%nat).
  { rewrite app_length, txt_len. cbn [length String.length]. specialize (IH t Ht). lia. }
  cbn [esc].
  destruct (b0 <? 128).
  { rewrite app_length. pose proof (esc_byte_ge b0). pose proof (esc_byte_le b0).
    specialize (IH t Ht). cbn [length]. lia. }
  destruct t as [|b1 t1]; [exact Hbad|]. cbn [length] in Ht.
  destruct (seq2 b0 b1). { specialize (IH t1 ltac:(lia)). cbn [length]. lia. }
  destruct t1 as [|b2 t2]; [exact Hbad|]. cbn [length] in Ht.
  destruct (seq3 b0 b1 b2).
  { specialize (IH t2 ltac:(lia)). rewrite app_length. destruct (line_sep b0 b1 b2).
    - rewrite app_length, txt_len. cbn [length String.length]. lia.
    - cbn [length]. lia. }
  destruct t2 as [|b3 t3]; [exact Hbad|]. cbn [length] in Ht.
  destruct (seq4 b0 b1 b2 b3). { specialize (IH t3 ltac:(lia)). cbn [length]. lia. }
  exact Hbad.
Qed.

Lemma b64_len n : forall bs, (length bs <= n)%nat ->
  length (b64 bs) = (4 * ((length bs + 2) / 3))%nat.
Proof.
  induction n as [|n IH]; intros bs H; [destruct bs; [reflexivity|cbn in H; lia]|].
  destruct bs as [|a [|b [|c t]]]; [reflexivity..|].
  cbn [b64]. rewrite app_length, IH by (cbn in H; lia). cbn [length].
  replace (S (S (S (length t))) + 2)%nat with (1 * 3 + (length t + 2))%nat by lia.
  rewrite Nat.div_add_l by lia. lia.
Qed.

(** * Objects and arrays *)

Definition total (l : list (list Z)) : nat := sum_list_with length l.

Lemma commas_len l : length (commas l) = (total l + (length l - 1))%nat.
Proof.
  induction l as [|x l IH]; [reflexivity|].
  destruct l as [|y l]; [cbn; lia|].
  change (commas (x :: y :: l)) with (x ++ [44] ++ commas (y :: l)).
  rewrite !app_length, IH. unfold total. cbn [sum_list_with length]. lia.
Qed.

Lemma arr_len l : length (arr l) = (2 + total l + (length l - 1))%nat.
Proof. unfold arr. rewrite !app_length, commas_len. cbn [length]. lia. Qed.

Lemma total_map {A} (f : A -> list Z) l : total (map f l) = sum_list_with (fun a => length (f a)) l.
Proof. unfold total. induction l as [|a l IH]; [reflexivity|]. cbn. rewrite IH. reflexivity. Qed.

Definition entry_len (e : string * list Z) : nat := (length (qs (fst e)) + 1 + length (snd e))%nat.

Lemma obj_len l : length (obj l) = (2 + sum_list_with entry_len l + (length l - 1))%nat.
Proof.
  unfold obj. rewrite !app_length, commas_len, total_map, map_length. cbn [length].
  assert (sum_list_with (fun a => length (qs (fst a) ++ [58] ++ snd a)) l
          = sum_list_with entry_len l) as ->; [|lia].
  induction l as [|e l IH]; [reflexivity|]. cbn [sum_list_with]. rewrite IH.
  unfold entry_len. rewrite !app_length. cbn [length]. lia.
Qed.

Lemma sum_in {A} (f : A -> nat) l x : x ∈ l -> (f x <= sum_list_with f l)%nat.
Proof.
  induction 1 as [x l|x y l Hx IH]; cbn [sum_list_with]; lia.
Qed.

Lemma obj_in n v l : (n, v) ∈ l -> (length v < length (obj l))%nat.
Proof.
  intros H. rewrite obj_len. pose proof (sum_in entry_len l _ H) as Hs.
  unfold entry_len in Hs at 1. cbn [fst snd] in Hs. lia.
Qed.

(** A text in a message is shorter than the message. *)
Lemma args_in p args nr vs fs nest js n m v a :
  decoder nr = Some fs -> List.find (fun e => fst (fst e) =? nr) json_structs = Some (nr, nest, js) ->
  JOf n m ∈ js -> named_value fs vs m = Some v ->
  args_text p args nr vs = Some a -> (length (member_text p args nr m v) < length a)%nat.
Proof.
  intros Hd Hf Hj Hv Ha. unfold args_text in Ha. rewrite Hf, Hd in Ha.
  destruct (negb (forallb (slice_ok p args) vs)); [discriminate|].
  assert (Hin : (length (member_text p args nr m v)
                 < length (obj (map (field_text p args nr fs vs) js)))%nat).
  { apply (obj_in n). apply elem_of_list_In. apply in_map_iff. exists (JOf n m).
    split; [unfold field_text; rewrite Hv; reflexivity|]. apply elem_of_list_In. exact Hj. }
  destruct nest as [k|].
  - assert (E : a = obj [(k, obj (map (field_text p args nr fs vs) js))]) by congruence.
    rewrite E. eapply Nat.lt_trans; [exact Hin|]. apply (obj_in k). left.
  - assert (E : a = obj (map (field_text p args nr fs vs) js)) by congruence.
    rewrite E. exact Hin.
Qed.

Lemma message_args p sc c args t msg :
  message p sc c args t = Some msg ->
  exists a, args_text p args (t_syscall t) (t_argv t) = Some a /\ (length a < length msg)%nat.
Proof.
  unfold message. destruct (args_text p args (t_syscall t) (t_argv t)) as [a|] eqn:E; [|discriminate].
  intros H. exists a. split; [reflexivity|].
  apply Some_inj in H. rewrite <- H, app_length.
  eapply Nat.lt_le_trans; [|apply Nat.le_add_r].
  apply (obj_in "args"). rewrite !elem_of_cons. tauto.
Qed.

(** * mprotect *)

Lemma mprotect_long p sc c args t msg l :
  length args = 640%nat -> t_syscall t = 10 ->
  decode_syscall 10 args = Some (Some (t_argv t)) ->
  c64 args (slot_start 1) = Some l -> 3073 <= l ->
  (Z.to_nat l <= length (j_heap p))%nat ->
  message p sc c args t = Some msg -> (4096 < length msg)%nat.
Proof.
  intros Hl Hnr Hd Hc H3 Hh Hm.
  destruct (message_args _ _ _ _ _ _ Hm) as (a & Ha & Hlt). rewrite Hnr in Ha.
  assert (Hdec : decoder 10 = Some [Field "addr" 0 KU64; Field "len" 1 KS64; Field "prot" 2 KS32;
            Field "addr_data" 3 (KSliceMax 1)]) by reflexivity.
  assert (Hv : named_value [Field "addr" 0 KU64; Field "len" 1 KS64; Field "prot" 2 KS32;
            Field "addr_data" 3 (KSliceMax 1)] (t_argv t) "addr_data" = Some (VSlice (slot_start 3) l)).
  { unfold decode_syscall in Hd. rewrite Hdec in Hd.
    destruct (decode_fields args _) as [vs|] eqn:Ed in Hd; [|discriminate].
    assert (t_argv t = vs) as -> by congruence.
    cbn [decode_fields] in Ed.
    destruct (decode_field args (Field "addr" 0 KU64)) as [v0|]; [|discriminate].
    destruct (decode_field args (Field "len" 1 KS64)) as [v1|]; [|discriminate].
    destruct (decode_field args (Field "prot" 2 KS32)) as [v2|]; [|discriminate].
    unfold decode_field at 1 in Ed. cbn [f_slot f_kind] in Ed. rewrite Hc in Ed.
    assert (Z.of_nat arg_len <? l = true) as Hb by (apply Z.ltb_lt; unfold arg_len; lia).
    rewrite Hb in Ed. assert (vs = [v0; v1; v2; VSlice (slot_start 3) l]) as -> by congruence.
    reflexivity. }
  assert (Hlt2 := args_in p args 10 (t_argv t) _ None
    [JOf "addr" "addr"; JOf "len" "len"; JOf "prot" "prot"; JOf "addr_data" "addr_data"]
    "addr_data" "addr_data" _ a Hdec
    ltac:(reflexivity) ltac:(rewrite !elem_of_cons; tauto) Hv Ha).
  cbn [member_text] in Hlt2. rewrite !app_length, (b64_len _ _ (Nat.le_refl _)) in Hlt2.
  rewrite take_length, app_length in Hlt2. cbn [length] in Hlt2.
  assert (Hmin : Nat.min (Z.to_nat l) (length (drop (slot_start 3) args) + length (j_heap p)) = Z.to_nat l) by lia.
  rewrite Hmin in Hlt2.
  assert ((3073 + 2) / 3 <= (Z.to_nat l + 2) / 3)%nat by (apply Nat.div_le_mono; lia).
  change ((3073 + 2) / 3)%nat with 1025%nat in H. lia.
Qed.
