(** An upper bound on the length of messages. *)
From Coq Require Import ZArith String Ascii Lia.
From stdpp Require Import base list numbers strings pretty gmap.
From Verif Require Import SyscallTable SyscallModel SyscallSpec SyscallProofs TopoModel RawModel RawSpec CodecTables
  CodecModel JsonModel JsonSpec RawProofs LineModel DecodeModel MsgModel MsgProofs.

Local Open Scope string_scope.
Local Open Scope list_scope.
Local Open Scope Z_scope.

Definition maxl (l : list nat) : nat := foldr Nat.max 0%nat l.

Lemma maxl_in l x : x ∈ l -> (x <= maxl l)%nat.
Proof. induction 1 as [x l|x y l H IH]; unfold maxl in *; cbn [foldr]; lia. Qed.

Lemma maxl_map {A} (f : A -> nat) l x : x ∈ l -> (f x <= maxl (map f l))%nat.
Proof. intros H. apply maxl_in, elem_of_list_In, in_map, elem_of_list_In, H. Qed.

(** * Numbers with names *)

Definition name_b (l : list (Z * string)) : nat :=
  Nat.max 128 (maxl (map (fun e => length (qs (snd e))) l)).

Lemma assoc_in {A} (l : list (Z * A)) k a : assoc_z l k = Some a -> (k, a) ∈ l.
Proof.
  induction l as [|[x b] l IH]; [discriminate|]. cbn [assoc_z].
  destruct (x =? k) eqn:E; intros H.
  - apply Z.eqb_eq in E. subst. assert (a = b) by congruence. subst. left.
  - right. apply IH, H.
Qed.

Lemma qs_le s n : (String.length s <= n)%nat -> (length (qs s) <= 2 + 6 * n)%nat.
Proof.
  intros H. unfold qs. rewrite quote_len.
  pose proof (esc_len _ (txt s) (Nat.le_refl _)). rewrite txt_len in *. lia.
Qed.

Lemma pretty_le z : fits z -> (String.length (pretty z) <= 21)%nat.
Proof. intros H. pose proof (num_fits z H). unfold num in *. rewrite txt_len in *. exact H0. Qed.

Lemma qs_pretty z : fits z -> (length (qs (pretty z)) <= 128)%nat.
Proof. intros H. pose proof (qs_le _ _ (pretty_le z H)). lia. Qed.

Lemma render_le names z : fits z -> (length (qs (render names z)) <= name_b names)%nat.
Proof.
  intros H. unfold render, name_b. destruct (assoc_z names z) as [s|] eqn:E.
  - apply assoc_in in E. pose proof (maxl_map (fun e => length (qs (snd e))) _ _ E) as Hm.
    cbn [snd] in Hm. lia.
  - pose proof (qs_pretty z H). lia.
Qed.

Lemma filter_sum {A} (f : A -> nat) (b : A -> bool) l :
  (sum_list_with f (List.filter b l) <= sum_list_with f l)%nat.
Proof.
  induction l as [|a l IH]; [cbn; lia|]. cbn [List.filter].
  destruct (b a); cbn [sum_list_with]; lia.
Qed.

Lemma sum_perm {A} (f : A -> nat) l l' : l ≡ₚ l' -> sum_list_with f l = sum_list_with f l'.
Proof. induction 1; cbn [sum_list_with]; lia. Qed.

Lemma sum_map {A B} (g : A -> B) (f : B -> nat) l :
  sum_list_with f (map g l) = sum_list_with (fun a => f (g a)) l.
Proof. induction l as [|a l IH]; [reflexivity|]. cbn. rewrite IH. reflexivity. Qed.

Lemma sum_S {A} (f : A -> nat) l :
  sum_list_with (fun a => S (f a)) l = (sum_list_with f l + length l)%nat.
Proof. induction l as [|a l IH]; [reflexivity|]. cbn [sum_list_with length]. lia. Qed.

Definition flag_b (c : codec) : nat :=
  Nat.max (2 + sum_list_with (fun e => S (length (qs (snd e)))) (c_masks c))
          (maxl (map (fun e => 2 + length (qs (snd e))) (c_exact c)))%nat.

Lemma flags_le order c z : (forall l, order l ≡ₚ l) ->
  (length (arr (map qs (encode c (order (c_masks c)) z))) <= flag_b c)%nat.
Proof.
  intros Ho. unfold encode, flag_b. destruct (assoc_z (c_exact c) z) as [n|] eqn:E.
  - apply assoc_in in E.
    pose proof (maxl_map (fun e => 2 + length (qs (snd e)))%nat _ _ E) as Hm. cbn [snd] in Hm.
    rewrite arr_len. unfold total. cbn [map sum_list_with length]. lia.
  - rewrite arr_len, total_map, sum_map, !map_length.
    pose proof (filter_sum (fun e : Z * string => S (length (qs (snd e)))) (fun e => hits z (fst e))
                  (order (c_masks c))) as Hf.
    rewrite (sum_perm _ _ _ (Ho (c_masks c))) in Hf.
    rewrite sum_S in Hf at 1.
    lia.
Qed.

Lemma socktype_le z : (length (arr (map qs (encode_socktype z))) <= 160)%nat.
Proof.
  assert (Hd : 0 <= Z.land z 15 < 16).
  { change 15 with (Z.ones 4). rewrite Z.land_ones by lia. apply Z.mod_pos_bound. lia. }
  unfold encode_socktype. cbv zeta.
  assert (H1 : exists n, (match assoc_z socktype_names (Z.land z 15) with
             | Some n => [n] | None => ["<" +:+ pretty (Z.land z 15) +:+ ">"] end) = [n]
             /\ (length (qs n) <= 38)%nat).
  { assert (Hc : forallb (fun v => (length (qs (match assoc_z socktype_names v with
        | Some n => n | None => "<" +:+ pretty v +:+ ">" end)) <=? 38)%nat)
        (map Z.of_nat (seq 0 16)) = true) by (vm_compute; reflexivity).
    rewrite forallb_forall in Hc.
    specialize (Hc (Z.land z 15)). rewrite in_map_iff in Hc.
    assert (Hin : exists x, Z.of_nat x = Z.land z 15 /\ In x (seq 0 16)).
    { exists (Z.to_nat (Z.land z 15)). split; [lia|]. apply in_seq. lia. }
    specialize (Hc Hin). apply Nat.leb_le in Hc.
    destruct (assoc_z socktype_names (Z.land z 15)) as [n|]; eexists; (split; [reflexivity|exact Hc]). }
  destruct H1 as (n & -> & Hn). rewrite arr_len, total_map.
  destruct (0 <? Z.land (Z.land z (Z.lnot 15)) SOCK_CLOEXEC);
    destruct (0 <? Z.land (Z.land z (Z.lnot 15)) SOCK_NONBLOCK);
    cbn [app map length sum_list_with]; rewrite ?map_length; cbn [length];
    change (length (qs "SOCK_CLOEXEC")) with 14%nat in *;
    change (length (qs "SOCK_NONBLOCK")) with 15%nat in *; lia.
Qed.

Definition option_b : nat := maxl (map name_b [so_names; tcp_names; ip_names; ip6_names]).

Lemma option_le lv tp : fits tp -> (length (qs (render_option lv tp)) <= option_b)%nat.
Proof.
  intros H. unfold render_option, option_b, maxl. cbn [map foldr].
  pose proof (render_le so_names tp H). pose proof (render_le tcp_names tp H).
  pose proof (render_le ip_names tp H). pose proof (render_le ip6_names tp H).
  pose proof (qs_pretty tp H).
  assert (128 <= name_b so_names)%nat by (unfold name_b; lia).
  repeat case_match; lia.
Qed.

Definition int_b (nr : Z) (name : string) : nat :=
  match jtype_of nr name with
  | JPlain => 21
  | JFlags c => flag_b c
  | JNames n => name_b n
  | JResource => name_b resource_names
  | JSockType => 160
  | JOption => option_b
  end.

Lemma int_le p args nr name z : (forall l, j_order p l ≡ₚ l) -> fits z ->
  (length (int_text p args nr name z) <= int_b nr name)%nat.
Proof.
  intros Ho H. unfold int_text, int_b. destruct (jtype_of nr name) as [|c|n| | |].
  - apply num_fits, H.
  - apply flags_le, Ho.
  - apply render_le, H.
  - apply render_le, H.
  - apply socktype_le.
  - apply option_le, H.
Qed.

(** * Socket addresses *)

Lemma nth_byte i l : bytes l -> 0 <= nth i l 0 < 256.
Proof.
  intros H. destruct (Nat.lt_ge_cases i (length l)) as [Hi|Hi].
  - unfold bytes in H. rewrite Forall_forall in H. apply H. apply elem_of_list_In. apply nth_In. exact Hi.
  - rewrite nth_overflow by lia. lia.
Qed.

Lemma pretty_small z k : (1 <= k)%nat -> - 10 ^ Z.of_nat k < z < 10 ^ Z.of_nat k ->
  (String.length (pretty z) <= S k)%nat.
Proof. intros Hk H. pose proof (num_len z k Hk H). unfold num in *. rewrite txt_len in *. exact H0. Qed.

Lemma slen_app a b : String.length (a +:+ b) = (String.length a + String.length b)%nat.
Proof. induction a as [|c a IH]; [reflexivity|]. exact (f_equal S IH). Qed.
Lemma slen_app' a b : String.length (a ++ b)%string = (String.length a + String.length b)%nat.
Proof. induction a as [|c a IH]; [reflexivity|]. exact (f_equal S IH). Qed.

Lemma sob_len bs : String.length (string_of_bytes bs) = length bs.
Proof. induction bs as [|b bs IH]; [reflexivity|]. exact (f_equal S IH). Qed.

Lemma join_len l : Forall (fun z => - 128 <= z <= 128) l ->
  (String.length (join_ints l) <= 5 * length l)%nat.
Proof.
  induction 1 as [|x l Hx Hl IH]; [cbn; lia|].
  assert (Hp : (String.length (pretty x) <= 4)%nat) by (apply (pretty_small x 3); lia).
  destruct l as [|y l]; [cbn [join_ints length]; lia|].
  change (join_ints (x :: y :: l)) with (pretty x ++ " " ++ join_ints (y :: l))%string.
  rewrite !slen_app'. cbn [length String.length] in *. lia.
Qed.

Lemma le_two bs : bytes bs -> 0 <= le (take 2 bs) < 65536.
Proof.
  intros H. destruct bs as [|a [|b t]]; cbn [take le].
  - lia.
  - inversion H; subst. lia.
  - inversion H as [|? ? H1 H2]; subst. inversion H2; subst. cbv beta in *.
    change (take 0 t) with (@nil Z). cbn [le]. lia.
Qed.

Lemma cstring_len mem n : (length (make_cstring mem n) <= n)%nat.
Proof. unfold make_cstring. rewrite !take_length. lia. Qed.

Lemma bytes_drop n l : bytes l -> bytes (drop n l).
Proof. unfold bytes. apply Forall_drop. Qed.
Lemma bytes_take n l : bytes l -> bytes (take n l).
Proof. unfold bytes. apply Forall_take. Qed.

Lemma sockaddr_len mem : bytes mem -> (String.length (sockaddr_string mem) <= 122)%nat.
Proof.
  intros H. unfold sockaddr_string, parse_sockaddr. cbv zeta.
  assert (Hport : forall z, 0 <= z < 65536 -> (String.length (pretty z) <= 6)%nat)
    by (intros z Hz; apply (pretty_small z 5); lia).
  assert (Hb : forall i, (String.length (pretty (nth i mem 0%Z)) <= 4)%nat)
    by (intros i; pose proof (nth_byte i mem H); apply (pretty_small _ 3); lia).
  assert (Hx : forall i, String.length (hex_pair mem i) = 4%nat)
    by (intros i; reflexivity).
  pose proof (le_two mem H) as Hf. pose proof (le_two (drop 2 mem) (bytes_drop 2 mem H)) as Hp.
  destruct (le (take 2 mem) =? AF_INET).
  { rewrite !slen_app'. pose proof (Hb 4%nat). pose proof (Hb 5%nat). pose proof (Hb 6%nat).
    pose proof (Hb 7%nat).
    assert (0 <= ntohs (le (take 2 (drop 2 mem))) < 65536).
    { unfold ntohs. set (w := le (take 2 (drop 2 mem))) in *. cbn.
      pose proof (Z.mod_pos_bound (w / 256) 256). pose proof (Z.mod_pos_bound w 256). lia. }
    pose proof (Hport _ H4). cbn [String.length]. lia. }
  destruct (le (take 2 mem) =? AF_INET6).
  { rewrite !slen_app', !Hx. pose proof (Hport _ Hp). cbn [String.length]. lia. }
  destruct (le (take 2 mem) =? AF_UNIX).
  { rewrite !slen_app', sob_len. pose proof (cstring_len (drop 2 mem) 108).
    change (String.length (pretty 0)) with 1%nat. cbn [String.length]. lia. }
  destruct (le (take 2 mem) =? AF_UNSPEC).
  { rewrite !slen_app'.
    assert (Hj : (String.length (join_ints (map s8 (take 14 (drop 2 mem)))) <= 5 * 14)%nat).
    { eapply Nat.le_trans; [apply join_len|rewrite map_length, take_length; lia].
      apply Forall_map. eapply Forall_impl; [apply bytes_take, bytes_drop, H|].
      intros b Hb'. cbn in Hb'. unfold s8. case_match; lia. }
    change (String.length (pretty 0)) with 1%nat. cbn [String.length]. lia. }
  rewrite !slen_app'. pose proof (Hport _ Hf). change (String.length (pretty 0)) with 1%nat.
  cbn [String.length]. lia.
Qed.

Lemma sock_le mem : bytes mem -> (length (sock_text mem) <= 850)%nat.
Proof.
  intros H. unfold sock_text. rewrite obj_len. cbn [sum_list_with length].
  unfold entry_len. cbn [fst snd].
  assert (H1 : (length (num (le (take 2 mem))) <= 6)%nat)
    by (pose proof (le_two mem H); apply (num_len _ 5); lia).
  assert (H2 : (length (arr (map (fun b => num (s8 b)) (take 14 (drop 2 mem)))) <= 72)%nat).
  { rewrite arr_len, total_map, map_length.
    assert (Hs : (sum_list_with (fun b => length (num (s8 b))) (take 14 (drop 2 mem))
             <= 4 * length (take 14 (drop 2 mem)))%nat).
    { assert (Hb : bytes (take 14 (drop 2 mem))) by apply bytes_take, bytes_drop, H.
      induction Hb as [|b l Hb Hl IH]; [cbn; lia|]. cbn [sum_list_with length].
      assert ((length (num (s8 b)) <= 4)%nat); [|lia].
      apply (num_len _ 3); [lia|]. unfold s8. case_match; lia. }
    rewrite take_length in *. lia. }
  pose proof (qs_le _ _ (sockaddr_len mem H)) as H3.
  change (length (qs "Family")) with 8%nat. change (length (qs "Data")) with 6%nat.
  change (length (qs "decoded")) with 9%nat. lia.
Qed.

(** * Members *)

Lemma s64_bound v : - 2 ^ 63 <= s64 v < 2 ^ 63.
Proof.
  unfold s64. cbv zeta. pose proof (Z.mod_pos_bound v (2 ^ 64) ltac:(lia)).
  destruct (v mod 2 ^ 64 <? 2 ^ 63) eqn:E; [apply Z.ltb_lt in E|apply Z.ltb_ge in E]; lia.
Qed.

Lemma vint_fits (o : option Z) v : (forall z, o = Some z -> fits z) -> vint o = Some v ->
  exists z, v = VInt z /\ fits z.
Proof.
  destruct o as [z|]; [|discriminate]. intros H E. exists z.
  assert (v = VInt z) by (unfold vint in E; congruence). split; [assumption|]. apply H. reflexivity.
Qed.

Lemma c32_fits args off z : c32 args off = Some z -> fits z.
Proof.
  unfold c32. destruct (read_bytes args off 4) as [bs|]; [|discriminate]. intros E.
  assert (z = s32 (le bs)) as -> by congruence. pose proof (s32_bound (le bs)). unfold fits. lia.
Qed.
Lemma cu32_fits args off z : cu32 args off = Some z -> fits z.
Proof.
  unfold cu32. destruct (read_bytes args off 4) as [bs|]; [|discriminate]. intros E.
  assert (z = u32 (le bs)) as -> by congruence. unfold u32, fits.
  pose proof (Z.mod_pos_bound (le bs) (2 ^ 32)). lia.
Qed.
Lemma c64_fits args off z : c64 args off = Some z -> fits z.
Proof.
  unfold c64. destruct (read_bytes args off 8) as [bs|]; [|discriminate]. intros E.
  assert (z = s64 (le bs)) as -> by congruence. pose proof (s64_bound (le bs)). unfold fits. lia.
Qed.
Lemma cu64_fits args off z : cu64 args off = Some z -> fits z.
Proof.
  unfold cu64. destruct (read_bytes args off 8) as [bs|]; [|discriminate]. intros E.
  assert (z = u64 (le bs)) as -> by congruence. unfold u64, fits.
  pose proof (Z.mod_pos_bound (le bs) (2 ^ 64)). lia.
Qed.

(** [sb] bounds the escaped strings. *)
Definition member_b (sb : nat) (nr : Z) (f : field) : nat :=
  match f_kind f with
  | KS32 | KU32 | KS64 | KU64 | KUnset => int_b nr (f_name f)
  | KStr => 2 + sb
  | KSlice n => 2 + 4 * ((n + 2) / 3)
  | KSliceMin _ => 174
  | KSliceMax _ => 1370
  | KSock => 850
  | _ => 640
  end.

Lemma slice_le p args off z n : (Z.to_nat z <= n)%nat ->
  (length (([34] ++ b64 (take (Z.to_nat z) (drop off args ++ j_heap p)) ++ [34])%Z)
   <= 2 + 4 * ((n + 2) / 3))%nat.
Proof.
  intros H. rewrite !app_length, (b64_len _ _ (Nat.le_refl _)), take_length. cbn [length].
  assert (forall a b : nat, (a <= b)%nat -> ((a + 2) / 3 <= (b + 2) / 3)%nat) as Hm
    by (intros a b Hab; apply Nat.div_le_mono; lia).
  specialize (Hm (Nat.min (Z.to_nat z) (length (drop off args ++ j_heap p))) n ltac:(lia)). lia.
Qed.

Lemma obj1_len e : length (obj [e]) = (2 + entry_len e)%nat.
Proof. rewrite obj_len. cbn [sum_list_with length]. lia. Qed.

Lemma s64_len bs off : (length (s64_at bs off) <= 21)%nat.
Proof. apply num_fits. pose proof (s64_bound (le (take 8 (drop off bs)))). unfold fits. lia. Qed.
Lemma u64_len bs off : (length (u64_at bs off) <= 21)%nat.
Proof. apply num_fits. unfold u64, fits. pose proof (Z.mod_pos_bound (le (take 8 (drop off bs))) (2 ^ 64) ltac:(lia)). lia. Qed.
Lemma s32_len bs off : (length (s32_at bs off) <= 21)%nat.
Proof. apply num_fits. pose proof (s32_bound (le (take 4 (drop off bs)))). unfold fits. lia. Qed.
Lemma u32_len bs off : (length (u32_at bs off) <= 21)%nat.
Proof. apply num_fits. unfold u32, fits. pose proof (Z.mod_pos_bound (le (take 4 (drop off bs))) (2 ^ 32) ltac:(lia)). lia. Qed.

Lemma timespec_len a b : (length a <= 21)%nat -> (length b <= 21)%nat -> (length (timespec_text a b) <= 58)%nat.
Proof.
  intros Ha Hb. unfold timespec_text. rewrite obj_len. unfold entry_len. cbn [sum_list_with fst snd length].
  change (length (qs "Sec")) with 5%nat. change (length (qs "Nsec")) with 6%nat. lia.
Qed.
Lemma timespec_at_len bs off : (length (timespec_at bs off) <= 58)%nat.
Proof. apply timespec_len; apply s64_len. Qed.

Lemma struct_len nr bs : (length (struct_text nr bs) <= 640)%nat.
Proof.
  unfold struct_text, rlimit_text, itimerspec_text, stat_text.
  destruct (nr =? 302); [|destruct (nr =? 286)]; rewrite obj_len; unfold entry_len; cbn [sum_list_with fst snd length];
    repeat match goal with |- context [length (qs ?k)] =>
      let v := eval vm_compute in (length (qs k)) in change (length (qs k)) with v end.
  - pose proof (u64_len bs 0). pose proof (u64_len bs 8). lia.
  - pose proof (timespec_at_len bs 0). pose proof (timespec_at_len bs 16). lia.
  - rewrite arr_len. unfold total. cbn [sum_list_with length].
    pose proof (u64_len bs 0). pose proof (u64_len bs 8). pose proof (u64_len bs 16). pose proof (u32_len bs 24).
    pose proof (u32_len bs 28). pose proof (u32_len bs 32). pose proof (s32_len bs 36). pose proof (u64_len bs 40).
    pose proof (s64_len bs 48). pose proof (s64_len bs 56). pose proof (s64_len bs 64).
    pose proof (timespec_at_len bs 72). pose proof (timespec_at_len bs 88). pose proof (timespec_at_len bs 104).
    pose proof (s64_len bs 120). pose proof (s64_len bs 128). pose proof (s64_len bs 136). lia.
Qed.

Lemma addrs_len p slot : (length (timespec_text (slot_address p slot) (slot_address p (S slot))) <= 640)%nat.
Proof.
  pose proof (timespec_len (slot_address p slot) (slot_address p (S slot))) as H.
  assert (Hs : forall s, (length (slot_address p s) <= 21)%nat).
  { intros s. apply num_fits. pose proof (s64_bound (j_base p + Z.of_nat (slot_start s))). unfold fits. lia. }
  specialize (H (Hs _) (Hs _)). lia.
Qed.

Lemma member_le p sb args nr f v :
  (forall l, j_order p l ≡ₚ l) -> bytes args -> bytes (j_heap p) ->
  decode_field args f = Some v ->
  (forall off z, v = VSlice off z -> z <= 1024) ->
  (forall bs, v = VStr bs -> (length (esc bs) <= sb)%nat) ->
  (length (member_text p args nr (f_name f) v) <= member_b sb nr f)%nat.
Proof.
  intros Ho Hb Hh Hd Hm Hstr. unfold decode_field in Hd. unfold member_b in *.
  destruct (f_kind f) as [| | | | |n|cnt|l| |n|n| |].
  - destruct (vint_fits _ _ (fun z => c32_fits args _ z) Hd) as (z & -> & Hz). apply int_le; assumption.
  - destruct (vint_fits _ _ (fun z => cu32_fits args _ z) Hd) as (z & -> & Hz). apply int_le; assumption.
  - destruct (vint_fits _ _ (fun z => c64_fits args _ z) Hd) as (z & -> & Hz). apply int_le; assumption.
  - destruct (vint_fits _ _ (fun z => cu64_fits args _ z) Hd) as (z & -> & Hz). apply int_le; assumption.
  - destruct (read_bytes args _ arg_len) as [bs|]; [|discriminate].
    assert (E : v = VStr (make_cstring bs arg_len)) by congruence. specialize (Hstr _ E).
    rewrite E. cbn [member_text]. rewrite quote_len. lia.
  - assert (E : v = VSlice (slot_start (f_slot f)) (Z.of_nat n)) by congruence. rewrite E.
    cbn [member_text]. apply slice_le. lia.
  - destruct (c64 args (slot_start cnt)) as [c|] eqn:Ec; [|discriminate].
    assert (E : v = VSlice (slot_start (f_slot f)) (if c <? Z.of_nat arg_len then c else Z.of_nat arg_len))
      by congruence. rewrite E. cbn [member_text].
    change 174%nat with (2 + 4 * ((128 + 2) / 3))%nat. apply slice_le.
    destruct (c <? Z.of_nat arg_len) eqn:E2; [apply Z.ltb_lt in E2; unfold arg_len in E2; lia|unfold arg_len; lia].
  - destruct (c64 args (slot_start l)) as [c|] eqn:Ec; [|discriminate].
    assert (E : v = VSlice (slot_start (f_slot f)) (if Z.of_nat arg_len <? c then c else Z.of_nat arg_len))
      by congruence. specialize (Hm _ _ E). rewrite E. cbn [member_text].
    change 1370%nat with (2 + 4 * ((1024 + 2) / 3))%nat. apply slice_le. lia.
  - assert (E : v = VSock (slot_start (f_slot f))) by congruence. rewrite E. cbn [member_text].
    apply sock_le. unfold bytes. apply Forall_app. split; [apply bytes_drop; exact Hb|exact Hh].
  - assert (E : v = VPtr (slot_start (f_slot f)) n) by congruence. rewrite E. apply struct_len.
  - destruct (read_bytes args _ n) as [bs|]; [|discriminate].
    assert (E : v = VCopy bs) by congruence. rewrite E. apply struct_len.
  - assert (E : v = VAddrs (f_slot f)) by congruence. rewrite E. apply addrs_len.
  - assert (E : v = VInt 0) by congruence. rewrite E. apply int_le; [assumption|unfold fits; lia].
Qed.

(** * Structs *)

Definition named_field (fs : list field) (m : string) : option field :=
  List.find (fun f => String.eqb (f_name f) m) fs.

Lemma named_of args fs : forall vs m v, decode_fields args fs = Some vs ->
  named_value fs vs m = Some v ->
  exists f, named_field fs m = Some f /\ f_name f = m /\ decode_field args f = Some v /\ v ∈ vs.
Proof.
  induction fs as [|f fs IH]; intros vs m v Hd Hv; [destruct vs; discriminate|].
  cbn [decode_fields] in Hd.
  destruct (decode_field args f) as [w|] eqn:Ef; [|discriminate].
  destruct (decode_fields args fs) as [ws|] eqn:Es; [|discriminate].
  assert (vs = w :: ws) as -> by congruence. cbn [named_value] in Hv. unfold named_field. cbn [List.find].
  destruct (String.eqb (f_name f) m) eqn:En.
  - exists f. apply String.eqb_eq in En. assert (w = v) as -> by congruence.
    repeat split; [exact En|exact Ef|left].
  - destruct (IH ws m v eq_refl Hv) as (g & H1 & H2 & H3 & H4). exists g.
    repeat split; [exact H1|exact H2|exact H3|right; exact H4].
Qed.

Definition at_b (sb : nat) (nr : Z) (fs : list field) (m : string) : nat :=
  match named_field fs m with Some f => member_b sb nr f | None => 0 end.

Definition jfield_b (sb : nat) (nr : Z) (fs : list field) (j : jfield) : nat :=
  match j with
  | JOf n m => length (qs n) + 1 + at_b sb nr fs m
  | JZero n => length (qs n) + 1 + 1
  | JWords n ms => length (qs n) + 1 + (2 + (sum_list_with (at_b sb nr fs) ms + 2) + length ms)
  end.

Definition args_b (sb : nat) (nr : Z) : nat :=
  match List.find (fun e => fst (fst e) =? nr) json_structs, decoder nr with
  | Some (_, nest, js), Some fs =>
      let o := (2 + sum_list_with (jfield_b sb nr fs) js + (length js - 1))%nat in
      match nest with Some n => (2 + (length (qs n) + 1 + o) + 0)%nat | None => o end
  | _, _ => 0%nat
  end.

Lemma sum_le {A} (f g : A -> nat) l : (forall a, a ∈ l -> (f a <= g a)%nat) ->
  (sum_list_with f l <= sum_list_with g l)%nat.
Proof.
  induction l as [|a l IH]; intros H; [cbn; lia|]. cbn [sum_list_with].
  assert ((f a <= g a)%nat) by (apply H; left).
  assert ((sum_list_with f l <= sum_list_with g l)%nat) by (apply IH; intros b Hb; apply H; right; exact Hb).
  lia.
Qed.

Lemma args_le p sb args nr fs vs a :
  (forall l, j_order p l ≡ₚ l) -> bytes args -> bytes (j_heap p) ->
  decoder nr = Some fs -> decode_fields args fs = Some vs ->
  (forall off z, VSlice off z ∈ vs -> z <= 1024) ->
  (forall bs, VStr bs ∈ vs -> (length (esc bs) <= sb)%nat) ->
  args_text p args nr vs = Some a -> (length a <= args_b sb nr)%nat.
Proof.
  intros Ho Hb Hh Hd Hv Hm Hstr Ha. unfold args_text, args_b in *. rewrite Hd in *.
  destruct (List.find (fun e => fst (fst e) =? nr) json_structs) as [[[k nest] js]|]; [|discriminate].
  destruct (negb (forallb (slice_ok p args) vs)); [discriminate|].
  assert (Hat : forall m, (length (match named_value fs vs m with
                   Some v => member_text p args nr m v | None => [] end) <= at_b sb nr fs m)%nat).
  { intros m. destruct (named_value fs vs m) as [v|] eqn:En; [|cbn; lia].
    destruct (named_of args fs vs m v Hv En) as (f & Hf & Hn & Hdf & Hin).
    unfold at_b. rewrite Hf, <- Hn. apply member_le; try assumption.
    - intros off z ->. apply (Hm off), Hin.
    - intros bs ->. apply Hstr, Hin. }
  assert (Hobj : (length (obj (map (field_text p args nr fs vs) js))
                  <= 2 + sum_list_with (jfield_b sb nr fs) js + (length js - 1))%nat).
  { rewrite obj_len, map_length, sum_map.
    assert ((sum_list_with (fun j => entry_len (field_text p args nr fs vs j)) js
             <= sum_list_with (jfield_b sb nr fs) js)%nat); [|lia].
    apply sum_le. intros j _. unfold entry_len. destruct j as [n m|n|n ms]; cbn [field_text fst snd jfield_b].
    - specialize (Hat m). lia.
    - change (length (num 0)) with 1%nat. lia.
    - rewrite arr_len. unfold total. rewrite app_length, map_length, sum_list_with_app, sum_map.
      change (sum_list_with length [quote []]) with 2%nat. cbn [length].
      assert ((sum_list_with (fun m => length (match named_value fs vs m with
                   Some v => member_text p args nr m v | None => [] end)) ms
               <= sum_list_with (at_b sb nr fs) ms)%nat) by (apply sum_le; intros m _; apply Hat).
      lia. }
  destruct nest as [n|].
  - assert (a = obj [(n, obj (map (field_text p args nr fs vs) js))]) as -> by congruence.
    rewrite obj_len. cbn [sum_list_with length]. unfold entry_len. cbn [fst snd]. lia.
  - assert (a = obj (map (field_text p args nr fs vs) js)) as -> by congruence. exact Hobj.
Qed.

Definition check_b (sb lim : nat) : bool :=
  forallb (fun d => (args_b sb (fst (fst d)) <=? lim)%nat) decoders.

Lemma plain_check : check_b 128 1500 = true.
Proof. vm_compute. reflexivity. Qed.
Lemma worst_check : check_b 768 3110 = true.
Proof. vm_compute. reflexivity. Qed.

Lemma decoder_in nr fs : decoder nr = Some fs -> exists d, In d decoders /\ fst (fst d) = nr /\ snd d = fs.
Proof.
  intros Hd. unfold decoder in Hd.
  destruct (List.find (fun e => fst (fst e) =? nr) decoders) as [d|] eqn:E; [|discriminate].
  apply find_some in E. destruct E as [Hin Hk]. apply Z.eqb_eq in Hk.
  exists d. split; [exact Hin|]. split; [exact Hk|congruence].
Qed.

Lemma checked sb lim nr fs : check_b sb lim = true -> decoder nr = Some fs -> (args_b sb nr <= lim)%nat.
Proof.
  intros Hc Hd. unfold check_b in Hc. rewrite forallb_forall in Hc.
  destruct (decoder_in _ _ Hd) as (d & Hin & <- & _). apply Nat.leb_le, (Hc _ Hin).
Qed.

(** * The rest of the message *)

Definition sc_check : bool :=
  forallb (fun d => (length (syscall_text (lookup_sc table (ByInt (fst (fst d))))) <=? 120)%nat) decoders.

Lemma sc_checked : sc_check = true.
Proof. vm_compute. reflexivity. Qed.

Lemma syscall_le tbl nr fs : go_table tbl -> decoder nr = Some fs ->
  (length (syscall_text (lookup_sc tbl (ByInt nr))) <= 120)%nat.
Proof.
  intros Ht Hd. rewrite (go_table_eq _ Ht). pose proof sc_checked as Hc. unfold sc_check in Hc.
  rewrite forallb_forall in Hc. destruct (decoder_in _ _ Hd) as (d & Hin & <- & _).
  apply Nat.leb_le, (Hc _ Hin).
Qed.

Lemma errno_le e : (length (qs (errno_to_string e)) <= 20)%nat.
Proof.
  unfold errno_to_string. destruct (assoc_z errno_names e) as [s|] eqn:E; [|vm_compute; lia].
  assert (H : (forall p, In p errno_names -> (length (qs (snd p)) <= 20)%nat)).
  { assert (Hf : forallb (fun p => (length (qs (snd p)) <=? 20)%nat) errno_names = true)
      by (vm_compute; reflexivity).
    rewrite forallb_forall in Hf. intros p Hp. apply Nat.leb_le, Hf, Hp. }
  assert (Hi : exists k, In (k, s) errno_names).
  { clear H. revert E. generalize errno_names as l. induction l as [|[k w] l IH]; [discriminate|].
    cbn [assoc_z]. destruct (k =? e) eqn:Ek.
    - intros E2. exists k. left. congruence.
    - intros E2. destruct (IH E2) as [k' Hk]. exists k'. right. exact Hk. }
  destruct Hi as [k Hk]. exact (H _ Hk).
Qed.

Record numbers_fit (t : trace_event) : Prop := {
  nf_pid : fits (t_pid t); nf_tid : fits (t_tid t); nf_cpid : fits (t_cpid t);
  nf_uid : fits (t_uid t); nf_gid : fits (t_gid t); nf_sid : fits (t_sid t);
  nf_ret : fits (t_return t); nf_pidns : fits (t_pid_ns t); nf_uts : fits (t_uts_ns t);
  nf_mnt : fits (t_mnt_ns t); nf_start : fits (t_start t); nf_finish : fits (t_finish t);
  nf_comm : (length (t_comm t) <= 16)%nat }.

Lemma message_le p tbl c args t a msg :
  go_table tbl -> is_Some (decoder (t_syscall t)) -> numbers_fit t ->
  args_text p args (t_syscall t) (t_argv t) = Some a ->
  message p (lookup_sc tbl (ByInt (t_syscall t))) c args t = Some msg ->
  (length msg <= 700 + length (container_text c) + length a)%nat.
Proof.
  intros Ht [fs Hd] F Ha Hm. unfold message in Hm. rewrite Ha in Hm. apply Some_inj in Hm.
  rewrite <- Hm, app_length, obj_len. clear Hm.
  pose proof (syscall_le tbl _ fs Ht Hd) as Hsc. pose proof (errno_le (t_error t)) as He.
  destruct F as [F1 F2 F3 F4 F5 F6 F7 F8 F9 F10 F11 F12 Fc].
  apply num_fits in F1, F2, F3, F4, F5, F6, F7, F8, F9, F10, F11, F12.
  pose proof (esc_len _ (t_comm t) (Nat.le_refl _)) as Hcm.
  assert (Hq := quote_len (t_comm t)).
  cbn [sum_list_with length entry_len fst snd]. unfold entry_len. cbn [fst snd].
  change (length (qs "syscall")) with 9%nat. change (length (qs "pid")) with 5%nat.
  change (length (qs "tid")) with 5%nat. change (length (qs "container_pid")) with 15%nat.
  change (length (qs "uid")) with 5%nat. change (length (qs "gid")) with 5%nat.
  change (length (qs "comm")) with 6%nat. change (length (qs "session")) with 9%nat.
  change (length (qs "container")) with 11%nat. change (length (qs "error")) with 7%nat.
  change (length (qs "return")) with 8%nat. change (length (qs "pid_ns")) with 8%nat.
  change (length (qs "uts_ns")) with 8%nat. change (length (qs "mount_ns")) with 10%nat.
  change (length (qs "start")) with 7%nat. change (length (qs "finish")) with 8%nat.
  change (length (qs "args")) with 6%nat. lia.
Qed.

Lemma commstr_len r : (length (commstr r) <= length (r_comm r))%nat.
Proof. unfold commstr. rewrite take_length. lia. Qed.

Lemma ingested bs t : bytes bs -> ingest (InBytes bs) = Ingested t ->
  exists r fs, ingest_bytes bs = Some r /\ bytes (r_args r) /\ length (r_args r) = 640%nat /\
    decoder (t_syscall t) = Some fs /\
    decode_fields (r_args r) fs = Some (t_argv t) /\ numbers_fit t.
Proof.
  intros Hb Hi. unfold ingest in Hi.
  destruct (ingest_bytes bs) as [r|] eqn:Er; [|discriminate].
  destruct (decode_syscall (r_syscall r) (r_args r)) as [[argv|]|] eqn:Ed; [|discriminate..].
  assert (Ht : t = TraceEvent (r_syscall r) (r_pid r) (r_tid r) (r_ns_pid r) (r_uid r) (r_gid r)
    (commstr r) (r_session r) (r_errno r) (r_ret r) (r_pid_ns r) (r_uts_ns r) (r_mnt_ns r)
    (s64 (r_start r)) (s64 (r_finish r)) argv) by congruence.
  unfold decode_syscall in Ed. destruct (decoder (r_syscall r)) as [fs|] eqn:Edec; [|discriminate].
  destruct (decode_fields (r_args r) fs) as [vs|] eqn:Ef; [|discriminate].
  assert (vs = argv) as -> by congruence. clear Ed Hi.
  exists r, fs. split; [reflexivity|].
  unfold ingest_bytes in Er. destruct (length bs <? swoll_event_size)%nat eqn:El; [discriminate|].
  apply Nat.ltb_ge in El. unfold take_le in Er. cbv beta iota zeta in Er.
  rewrite !drop_drop in Er. apply Some_inj in Er.
  pose proof (commstr_len r) as Hc.
  change swoll_event_size with 736%nat in El.
  assert (B : forall n o, (n <= 8)%nat -> (o + n <= 736)%nat -> fits (le (take n (drop o bs)))).
  { intros n o Hn Ho. pose proof (le_take_bound n (drop o bs) ltac:(apply Forall_drop, Hb)
      ltac:(rewrite drop_length; lia)) as HB.
    assert (256 ^ Z.of_nat n <= 256 ^ 8) by (apply Z.pow_le_mono_r; lia).
    change (256 ^ 8) with (2 ^ 64) in *. unfold fits. lia. }
  pose proof (B 4%nat 0%nat ltac:(lia) ltac:(lia)) as B0. rewrite drop_0 in B0.
  assert (Hs : forall z, fits (s64 z)) by (intros z; pose proof (s64_bound z); unfold fits; lia).
  assert (Hs4 : forall z, fits (s32 z)) by (intros z; pose proof (s32_bound z); unfold fits; lia).
  split; [|split; [|split; [|split]]].
  - rewrite <- Er. cbn [r_args]. apply Forall_take, Forall_drop, Hb.
  - rewrite <- Er. cbn [r_args]. rewrite take_length, drop_length. lia.
  - rewrite Ht. exact Edec.
  - rewrite Ht. exact Ef.
  - rewrite Ht. split; cbn [t_pid t_tid t_cpid t_uid t_gid t_sid t_return t_pid_ns t_uts_ns t_mnt_ns
      t_start t_finish t_comm]; try apply Hs;
      try (eapply Nat.le_trans; [exact Hc|]);
      rewrite <- Er; cbn [r_pid r_tid r_ns_pid r_uid r_gid r_session r_ret r_pid_ns r_uts_ns r_mnt_ns r_comm];
      try apply Hs4; try exact B0; try (apply B; lia).
    rewrite take_length. lia.
Qed.

Lemma cstring_le128 args fs : forall vs bs, decode_fields args fs = Some vs -> VStr bs ∈ vs ->
  (length bs <= 128)%nat.
Proof.
  induction fs as [|f fs IH]; intros vs bs Hd Hin.
  { assert (vs = []) as -> by (cbn in Hd; congruence). inversion Hin. }
  cbn [decode_fields] in Hd.
  destruct (decode_field args f) as [w|] eqn:Ef; [|discriminate].
  destruct (decode_fields args fs) as [ws|] eqn:Es; [|discriminate].
  assert (vs = w :: ws) as -> by congruence.
  apply elem_of_cons in Hin. destruct Hin as [E|Hin]; [|exact (IH ws bs eq_refl Hin)].
  rewrite <- E in Ef. unfold decode_field in Ef.
  assert (Hvi : forall o, vint o <> Some (VStr bs)) by (intros [z|]; cbn; congruence).
  destruct (f_kind f) as [| | | | |n|cnt|k| |n|n| |]; try (exfalso; exact (Hvi _ Ef)); try discriminate.
  - destruct (read_bytes args _ arg_len) as [l|]; [|discriminate].
    assert (bs = make_cstring l arg_len) as -> by congruence. unfold make_cstring.
    rewrite !take_length. unfold arg_len. lia.
  - destruct (c64 args (slot_start cnt)); discriminate.
  - destruct (c64 args (slot_start k)); discriminate.
  - destruct (read_bytes args _ n); discriminate.
Qed.

(** A message is at most this long. *)
Lemma ingested_le sb lim p tbl c bs t r msg :
  check_b sb lim = true ->
  (forall l, j_order p l ≡ₚ l) -> bytes (j_heap p) ->
  go_table tbl -> bytes bs -> ingest (InBytes bs) = Ingested t -> ingest_bytes bs = Some r ->
  (forall off z, VSlice off z ∈ t_argv t -> z <= 1024) ->
  (forall s, VStr s ∈ t_argv t -> (length (esc s) <= sb)%nat) ->
  message p (lookup_sc tbl (ByInt (t_syscall t))) c (r_args r) t = Some msg ->
  (length msg <= 700 + lim + length (container_text c))%nat.
Proof.
  intros Hc Ho Hh Ht Hb Hi Hr Hm Hstr Hmsg.
  destruct (ingested bs t Hb Hi) as (r' & fs & Hr' & Hba & _ & Hd & Hv & Hn).
  assert (r' = r) as -> by congruence.
  destruct (args_text p (r_args r) (t_syscall t) (t_argv t)) as [a|] eqn:Ea;
    [|unfold message in Hmsg; rewrite Ea in Hmsg; discriminate].
  pose proof (message_le p tbl c (r_args r) t a msg Ht ltac:(rewrite Hd; eexists; reflexivity) Hn Ea Hmsg).
  pose proof (args_le p sb (r_args r) (t_syscall t) fs (t_argv t) a Ho Hba Hh Hd Hv Hm Hstr Ea).
  pose proof (checked sb lim _ fs Hc Hd). lia.
Qed.

Lemma ingested_strings bs t s : bytes bs -> ingest (InBytes bs) = Ingested t -> VStr s ∈ t_argv t ->
  (length s <= 128)%nat.
Proof.
  intros Hb Hi Hs. destruct (ingested bs t Hb Hi) as (r & fs & _ & _ & _ & _ & Hv & _).
  exact (cstring_le128 _ _ _ _ Hv Hs).
Qed.
