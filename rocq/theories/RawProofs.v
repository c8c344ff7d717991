(** Proofs about event bytes, C strings and socket addresses. *)
From stdpp Require Import base list numbers strings pretty.
From Coq Require Import ZArith Lia Ascii.
From Verif Require Import RawModel RawSpec.

Local Open Scope Z_scope.

(** * Little endian *)

Lemma to_le_length n : forall v, length (to_le n v) = n.
Proof. induction n as [|n IH]; intros v; [done|]. cbn. by rewrite IH. Qed.

Lemma le_to_le n : forall v, le (to_le n v) = v mod 256 ^ Z.of_nat n.
Proof.
  induction n as [|n IH]; intros v.
  - cbn. by rewrite Z.mod_1_r.
  - cbn [to_le le]. rewrite IH.
    replace (256 ^ Z.of_nat (S n)) with (256 * 256 ^ Z.of_nat n)
      by (rewrite Nat2Z.inj_succ, Z.pow_succ_r; lia).
    assert (0 < 256 ^ Z.of_nat n) by (apply Z.pow_pos_nonneg; lia).
    rewrite Z.rem_mul_r by lia. lia.
Qed.

Lemma to_le_app n m : forall v,
  to_le (n + m) v = to_le n v ++ to_le m (v / 256 ^ Z.of_nat n).
Proof.
  induction n as [|n IH]; intros v.
  - cbn [plus to_le app]. by rewrite Z.pow_0_r, Z.div_1_r.
  - cbn [plus to_le app]. f_equal. rewrite IH. do 2 f_equal.
    rewrite Z.div_div by (try apply Z.pow_pos_nonneg; lia).
    f_equal. rewrite Nat2Z.inj_succ, Z.pow_succ_r by lia. lia.
Qed.

Lemma le_bound bs : Forall is_byte bs -> 0 <= le bs < 256 ^ Z.of_nat (length bs).
Proof.
  induction bs as [|b bs IH]; intros H; [cbn; lia|].
  apply Forall_cons in H as [Hb H]. destruct (IH H) as [L U].
  cbn [le length]. rewrite Nat2Z.inj_succ, Z.pow_succ_r by lia.
  unfold is_byte in Hb. lia.
Qed.

Lemma to_le_bytes n : forall v, Forall is_byte (to_le n v).
Proof.
  induction n as [|n IH]; intros v; [constructor|]. cbn. constructor; [|apply IH].
  unfold is_byte. apply Z.mod_pos_bound. lia.
Qed.

Lemma to_le_le bs : Forall is_byte bs -> to_le (length bs) (le bs) = bs.
Proof.
  induction bs as [|b bs IH]; intros H; [done|].
  apply Forall_cons in H as [Hb H]. unfold is_byte in Hb.
  cbn [length to_le le]. f_equal.
  - rewrite (Z.mul_comm 256), Z.mod_add by lia. by apply Z.mod_small.
  - rewrite (Z.mul_comm 256), Z.div_add by lia.
    rewrite (Z.div_small b) by lia. rewrite Z.add_0_l. by apply IH.
Qed.

Lemma take_le_app n v rest :
  take_le n (to_le n v ++ rest) = (v mod 256 ^ Z.of_nat n, rest).
Proof.
  unfold take_le.
  rewrite take_app_alt by (by rewrite to_le_length).
  rewrite drop_app_alt by (by rewrite to_le_length).
  by rewrite le_to_le.
Qed.

Lemma s32_small v : - 2 ^ 31 <= v < 2 ^ 31 -> s32 v = v.
Proof.
  intros H. unfold s32.
  destruct (decide (0 <= v)).
  - rewrite Z.mod_small by lia. destruct (Z.ltb_spec v (2 ^ 31)); lia.
  - replace (v mod 2 ^ 32) with (v + 2 ^ 32)
      by (rewrite <- (Z.mod_add v 1), Z.mod_small; lia).
    destruct (Z.ltb_spec (v + 2 ^ 32) (2 ^ 31)); lia.
Qed.

Lemma s32_mod v : s32 (v mod 2 ^ 32) = s32 v.
Proof. unfold s32. by rewrite Z.mod_mod by lia. Qed.

(** * The layout *)

Definition total (l : list nat) : nat := foldr plus 0%nat l.

(** Offsets of chunks that follow each other without holes. *)
Fixpoint run_offsets (o : nat) (sizes : list nat) : list nat :=
  match sizes with
  | [] => []
  | s :: sizes' => o :: run_offsets (o + s) sizes'
  end.

Lemma c_offsets_run :
  c_offsets 0 swoll_event_members = run_offsets 0 (map fst swoll_event_members).
Proof. vm_compute. reflexivity. Qed.

Lemma total_members : total (map fst swoll_event_members) = swoll_event_size.
Proof. vm_compute. reflexivity. Qed.

Lemma write_at_prefix pre bs rest :
  (length bs <= length rest)%nat ->
  write_at (length pre) bs (pre ++ rest) = (pre ++ bs) ++ drop (length bs) rest.
Proof.
  intros H. unfold write_at.
  rewrite take_app. rewrite <- (drop_drop), drop_app. by rewrite (assoc_L (++)).
Qed.

Lemma writes_run chunks : forall pre rest,
  (total (map length chunks) <= length rest)%nat ->
  fold_left (fun buf ob => write_at ob.1 ob.2 buf)
    (zip (run_offsets (length pre) (map length chunks)) chunks) (pre ++ rest)
  = pre ++ concat chunks ++ drop (total (map length chunks)) rest.
Proof.
  induction chunks as [|c chunks IH]; intros pre rest H.
  - cbn. by rewrite drop_0.
  - cbn [map run_offsets concat]. cbn [zip zip_with fold_left fst snd].
    assert (Hs : total (map length (c :: chunks))
                 = (length c + total (map length chunks))%nat) by done.
    rewrite Hs in *. cbn [map] in H.
    rewrite write_at_prefix by lia.
    replace (length pre + length c)%nat with (length (pre ++ c)) by (by rewrite app_length).
    rewrite IH by (rewrite drop_length; lia).
    rewrite drop_drop. by rewrite <- !(assoc_L (++)).
Qed.

Lemma members_length k :
  kernel_event_ok k ->
  map length (member_bytes k) = map fst swoll_event_members.
Proof.
  intros [????????????????? ]. unfold member_bytes. cbn [map].
  rewrite !to_le_length. rewrite ok_comm, ok_args. reflexivity.
Qed.

Lemma kernel_image_eq k scratch :
  kernel_event_ok k -> length scratch = swoll_event_size ->
  kernel_image k scratch = concat (member_bytes k).
Proof.
  intros Hk Hl. unfold kernel_image. rewrite c_offsets_run.
  rewrite <- (members_length k Hk).
  pose proof (writes_run (member_bytes k) [] scratch) as H. cbn [app length] in H.
  rewrite (members_length k Hk), total_members in H.
  rewrite <- (members_length k Hk) in H.
  rewrite H by (rewrite Hl; apply Nat.le_refl).
  rewrite <- Hl, drop_all, app_nil_r. reflexivity.
Qed.

Lemma concat_length (l : list (list Z)) : length (concat l) = total (map length l).
Proof. induction l as [|x l IH]; [done|]. cbn. rewrite app_length, IH. done. Qed.

Lemma kernel_image_length k scratch :
  kernel_event_ok k -> length scratch = swoll_event_size ->
  length (kernel_image k scratch) = swoll_event_size.
Proof.
  intros Hk Hl. rewrite kernel_image_eq, concat_length, members_length by done.
  apply total_members.
Qed.

Lemma split64 v rest :
  0 <= v < 2 ^ 64 ->
  to_le 8 v ++ rest = to_le 4 (v mod 2 ^ 32) ++ to_le 4 (v / 2 ^ 32) ++ rest.
Proof.
  intros H. change 8%nat with (4 + 4)%nat. rewrite to_le_app, <- (assoc_L (++)).
  change (256 ^ Z.of_nat 4) with (2 ^ 32). f_equal.
  set (w := 2 ^ 32).
  assert (Hm : forall n, (n <= 4)%nat ->
            forall a b, a mod 256 ^ Z.of_nat n = b mod 256 ^ Z.of_nat n ->
            to_le n a = to_le n b).
  { clear. induction n as [|n IH]; intros Hn a b E; [done|].
    assert (P : 0 < 256 ^ Z.of_nat n) by (apply Z.pow_pos_nonneg; lia).
    replace (256 ^ Z.of_nat (S n)) with (256 * 256 ^ Z.of_nat n) in E
      by (rewrite Nat2Z.inj_succ, Z.pow_succ_r; lia).
    rewrite !Z.rem_mul_r in E by lia.
    assert (Ha := Z.mod_pos_bound a 256 ltac:(lia)).
    assert (Hb := Z.mod_pos_bound b 256 ltac:(lia)).
    assert (a mod 256 = b mod 256 /\ (a / 256) mod 256 ^ Z.of_nat n
            = (b / 256) mod 256 ^ Z.of_nat n) as [E1 E2] by lia.
    cbn [to_le]. rewrite E1. f_equal. apply IH; [lia|done]. }
  apply (Hm 4%nat); [lia|]. change (256 ^ Z.of_nat 4) with w.
  rewrite Z.mod_mod by (unfold w; lia). done.
Qed.

Lemma ingest_image k scratch trailing :
  kernel_event_ok k -> length scratch = swoll_event_size ->
  ingest_bytes (kernel_image k scratch ++ trailing) = Some (raw_of k).
Proof.
  intros Hk Hl. unfold ingest_bytes.
  assert (E : (length (kernel_image k scratch ++ trailing) <? swoll_event_size)%nat = false).
  { apply Nat.ltb_ge. rewrite app_length, kernel_image_length by done. lia. }
  rewrite E. clear E. rewrite kernel_image_eq by done.
  destruct Hk. unfold member_bytes. cbn [concat]. rewrite <- !(assoc_L (++)).
  rewrite (split64 (k_pid_tid k)) by done.
  rewrite (split64 (k_uid_gid k)) by done.
  do 17 (rewrite take_le_app; cbv iota beta).
  change (256 ^ Z.of_nat 4) with (2 ^ 32). change (256 ^ Z.of_nat 8) with (2 ^ 64).
  rewrite (take_app_alt (k_comm k)) by done.
  rewrite (drop_app_alt (k_comm k)) by done.
  cbn [app]. rewrite (take_app_alt (k_args k)) by done.
  rewrite s32_mod, s32_small by done.
  assert (0 <= k_pid_tid k / 2 ^ 32 < 2 ^ 32).
  { split; [apply Z.div_pos; lia|]. apply Z.div_lt_upper_bound; lia. }
  assert (0 <= k_uid_gid k / 2 ^ 32 < 2 ^ 32).
  { split; [apply Z.div_pos; lia|]. apply Z.div_lt_upper_bound; lia. }
  rewrite !Z.mod_mod by lia. unfold raw_of.
  f_equal. f_equal; first [reflexivity | by apply Z.mod_small].
Qed.

Lemma ingest_short data :
  (length data < swoll_event_size)%nat <-> ingest_bytes data = None.
Proof.
  unfold ingest_bytes. destruct (Nat.ltb_spec (length data) swoll_event_size).
  - done.
  - split; [lia|]. intros D. exfalso. revert D. cbv [take_le]. discriminate.
Qed.

Lemma ingest_image_inj k k' scratch scratch' :
  kernel_event_ok k -> kernel_event_ok k' ->
  length scratch = swoll_event_size -> length scratch' = swoll_event_size ->
  kernel_image k scratch = kernel_image k' scratch' -> k = k'.
Proof.
  intros Hk Hk' L L' E.
  assert (R : Some (raw_of k) = Some (raw_of k')).
  { rewrite <- (ingest_image k scratch [] Hk L), <- (ingest_image k' scratch' [] Hk' L').
    by rewrite E. }
  apply (inj Some) in R. destruct k, k'. unfold raw_of in R. cbn in R.
  injection R. intros. subst.
  match goal with
  | A : ?x / 2 ^ 32 = ?y / 2 ^ 32, B : ?x mod 2 ^ 32 = ?y mod 2 ^ 32,
    C : ?z / 2 ^ 32 = ?w / 2 ^ 32, D : ?z mod 2 ^ 32 = ?w mod 2 ^ 32 |- _ =>
      assert (x = y) by (rewrite (Z.div_mod x (2 ^ 32)), (Z.div_mod y (2 ^ 32)) by lia; lia);
      assert (z = w) by (rewrite (Z.div_mod z (2 ^ 32)), (Z.div_mod w (2 ^ 32)) by lia; lia)
  end. by subst.
Qed.

(** * C strings *)

Lemma nul_count_le bs : (nul_count bs <= length bs)%nat.
Proof.
  induction bs as [|b bs IH]; [done|]. cbn. destruct (Z.eqb b 0); lia.
Qed.

Lemma nul_count_cstring bs : is_cstring bs (take (nul_count bs) bs).
Proof.
  induction bs as [|b bs (P & N & T)].
  - split; [apply prefix_nil|]. split; [apply not_elem_of_nil|]. by left.
  - cbn [nul_count]. destruct (Z.eqb_spec b 0) as [->|Hb].
    + split; [apply prefix_nil|]. split; [apply not_elem_of_nil|]. by right.
    + cbn [take]. split; [by apply prefix_cons|]. split.
      * apply not_elem_of_cons. done.
      * destruct T as [T|T]; [left; by rewrite T|right; exact T].
Qed.

Lemma is_cstring_unique bs s s' : is_cstring bs s -> is_cstring bs s' -> s = s'.
Proof.
  intros ((r & P) & N & T) ((r' & P') & N' & T').
  assert (Hlt : forall u v ru rv : list Z, bs = u ++ ru -> bs = v ++ rv -> 0 ∉ v ->
            (u = bs \/ bs !! length u = Some 0) -> (length v <= length u)%nat).
  { clear. intros u v ru rv E E' Nv [->|T].
    - rewrite E'. rewrite app_length. lia.
    - destruct (decide (length v <= length u)%nat) as [|L]; [done|].
      exfalso. apply Nv. rewrite E' in T. rewrite lookup_app_l in T by lia.
      by eapply elem_of_list_lookup_2. }
  assert (length s = length s').
  { assert (length s' <= length s)%nat by (by eapply Hlt).
    assert (length s <= length s')%nat by (by eapply Hlt). lia. }
  rewrite P in P'. by apply app_inj_1 in P' as [??].
Qed.

Lemma make_cstring_spec mem n s :
  is_cstring (take n mem) s <-> make_cstring mem n = s.
Proof.
  unfold make_cstring. split.
  - intros H. eapply is_cstring_unique; [apply nul_count_cstring|done].
  - intros <-. apply nul_count_cstring.
Qed.

Lemma make_cstring_length mem n : (length (make_cstring mem n) <= n)%nat.
Proof. unfold make_cstring. rewrite take_length, take_length. lia. Qed.

Lemma make_cstring_no_nul mem n : 0 ∉ make_cstring mem n.
Proof. apply nul_count_cstring. Qed.

Lemma make_cstring_nul s rest n :
  0 ∉ s -> (length s < n)%nat -> make_cstring (s ++ 0 :: rest) n = s.
Proof.
  intros N L. apply make_cstring_spec.
  rewrite take_app_ge by lia. split; [by eexists|]. split; [done|]. right.
  rewrite lookup_app_r by lia. rewrite Nat.sub_diag.
  destruct (n - length s)%nat eqn:E; [lia|]. done.
Qed.

Lemma make_cstring_full s rest :
  0 ∉ s -> make_cstring (s ++ rest) (length s) = s.
Proof.
  intros N. apply make_cstring_spec. rewrite take_app.
  split; [done|]. split; [done|]. by left.
Qed.

Lemma make_cstring_ext mem mem' n :
  take n mem = take n mem' -> make_cstring mem n = make_cstring mem' n.
Proof. unfold make_cstring. by intros ->. Qed.

Lemma commstr_spec r s : is_cstring (r_comm r) s <-> commstr r = s.
Proof.
  unfold commstr. split.
  - intros H. eapply is_cstring_unique; [apply nul_count_cstring|done].
  - intros <-. apply nul_count_cstring.
Qed.

(** * Socket addresses *)

Lemma ntohs_net p : 0 <= p < 65536 -> ntohs (le (net16 p)) = p.
Proof.
  intros H. unfold ntohs, net16. cbn [le].
  assert (B := Z.mod_pos_bound p 256 ltac:(lia)).
  assert (D : p = 256 * (p / 256) + p mod 256) by (apply Z.div_mod; lia).
  assert (0 <= p / 256 < 256) by lia.
  set (h := p / 256) in *. set (l := p mod 256) in *.
  replace (h + 256 * (l + 256 * 0)) with (l * 256 + h) by lia.
  rewrite <- (Z.div_unique (l * 256 + h) 256 l h) by lia.
  rewrite <- (Z.mod_unique (l * 256 + h) 256 l h) by lia.
  rewrite (Z.mod_small l) by lia. lia.
Qed.

Lemma parse_in port a b c d rest :
  0 <= port < 65536 ->
  parse_sockaddr (sockaddr_in port a b c d rest)
  = (("ipv4:" ++ dotted a b c d)%string, port).
Proof.
  intros H. unfold parse_sockaddr, sockaddr_in, dotted.
  cbn [app net16 take drop]. change (le [2; 0]) with 2. cbv iota beta.
  change (2 =? AF_INET) with true. cbv iota.
  change [port / 256; port mod 256] with (net16 port). rewrite ntohs_net by done.
  reflexivity.
Qed.

Lemma parse_in6 port flow addr rest :
  0 <= port < 65536 -> length flow = 4%nat -> length addr = 16%nat ->
  parse_sockaddr (sockaddr_in6 port flow addr rest)
  = (("ipv6:" ++ join ":" (groups addr))%string, 256 * (port mod 256) + port / 256).
Proof.
  intros H Hf Ha.
  destruct flow as [|f0 [|f1 [|f2 [|f3 [|]]]]]; try discriminate.
  destruct addr as [|a0 [|a1 [|a2 [|a3 [|a4 [|a5 [|a6 [|a7 [|a8 [|a9 [|a10
    [|a11 [|a12 [|a13 [|a14 [|a15 [|]]]]]]]]]]]]]]]]]; try discriminate.
  unfold parse_sockaddr, sockaddr_in6.
  cbn [app net16 take drop]. change (le [10; 0]) with 10.
  change (10 =? AF_INET) with false. change (10 =? AF_INET6) with true. cbv iota.
  f_equal. cbn [le]. lia.
Qed.

Lemma port6_right port :
  0 <= port < 65536 ->
  256 * (port mod 256) + port / 256 = port <-> port / 256 = port mod 256.
Proof.
  intros H. assert (D : port = 256 * (port / 256) + port mod 256) by (apply Z.div_mod; lia).
  assert (B := Z.mod_pos_bound port 256 ltac:(lia)). lia.
Qed.

Lemma parse_un path rest :
  parse_sockaddr (sockaddr_un path rest)
  = (("unix:" ++ string_of_bytes (make_cstring (path ++ rest) 108))%string, 0).
Proof. reflexivity. Qed.

Lemma parse_other mem :
  le (take 2 mem) <> 0 -> le (take 2 mem) <> 1 -> le (take 2 mem) <> 2 ->
  le (take 2 mem) <> 10 ->
  parse_sockaddr mem = (pretty (le (take 2 mem)), 0).
Proof.
  intros H0 H1 H2 H10. unfold parse_sockaddr, AF_INET, AF_INET6, AF_UNIX, AF_UNSPEC.
  destruct (Z.eqb_spec (le (take 2 mem)) 2); [done|].
  destruct (Z.eqb_spec (le (take 2 mem)) 10); [done|].
  destruct (Z.eqb_spec (le (take 2 mem)) 1); [done|].
  destruct (Z.eqb_spec (le (take 2 mem)) 0); [done|]. done.
Qed.

(** The text of an IPv4 address and port determines both. *)

Fixpoint avoids (c : ascii) (s : string) : bool :=
  match s with
  | EmptyString => true
  | String a s' => negb (Ascii.eqb a c) && avoids c s'
  end.

Lemma avoids_split c s s' t t' :
  avoids c s = true -> avoids c s' = true ->
  (s ++ String c t)%string = (s' ++ String c t')%string -> s = s' /\ t = t'.
Proof.
  revert s'. induction s as [|a s IH]; intros s' Hs Hs' E.
  - destruct s' as [|a' s'].
    + by injection E.
    + injection E as <- _. cbn in Hs'. by rewrite Ascii.eqb_refl in Hs'.
  - destruct s' as [|a' s'].
    + injection E as -> _. cbn in Hs. by rewrite Ascii.eqb_refl in Hs.
    + injection E as -> E. cbn in Hs, Hs'.
      apply andb_true_iff in Hs as [_ Hs]. apply andb_true_iff in Hs' as [_ Hs'].
      destruct (IH s' Hs Hs' E) as [-> ->]. done.
Qed.

Definition bytes_upto (n : nat) : list Z := map Z.of_nat (seq 0 n).

Lemma is_byte_in b : is_byte b -> In b (bytes_upto 256).
Proof.
  intros H. unfold bytes_upto. replace b with (Z.of_nat (Z.to_nat b)) by (unfold is_byte in H; lia).
  apply in_map, in_seq. unfold is_byte in H. lia.
Qed.

Lemma pretty_byte_avoids b :
  is_byte b -> avoids "." (pretty b) = true /\ avoids ":" (pretty b) = true.
Proof.
  intros H. apply is_byte_in in H.
  assert (F : forallb (fun b => avoids "." (pretty b) && avoids ":" (pretty b))
                (bytes_upto 256) = true) by (vm_compute; reflexivity).
  rewrite forallb_forall in F. specialize (F b H).
  by apply andb_true_iff in F.
Qed.

Lemma string_app_assoc (a b c : string) : ((a ++ b) ++ c)%string = (a ++ (b ++ c))%string.
Proof. induction a as [|x a IH]; [done|]. exact (f_equal (String x) IH). Qed.

Lemma string_app_inj (p a b : string) : (p ++ a)%string = (p ++ b)%string -> a = b.
Proof. induction p as [|x p IH]; [done|]. cbn. intros E. injection E. apply IH. Qed.

Lemma in_text_inj port a b c d rest port' a' b' c' d' rest' :
  0 <= port < 65536 -> 0 <= port' < 65536 ->
  is_byte a -> is_byte b -> is_byte c -> is_byte d ->
  is_byte a' -> is_byte b' -> is_byte c' -> is_byte d' ->
  sockaddr_string (sockaddr_in port a b c d rest)
  = sockaddr_string (sockaddr_in port' a' b' c' d' rest') ->
  a = a' /\ b = b' /\ c = c' /\ d = d' /\ port = port'.
Proof.
  intros Hp Hp' Ha Hb Hc Hd Ha' Hb' Hc' Hd' E. unfold sockaddr_string in E.
  rewrite !parse_in in E by done. unfold dotted in E.
  rewrite !string_app_assoc in E. apply string_app_inj in E.
  apply (avoids_split ".") in E as [Ea E];
    [|by apply pretty_byte_avoids..].
  apply (inj pretty) in Ea. cbn [append] in E.
  apply (avoids_split ".") in E as [Eb E];
    [|by apply pretty_byte_avoids..].
  apply (inj pretty) in Eb. cbn [append] in E.
  apply (avoids_split ".") in E as [Ec E];
    [|by apply pretty_byte_avoids..].
  apply (inj pretty) in Ec. cbn [append] in E.
  apply (avoids_split ":") in E as [Ed E];
    [|by apply pretty_byte_avoids..].
  apply (inj pretty) in Ed. cbn [append] in E.
  apply (inj pretty) in E. done.
Qed.

Lemma hex_digit_inj x y :
  0 <= x < 16 -> 0 <= y < 16 -> hex_digit x = hex_digit y -> x = y.
Proof.
  intros Hx Hy E.
  assert (F : forallb (fun x => forallb (fun y =>
            negb (Ascii.eqb (hex_digit x) (hex_digit y)) || Z.eqb x y)
            (bytes_upto 16)) (bytes_upto 16) = true) by (vm_compute; reflexivity).
  rewrite forallb_forall in F.
  assert (I : forall z, 0 <= z < 16 -> In z (bytes_upto 16)).
  { intros z Hz. unfold bytes_upto. replace z with (Z.of_nat (Z.to_nat z)) by lia.
    apply in_map, in_seq. lia. }
  specialize (F x (I x Hx)). rewrite forallb_forall in F. specialize (F y (I y Hy)).
  rewrite E, Ascii.eqb_refl in F. by apply Z.eqb_eq.
Qed.

Lemma hex2_inj a b s t :
  is_byte a -> is_byte b -> (hex2 a ++ s)%string = (hex2 b ++ t)%string -> a = b /\ s = t.
Proof.
  intros Ha Hb E. unfold hex2 in E. injection E as E1 E2 E3.
  unfold is_byte in *.
  assert (Da := Z.div_mod a 16 ltac:(lia)). assert (Db := Z.div_mod b 16 ltac:(lia)).
  assert (Ma := Z.mod_pos_bound a 16 ltac:(lia)). assert (Mb := Z.mod_pos_bound b 16 ltac:(lia)).
  apply hex_digit_inj in E1; [|lia..].
  apply hex_digit_inj in E2; [|apply Z.mod_pos_bound; lia..].
  split; [|done]. rewrite (Z.div_mod a 16), (Z.div_mod b 16) by lia. lia.
Qed.

Lemma string_app_nil_r (s : string) : (s ++ "")%string = s.
Proof. induction s as [|x s IH]; [done|]. exact (f_equal (String x) IH). Qed.

Lemma groups_inj addr : forall addr' t t',
  Nat.even (length addr) = true -> Nat.even (length addr') = true ->
  length addr = length addr' ->
  Forall is_byte addr -> Forall is_byte addr' ->
  (join ":" (groups addr) ++ t)%string = (join ":" (groups addr') ++ t')%string ->
  addr = addr' /\ t = t'.
Proof.
  enough (H : forall n addr, (length addr <= n)%nat -> forall addr' t t',
    Nat.even (length addr) = true -> Nat.even (length addr') = true ->
    length addr = length addr' ->
    Forall is_byte addr -> Forall is_byte addr' ->
    (join ":" (groups addr) ++ t)%string = (join ":" (groups addr') ++ t')%string ->
    addr = addr' /\ t = t') by eauto using Nat.le_refl.
  clear addr. intros n. induction n as [|n IH]; intros addr L addr' t t' Ev Ev' El F F' E.
  - destruct addr; [|cbn in L; lia]. destruct addr'; [|discriminate]. done.
  - destruct addr as [|a [|b addr]]; [|discriminate|].
    { destruct addr'; [|discriminate]. done. }
    destruct addr' as [|a' [|b' addr']]; [discriminate..|].
    cbn in El. injection El as El. cbn in Ev, Ev'.
    apply Forall_cons in F as [Ha F]. apply Forall_cons in F as [Hb F].
    apply Forall_cons in F' as [Ha' F']. apply Forall_cons in F' as [Hb' F'].
    cbn [groups] in E.
    assert (J : forall x l, join ":" (x :: l)
              = match l with [] => x | _ => (x ++ ":" ++ join ":" l)%string end)
      by (intros ? []; reflexivity).
    rewrite !J in E. clear J.
    destruct (groups addr) as [|g gs] eqn:G; destruct (groups addr') as [|g' gs'] eqn:G'.
    + assert (addr = []) as -> by (destruct addr as [|? []]; done).
      assert (addr' = []) as -> by (destruct addr' as [|? []]; done).
      rewrite !string_app_assoc in E.
      apply hex2_inj in E as [-> E]; [|done..]. apply hex2_inj in E as [-> E]; [|done..].
      done.
    + exfalso. destruct addr as [|? []]; [|discriminate|discriminate].
      destruct addr'; discriminate.
    + exfalso. destruct addr' as [|? []]; [|discriminate|discriminate].
      destruct addr; discriminate.
    + rewrite !string_app_assoc in E.
      apply hex2_inj in E as [-> E]; [|done..]. apply hex2_inj in E as [-> E]; [|done..].
      apply string_app_inj in E.
      rewrite <- G, <- G' in E.
      destruct (IH addr ltac:(cbn in L; lia) addr' t t') as [-> ->]; done.
Qed.

Lemma in6_text_inj port flow addr rest port' flow' addr' rest' :
  0 <= port < 65536 -> 0 <= port' < 65536 ->
  length flow = 4%nat -> length addr = 16%nat -> length flow' = 4%nat -> length addr' = 16%nat ->
  Forall is_byte addr -> Forall is_byte addr' ->
  sockaddr_string (sockaddr_in6 port flow addr rest)
  = sockaddr_string (sockaddr_in6 port' flow' addr' rest') ->
  addr = addr' /\ port = port'.
Proof.
  intros Hp Hp' Hf Ha Hf' Ha' F F' E. unfold sockaddr_string in E.
  rewrite !parse_in6 in E by done. rewrite !string_app_assoc in E.
  apply string_app_inj in E.
  apply groups_inj in E as [-> E]; [|by rewrite ?Ha, ?Ha'..|done|done].
  split; [done|]. cbn [append] in E. injection E as E. apply (inj pretty) in E.
  assert (D := Z.div_mod port 256 ltac:(lia)). assert (D' := Z.div_mod port' 256 ltac:(lia)).
  assert (B := Z.mod_pos_bound port 256 ltac:(lia)).
  assert (B' := Z.mod_pos_bound port' 256 ltac:(lia)). lia.
Qed.

(** * Every long enough buffer is an event *)

Lemma to_le_take n (b : list Z) :
  Forall is_byte b -> (n <= length b)%nat -> to_le n (le (take n b)) ++ drop n b = b.
Proof.
  intros F L. assert (E : length (take n b) = n) by (rewrite take_length; lia).
  rewrite <- E at 1. rewrite to_le_le by (by apply Forall_take). apply take_drop.
Qed.

Lemma le_take_bound n (b : list Z) :
  Forall is_byte b -> (n <= length b)%nat -> 0 <= le (take n b) < 256 ^ Z.of_nat n.
Proof.
  intros F L. assert (E : length (take n b) = n) by (rewrite take_length; lia).
  pose proof (le_bound (take n b) (Forall_take _ n _ F)) as B. by rewrite E in B.
Qed.

Lemma to_le_s32 v : to_le 4 (s32 v) = to_le 4 v.
Proof.
  unfold s32. set (m := v mod 2 ^ 32).
  assert (Hm : to_le 4 m = to_le 4 v).
  { rewrite <- (to_le_le (to_le 4 v)) by apply to_le_bytes.
    rewrite to_le_length, le_to_le. reflexivity. }
  destruct (m <? 2 ^ 31); [done|]. rewrite <- Hm.
  rewrite <- (to_le_le (to_le 4 (m - 2 ^ 32))) by apply to_le_bytes.
  rewrite <- (to_le_le (to_le 4 m)) by apply to_le_bytes.
  rewrite !to_le_length, !le_to_le. f_equal.
  change (256 ^ Z.of_nat 4) with (2 ^ 32).
  rewrite <- (Z.mod_add (m - 2 ^ 32) 1) by lia. f_equal. lia.
Qed.

Lemma s32_bound v : - 2 ^ 31 <= s32 v < 2 ^ 31.
Proof.
  unfold s32. assert (B := Z.mod_pos_bound v (2 ^ 32) ltac:(lia)).
  destruct (Z.ltb_spec (v mod 2 ^ 32) (2 ^ 31)); lia.
Qed.

(** The event whose members lie in [d]. *)
Definition event_at (d : list Z) : kernel_event := {|
  k_pid_tid := le (take 8 d);
  k_uid_gid := le (take 8 (drop 8 d));
  k_syscall := le (take 4 (drop 16 d));
  k_ns_pid := le (take 4 (drop 20 d));
  k_entr := le (take 8 (drop 24 d));
  k_exit := le (take 8 (drop 32 d));
  k_session := s32 (le (take 4 (drop 40 d)));
  k_pid_ns := le (take 4 (drop 44 d));
  k_uts_ns := le (take 4 (drop 48 d));
  k_mnt_ns := le (take 4 (drop 52 d));
  k_ipc_ns := le (take 4 (drop 56 d));
  k_cgr_ns := le (take 4 (drop 60 d));
  k_context_sw := le (take 8 (drop 64 d));
  k_errno := le (take 4 (drop 72 d));
  k_ret := le (take 4 (drop 76 d));
  k_comm := take 16 (drop 80 d);
  k_args := take 640 (drop 96 d)
|}.

Lemma event_at_ok d :
  Forall is_byte d -> (swoll_event_size <= length d)%nat -> kernel_event_ok (event_at d).
Proof.
  intros F L. change swoll_event_size with 736%nat in L.
  assert (B4 : forall o, (o + 4 <= 736)%nat -> 0 <= le (take 4 (drop o d)) < 2 ^ 32).
  { intros o Ho. apply (le_take_bound 4); [by apply Forall_drop|].
    rewrite drop_length. lia. }
  assert (B8 : forall o, (o + 8 <= 736)%nat -> 0 <= le (take 8 (drop o d)) < 2 ^ 64).
  { intros o Ho. apply (le_take_bound 8); [by apply Forall_drop|].
    rewrite drop_length. lia. }
  constructor; cbn [event_at k_pid_tid k_uid_gid k_syscall k_ns_pid k_entr k_exit
    k_session k_pid_ns k_uts_ns k_mnt_ns k_ipc_ns k_cgr_ns k_context_sw k_errno k_ret
    k_comm k_args]; try (apply B4; lia); try (apply B8; lia); try apply s32_bound.
  - specialize (B8 0%nat). rewrite drop_0 in B8. apply B8. lia.
  - rewrite take_length, drop_length. lia.
  - rewrite take_length, drop_length. lia.
Qed.

Lemma event_at_bytes d :
  Forall is_byte d -> (swoll_event_size <= length d)%nat ->
  concat (member_bytes (event_at d)) ++ drop swoll_event_size d = d.
Proof.
  intros F L. change swoll_event_size with 736%nat in *.
  assert (S4 : forall o r, (o + 4 <= 736)%nat -> r = drop (o + 4) d ->
            to_le 4 (le (take 4 (drop o d))) ++ r = drop o d).
  { intros o r Ho ->. rewrite <- drop_drop. apply to_le_take; [by apply Forall_drop|].
    rewrite drop_length. lia. }
  assert (S8 : forall o r, (o + 8 <= 736)%nat -> r = drop (o + 8) d ->
            to_le 8 (le (take 8 (drop o d))) ++ r = drop o d).
  { intros o r Ho ->. rewrite <- drop_drop. apply to_le_take; [by apply Forall_drop|].
    rewrite drop_length. lia. }
  unfold member_bytes. cbn [concat]. rewrite <- !(assoc_L (++)).
  cbn [event_at k_pid_tid k_uid_gid k_syscall k_ns_pid k_entr k_exit
    k_session k_pid_ns k_uts_ns k_mnt_ns k_ipc_ns k_cgr_ns k_context_sw k_errno k_ret
    k_comm k_args app].
  rewrite to_le_s32.
  replace (take 640 (drop 96 d) ++ drop 736 d) with (drop 96 d)
    by (symmetry; change 736%nat with (96 + 640)%nat; rewrite <- drop_drop; apply take_drop).
  replace (take 16 (drop 80 d) ++ drop 96 d) with (drop 80 d)
    by (symmetry; change 96%nat with (80 + 16)%nat; rewrite <- drop_drop; apply take_drop).
  rewrite (S4 76%nat) by (try lia; done). rewrite (S4 72%nat) by (try lia; done).
  rewrite (S8 64%nat) by (try lia; done). rewrite (S4 60%nat) by (try lia; done).
  rewrite (S4 56%nat) by (try lia; done). rewrite (S4 52%nat) by (try lia; done).
  rewrite (S4 48%nat) by (try lia; done). rewrite (S4 44%nat) by (try lia; done).
  rewrite (S4 40%nat) by (try lia; done). rewrite (S8 32%nat) by (try lia; done).
  rewrite (S8 24%nat) by (try lia; done). rewrite (S4 20%nat) by (try lia; done).
  rewrite (S4 16%nat) by (try lia; done). rewrite (S8 8%nat) by (try lia; done).
  rewrite <- (drop_0 d) at 1. rewrite (S8 0%nat) by (try lia; done). apply drop_0.
Qed.

Lemma every_buffer data :
  Forall is_byte data -> (swoll_event_size <= length data)%nat ->
  exists k, kernel_event_ok k /\ ingest_bytes data = Some (raw_of k)
    /\ forall scratch, length scratch = swoll_event_size ->
       kernel_image k scratch = take swoll_event_size data.
Proof.
  intros F L. exists (event_at data). assert (K := event_at_ok data F L).
  assert (B := event_at_bytes data F L).
  assert (I : forall scratch, length scratch = swoll_event_size ->
       kernel_image (event_at data) scratch = take swoll_event_size data).
  { intros scratch Hs. rewrite kernel_image_eq by done.
    rewrite <- B at 2.
    rewrite take_app_alt; [done|]. rewrite concat_length, members_length by done.
    symmetry. apply total_members. }
  split; [done|]. split; [|done].
  rewrite <- (take_drop swoll_event_size data) at 1.
  rewrite <- (I (repeat 0 swoll_event_size)) by apply repeat_length.
  apply ingest_image; [done|apply repeat_length].
Qed.
