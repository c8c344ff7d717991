(** Proofs about JSON text, socket addresses and members. *)
From Coq Require Import ZArith String Lia.
From stdpp Require Import base list numbers strings pretty gmap.
From Verif Require Import FilterModel RawModel RawProofs DecodeModel DecodeSpec DecodeProofs CodecTables
  CodecModel CodecSpec CodecProofs CodecNames JsonModel JsonSpec.

Local Open Scope Z_scope.
Ltac Zify.zify_post_hook ::= Z.to_euclidean_division_equations.

(** * Text *)

Ltac bool2prop := unfold seq2, seq3, seq4, cont in *;
  repeat (rewrite ?andb_true_iff, ?orb_true_iff, ?Z.leb_le, ?Z.eqb_eq in * ).

Lemma seq2_spec b0 b1 : seq2 b0 b1 = true ->
  exists c, scalar c /\ utf8 c = [b0; b1].
Proof.
  bool2prop. intros ((H1 & H2) & H3 & H4).
  exists ((b0 - 192) * 64 + (b1 - 128)). unfold scalar, utf8. split; [lia|].
  destruct (Z.ltb_spec ((b0 - 192) * 64 + (b1 - 128)) 128); [lia|].
  destruct (Z.ltb_spec ((b0 - 192) * 64 + (b1 - 128)) 2048); [|lia].
  f_equal; [|f_equal]; lia.
Qed.

Lemma seq3_spec b0 b1 b2 : seq3 b0 b1 b2 = true ->
  exists c, scalar c /\ utf8 c = [b0; b1; b2].
Proof.
  bool2prop. intros H.
  exists ((b0 - 224) * 4096 + (b1 - 128) * 64 + (b2 - 128)).
  assert (Hr : 224 <= b0 <= 239 /\ 128 <= b1 <= 191 /\ 128 <= b2 <= 191
    /\ (b0 = 224 -> 160 <= b1) /\ (b0 = 237 -> b1 <= 159)) by lia. clear H.
  set (c := (b0 - 224) * 4096 + (b1 - 128) * 64 + (b2 - 128)).
  assert (Hc : 2048 <= c < 65536 /\ scalar c) by (unfold scalar, c; lia).
  split; [tauto|]. unfold utf8.
  destruct (Z.ltb_spec c 128); [lia|]. destruct (Z.ltb_spec c 2048); [lia|].
  destruct (Z.ltb_spec c 65536); [|lia].
  unfold c. f_equal; [|f_equal; [|f_equal]]; lia.
Qed.

Lemma seq4_spec b0 b1 b2 b3 : seq4 b0 b1 b2 b3 = true ->
  exists c, scalar c /\ utf8 c = [b0; b1; b2; b3].
Proof.
  bool2prop. intros H.
  exists ((b0 - 240) * 262144 + (b1 - 128) * 4096 + (b2 - 128) * 64 + (b3 - 128)).
  assert (Hr : 240 <= b0 <= 244 /\ 128 <= b1 <= 191 /\ 128 <= b2 <= 191 /\ 128 <= b3 <= 191
    /\ (b0 = 240 -> 144 <= b1) /\ (b0 = 244 -> b1 <= 143)) by lia. clear H.
  set (c := (b0 - 240) * 262144 + (b1 - 128) * 4096 + (b2 - 128) * 64 + (b3 - 128)).
  assert (Hc : 65536 <= c < 1114112) by (unfold c; lia).
  split; [unfold scalar; lia|]. unfold utf8.
  destruct (Z.ltb_spec c 128); [lia|]. destruct (Z.ltb_spec c 2048); [lia|].
  destruct (Z.ltb_spec c 65536); [lia|].
  unfold c. f_equal; [|f_equal; [|f_equal; [|f_equal]]]; lia.
Qed.

(** A well-formed character is kept. *)
Lemma json_text_utf8 c rest : scalar c -> json_text (utf8 c ++ rest) = (utf8 c ++ json_text rest)%list.
Proof.
  intros Hc. unfold scalar in Hc. unfold utf8.
  destruct (Z.ltb_spec c 128) as [H1|H1].
  { cbn [app json_text]. destruct (Z.ltb_spec c 128); [reflexivity|lia]. }
  destruct (Z.ltb_spec c 2048) as [H2|H2].
  { cbn [app json_text]. destruct (Z.ltb_spec (192 + c / 64) 128); [lia|].
    assert (seq2 (192 + c / 64) (128 + c mod 64) = true) as ->; [|reflexivity].
    bool2prop. lia. }
  destruct (Z.ltb_spec c 65536) as [H3|H3].
  { cbn [app json_text]. destruct (Z.ltb_spec (224 + c / 4096) 128); [lia|].
    assert (seq2 (224 + c / 4096) (128 + c / 64 mod 64) = false) as ->.
    { apply not_true_iff_false. bool2prop. lia. }
    assert (seq3 (224 + c / 4096) (128 + c / 64 mod 64) (128 + c mod 64) = true) as ->; [|reflexivity].
    bool2prop. lia. }
  cbn [app json_text]. destruct (Z.ltb_spec (240 + c / 262144) 128); [lia|].
  assert (seq2 (240 + c / 262144) (128 + c / 4096 mod 64) = false) as ->.
  { apply not_true_iff_false. bool2prop. lia. }
  assert (seq3 (240 + c / 262144) (128 + c / 4096 mod 64) (128 + c / 64 mod 64) = false) as ->.
  { apply not_true_iff_false. bool2prop. lia. }
  assert (seq4 (240 + c / 262144) (128 + c / 4096 mod 64) (128 + c / 64 mod 64) (128 + c mod 64) = true)
    as ->; [|reflexivity].
  bool2prop. lia.
Qed.

Lemma well_formed_nil : well_formed [].
Proof. exists []. split; [constructor|reflexivity]. Qed.

Lemma well_formed_app c rest : scalar c -> well_formed rest -> well_formed (utf8 c ++ rest).
Proof.
  intros Hc (cs & H & ->). exists (c :: cs). split; [constructor; trivial|reflexivity].
Qed.

Lemma json_text_keeps bs : well_formed bs -> json_text bs = bs.
Proof.
  intros (cs & H & ->). induction H as [|c cs Hc Hcs IH]; [reflexivity|].
  cbn [List.map List.concat]. rewrite json_text_utf8 by exact Hc. rewrite IH. reflexivity.
Qed.

(** One step of json_text: either a whole character is kept or a byte replaced. *)
Lemma json_text_step b0 t : 0 <= b0 ->
  (exists c rest, scalar c /\ b0 :: t = (utf8 c ++ rest)%list
     /\ json_text (b0 :: t) = (utf8 c ++ json_text rest)%list)
  \/ json_text (b0 :: t) = 239 :: 191 :: 189 :: json_text t.
Proof.
  intros H0. cbn [json_text]. destruct (Z.ltb_spec b0 128) as [H1|H1].
  { left. exists b0, t.
    assert (utf8 b0 = [b0]) as -> by (unfold utf8; destruct (Z.ltb_spec b0 128); [reflexivity|lia]).
    split; [unfold scalar; lia|]. split; reflexivity. }
  destruct t as [|b1 t1]; [right; reflexivity|].
  destruct (seq2 b0 b1) eqn:E2.
  { left. destruct (seq2_spec _ _ E2) as (c & Hc & Hu). exists c, t1. rewrite Hu.
    split; [exact Hc|split; reflexivity]. }
  destruct t1 as [|b2 t2]; [right; reflexivity|].
  destruct (seq3 b0 b1 b2) eqn:E3.
  { left. destruct (seq3_spec _ _ _ E3) as (c & Hc & Hu). exists c, t2. rewrite Hu.
    split; [exact Hc|split; reflexivity]. }
  destruct t2 as [|b3 t3]; [right; reflexivity|].
  destruct (seq4 b0 b1 b2 b3) eqn:E4.
  { left. destruct (seq4_spec _ _ _ _ E4) as (c & Hc & Hu). exists c, t3. rewrite Hu.
    split; [exact Hc|split; reflexivity]. }
  right. reflexivity.
Qed.

Lemma utf8_nonempty c : (0 < length (utf8 c))%nat.
Proof.
  unfold utf8. destruct (c <? 128), (c <? 2048), (c <? 65536); cbn [length]; lia.
Qed.

Lemma bytes_tail bs cs : bytes (bs ++ cs)%list -> bytes cs.
Proof. unfold bytes. rewrite Forall_app. tauto. Qed.

Lemma json_text_len n bs : (length bs <= n)%nat -> bytes bs -> (length bs <= length (json_text bs))%nat.
Proof.
  revert bs. induction n as [|n IH]; intros bs Hl Hb.
  { destruct bs; cbn in *; lia. }
  destruct bs as [|b0 t]; [cbn; lia|].
  assert (H0 : 0 <= b0) by (inversion Hb; subst; lia).
  destruct (json_text_step b0 t H0) as [(c & rest & Hc & He & Hj)|Hj]; rewrite Hj.
  - rewrite He in *. rewrite !app_length in *. pose proof (utf8_nonempty c).
    specialize (IH rest ltac:(lia) (bytes_tail _ _ Hb)). lia.
  - cbn [length] in *. specialize (IH t ltac:(lia) ltac:(inversion Hb; assumption)). lia.
Qed.

Lemma json_text_only n bs : (length bs <= n)%nat -> bytes bs -> json_text bs = bs -> well_formed bs.
Proof.
  revert bs. induction n as [|n IH]; intros bs Hl Hb Hj.
  { destruct bs; [apply well_formed_nil|cbn in Hl; lia]. }
  destruct bs as [|b0 t]; [apply well_formed_nil|].
  assert (H0 : 0 <= b0) by (inversion Hb; subst; lia).
  destruct (json_text_step b0 t H0) as [(c & rest & Hc & He & Hj')|Hj'].
  - rewrite Hj' in Hj. rewrite He in *. apply app_inv_head in Hj.
    apply well_formed_app; [exact Hc|]. apply IH; [|exact (bytes_tail _ _ Hb)|exact Hj].
    rewrite app_length in Hl. pose proof (utf8_nonempty c). lia.
  - exfalso. rewrite Hj' in Hj. apply (f_equal length) in Hj. cbn [length] in *.
    pose proof (json_text_len (length t) t ltac:(lia) ltac:(inversion Hb; assumption)). lia.
Qed.

Lemma json_text_iff bs : bytes bs -> (json_text bs = bs <-> well_formed bs).
Proof.
  intros Hb. split; [exact (json_text_only (length bs) bs ltac:(lia) Hb)|apply json_text_keeps].
Qed.

(** Whatever the bytes, the client has well-formed text. *)
Lemma json_text_valid n bs : (length bs <= n)%nat -> bytes bs -> well_formed (json_text bs).
Proof.
  revert bs. induction n as [|n IH]; intros bs Hl Hb.
  { destruct bs; [apply well_formed_nil|cbn in Hl; lia]. }
  destruct bs as [|b0 t]; [apply well_formed_nil|].
  assert (H0 : 0 <= b0) by (inversion Hb; subst; lia).
  destruct (json_text_step b0 t H0) as [(c & rest & Hc & He & Hj')|Hj']; rewrite Hj'.
  - apply well_formed_app; [exact Hc|]. rewrite He in *. apply IH; [|exact (bytes_tail _ _ Hb)].
    rewrite app_length in Hl. pose proof (utf8_nonempty c). lia.
  - apply (well_formed_app 65533 (json_text t)); [unfold scalar; lia|].
    cbn [length] in Hl. apply IH; [lia|inversion Hb; assumption].
Qed.

(** * Socket addresses *)

Lemma nth_client mem heap i : (i < 16)%nat -> (16 <= length mem)%nat ->
  nth i (client_sockaddr mem heap) 0 = nth i mem 0.
Proof.
  intros Hi Hl. unfold client_sockaddr. rewrite app_nth1 by (rewrite take_length; lia).
  rewrite <- (take_drop 16 mem) at 2. rewrite app_nth1 by (rewrite take_length; lia). reflexivity.
Qed.

Lemma take_drop_client mem heap a n : (a + n <= 16)%nat -> (16 <= length mem)%nat ->
  take n (drop a (client_sockaddr mem heap)) = take n (drop a mem).
Proof.
  intros Ha Hl. unfold client_sockaddr.
  rewrite drop_app_le by (rewrite take_length; lia).
  rewrite take_app_le by (rewrite drop_length, take_length; lia).
  rewrite take_drop_commute, take_take. rewrite take_drop_commute. repeat f_equal. lia.
Qed.

Lemma append_inj (p a b : string) : (p ++ a)%string = (p ++ b)%string -> a = b.
Proof.
  induction p as [|c p IH]; cbn; [trivial|]. intros H. apply IH. injection H. trivial.
Qed.

Lemma string_of_bytes_length bs : String.length (string_of_bytes bs) = length bs.
Proof. induction bs as [|b bs IH]; cbn; [reflexivity|]. f_equal. exact IH. Qed.

(** The path is the same if it ends within the 14 bytes. *)
Lemma client_path mem heap : (16 <= length mem)%nat -> In 0 (take 14 (drop 2 mem)) ->
  make_cstring (drop 2 (client_sockaddr mem heap)) 108 = make_cstring (drop 2 mem) 108.
Proof.
  intros Hl Hin. apply elem_of_list_In, elem_of_list_split_l in Hin.
  destruct Hin as (s & r & Hs & Hn).
  assert (Hlen : (length s < 14)%nat).
  { apply (f_equal length) in Hs. rewrite take_length, app_length in Hs. cbn [length] in Hs. lia. }
  transitivity s; [|symmetry].
  - unfold client_sockaddr. rewrite drop_app_le by (rewrite take_length; lia).
    assert (drop 2 (take 16 mem) = take 14 (drop 2 mem)) as -> by exact (skipn_firstn_comm 2 16 mem).
    rewrite Hs, <- (assoc_L (++)%list). cbn [app]. apply make_cstring_nul; [exact Hn|lia].
  - rewrite <- (take_drop 14 (drop 2 mem)), Hs, <- (assoc_L (++)%list). cbn [app].
    apply make_cstring_nul; [exact Hn|lia].
Qed.

Lemma client_family mem heap : (16 <= length mem)%nat ->
  le (take 2 (client_sockaddr mem heap)) = le (take 2 mem).
Proof.
  intros Hl. f_equal. exact (take_drop_client mem heap 0 2 ltac:(lia) Hl).
Qed.

Lemma client_address_short mem heap : (16 <= length mem)%nat -> short_address mem ->
  parse_sockaddr (client_sockaddr mem heap) = parse_sockaddr mem.
Proof.
  intros Hl [H6 Hu]. unfold parse_sockaddr. rewrite client_family by exact Hl.
  destruct (le (take 2 mem) =? AF_INET) eqn:E4.
  { rewrite !nth_client by lia. rewrite take_drop_client by lia. reflexivity. }
  destruct (le (take 2 mem) =? AF_INET6) eqn:E6; [apply Z.eqb_eq in E6; contradiction|].
  destruct (le (take 2 mem) =? AF_UNIX) eqn:EU.
  { apply Z.eqb_eq in EU. rewrite client_path by auto. reflexivity. }
  destruct (le (take 2 mem) =? AF_UNSPEC) eqn:E0; [|reflexivity].
  rewrite take_drop_client by lia. reflexivity.
Qed.

(** A longer address is shown with two different texts, depending on the heap. *)
Lemma client_address_long mem : (16 <= length mem)%nat -> ~ short_address mem ->
  exists heap1 heap2, bytes heap1 /\ bytes heap2 /\
    parse_sockaddr (client_sockaddr mem heap1) <> parse_sockaddr (client_sockaddr mem heap2).
Proof.
  intros Hl Hs. unfold short_address in Hs.
  destruct (Z.eq_dec (le (take 2 mem)) AF_INET6) as [E6|N6].
  { exists [0], [1]. split; [|split].
    { repeat constructor; lia. } { repeat constructor; lia. }
    unfold parse_sockaddr. rewrite !client_family by exact Hl. rewrite E6.
    cbn [Z.eqb AF_INET6 AF_INET Pos.eqb].
    unfold hex_pair. rewrite !(nth_client mem [0]) by lia. rewrite !(nth_client mem [1]) by lia.
    assert (Hx : forall x i, (16 <= i)%nat ->
      nth i (client_sockaddr mem [x]) 0 = if (i =? 16)%nat then x else 0).
    { intros x i Hi. unfold client_sockaddr. rewrite app_nth2 by (rewrite take_length; lia).
      rewrite take_length, Nat.min_l by lia. destruct (Nat.eqb_spec i 16) as [->|Hn]; [reflexivity|].
      destruct (i - 16)%nat as [|k] eqn:Ek; [lia|]. cbn. destruct k; reflexivity. }
    rewrite !(Hx 0) by lia. rewrite !(Hx 1) by lia. cbn [Nat.eqb].
    intros H. apply (f_equal fst) in H. cbn [fst] in H.
    repeat (match type of H with
      | (?p ++ _)%string = (?p ++ _)%string => apply append_inj in H
      | ((?a ++ ?b) ++ _)%string = _ => rewrite <- !(assoc_L String.append) in H
      end).
    discriminate H. }
  destruct (Z.eq_dec (le (take 2 mem)) AF_UNIX) as [EU|NU].
  2: { exfalso. apply Hs. split; [exact N6|]. intros HU. contradiction. }
  assert (Hn : ~ In 0 (take 14 (drop 2 mem))) by (intros Hin; apply Hs; split; auto).
  rewrite <- elem_of_list_In in Hn.
  exists [0], [1; 0]. split; [|split].
  { repeat constructor; lia. } { repeat constructor; lia. }
  unfold parse_sockaddr. rewrite !client_family by exact Hl. rewrite EU.
  cbn [Z.eqb AF_INET6 AF_INET AF_UNIX Pos.eqb].
  assert (Hd : forall h, drop 2 (client_sockaddr mem h) = (take 14 (drop 2 mem) ++ h)%list).
  { intros h. unfold client_sockaddr. rewrite drop_app_le by (rewrite take_length; lia).
    f_equal. exact (skipn_firstn_comm 2 16 mem). }
  rewrite !Hd. set (p := take 14 (drop 2 mem)) in *.
  assert (Hp : (length p <= 14)%nat) by (unfold p; rewrite take_length; lia).
  assert (make_cstring (p ++ [0]) 108 = p) as ->.
  { apply (make_cstring_nul p []); [exact Hn|lia]. }
  assert (make_cstring (p ++ [1; 0]) 108 = (p ++ [1])%list) as ->.
  { change [1; 0] with ([1] ++ [0])%list. rewrite (assoc_L (++)%list).
    apply (make_cstring_nul (p ++ [1]) []).
    - rewrite not_elem_of_app. split; [exact Hn|]. rewrite elem_of_list_singleton. discriminate.
    - rewrite app_length. cbn [length]. lia. }
  intros H. apply (f_equal fst) in H. cbn [fst] in H. apply append_inj in H.
  apply (f_equal String.length) in H. rewrite !string_of_bytes_length, app_length in H.
  cbn [length] in H. lia.
Qed.

Lemma classic_short mem : short_address mem \/ ~ short_address mem.
Proof.
  unfold short_address. destruct (Z.eq_dec (le (take 2 mem)) AF_INET6) as [->|N6].
  { right. intros [H _]. apply H. reflexivity. }
  destruct (Z.eq_dec (le (take 2 mem)) AF_UNIX) as [E|NU].
  2: { left. split; [exact N6|]. intros H. contradiction. }
  destruct (in_dec Z.eq_dec 0 (take 14 (drop 2 mem))) as [Hi|Hn].
  - left. split; auto.
  - right. intros [_ H]. apply Hn. apply H. exact E.
Qed.

(** * Members *)

Lemma in_seven ty : In ty [0; 1; 2; 3; 4; 5; 10] ->
  ty = 0 \/ ty = 1 \/ ty = 2 \/ ty = 3 \/ ty = 4 \/ ty = 5 \/ ty = 10.
Proof. cbn. intuition lia. Qed.

Lemma land_pow2_cases t k : 0 <= k -> Z.land t (2 ^ k) = 0 \/ Z.land t (2 ^ k) = 2 ^ k.
Proof.
  intros Hk. destruct (Z.testbit t k) eqn:E; [right|left]; apply Z.bits_inj; intros i;
    rewrite Z.land_spec; destruct (Z.eq_dec k i) as [<-|Hn].
  - rewrite E, Z.pow2_bits_true by lia. reflexivity.
  - rewrite Z.pow2_bits_false by lia. apply andb_false_r.
  - rewrite E, Z.testbit_0_l. reflexivity.
  - rewrite Z.pow2_bits_false, Z.testbit_0_l by lia. apply andb_false_r.
Qed.

Lemma socktype_survives t :
  decode_socktype (encode_socktype t) = t <-> plain_socktype t.
Proof.
  split.
  - rewrite socktype_trip. intros H.
    assert (Hr : 0 <= Z.land t 15 < 16).
    { change 15 with (Z.ones 4). rewrite Z.land_ones by lia. apply Z.mod_pos_bound. lia. }
    destruct (land_pow2_cases t 19 ltac:(lia)) as [H1|H1];
    destruct (land_pow2_cases t 11 ltac:(lia)) as [H2|H2];
    change (2 ^ 19) with 524288 in H1; change (2 ^ 11) with 2048 in H2;
    rewrite H1, H2 in H; clear H1 H2; revert H; generalize dependent (Z.land t 15);
    intros ty Hr H; unfold plain_socktype;
    (assert (ty = 0 \/ ty = 1 \/ ty = 2 \/ ty = 3 \/ ty = 4 \/ ty = 5 \/ ty = 6 \/ ty = 7 \/ ty = 8
      \/ ty = 9 \/ ty = 10 \/ ty = 11 \/ ty = 12 \/ ty = 13 \/ ty = 14 \/ ty = 15) as Ht by lia);
    clear Hr;
    repeat (destruct Ht as [->|Ht];
      [vm_compute in H; subst t; first
        [exists 0; split; [vm_compute; tauto|vm_compute; tauto]
        |exists 1; split; [vm_compute; tauto|vm_compute; tauto]
        |exists 2; split; [vm_compute; tauto|vm_compute; tauto]
        |exists 3; split; [vm_compute; tauto|vm_compute; tauto]
        |exists 4; split; [vm_compute; tauto|vm_compute; tauto]
        |exists 5; split; [vm_compute; tauto|vm_compute; tauto]
        |exists 10; split; [vm_compute; tauto|vm_compute; tauto]]|]);
    subst ty; vm_compute in H; subst t; exists 0; split; vm_compute; tauto.
  - intros (ty & Hty & Ht). apply in_seven in Hty.
    repeat (destruct Hty as [->|Hty];
      [destruct Ht as [->|[->|[->| ->]]]; vm_compute; reflexivity|]).
    subst ty. destruct Ht as [->|[->|[->| ->]]]; vm_compute; reflexivity.
Qed.

Definition client_option (order : list (Z * string) -> list (Z * string)) (lv z : Z) : option member :=
  match unrender_option (reverse (order so_names)) (reverse (order tcp_names))
          (reverse (order ip_names)) (reverse (order ip6_names)) (0, 0) (render_option lv z) with
  | ((lv, tp), true) => Some (MOption lv tp)
  | (_, false) => None
  end.

Lemma assoc_in_fst l z n : assoc_z l z = Some n -> In z (map fst (l : list (Z * string))).
Proof. intros H. apply assoc_z_in in H. apply in_map_iff. exists (z, n). auto. Qed.

Lemma option_survives order lv z :
  (forall l, order l ≡ₚ l) -> int64 z ->
  (client_option order lv z = Some (MOption lv z) <-> plain_option lv z).
Proof.
  intros Ho Hz.
  set (so := order so_names) in *. set (tcp := order tcp_names) in *.
  set (ip := order ip_names) in *. set (ip6 := order ip6_names) in *.
  assert (Hso : so ≡ₚ so_names) by apply Ho. assert (Htcp : tcp ≡ₚ tcp_names) by apply Ho.
  assert (Hip : ip ≡ₚ ip_names) by apply Ho. assert (Hip6 : ip6 ≡ₚ ip6_names) by apply Ho.
  assert (Hnum : render_option lv z = pretty z -> client_option order lv z = Some (MOption 0 z)).
  { intros H. unfold client_option.
    pose proof (option_number so tcp ip ip6 (0, 0) Hso Htcp Hip lv z Hz H) as Hn.
    unfold unopt in Hn. fold so tcp ip ip6. rewrite Hn. reflexivity. }
  unfold plain_option.
  destruct (Z.eq_dec lv 1) as [->|N1].
  { destruct (assoc_z so_names z) as [n|] eqn:E.
    - pose proof (option_so so tcp ip ip6 (0, 0) Hso z n E) as Hn. unfold unopt in Hn.
      unfold client_option. fold so tcp ip ip6. change 1 with SOL_SOCKET. rewrite Hn.
      split; [|reflexivity]. intros _. right. left. split; [reflexivity|exact (assoc_in_fst _ _ _ E)].
    - rewrite Hnum by (change (render so_names z = pretty z); unfold render; rewrite E; reflexivity).
      apply assoc_z_none in E. split; [discriminate|].
      intros [H|[[_ H]|[H _]]]; [discriminate|contradiction|discriminate]. }
  destruct (Z.eq_dec lv 6) as [->|N6].
  { destruct (assoc_z tcp_names z) as [n|] eqn:E.
    - pose proof (option_tcp so tcp ip ip6 (0, 0) Hso Htcp z n E) as Hn. unfold unopt in Hn.
      unfold client_option. fold so tcp ip ip6. change 6 with SOL_TCP. rewrite Hn.
      split; [|reflexivity]. intros _. right. right. split; [reflexivity|exact (assoc_in_fst _ _ _ E)].
    - rewrite Hnum by (change (render tcp_names z = pretty z); unfold render; rewrite E; reflexivity).
      apply assoc_z_none in E. split; [discriminate|].
      intros [H|[[H _]|[_ H]]]; [discriminate|discriminate|contradiction]. }
  destruct (Z.eq_dec lv 0) as [->|N0].
  { destruct (assoc_z ip_names z) as [n|] eqn:E.
    - pose proof (option_ip so tcp ip ip6 (0, 0) Hso Htcp Hip z n E) as Hn. unfold unopt in Hn.
      unfold client_option. fold so tcp ip ip6. change 0 with SOL_IP at 3. rewrite Hn.
      split; [|reflexivity]. intros _. left. reflexivity.
    - rewrite Hnum by (change (render ip_names z = pretty z); unfold render; rewrite E; reflexivity).
      split; [|reflexivity]. intros _. left. reflexivity. }
  destruct (Z.eq_dec lv 41) as [->|N41].
  { split; [|intros [H|[[H _]|[H _]]]; discriminate].
    destruct (assoc_z ip6_names z) as [n|] eqn:E.
    - pose proof (option_ip6 so tcp ip ip6 (0, 0) Hso Htcp Hip Hip6 z n E) as Hn. unfold unopt in Hn.
      unfold client_option. fold so tcp ip ip6. change 41 with SOL_IPV6. rewrite Hn. discriminate.
    - rewrite Hnum by (change (render ip6_names z = pretty z); unfold render; rewrite E; reflexivity).
      discriminate. }
  rewrite Hnum.
  - split; [intros [= ?]; congruence|]. intros [H|[[H _]|[H _]]]; contradiction.
  - unfold render_option, SOL_SOCKET, SOL_TCP, SOL_IP, SOL_IPV6.
    destruct (Z.eqb_spec lv 1); [contradiction|]. destruct (Z.eqb_spec lv 6); [contradiction|].
    destruct (Z.eqb_spec lv 0); [contradiction|]. destruct (Z.eqb_spec lv 41); [contradiction|].
    reflexivity.
Qed.

(** What is checked of the table of member types. *)
Definition jtype_ok (j : jtype) : bool :=
  match j with
  | JFlags c => codec_ok c (surviving c)
  | JNames names => names_ok names
  | _ => true
  end.

Lemma jtypes_ok : forallb (fun e => jtype_ok (snd e)) jtype_table = true.
Proof. vm_compute. reflexivity. Qed.

Lemma jtype_of_ok nr name : jtype_ok (jtype_of nr name) = true.
Proof.
  unfold jtype_of. pose proof jtypes_ok as H. rewrite forallb_forall in H.
  revert H. generalize jtype_table. intros tbl H.
  destruct (List.find _ tbl) as [e|] eqn:E; [|reflexivity].
  apply List.find_some in E. exact (H e (proj1 E)).
Qed.

(** Members with names or option names are C ints. *)
Definition named_is_int (nr : Z) (f : field) : bool :=
  match jtype_of nr (f_name f) with
  | JNames _ | JResource | JOption => match f_kind f with KS32 => true | _ => false end
  | _ => true
  end.

Lemma named_are_ints : forallb (fun e => forallb (named_is_int (fst (fst e))) (snd e)) decoders = true.
Proof. vm_compute. reflexivity. Qed.

Lemma named_int nr fs f : decoder nr = Some fs -> In f fs -> named_is_int nr f = true.
Proof.
  intros H Hf. apply decoder_In in H. destruct H as [name H].
  pose proof named_are_ints as O. rewrite forallb_forall in O. specialize (O _ H).
  cbn [fst snd] in O. rewrite forallb_forall in O. exact (O f Hf).
Qed.

Lemma s32_int64 x : int64 (s32 x).
Proof.
  unfold int64, s32. pose proof (Z.mod_pos_bound x (2 ^ 32) ltac:(lia)).
  change (2 ^ 63) with 9223372036854775808. change (2 ^ 32) with 4294967296 in *.
  change (2 ^ 31) with 2147483648.
  destruct (x mod 4294967296 <? 2147483648); lia.
Qed.

Lemma int_member args f v : f_kind f = KS32 -> decode_field args f = Some v ->
  exists z, v = VInt z /\ int64 z.
Proof.
  intros Hk. unfold decode_field. rewrite Hk. unfold vint, c32.
  destruct (read_bytes args _ 4) as [bs|]; [|discriminate].
  intros H. apply (inj Some) in H. eexists. split; [symmetry; exact H|]. apply s32_int64.
Qed.

Lemma sub_bytes (l : list Z) n m : bytes l -> bytes (take n (drop m l)).
Proof. intros H. apply Forall_take, Forall_drop. exact H. Qed.

Lemma string_member args f bs : bytes args -> decode_field args f = Some (VStr bs) -> bytes bs.
Proof.
  intros Hb. unfold decode_field. destruct (f_kind f); unfold vint;
    repeat match goal with
    | |- context [match ?o with Some _ => _ | None => _ end] => destruct o eqn:?; try discriminate
    end; try discriminate.
  intros H. injection H as <-.
  match goal with H : read_bytes _ _ _ = Some _ |- _ => apply read_bytes_inv in H; destruct H as [_ ->] end.
  unfold make_cstring. apply Forall_take, Forall_take, sub_bytes. exact Hb.
Qed.

Lemma sock_member nr fs f args off : length args = args_size ->
  decoder nr = Some fs -> In f fs -> decode_field args f = Some (VSock off) ->
  (16 <= length (drop off args))%nat.
Proof.
  intros Hl Hd Hf Hv.
  assert (lazy_exception nr f = false) as He.
  { unfold lazy_exception. revert Hv. unfold decode_field.
    destruct (f_kind f); trivial; unfold vint;
    repeat match goal with
    | |- context [match ?o with Some _ => _ | None => _ end] => destruct o eqn:?; try discriminate
    end; discriminate. }
  destruct (use_inside nr fs f args _ Hd Hf Hl Hv He) as [Hi _].
  cbn in Hi. rewrite drop_length. change args_size with 640%nat in *. lia.
Qed.

Definition any_order (order : list (Z * string) -> list (Z * string)) : Prop :=
  forall l, order l ≡ₚ l.

Lemma typed_iff (M : codec -> Prop) (S O : Prop) nr name :
  (among [(2, "flags"); (257, "flags")] nr name -> M file_codec) /\
  (among [(288, "flags")] nr name -> M accept_codec) /\
  (among [(254, "mask")] nr name -> M inotify_codec) /\
  (among [(165, "flags")] nr name -> M mount_codec) /\
  (among [(44, "flags"); (45, "flags")] nr name -> M msg_codec) /\
  (among [(166, "flags")] nr name -> M umount_codec) /\
  (among [(283, "flags"); (286, "flags")] nr name -> M timer_codec) /\
  (among [(41, "type")] nr name -> S) /\
  (among [(54, "name"); (55, "name")] nr name -> O) <->
  match jtype_of nr name with
  | JFlags c => M c | JSockType => S | JOption => O
  | JPlain | JNames _ | JResource => True
  end.
Proof.
  unfold among, jtype_of, jtype_table. cbn [List.find existsb fst snd].
  rewrite !orb_false_r.
  assert (Hf : false = true <-> False) by (split; [discriminate|tauto]).
  assert (Ht : true = true <-> True) by tauto.
  repeat match goal with
  | |- context [?k =? nr] => is_var nr;
      destruct (Z.eqb_spec k nr) as [<-|?];
        [cbn [Z.eqb Pos.eqb andb orb];
         repeat match goal with |- context [String.eqb ?m name] => is_var name;
           destruct (String.eqb_spec m name) as [<-|?];
           repeat match goal with |- context [String.eqb ?a ?b] =>
             let v := eval vm_compute in (String.eqb a b) in
             first [constr_eq v true|constr_eq v false]; change (String.eqb a b) with v end;
           cbn [andb orb snd] end;
         cbn [snd]; rewrite ?Hf, ?Ht; tauto|cbn [andb orb]]
  end; rewrite ?Hf; tauto.
Qed.

Lemma int_survives_iff args nr name z : int_survives args nr name z <->
  match jtype_of nr name with
  | JFlags c => made_of (surviving c) z
  | JSockType => plain_socktype z
  | JOption => plain_option (option_level args) z
  | JPlain | JNames _ | JResource => True
  end.
Proof. exact (typed_iff (fun c => made_of (surviving c) z) _ _ nr name). Qed.

Lemma client_int_survives order args nr fs f z :
  any_order order -> decoder nr = Some fs -> In f fs -> decode_field args f = Some (VInt z) ->
  (client_int order args nr f z = server_member args nr f (VInt z)
   <-> survives args nr f (VInt z)).
Proof.
  intros Ho Hd Hf Hv. pose proof (named_int nr fs f Hd Hf) as Hn.
  pose proof (jtype_of_ok nr (f_name f)) as Hj.
  unfold client_int, server_member, survives. rewrite int_survives_iff. unfold named_is_int in Hn.
  assert (Hi : f_kind f = KS32 -> int64 z).
  { intros Hk. destruct (int_member args f _ Hk Hv) as (z' & Hz & Hi).
    injection Hz as <-. exact Hi. }
  destruct (jtype_of nr (f_name f)) as [|c|names| | |]; cbn [jtype_ok] in Hj.
  - cbn [show of_shown]. tauto.
  - cbn [show of_shown]. pose proof (flags_round_trip c (surviving c) _ z Hj (Ho (c_masks c))) as Ht.
    split.
    + intros H. apply Ht. injection H. trivial.
    + intros H. apply Ht in H. rewrite H. reflexivity.
  - cbn [show of_shown]. destruct (f_kind f); try discriminate.
    rewrite (unrender_render names _ z Hj (Ho names) (Hi eq_refl)). tauto.
  - cbn [show of_shown]. destruct (f_kind f); try discriminate.
    rewrite (resource_round_trip z (Hi eq_refl)). tauto.
  - cbn [show of_shown]. rewrite <- socktype_survives. split.
    + intros H. injection H. trivial.
    + intros ->. reflexivity.
  - destruct (f_kind f); try discriminate.
    exact (option_survives order (option_level args) z Ho (Hi eq_refl)).
Qed.

(** A member survives the trip for every map order and every heap, or it does not. *)
Theorem member_survives nr fs f args v :
  decoder nr = Some fs -> In f fs -> length args = args_size -> bytes args ->
  decode_field args f = Some v ->
  ((forall order heap, any_order order -> bytes heap ->
      client_member order heap args nr f v = server_member args nr f v)
   <-> survives args nr f v).
Proof.
  intros Hd Hf Hl Hb Hv. split.
  - intros H. destruct v as [z|bs|bs|off len|off|off n|slot]; try exact I.
    + specialize (H (fun l => l) [] (fun l => Permutation_refl l) (Forall_nil_2 _)).
      exact (proj1 (client_int_survives _ args nr fs f z (fun l => Permutation_refl l) Hd Hf Hv) H).
    + specialize (H (fun l => l) [] (fun l => Permutation_refl l) (Forall_nil_2 _)).
      cbn in H. apply json_text_iff; [exact (string_member args f bs Hb Hv)|].
      injection H. trivial.
    + cbn [survives]. pose proof (sock_member nr fs f args off Hl Hd Hf Hv) as Hlen.
      destruct (classic_short (drop off args)) as [Hs|Hs]; [exact Hs|exfalso].
      destruct (client_address_long _ Hlen Hs) as (h1 & h2 & Hh1 & Hh2 & Hne).
      apply Hne.
      pose proof (H (fun l => l) h1 (fun l => Permutation_refl l) Hh1) as E1.
      pose proof (H (fun l => l) h2 (fun l => Permutation_refl l) Hh2) as E2.
      rewrite <- E2 in E1. cbn in E1. injection E1. trivial.
  - intros H order heap Ho Hh. destruct v as [z|bs|bs|off len|off|off n|slot]; try reflexivity.
    + exact (proj2 (client_int_survives order args nr fs f z Ho Hd Hf Hv) H).
    + cbn. cbn in H. rewrite json_text_keeps by exact H. reflexivity.
    + cbn. cbn in H. rewrite client_address_short; [reflexivity| |exact H].
      exact (sock_member nr fs f args off Hl Hd Hf Hv).
Qed.

(** * Whole events *)

Lemma members_survive nr args fs vs :
  Forall2 (fun f v =>
    (forall order heap, any_order order -> bytes heap ->
      client_member order heap args nr f v = server_member args nr f v)
    <-> survives args nr f v) fs vs ->
  forall ms, server_members args nr fs vs = Some ms ->
  ((forall order heap, any_order order -> bytes heap ->
      client_members order heap args nr fs vs = Some ms)
   <-> Forall2 (survives args nr) fs vs).
Proof.
  induction 1 as [|f v fs vs Hfv _ IH]; intros ms Hs.
  - cbn in Hs |- *. apply (inj Some) in Hs. subst ms. split; [constructor|]. intros. reflexivity.
  - cbn [server_members] in Hs.
    destruct (server_member args nr f v) as [m|] eqn:Em; [|discriminate].
    destruct (server_members args nr fs vs) as [ms'|] eqn:Ems; [|discriminate].
    apply (inj Some) in Hs. subst ms. specialize (IH ms' eq_refl). split.
    + intros H. constructor.
      * apply Hfv. intros order heap Ho Hh. specialize (H order heap Ho Hh).
        cbn [client_members] in H.
        destruct (client_member order heap args nr f v) as [m1|]; [|discriminate].
        destruct (client_members order heap args nr fs vs) as [ms1|]; [|discriminate].
        apply (inj Some) in H. injection H as -> ->. reflexivity.
      * apply IH. intros order heap Ho Hh. specialize (H order heap Ho Hh).
        cbn [client_members] in H.
        destruct (client_member order heap args nr f v) as [m1|]; [|discriminate].
        destruct (client_members order heap args nr fs vs) as [ms1|]; [|discriminate].
        apply (inj Some) in H. injection H as -> ->. reflexivity.
    + intros H order heap Ho Hh. inversion H; subst. cbn [client_members].
      rewrite (proj2 Hfv) by assumption. rewrite (proj2 IH) by assumption. reflexivity.
Qed.

Lemma all_members nr fs args :
  decoder nr = Some fs -> length args = args_size -> bytes args ->
  forall gs vs, Forall2 (fun f v => decode_field args f = Some v) gs vs ->
  (forall f, In f gs -> In f fs) ->
  Forall2 (fun f v =>
    (forall order heap, any_order order -> bytes heap ->
      client_member order heap args nr f v = server_member args nr f v)
    <-> survives args nr f v) gs vs.
Proof.
  intros Hd Hl Hb gs vs. induction 1 as [|f v gs vs Hfv _ IH]; intros Hall; constructor.
  - apply (member_survives nr fs f args v Hd); auto. apply Hall. left. reflexivity.
  - apply IH. intros g Hg. apply Hall. right. exact Hg.
Qed.

Lemma event_survives nr fs args vs ms :
  decoder nr = Some fs -> length args = args_size -> bytes args ->
  decode_fields args fs = Some vs -> server_members args nr fs vs = Some ms ->
  ((forall order heap, any_order order -> bytes heap ->
      client_members order heap args nr fs vs = Some ms)
   <-> Forall2 (survives args nr) fs vs).
Proof.
  intros Hd Hl Hb Hv Hs. apply members_survive; [|exact Hs].
  destruct (decoder_total nr fs args Hd Hl) as (vs' & Hv' & HF).
  assert (vs' = vs) as -> by congruence.
  apply (all_members nr fs args Hd Hl Hb fs vs HF). auto.
Qed.

Lemma ingest_bytes_lists bs r : bytes bs -> ingest_bytes bs = Some r ->
  bytes (r_comm r) /\ bytes (r_args r) /\ length (r_args r) = args_size.
Proof.
  intros Hb. unfold ingest_bytes. destruct (Nat.ltb_spec (length bs) swoll_event_size) as [|Hlen]; [discriminate|].
  cbv [take_le]. intros H. apply (inj Some) in H. subst r. cbn [r_comm r_args].
  rewrite ?drop_drop.
  split; [|split].
  - apply sub_bytes. exact Hb.
  - apply sub_bytes. exact Hb.
  - rewrite take_length, ?drop_length. change swoll_event_size with 736%nat in Hlen.
    change args_size with 640%nat. lia.
Qed.

Theorem whole_event bs r t fs ms :
  bytes bs -> ingest_bytes bs = Some r -> ingest (InBytes bs) = Ingested t ->
  decoder (t_syscall t) = Some fs ->
  server_members (r_args r) (t_syscall t) fs (t_argv t) = Some ms ->
  ((forall order heap, any_order order -> bytes heap ->
      client_comm t = t_comm t /\ client_error order t = t_error t
      /\ client_members order heap (r_args r) (t_syscall t) fs (t_argv t) = Some ms)
   <-> well_formed (t_comm t) /\ In (t_error t) (map fst errno_names)
       /\ Forall2 (survives (r_args r) (t_syscall t)) fs (t_argv t)).
Proof.
  intros Hb Hr Hi Hd Hs.
  destruct (ingest_bytes_lists bs r Hb Hr) as (Hcomm & Hargs & Hlen).
  unfold ingest in Hi. rewrite Hr in Hi. unfold decode_syscall in Hi.
  assert (Ht : t_syscall t = r_syscall r /\ t_comm t = commstr r
               /\ decode_fields (r_args r) fs = Some (t_argv t)).
  { destruct (decoder (r_syscall r)) as [fs'|] eqn:Ed; [|discriminate].
    destruct (decode_fields (r_args r) fs') as [vs|] eqn:Ev; [|discriminate].
    injection Hi as <-. cbn [t_syscall t_comm t_argv] in *.
    assert (fs' = fs) as -> by congruence. auto. }
  destruct Ht as (Hn & Hc & Hv).
  pose proof (event_survives _ fs (r_args r) _ ms Hd Hlen Hargs Hv Hs) as Hm.
  assert (Hcb : bytes (t_comm t)).
  { rewrite Hc. unfold commstr. apply Forall_take. exact Hcomm. }
  pose proof (json_text_iff _ Hcb) as Hj.
  assert (He : forall order, any_order order ->
    (client_error order t = t_error t <-> In (t_error t) (map fst errno_names))).
  { intros order Ho. unfold client_error. rewrite (errno_trip _ _ (Ho errno_names)).
    destruct (existsb (Z.eqb (t_error t)) (map fst errno_names)) eqn:E.
    - apply existsb_exists in E. destruct E as (x & Hx & E). apply Z.eqb_eq in E. subst x. tauto.
    - split.
      + intros H. rewrite <- H. exact (assoc_in_fst _ _ _ errno_unk).
      + intros H. exfalso. assert (existsb (Z.eqb (t_error t)) (map fst errno_names) = true) as E'.
        { apply existsb_exists. exists (t_error t). split; [exact H|]. apply Z.eqb_refl. }
        congruence. }
  split.
  - intros H. split; [|split].
    + apply Hj. exact (proj1 (H (fun l => l) [] (fun l => Permutation_refl l) (Forall_nil_2 _))).
    + apply (He (fun l => l) (fun l => Permutation_refl l)).
      exact (proj1 (proj2 (H (fun l => l) [] (fun l => Permutation_refl l) (Forall_nil_2 _)))).
    + apply Hm. intros order heap Ho Hh. exact (proj2 (proj2 (H order heap Ho Hh))).
  - intros (H1 & H2 & H3) order heap Ho Hh. split; [|split].
    + apply Hj. exact H1.
    + apply (He order Ho). exact H2.
    + apply Hm; assumption.
Qed.
