(** How the client makes an event of a message: lemmas. *)
From Coq Require Import ZArith String Ascii Lia.
From stdpp Require Import base list numbers strings pretty gmap.
From Verif Require Import SyscallTable SyscallModel TopoModel RawModel RawSpec RawProofs DecodeModel CodecTables CodecModel CodecSpec CodecNames JsonModel JsonSpec JsonProofs LineModel LineProofs
  MsgModel MsgSpec MsgBound ReadSpec ReadProofs ReadTop PrintModel PrintProofs PrintTop UnmarshalModel.

Local Open Scope string_scope.
Local Open Scope list_scope.
Local Open Scope Z_scope.

(** * Names *)

Lemma sob_txt s : string_of_bytes (txt s) = s.
Proof.
  induction s as [|c s IH]; [reflexivity|].
  change (txt (String c s)) with (Z.of_N (N_of_ascii c) :: txt s). cbn [string_of_bytes]. rewrite IH, N2Z.id, ascii_N_embedding. reflexivity.
Qed.

Definition low (bs : list Z) : Prop := Forall (fun b => b < 128) bs.
Definition lowb (bs : list Z) : bool := forallb (fun b => b <? 128) bs.
Lemma lowb_low bs : lowb bs = true -> low bs.
Proof.
  unfold lowb, low. intros H. apply Forall_forall. intros b Hb. rewrite forallb_forall in H.
  apply Z.ltb_lt. apply H. apply elem_of_list_In, Hb.
Qed.
Lemma low_text bs : low bs -> json_text bs = bs.
Proof.
  induction 1 as [|b t Hb Ht IH]; [reflexivity|]. cbn [json_text]. destruct (Z.ltb_spec b 128); [rewrite IH; reflexivity|lia].
Qed.
Lemma digits_low s : forall acc n, digits acc s = Some n -> low (txt s).
Proof.
  induction s as [|c s IH]; intros acc n H; [constructor|]. cbn [digits] in H. destruct (digit c) as [d|] eqn:D; [|discriminate].
  change (txt (String c s)) with (Z.of_N (N_of_ascii c) :: txt s). constructor; [|exact (IH _ _ H)].
  unfold digit in D. destruct (_ && _) eqn:B; [|discriminate]. apply andb_true_iff in B as [B1 B2]. apply Z.leb_le in B1, B2. lia.
Qed.
Lemma pretty_low (z : Z) : low (txt (pretty z)).
Proof.
  unfold pretty, pretty_Z. destruct z as [|q|q].
  - apply lowb_low. reflexivity.
  - eapply digits_low. exact (digits_pretty (N.pos q)).
  - rewrite txt_app. apply Forall_app. split; [apply lowb_low; reflexivity|]. eapply digits_low. exact (digits_pretty (N.pos q)).
Qed.

Definition low_names (l : list (Z * string)) : bool := forallb (fun e => lowb (txt (snd e))) l.
Lemma low_in l e : low_names l = true -> In e l -> low (txt (snd e)).
Proof. unfold low_names. rewrite forallb_forall. intros H I. apply lowb_low, H, I. Qed.
Lemma render_low names z : low_names names = true -> low (txt (render names z)).
Proof.
  intros H. unfold render. destruct (assoc_z names z) as [s|] eqn:E; [|apply pretty_low].
  exact (low_in names (z, s) H (assoc_in _ _ _ E)).
Qed.
Lemma render_option_low lv z : low (txt (render_option lv z)).
Proof.
  unfold render_option. repeat match goal with |- context [if ?b then _ else _] => destruct b end;
    try (apply render_low; vm_compute; reflexivity). apply pretty_low.
Qed.
Lemma encode_low c order z : low_names (c_masks c) = true -> low_names (c_exact c) = true -> (forall l, order l ≡ₚ l) ->
  Forall (fun s => low (txt s)) (encode c (order (c_masks c)) z).
Proof.
  intros H1 H2 O. unfold encode. destruct (assoc_z (c_exact c) z) as [s|] eqn:E.
  - constructor; [exact (low_in _ (z, s) H2 (assoc_in _ _ _ E))|constructor].
  - apply Forall_map, Forall_forall. intros e He. apply elem_of_list_In, filter_In in He. destruct He as [He _].
    apply (low_in _ e H1). apply elem_of_list_In. rewrite <- (O (c_masks c)). apply elem_of_list_In, He.
Qed.
Lemma encode_socktype_low z : Forall (fun s => low (txt s)) (encode_socktype z).
Proof.
  unfold encode_socktype. apply Forall_app. split.
  - destruct (assoc_z socktype_names _) as [s|] eqn:E.
    + constructor; [|constructor]. refine (low_in socktype_names (_, s) _ (assoc_in _ _ _ E)). vm_compute. reflexivity.
    + constructor; [|constructor]. rewrite !txt_app. apply Forall_app. split; [apply lowb_low; reflexivity|].
      apply Forall_app. split; [apply pretty_low|apply lowb_low; reflexivity].
  - apply Forall_app. split; match goal with |- context [if ?b then _ else _] => destruct b end; first [constructor; fail|apply Forall_singleton, lowb_low; reflexivity|apply Forall_nil].
Qed.
Lemma errno_low e : low (txt (errno_to_string e)).
Proof.
  unfold errno_to_string. destruct (assoc_z errno_names e) as [s|] eqn:E; [|apply lowb_low; reflexivity].
  refine (low_in errno_names (e, s) _ (assoc_in _ _ _ E)). vm_compute. reflexivity.
Qed.

Lemma js_text_low s : low (txt s) -> js_text s = JsStr (txt s).
Proof. intros H. unfold js_text, js_bytes. rewrite (low_text _ H). reflexivity. Qed.
Lemma names_back l : Forall (fun s => low (txt s)) l -> mapM text_of (map js_text l) = Some l.
Proof.
  induction 1 as [|s l H F IH]; [reflexivity|]. cbn [map]. rewrite (js_text_low s H). cbn [mapM text_of mbind option_bind].
  rewrite sob_txt. cbn [mbind option_bind]. cbn. cbn in IH. rewrite IH. reflexivity.
Qed.

(** * Numbers *)

Definition jtype_low (t : jtype) : bool :=
  match t with
  | JFlags c => low_names (c_masks c) && low_names (c_exact c)
  | JNames l => low_names l
  | _ => true
  end.
Lemma jtypes_low : forallb (fun e => jtype_low (snd e)) jtype_table = true.
Proof. vm_compute. reflexivity. Qed.
Lemma jtype_of_low nr name : jtype_low (jtype_of nr name) = true.
Proof.
  unfold jtype_of. destruct (List.find _ jtype_table) as [e|] eqn:E; [|reflexivity].
  apply find_some in E. pose proof jtypes_low as H. rewrite forallb_forall in H. exact (H e (proj1 E)).
Qed.

Lemma un_int_back p args nr f z : (forall l, j_order p l ≡ₚ l) ->
  un_int (j_order p) nr (f_name f) (int_json p args nr (f_name f) z) = client_int (j_order p) args nr f z.
Proof.
  intros O. rewrite <- int_json_iff. pose proof (jtype_of_low nr (f_name f)) as L. unfold un_int, client_int, tint.
  destruct (jtype_of nr (f_name f)) as [|c|names| | |]; cbn [jtype_low] in L.
  - reflexivity.
  - apply andb_true_iff in L. rewrite norm_tnames. unfold js_names.
    rewrite (names_back _ (encode_low c (j_order p) z (proj1 L) (proj2 L) O)). reflexivity.
  - change (norm (tstr (render names z))) with (js_text (render names z)).
    rewrite (js_text_low _ (render_low names z L)), sob_txt. reflexivity.
  - change (norm (tstr (render resource_names z))) with (js_text (render resource_names z)).
    rewrite (js_text_low _ (render_low resource_names z ltac:(vm_compute; reflexivity))), sob_txt. reflexivity.
  - rewrite norm_tnames. unfold js_names. rewrite (names_back _ (encode_socktype_low z)). reflexivity.
  - change (norm (tstr (render_option (option_level args) z))) with (js_text (render_option (option_level args) z)).
    rewrite (js_text_low _ (render_option_low _ z)), sob_txt. reflexivity.
Qed.

(** * Structs *)

Lemma to_le_mod n v : to_le n (v mod 256 ^ Z.of_nat n) = to_le n v.
Proof.
  rewrite <- le_to_le. rewrite <- (to_le_length n v) at 1. apply to_le_le, to_le_bytes.
Qed.
Lemma to_le_congr n a b : a mod 256 ^ Z.of_nat n = b mod 256 ^ Z.of_nat n -> to_le n a = to_le n b.
Proof. intros H. rewrite <- (to_le_mod n a), <- (to_le_mod n b), H. reflexivity. Qed.
Lemma s64_mod v : s64 v mod 2 ^ 64 = v mod 2 ^ 64.
Proof.
  unfold s64. cbv zeta. destruct (Z.ltb_spec (v mod 2 ^ 64) (2 ^ 63)).
  - apply Z.mod_mod. lia.
  - rewrite <- (Z.mod_mod v (2 ^ 64)) at 2 by lia. rewrite <- (Z_mod_plus_full (v mod 2 ^ 64 - 2 ^ 64) 1). f_equal. lia.
Qed.
Lemma s32_mod v : s32 v mod 2 ^ 32 = v mod 2 ^ 32.
Proof.
  unfold s32. cbv zeta. destruct (Z.ltb_spec (v mod 2 ^ 32) (2 ^ 31)).
  - apply Z.mod_mod. lia.
  - rewrite <- (Z.mod_mod v (2 ^ 32)) at 2 by lia. rewrite <- (Z_mod_plus_full (v mod 2 ^ 32 - 2 ^ 32) 1). f_equal. lia.
Qed.
Lemma back64 bs : bytes bs -> length bs = 8%nat -> to_le 8 (s64 (le bs)) = bs /\ to_le 8 (u64 (le bs)) = bs.
Proof.
  intros B L. pose proof (to_le_le bs B) as H. rewrite L in H. split.
  - rewrite <- H at 2. apply to_le_congr. exact (s64_mod _).
  - rewrite <- H at 2. apply to_le_congr. unfold u64. change (256 ^ Z.of_nat 8) with (2 ^ 64). apply Z.mod_mod. lia.
Qed.
Lemma back32 bs : bytes bs -> length bs = 4%nat -> to_le 4 (s32 (le bs)) = bs /\ to_le 4 (u32 (le bs)) = bs.
Proof.
  intros B L. pose proof (to_le_le bs B) as H. rewrite L in H. split.
  - rewrite <- H at 2. apply to_le_congr. exact (s32_mod _).
  - rewrite <- H at 2. apply to_le_congr. unfold u32. change (256 ^ Z.of_nat 4) with (2 ^ 32). apply Z.mod_mod. lia.
Qed.

Lemma chunk (bs : list Z) off w : (off + w <= length bs)%nat -> take w (drop off bs) ++ drop (off + w) bs = drop off bs.
Proof. intros _. rewrite <- drop_drop, take_drop. reflexivity. Qed.
Lemma chunk_to (bs : list Z) off w e : (off + w = e)%nat -> take w (drop off bs) ++ drop e bs = drop off bs.
Proof. intros <-. rewrite <- drop_drop, take_drop. reflexivity. Qed.
Lemma chunk_len (bs : list Z) off w : (off + w <= length bs)%nat -> length (take w (drop off bs)) = w.
Proof. intros H. rewrite take_length, drop_length. lia. Qed.
Lemma chunk_bytes bs off w : bytes bs -> bytes (take w (drop off bs)).
Proof. intros H. apply Forall_take, Forall_drop, H. Qed.
Lemma chunk_last (bs : list Z) off w : (length bs = off + w)%nat -> take w (drop off bs) = drop off bs.
Proof. intros H. apply take_ge. rewrite drop_length. lia. Qed.

Lemma at64 bs off : bytes bs -> (off + 8 <= length bs)%nat ->
  to_le 8 (s64 (le (take 8 (drop off bs)))) = take 8 (drop off bs) /\ to_le 8 (u64 (le (take 8 (drop off bs)))) = take 8 (drop off bs).
Proof. intros B L. apply back64; [apply chunk_bytes, B|apply chunk_len, L]. Qed.
Lemma at32 bs off : bytes bs -> (off + 4 <= length bs)%nat ->
  to_le 4 (s32 (le (take 4 (drop off bs)))) = take 4 (drop off bs) /\ to_le 4 (u32 (le (take 4 (drop off bs)))) = take 4 (drop off bs).
Proof. intros B L. apply back32; [apply chunk_bytes, B|apply chunk_len, L]. Qed.

Definition struct_size (nr : Z) : nat := if nr =? 302 then 16 else if nr =? 286 then 32 else 144.

Lemma un_struct_parts fs ms : forall bs, Forall2 (fun f b => exists j, member_of ms (fst f) = Some j /\ un_layout (snd f) j = Some b) fs bs ->
  un_struct fs ms = Some (concat bs).
Proof.
  induction 1 as [|[k l] b fs bs (j & M & U) F IH]; [reflexivity|]. cbn [un_struct fst snd] in *. rewrite M, U, IH. reflexivity.
Qed.
Lemma un_u64 bs off : bytes bs -> (off + 8 <= length bs)%nat -> un_layout (LNum 8) (js_u64 bs off) = Some (take 8 (drop off bs)).
Proof. intros B L. cbn [un_layout un_num js_u64]. rewrite (proj2 (at64 bs off B L)). reflexivity. Qed.
Lemma un_s64 bs off : bytes bs -> (off + 8 <= length bs)%nat -> un_num 8 (js_s64 bs off) = Some (take 8 (drop off bs)).
Proof. intros B L. cbn [un_num js_s64]. rewrite (proj1 (at64 bs off B L)). reflexivity. Qed.
Lemma un_u32 bs off : bytes bs -> (off + 4 <= length bs)%nat -> un_layout (LNum 4) (js_u32 bs off) = Some (take 4 (drop off bs)).
Proof. intros B L. cbn [un_layout un_num js_u32]. rewrite (proj2 (at32 bs off B L)). reflexivity. Qed.
Lemma un_s32 bs off : bytes bs -> (off + 4 <= length bs)%nat -> un_layout (LNum 4) (js_s32 bs off) = Some (take 4 (drop off bs)).
Proof. intros B L. cbn [un_layout un_num js_s32]. rewrite (proj1 (at32 bs off B L)). reflexivity. Qed.
Lemma un_timespec bs off : bytes bs -> (off + 16 <= length bs)%nat -> un_layout timespec_layout (js_timespec_at bs off) = Some (take 16 (drop off bs)).
Proof.
  intros B L. unfold timespec_layout, js_timespec_at, js_timespec, js_obj. cbn [map fst snd un_layout].
  unfold num_at. change (member_of _ "Sec") with (Some (js_s64 bs off)). change (member_of _ "Nsec") with (Some (js_s64 bs (off + 8))).
  unfold js_s64. cbv iota. rewrite (proj1 (at64 bs off B ltac:(lia))), (proj1 (at64 bs (off + 8) B ltac:(lia))).
  f_equal. rewrite <- drop_drop. rewrite <- (take_drop 8 (take 16 (drop off bs))). rewrite take_take. f_equal.
  exact (take_drop_commute (drop off bs) 8 8).
Qed.
Lemma un_nums3 bs off : bytes bs -> (off + 24 <= length bs)%nat ->
  un_layout (LNums 3 8) (JsArr [js_s64 bs off; js_s64 bs (off + 8); js_s64 bs (off + 16)])
  = Some (take 8 (drop off bs) ++ take 8 (drop (off + 8) bs) ++ take 8 (drop (off + 16) bs)).
Proof.
  intros B L. cbn [un_layout length Nat.eqb mapM]. rewrite !un_s64 by (assumption || lia). cbn. rewrite app_nil_r. reflexivity.
Qed.

Lemma un_struct_back nr bs : bytes bs -> length bs = struct_size nr ->
  exists ms, js_struct nr bs = JsObj ms /\ un_struct (layout_of nr) ms = Some bs.
Proof.
  intros B L. unfold struct_size in L. unfold js_struct, layout_of. destruct (nr =? 302); [|destruct (nr =? 286)].
  - eexists. split; [reflexivity|]. erewrite un_struct_parts.
    2:{ constructor; [eexists; split; [reflexivity|apply un_u64; [exact B|lia]]|].
        constructor; [eexists; split; [reflexivity|apply un_u64; [exact B|lia]]|]. constructor. }
    cbn [concat]. rewrite app_nil_r. f_equal. rewrite (chunk_last bs 8 8) by lia. exact (chunk bs 0 8 ltac:(lia)).
  - eexists. split; [reflexivity|]. erewrite un_struct_parts.
    2:{ do 2 (constructor; [eexists; split; [reflexivity|apply un_timespec; [exact B|lia]]|]). constructor. }
    cbn [concat]. rewrite app_nil_r. f_equal. rewrite (chunk_last bs 16 16) by lia. exact (chunk bs 0 16 ltac:(lia)).
  - eexists. split; [reflexivity|]. erewrite un_struct_parts.
    2:{ do 3 (constructor; [eexists; split; [reflexivity|apply un_u64; [exact B|lia]]|]).
        do 3 (constructor; [eexists; split; [reflexivity|apply un_u32; [exact B|lia]]|]).
        constructor; [eexists; split; [reflexivity|apply un_s32; [exact B|lia]]|].
        constructor; [eexists; split; [reflexivity|apply un_u64; [exact B|lia]]|].
        do 3 (constructor; [eexists; split; [reflexivity|cbn [snd un_layout]; apply un_s64; [exact B|lia]]|]).
        do 3 (constructor; [eexists; split; [reflexivity|apply un_timespec; [exact B|lia]]|]).
        constructor; [eexists; split; [reflexivity|exact (un_nums3 bs 120 B ltac:(lia))]|]. constructor. }
    cbn [concat]. rewrite app_nil_r. f_equal. change (120 + 8)%nat with 128%nat. change (120 + 16)%nat with 136%nat.
    rewrite (chunk_last bs 136 8) by lia.
    rewrite (chunk_to bs 128 8 136 eq_refl).
    rewrite (chunk_to bs 120 8 128 eq_refl).
    rewrite (chunk_to bs 104 16 120 eq_refl).
    rewrite (chunk_to bs 88 16 104 eq_refl).
    rewrite (chunk_to bs 72 16 88 eq_refl).
    rewrite (chunk_to bs 64 8 72 eq_refl).
    rewrite (chunk_to bs 56 8 64 eq_refl).
    rewrite (chunk_to bs 48 8 56 eq_refl).
    rewrite (chunk_to bs 40 8 48 eq_refl).
    rewrite (chunk_to bs 36 4 40 eq_refl).
    rewrite (chunk_to bs 32 4 36 eq_refl).
    rewrite (chunk_to bs 28 4 32 eq_refl).
    rewrite (chunk_to bs 24 4 28 eq_refl).
    rewrite (chunk_to bs 16 8 24 eq_refl).
    rewrite (chunk_to bs 8 8 16 eq_refl).
    rewrite (chunk_to bs 0 8 8 eq_refl).
    reflexivity.
Qed.

Lemma s8_back b : 0 <= b < 256 -> to_le 1 (s8 b) = [b].
Proof.
  intros H. cbn [to_le]. unfold s8. destruct (Z.ltb_spec b 128); [rewrite Z.mod_small by lia; reflexivity|].
  rewrite <- (Z_mod_plus_full (b - 256) 1 256). rewrite Z.mod_small by lia. do 2 f_equal. lia.
Qed.
Lemma data_back bs : bytes bs -> mapM (un_num 1) (map (fun b => JsNum (s8 b)) bs) = Some (map (fun b => [b]) bs).
Proof.
  induction 1 as [|b t Hb Ht IH]; [reflexivity|]. cbn [map mapM].
  assert (E : un_num 1 (JsNum (s8 b)) = Some [b]) by (unfold un_num; rewrite (s8_back b Hb); reflexivity).
  rewrite E. cbn [mbind option_bind]. rewrite IH. reflexivity.
Qed.
Lemma concat_singles (bs : list Z) : concat (map (fun b => [b]) bs) = bs.
Proof. induction bs as [|b t IH]; [reflexivity|]. cbn. rewrite IH. reflexivity. Qed.

Lemma un_sockaddr_back heap mem rest : bytes mem -> (16 <= length mem)%nat ->
  exists ms, js_sockaddr (mem ++ rest) = JsObj ms /\ un_sockaddr heap ms = Some (MSock (parse_sockaddr (client_sockaddr mem heap))).
Proof.
  intros B L. eexists. split; [reflexivity|]. unfold un_sockaddr. cbn [map fst snd].
  assert (H2 : take 2 (mem ++ rest) = take 2 mem) by (apply take_app_le; lia).
  assert (H14 : take 14 (drop 2 (mem ++ rest)) = take 14 (drop 2 mem)).
  { rewrite drop_app_le by lia. apply take_app_le. rewrite drop_length. lia. }
  rewrite H2, H14. set (d := take 14 (drop 2 mem)).
  assert (Hl : length d = 14%nat) by (apply chunk_len; lia). assert (Hb : bytes d) by (apply chunk_bytes, B).
  cbn [un_struct]. change (member_of _ "Family") with (Some (JsNum (le (take 2 mem)))).
  change (member_of _ "Data") with (Some (JsArr (map (fun b => JsNum (s8 b)) d))).
  cbn [un_layout un_num]. rewrite map_length, Hl. change (Nat.eqb 14 14) with true. cbv iota. rewrite (data_back d Hb), concat_singles.
  assert (Hf : to_le 2 (le (take 2 mem)) = take 2 mem).
  { rewrite <- (to_le_le (take 2 mem)) at 2 by (apply Forall_take, B). rewrite take_length, min_l by lia. reflexivity. }
  rewrite Hf, app_nil_r. unfold client_sockaddr, d. do 4 f_equal.
  rewrite <- (take_drop 2 (take 16 mem)), take_take. f_equal. exact (take_drop_commute mem 14 2).
Qed.

(** * One argument *)

Lemma read_bytes_take args off n bs : read_bytes args off n = Some bs -> bs = take n (drop off args) /\ (off + n <= length args)%nat.
Proof.
  unfold read_bytes. destruct (Nat.leb_spec (off + n) (length args)); [|discriminate]. intros E. apply Some_inj in E. subst bs. split; [reflexivity|lia].
Qed.

Definition field_ok (nr : Z) (f : field) : bool :=
  (f_slot f <=? 4)%nat &&
  match f_kind f with
  | KCopy n | KPtr n => Nat.eqb n (struct_size nr)
  | _ => true
  end.
Lemma fields_ok : forallb (fun d => forallb (field_ok (fst (fst d))) (snd d)) decoders = true.
Proof. vm_compute. reflexivity. Qed.
Lemma field_is_ok nr fs f : decoder nr = Some fs -> In f fs -> field_ok nr f = true.
Proof.
  intros D I. destruct (decoder_in nr fs D) as (d & Hd & <- & <-). pose proof fields_ok as H. rewrite forallb_forall in H.
  specialize (H d Hd). rewrite forallb_forall in H. exact (H f I).
Qed.

Lemma un_member_back p heap args nr f v j s : reasonable p -> bytes args -> length args = 640%nat -> field_ok nr f = true ->
  decode_field args f = Some v -> shows p args nr (f_name f) v j -> server_member args nr f v = Some s ->
  un_member (j_order p) heap (j_base p) nr f j = client_member (j_order p) heap args nr f v.
Proof.
  intros P B L K D S M. apply andb_true_iff in K. destruct K as [K1 K2]. apply Nat.leb_le in K1.
  unfold decode_field in D. unfold un_member.
  assert (Hslice : forall off len, (off <= 512)%nat -> shows p args nr (f_name f) (VSlice off len) j -> server_member args nr f (VSlice off len) = Some s ->
    match j with JsStr s => match unb64 s with Some bs => Some (MBytes bs) | None => None end | _ => None end
    = client_member (j_order p) heap args nr f (VSlice off len)).
  { clear D S M v. intros off len Ho S M. cbn [shows] in S. destruct S as (x & -> & U). rewrite U. cbn [server_member client_member show] in *.
    destruct (len <? 0) eqn:Hl; [destruct (jtype_of nr (f_name f)); discriminate|]. apply Z.ltb_ge in Hl.
    destruct (read_bytes args off (Z.to_nat len)) as [bs|] eqn:R; [|destruct (jtype_of nr (f_name f)); discriminate].
    apply read_bytes_take in R. destruct R as [-> R]. cbn [of_shown]. do 2 f_equal. apply take_app_le. rewrite drop_length. lia. }
  assert (Hstruct : forall n bs, bytes bs -> length bs = n -> Nat.eqb n (struct_size nr) = true -> j = js_struct nr bs ->
    match j with JsObj ms => match un_struct (layout_of nr) ms with Some bs => Some (MBytes bs) | None => None end | _ => None end = Some (MBytes bs)).
  { clear D S M. intros n bs Hb Hn Hs ->. apply Nat.eqb_eq in Hs. destruct (un_struct_back nr bs Hb ltac:(congruence)) as (ms & -> & U). rewrite U. reflexivity. }
  assert (Hint : forall o, vint o = Some v -> un_int (j_order p) nr (f_name f) j = client_member (j_order p) heap args nr f v).
  { intros o Ho. unfold vint in Ho. destruct o as [z|]; [|discriminate]. apply Some_inj in Ho. subst v. cbn [shows client_member] in *. subst j.
    apply un_int_back, (re_order p P). }
  set (off := slot_start (f_slot f)) in *.
  assert (Hoff : (off <= 512)%nat) by (unfold off, slot_start, arg_len; lia).
  destruct (f_kind f) as [| | | | |n|cnt|l| |n|n| |].
  - exact (Hint _ D).
  - exact (Hint _ D).
  - exact (Hint _ D).
  - exact (Hint _ D).
  - destruct (read_bytes args off arg_len) as [bs|]; [|discriminate]. apply Some_inj in D. subst v. cbn [shows client_member] in *. subst j. reflexivity.
  - apply Some_inj in D. subst v. exact (Hslice _ _ Hoff S M).
  - destruct (c64 args _); [|discriminate]. apply Some_inj in D. subst v. exact (Hslice _ _ Hoff S M).
  - destruct (c64 args _); [|discriminate]. apply Some_inj in D. subst v. exact (Hslice _ _ Hoff S M).
  - apply Some_inj in D. subst v. cbn [shows client_member] in *.
    destruct (un_sockaddr_back heap (drop off args) (j_heap p)) as (ms & E & U); [apply Forall_drop, B|rewrite drop_length; lia|].
    rewrite S, E. exact U.
  - apply Some_inj in D. subst v. cbn [shows] in S. cbn [client_member show server_member] in *.
    destruct (read_bytes args off n) as [bs|] eqn:R; [|destruct (jtype_of nr (f_name f)); discriminate].
    apply read_bytes_take in R. destruct R as [-> R]. cbn [of_shown]. refine (Hstruct n _ _ _ K2 S); [apply chunk_bytes, B|apply chunk_len; lia].
  - destruct (read_bytes args off n) as [bs|] eqn:R; [|discriminate]. apply Some_inj in D. subst v. cbn [shows client_member show of_shown] in *.
    apply read_bytes_take in R. destruct R as [-> R]. refine (Hstruct n _ _ _ K2 S); [apply chunk_bytes, B|apply chunk_len; lia].
  - apply Some_inj in D. subst v. cbn [shows client_member show of_shown] in *. subst j. unfold js_timespec, js_obj. cbn [map fst snd].
    unfold num_at. change (member_of _ "Sec") with (Some (JsNum (j_base p + Z.of_nat (slot_start (f_slot f))))). cbv iota.
    change (member_of _ "Nsec") with (Some (JsNum (j_base p + Z.of_nat (slot_start (S (f_slot f)))))). cbv iota.
    do 2 f_equal. unfold slot_start, arg_len. rewrite Nat2Z.inj_mul.
    replace (j_base p + Z.of_nat (f_slot f) * Z.of_nat 128 - j_base p) with (Z.of_nat (f_slot f) * 128) by lia.
    rewrite Z.div_mul by lia. apply Nat2Z.id.
  - apply Some_inj in D. subst v. cbn [shows client_member] in *. subst j. apply un_int_back, (re_order p P).
Qed.

(** What shows an argument is not null. *)
Lemma int_json_some p args nr name z : int_json p args nr name z <> JsNull.
Proof. rewrite <- int_json_iff. unfold tint. destruct (jtype_of nr name); discriminate. Qed.
Lemma shows_some p args nr name v j : shows p args nr name v j -> j <> JsNull.
Proof.
  destruct v; cbn [shows]; intros S.
  - subst j. apply int_json_some.
  - subst j. discriminate.
  - subst j. unfold js_struct. destruct (nr =? 302); [|destruct (nr =? 286)]; discriminate.
  - destruct S as (x & -> & _). discriminate.
  - subst j. discriminate.
  - subst j. unfold js_struct. destruct (nr =? 302); [|destruct (nr =? 286)]; discriminate.
  - subst j. discriminate.
Qed.
