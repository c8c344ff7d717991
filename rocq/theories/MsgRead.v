(** Reading messages back, and when they are small enough. *)
From Coq Require Import ZArith String Ascii Lia.
From stdpp Require Import base list numbers strings pretty gmap.
From Verif Require Import SyscallTable SyscallModel SyscallSpec SyscallProofs TopoModel RawModel RawSpec CodecTables
  CodecModel JsonModel JsonSpec JsonProofs RawProofs LineModel DecodeModel MsgModel MsgSpec MsgProofs MsgBound.

Local Open Scope string_scope.
Local Open Scope list_scope.
Local Open Scope Z_scope.

Lemma hexd_value d : 0 <= d < 16 -> hex_value (hexd d) = Some d.
Proof.
  intros H. unfold hexd, hex_value.
  destruct (Z.ltb_spec d 10).
  - replace ((48 <=? 48 + d) && (48 + d <=? 57)) with true
      by (symmetry; apply andb_true_iff; split; apply Z.leb_le; lia). f_equal. lia.
  - replace ((48 <=? 87 + d) && (87 + d <=? 57)) with false
      by (symmetry; apply andb_false_iff; right; apply Z.leb_gt; lia).
    replace ((97 <=? 87 + d) && (87 + d <=? 102)) with true
      by (symmetry; apply andb_true_iff; split; apply Z.leb_le; lia). f_equal. lia.
Qed.

Lemma unesc_raw b t : 32 <= b -> b <> 34 -> b <> 92 ->
  unesc (b :: t) = match unesc t with Some r => Some (b :: r) | None => None end.
Proof.
  intros H1 H2 H3. cbn [unesc].
  rewrite (proj2 (Z.eqb_neq b 92) H3), (proj2 (Z.eqb_neq b 34) H2), (proj2 (Z.ltb_ge b 32) H1). reflexivity.
Qed.

Lemma unesc_short e c t : short_escape e = Some c -> e <> 117 ->
  unesc (92 :: e :: t) = match unesc t with Some r => Some (c :: r) | None => None end.
Proof.
  intros H1 H2. change (unesc (92 :: e :: t)) with
    (if e =? 117 then
              match t with
              | h3 :: h2 :: h1 :: h0 :: t2 =>
                  match hex_value h3, hex_value h2, hex_value h1, hex_value h0, unesc t2 with
                  | Some d3, Some d2, Some d1, Some d0, Some r =>
                      let c := ((d3 * 16 + d2) * 16 + d1) * 16 + d0 in
                      if (55296 <=? c) && (c <? 57344) then None else Some (utf8 c ++ r)
                  | _, _, _, _, _ => None
                  end
              | _ => None
              end
            else match short_escape e, unesc t with
                 | Some c, Some r => Some (c :: r)
                 | _, _ => None
                 end).
  rewrite (proj2 (Z.eqb_neq e 117) H2), H1. reflexivity.
Qed.

Lemma unesc_u h3 h2 h1 h0 d3 d2 d1 d0 t r c :
  hex_value h3 = Some d3 -> hex_value h2 = Some d2 -> hex_value h1 = Some d1 -> hex_value h0 = Some d0 ->
  unesc t = Some r -> c = ((d3 * 16 + d2) * 16 + d1) * 16 + d0 -> c < 55296 \/ 57344 <= c ->
  unesc (92 :: 117 :: h3 :: h2 :: h1 :: h0 :: t) = Some (utf8 c ++ r).
Proof.
  intros H3 H2 H1 H0 Ht Hc Hs.
  change (unesc (92 :: 117 :: h3 :: h2 :: h1 :: h0 :: t)) with
     (match hex_value h3, hex_value h2, hex_value h1, hex_value h0, unesc t with
                  | Some d3, Some d2, Some d1, Some d0, Some r =>
                      let c := ((d3 * 16 + d2) * 16 + d1) * 16 + d0 in
                      if (55296 <=? c) && (c <? 57344) then None else Some (utf8 c ++ r)
                  | _, _, _, _, _ => None
                  end).
  rewrite H3, H2, H1, H0, Ht. cbv zeta. rewrite <- Hc.
  replace ((55296 <=? c) && (c <? 57344)) with false; [reflexivity|].
  symmetry. apply andb_false_iff. destruct Hs; [left; apply Z.leb_gt|right; apply Z.ltb_ge]; lia.
Qed.

Lemma unesc_byte b t r : 0 <= b < 128 -> unesc t = Some r -> unesc (esc_byte b ++ t) = Some (b :: r).
Proof.
  intros Hb Ht. unfold esc_byte.
  destruct (Z.eqb_spec b 34) as [->|N34].
  { cbn [orb app]. rewrite (unesc_short 34 34) by (reflexivity || lia). rewrite Ht. reflexivity. }
  destruct (Z.eqb_spec b 92) as [->|N92].
  { cbn [orb app]. rewrite (unesc_short 92 92) by (reflexivity || lia). rewrite Ht. reflexivity. }
  cbn [orb].
  destruct (Z.eqb_spec b 10) as [->|N10].
  { cbn [app]. rewrite (unesc_short 110 10) by (reflexivity || lia). rewrite Ht. reflexivity. }
  destruct (Z.eqb_spec b 13) as [->|N13].
  { cbn [app]. rewrite (unesc_short 114 13) by (reflexivity || lia). rewrite Ht. reflexivity. }
  destruct (Z.eqb_spec b 9) as [->|N9].
  { cbn [app]. rewrite (unesc_short 116 9) by (reflexivity || lia). rewrite Ht. reflexivity. }
  assert (Hu : utf8 b = [b]) by (unfold utf8; destruct (Z.ltb_spec b 128); [reflexivity|lia]).
  destruct ((b <? 32) || (b =? 60) || (b =? 62) || (b =? 38)) eqn:E.
  - change (txt "\u00" ++ [hexd (b / 16); hexd (b mod 16)] : list Z)
      with [92; 117; 48; 48; hexd (b / 16); hexd (b mod 16)]. cbn [app].
    rewrite (unesc_u 48 48 (hexd (b / 16)) (hexd (b mod 16)) 0 0 (b / 16) (b mod 16) t r b);
      [rewrite Hu; reflexivity|reflexivity|reflexivity|apply hexd_value|apply hexd_value|exact Ht| |lia].
    + split; [apply Z.div_pos; lia|apply Z.div_lt_upper_bound; lia].
    + apply Z.mod_pos_bound. lia.
    + pose proof (Z.div_mod b 16 ltac:(lia)). lia.
  - rewrite !orb_false_iff in E. destruct E as [[[E1 _] _] _]. apply Z.ltb_ge in E1.
    cbn [app]. rewrite unesc_raw by lia. rewrite Ht. reflexivity.
Qed.

Lemma unesc_fffd t r : unesc t = Some r -> unesc (txt "\ufffd" ++ t) = Some (239 :: 191 :: 189 :: r).
Proof.
  intros Ht. change (txt "\ufffd" ++ t : list Z) with (92 :: 117 :: 102 :: 102 :: 102 :: 100 :: t).
  rewrite (unesc_u 102 102 102 100 15 15 15 13 t r 65533); try reflexivity; [exact Ht|lia].
Qed.

Lemma unesc_esc n : forall bs, (length bs <= n)%nat -> bytes bs -> unesc (esc bs) = Some (json_text bs).
Proof.
  induction n as [|n IH]; intros bs H Hb; [destruct bs; [reflexivity|cbn in H; lia]|].
  destruct bs as [|b0 t]; [reflexivity|]. cbn [length] in H.
  inversion Hb as [|? ? Hb0 Hbt]; subst. change (bytes t) in Hbt.
  cbn [esc json_text].
  destruct (Z.ltb_spec b0 128) as [L|L].
  { apply unesc_byte; [lia|]. apply IH; [lia|exact Hbt]. }
  assert (HF : unesc (txt "\ufffd" ++ esc t) = Some (239 :: 191 :: 189 :: json_text t))
    by (apply unesc_fffd, IH; [lia|exact Hbt]).
  destruct t as [|b1 t1]; [exact HF|].
  inversion Hbt as [|? ? Hb1 Hbt1]; subst. change (bytes t1) in Hbt1.
  cbn [length] in H.
  destruct (seq2 b0 b1) eqn:E2.
  { assert (128 <= b1) by (unfold seq2, cont in E2; rewrite !andb_true_iff, !Z.leb_le in E2; lia).
    rewrite unesc_raw by lia. rewrite unesc_raw by lia. rewrite IH by (lia || exact Hbt1). reflexivity. }
  destruct t1 as [|b2 t2]; [exact HF|].
  inversion Hbt1 as [|? ? Hb2 Hbt2]; subst. change (bytes t2) in Hbt2. cbn [length] in H.
  destruct (seq3 b0 b1 b2) eqn:E3.
  { destruct (line_sep b0 b1 b2) eqn:El.
    - unfold line_sep in El. rewrite !andb_true_iff, orb_true_iff, !Z.eqb_eq in El.
      destruct El as [[-> ->] Hb2'].
      change (txt "\u202" ++ [b2 - 112] : list Z) with [92; 117; 50; 48; 50; b2 - 112]. cbn [app].
      destruct Hb2' as [-> | ->].
      + change (168 - 112) with 56.
        rewrite (unesc_u 50 48 50 56 2 0 2 8 _ (json_text t2) 8232); try reflexivity; [|lia].
        apply IH; [lia|exact Hbt2].
      + change (169 - 112) with 57.
        rewrite (unesc_u 50 48 50 57 2 0 2 9 _ (json_text t2) 8233); try reflexivity; [|lia].
        apply IH; [lia|exact Hbt2].
    - assert (128 <= b1 /\ 128 <= b2) by
        (unfold seq3, cont in E3; rewrite !andb_true_iff, !orb_true_iff, !andb_true_iff, !Z.leb_le, !Z.eqb_eq in E3; lia).
      cbn [app]. rewrite !unesc_raw by lia. rewrite IH by (lia || exact Hbt2). reflexivity. }
  destruct t2 as [|b3 t3]; [exact HF|].
  inversion Hbt2 as [|? ? Hb3 Hbt3]; subst. change (bytes t3) in Hbt3. cbn [length] in H.
  destruct (seq4 b0 b1 b2 b3) eqn:E4; [|exact HF].
  assert (128 <= b1 /\ 128 <= b2 /\ 128 <= b3) by
    (unfold seq4, cont in E4; rewrite !andb_true_iff, !orb_true_iff, !andb_true_iff, !Z.leb_le, !Z.eqb_eq in E4; lia).
  rewrite !unesc_raw by lia. rewrite IH by (lia || exact Hbt3). reflexivity.
Qed.

Lemma read_back bs : bytes bs -> exists s, quote bs = [34] ++ s ++ [34] /\ unesc s = Some (json_text bs).
Proof. intros H. exists (esc bs). split; [reflexivity|]. exact (unesc_esc _ bs (Nat.le_refl _) H). Qed.

(** * Base64 *)

Lemma sextet_char v : 0 <= v < 64 -> sextet (b64_char v) = Some v /\ b64_char v <> 61.
Proof.
  intros H. assert (Hin : In v (map Z.of_nat (seq 0 64))).
  { apply in_map_iff. exists (Z.to_nat v). split; [lia|]. apply in_seq. lia. }
  assert (Hc : forallb (fun v => match sextet (b64_char v) with Some w => (w =? v) && negb (b64_char v =? 61)
     | None => false end) (map Z.of_nat (seq 0 64)) = true) by (vm_compute; reflexivity).
  rewrite forallb_forall in Hc. specialize (Hc v Hin).
  destruct (sextet (b64_char v)) as [w|]; [|discriminate].
  apply andb_true_iff in Hc. destruct Hc as [H1 H2]. apply Z.eqb_eq in H1. subst w.
  split; [reflexivity|]. apply negb_true_iff, Z.eqb_neq in H2. exact H2.
Qed.

Lemma unb64_b64 n : forall bs, (length bs <= n)%nat -> bytes bs -> unb64 (b64 bs) = Some bs.
Proof.
  induction n as [|n IH]; intros bs H Hb; [destruct bs; [reflexivity|cbn in H; lia]|].
  destruct bs as [|a [|b [|c t]]].
  - reflexivity.
  - inversion Hb as [|? ? Ha _]; subst. cbn [b64 unb64].
    destruct (sextet_char (a / 4) ltac:(split; [apply Z.div_pos|apply Z.div_lt_upper_bound]; lia)) as [-> _].
    pose proof (Z.mod_pos_bound a 4 ltac:(lia)).
    destruct (sextet_char (a mod 4 * 16) ltac:(lia)) as [-> _].
    change (61 =? 61) with true. cbv iota. do 2 f_equal.
    rewrite Z.div_mul by lia. pose proof (Z.div_mod a 4 ltac:(lia)). lia.
  - inversion Hb as [|? ? Ha Hb']; subst. inversion Hb' as [|? ? Hb1 _]; subst. cbn [b64 unb64].
    destruct (sextet_char (a / 4) ltac:(split; [apply Z.div_pos|apply Z.div_lt_upper_bound]; lia)) as [-> _].
    pose proof (Z.mod_pos_bound a 4 ltac:(lia)) as Hm. pose proof (Z.mod_pos_bound b 16 ltac:(lia)) as Hm2.
    assert (0 <= b / 16 < 16) by (split; [apply Z.div_pos|apply Z.div_lt_upper_bound]; lia).
    destruct (sextet_char (a mod 4 * 16 + b / 16) ltac:(lia)) as [-> _].
    destruct (sextet_char (b mod 16 * 4) ltac:(lia)) as [-> Hn].
    rewrite (proj2 (Z.eqb_neq _ _) Hn).
    change (61 =? 61) with true. cbv iota.
    assert (Ed : (a mod 4 * 16 + b / 16) / 16 = a mod 4)
      by (symmetry; apply Z.div_unique with (r := b / 16); lia).
    assert (Em : (a mod 4 * 16 + b / 16) mod 16 = b / 16)
      by (symmetry; apply Z.mod_unique with (q := a mod 4); lia).
    rewrite Ed, Em, Z.div_mul by lia.
    pose proof (Z.div_mod a 4 ltac:(lia)). pose proof (Z.div_mod b 16 ltac:(lia)).
    f_equal. f_equal; [lia|f_equal; lia].
  - inversion Hb as [|? ? Ha Hb']; subst. inversion Hb' as [|? ? Hb1 Hb'']; subst.
    inversion Hb'' as [|? ? Hc Ht]; subst. cbn [length] in H.
    cbn [b64 app]. cbn [unb64].
    destruct (sextet_char (a / 4) ltac:(split; [apply Z.div_pos|apply Z.div_lt_upper_bound]; lia)) as [-> _].
    pose proof (Z.mod_pos_bound a 4 ltac:(lia)) as Hm. pose proof (Z.mod_pos_bound b 16 ltac:(lia)) as Hm2.
    pose proof (Z.mod_pos_bound c 64 ltac:(lia)) as Hm3.
    assert (0 <= b / 16 < 16) by (split; [apply Z.div_pos|apply Z.div_lt_upper_bound]; lia).
    assert (0 <= c / 64 < 4) by (split; [apply Z.div_pos|apply Z.div_lt_upper_bound]; lia).
    destruct (sextet_char (a mod 4 * 16 + b / 16) ltac:(lia)) as [-> _].
    destruct (sextet_char (b mod 16 * 4 + c / 64) ltac:(lia)) as [-> _].
    destruct (sextet_char (c mod 64) ltac:(lia)) as [-> Hn].
    rewrite (IH t ltac:(lia) Ht), (proj2 (Z.eqb_neq _ _) Hn).
    assert (Ed : (a mod 4 * 16 + b / 16) / 16 = a mod 4)
      by (symmetry; apply Z.div_unique with (r := b / 16); lia).
    assert (Em : (a mod 4 * 16 + b / 16) mod 16 = b / 16)
      by (symmetry; apply Z.mod_unique with (q := a mod 4); lia).
    assert (Ed2 : (b mod 16 * 4 + c / 64) / 4 = b mod 16)
      by (symmetry; apply Z.div_unique with (r := c / 64); lia).
    assert (Em2 : (b mod 16 * 4 + c / 64) mod 4 = c / 64)
      by (symmetry; apply Z.mod_unique with (q := b mod 16); lia).
    rewrite Ed, Em, Ed2, Em2.
    pose proof (Z.div_mod a 4 ltac:(lia)). pose proof (Z.div_mod b 16 ltac:(lia)).
    pose proof (Z.div_mod c 64 ltac:(lia)).
    f_equal. f_equal; [lia|f_equal; [lia|f_equal; lia]].
Qed.

(** * Small enough *)

Lemma esc_ordinary bs : ordinary bs -> esc bs = bs.
Proof.
  induction 1 as [|b t Hb Ht IH]; [reflexivity|]. cbn [esc].
  destruct (Z.ltb_spec b 128); [|lia]. rewrite IH. unfold esc_byte.
  rewrite (proj2 (Z.eqb_neq b 34)), (proj2 (Z.eqb_neq b 92)), (proj2 (Z.eqb_neq b 10)), (proj2 (Z.eqb_neq b 13)),
    (proj2 (Z.eqb_neq b 9)), (proj2 (Z.ltb_ge b 32)), (proj2 (Z.eqb_neq b 60)), (proj2 (Z.eqb_neq b 62)),
    (proj2 (Z.eqb_neq b 38)) by lia. reflexivity.
Qed.

Lemma ordinary_fit p tbl c bs t r msg :
  reasonable p -> go_table tbl -> bytes bs -> ingest (InBytes bs) = Ingested t -> ingest_bytes bs = Some r ->
  short_slices (t_argv t) -> ordinary_strings (t_argv t) -> (length (container_text c) <= 1896)%nat ->
  message p (lookup_sc tbl (ByInt (t_syscall t))) c (r_args r) t = Some msg ->
  (length msg <= message_limit)%nat.
Proof.
  intros [Ho Hh _] Ht Hb Hi Hr Hsl Hst Hc Hm.
  pose proof (ingested_le 128 1500 p tbl c bs t r msg plain_check Ho Hh Ht Hb Hi Hr Hsl) as HB.
  assert (HS : forall s, VStr s ∈ t_argv t -> (length (esc s) <= 128)%nat).
  { intros s Hin. rewrite (esc_ordinary _ (Hst s Hin)). exact (ingested_strings bs t s Hb Hi Hin). }
  specialize (HB HS Hm). unfold message_limit. lia.
Qed.

Lemma any_fit p tbl c bs t r msg :
  reasonable p -> go_table tbl -> bytes bs -> ingest (InBytes bs) = Ingested t -> ingest_bytes bs = Some r ->
  short_slices (t_argv t) -> (length (container_text c) <= 286)%nat ->
  message p (lookup_sc tbl (ByInt (t_syscall t))) c (r_args r) t = Some msg ->
  (length msg <= message_limit)%nat.
Proof.
  intros [Ho Hh _] Ht Hb Hi Hr Hsl Hc Hm.
  pose proof (ingested_le 768 3110 p tbl c bs t r msg worst_check Ho Hh Ht Hb Hi Hr Hsl) as HB.
  assert (HS : forall s, VStr s ∈ t_argv t -> (length (esc s) <= 768)%nat).
  { intros s Hin. pose proof (ingested_strings bs t s Hb Hi Hin).
    pose proof (esc_len _ s (Nat.le_refl _)). lia. }
  specialize (HB HS Hm). unfold message_limit. lia.
Qed.

Lemma mprotect_pages p tbl c bs t r msg l :
  bytes bs -> ingest (InBytes bs) = Ingested t -> ingest_bytes bs = Some r -> t_syscall t = 10 ->
  c64 (r_args r) (slot_start 1) = Some l -> 3073 <= l -> (Z.to_nat l <= length (j_heap p))%nat ->
  message p (lookup_sc tbl (ByInt (t_syscall t))) c (r_args r) t = Some msg ->
  (message_limit < length msg)%nat.
Proof.
  intros Hb Hi Hr Hn Hl H3 Hh Hm.
  destruct (ingested bs t Hb Hi) as (r' & fs & Hr' & _ & H640 & Hd & Hv & _).
  assert (r' = r) as -> by congruence.
  apply (mprotect_long p (lookup_sc tbl (ByInt (t_syscall t))) c (r_args r) t msg l H640 Hn); [|exact Hl|exact H3|exact Hh|exact Hm].
  unfold decode_syscall. rewrite Hn in Hd. rewrite Hd, Hv. reflexivity.
Qed.

(** A message always exists: every event that can be read has arguments. *)
Definition both_check : bool :=
  forallb (fun d => match List.find (fun e => fst (fst e) =? fst (fst d)) json_structs with Some _ => true | None => false end)
    decoders.
Lemma both_checked : both_check = true.
Proof. vm_compute. reflexivity. Qed.

Lemma message_slices p sc c bs t r : bytes bs -> ingest (InBytes bs) = Ingested t -> ingest_bytes bs = Some r ->
  (is_Some (message p sc c (r_args r) t) <-> forallb (slice_ok p (r_args r)) (t_argv t) = true).
Proof.
  intros Hb Hi Hr. destruct (ingested bs t Hb Hi) as (r' & fs & _ & _ & _ & Hd & _ & _).
  destruct (decoder_in _ _ Hd) as (d & Hin & Hnr & _).
  pose proof both_checked as Hc. unfold both_check in Hc. rewrite forallb_forall in Hc.
  specialize (Hc d Hin). rewrite Hnr in Hc.
  unfold message, args_text. rewrite Hd.
  destruct (List.find (fun e => fst (fst e) =? t_syscall t) json_structs) as [[[k nest] js]|]; [|discriminate].
  destruct (forallb (slice_ok p (r_args r)) (t_argv t)); cbn [negb].
  - split; [reflexivity|]. intros _. eexists. reflexivity.
  - split; [intros [x Hx]; discriminate|discriminate].
Qed.

(** Which members are slices, and of which lengths. *)
Definition slice_fields : list (Z * nat * kind) :=
  [(0, 1%nat, KSliceMin 2); (1, 1%nat, KSliceMin 2); (89, 1%nat, KSliceMin 2); (267, 2%nat, KSliceMin 3);
   (10, 3%nat, KSliceMax 1)].
Definition kind_eqb (a b : kind) : bool :=
  match a, b with
  | KSliceMin m, KSliceMin n | KSliceMax m, KSliceMax n => (m =? n)%nat
  | _, _ => false
  end.
Definition listed (nr : Z) (f : field) : bool :=
  existsb (fun e => (fst (fst e) =? nr) && (snd (fst e) =? f_slot f)%nat && kind_eqb (snd e) (f_kind f)) slice_fields.
Definition slice_check : bool :=
  forallb (fun d => forallb (fun f =>
     match f_kind f with
     | KSliceMin _ | KSliceMax _ => listed (fst (fst d)) f
     | KSlice n => (slot_start (f_slot f) + n <=? 640)%nat
     | _ => true
     end) (snd d)) decoders
  && forallb (fun e => match decoder (fst (fst e)) with
       | Some fs => existsb (fun f => (snd (fst e) =? f_slot f)%nat && kind_eqb (snd e) (f_kind f)) fs
       | None => true end) slice_fields.
Lemma slice_checked : slice_check = true.
Proof. vm_compute. reflexivity. Qed.

Lemma kind_eqb_eq a b : kind_eqb a b = true -> a = b.
Proof. destruct a, b; try discriminate; cbn; intros H; apply Nat.eqb_eq in H; congruence. Qed.

Lemma decode_values args fs : forall vs, decode_fields args fs = Some vs ->
  forall v, v ∈ vs <-> exists f, f ∈ fs /\ decode_field args f = Some v.
Proof.
  induction fs as [|f fs IH]; intros vs H v; cbn [decode_fields] in H.
  - assert (vs = []) as -> by congruence. split; [intros Hv; inversion Hv|intros (g & Hg & _); inversion Hg].
  - destruct (decode_field args f) as [w|] eqn:Ew; [|discriminate].
    destruct (decode_fields args fs) as [ws|] eqn:Es; [|discriminate].
    assert (vs = w :: ws) as -> by congruence. rewrite elem_of_cons, (IH ws eq_refl). split.
    + intros [->|(g & Hg & Hv)]; [exists f; split; [left|exact Ew]|exists g; split; [right; exact Hg|exact Hv]].
    + intros (g & Hg & Hv). apply elem_of_cons in Hg. destruct Hg as [->|Hg]; [left; congruence|right; exists g; tauto].
Qed.

Lemma message_none p sc c bs t r : bytes bs -> ingest (InBytes bs) = Ingested t -> ingest_bytes bs = Some r ->
  (message p sc c (r_args r) t = None <-> ends_the_server p (r_args r) (t_syscall t)).
Proof.
  intros Hb Hi Hr. pose proof (message_slices p sc c bs t r Hb Hi Hr) as Hs.
  destruct (ingested bs t Hb Hi) as (r' & fs & Hr' & _ & H640 & Hd & Hv & _).
  assert (r' = r) as -> by congruence.
  assert (E1 : message p sc c (r_args r) t = None <-> exists v, v ∈ t_argv t /\ slice_ok p (r_args r) v = false).
  { destruct (forallb (slice_ok p (r_args r)) (t_argv t)) eqn:Ef.
    - destruct (proj2 Hs eq_refl) as [m Hm]. rewrite Hm. split; [discriminate|].
      intros (v & Hin & Hf). rewrite forallb_forall in Ef. apply elem_of_list_In in Hin.
      specialize (Ef v Hin). congruence.
    - split; intros _.
      + clear -Ef. induction (t_argv t) as [|v vs IH]; [discriminate|]. cbn [forallb] in Ef.
        destruct (slice_ok p (r_args r) v) eqn:E; [|exists v; split; [left|exact E]].
        destruct (IH Ef) as (w & Hw & Hf). exists w. split; [right; exact Hw|exact Hf].
      + destruct (message p sc c (r_args r) t); [|reflexivity]. specialize (proj1 Hs ltac:(eexists; reflexivity)). discriminate. }
  rewrite E1. clear E1 Hs.
  pose proof slice_checked as Hc. unfold slice_check in Hc. apply andb_true_iff in Hc. destruct Hc as [Hc1 Hc2].
  rewrite forallb_forall in Hc1, Hc2.
  destruct (decoder_in _ _ Hd) as (d & Hin & Hnr & Hfs).
  specialize (Hc1 d Hin). rewrite Hnr, Hfs in Hc1. rewrite forallb_forall in Hc1.
  assert (Hlen : forall off n, (off <= 640)%nat -> (n <=? length (drop off (r_args r) ++ j_heap p))%nat
            = (n <=? 640 - off + length (j_heap p))%nat).
  { intros off n Ho. rewrite app_length, drop_length, H640. reflexivity. }
  assert (Hmin : forall slot cnt v, (slot < 4)%nat -> decode_field (r_args r) (Field "" slot (KSliceMin cnt)) = Some v ->
     (slice_ok p (r_args r) v = false <-> exists n, c64 (r_args r) (slot_start cnt) = Some n /\ n < 0)).
  { intros slot cnt v Hsl Hv'. unfold decode_field in Hv'. cbn [f_kind f_slot] in Hv'.
    destruct (c64 (r_args r) (slot_start cnt)) as [n|] eqn:E; [|discriminate].
    assert (v = VSlice (slot_start slot) (if n <? Z.of_nat arg_len then n else Z.of_nat arg_len)) as -> by congruence.
    cbn [slice_ok]. rewrite Hlen by (unfold slot_start, arg_len; lia). unfold slot_start, arg_len.
    destruct (Z.ltb_spec n (Z.of_nat 128)).
    - destruct (Z.leb_spec 0 n).
      + cbn [andb]. assert ((Z.to_nat n <=? 640 - slot * 128 + length (j_heap p))%nat = true) as -> by (apply Nat.leb_le; lia).
        split; [discriminate|]. intros (m & Hm & Hneg). assert (m = n) by congruence. lia.
      + cbn [andb]. split; [|reflexivity]. intros _. exists n. split; [reflexivity|lia].
    - change (0 <=? Z.of_nat 128) with true. cbn [andb].
      assert ((Z.to_nat (Z.of_nat 128) <=? 640 - slot * 128 + length (j_heap p))%nat = true) as -> by (apply Nat.leb_le; lia).
      split; [discriminate|]. intros (m & Hm & Hneg). assert (m = n) by congruence. lia. }
  assert (Hmax : forall v, decode_field (r_args r) (Field "" 3 (KSliceMax 1)) = Some v ->
     (slice_ok p (r_args r) v = false <-> exists n, c64 (r_args r) (slot_start 1) = Some n /\ 256 + Z.of_nat (length (j_heap p)) < n)).
  { intros v Hv'. unfold decode_field in Hv'. cbn [f_kind f_slot] in Hv'.
    destruct (c64 (r_args r) (slot_start 1)) as [n|] eqn:E; [|discriminate].
    assert (v = VSlice (slot_start 3) (if Z.of_nat arg_len <? n then n else Z.of_nat arg_len)) as -> by congruence.
    cbn [slice_ok]. rewrite Hlen by (unfold slot_start, arg_len; lia). unfold slot_start, arg_len.
    change (640 - 3 * 128)%nat with 256%nat.
    destruct (Z.ltb_spec (Z.of_nat 128) n).
    - assert ((0 <=? n) = true) as -> by (apply Z.leb_le; lia). cbn [andb]. rewrite Nat.leb_gt. split.
      + intros Hgt. exists n. split; [reflexivity|lia].
      + intros (m & Hm & Hgt). assert (m = n) by congruence. lia.
    - change (0 <=? Z.of_nat 128) with true. cbn [andb]. rewrite Nat.leb_gt. split; [lia|].
      intros (m & Hm & Hgt). assert (m = n) by congruence. lia. }
  assert (Hname : forall f, decode_field (r_args r) f = decode_field (r_args r) (Field "" (f_slot f) (f_kind f))) by reflexivity.
  split.
  - intros (v & Hin' & Hf). apply (decode_values _ _ _ Hv) in Hin'. destruct Hin' as (f & Hff & Hdf).
    specialize (Hc1 f ltac:(apply elem_of_list_In; exact Hff)).
    assert (Hl : match f_kind f with KSliceMin _ | KSliceMax _ => True | _ => False end).
    { unfold decode_field in Hdf.
      destruct (f_kind f) as [| | | | |n|cnt|l| |n|n| |]; try exact I; exfalso.
      1-4: unfold vint in Hdf; match type of Hdf with match ?o with _ => _ end = _ => destruct o as [z|]; [|discriminate] end;
           assert (v = VInt z) as -> by congruence; discriminate.
      - destruct (read_bytes (r_args r) (slot_start (f_slot f)) arg_len) as [b|]; [|discriminate].
        assert (v = VStr (make_cstring b arg_len)) as -> by congruence. discriminate.
      - assert (v = VSlice (slot_start (f_slot f)) (Z.of_nat n)) as -> by congruence. apply Nat.leb_le in Hc1.
        cbn [slice_ok] in Hf. rewrite Hlen in Hf by lia.
        assert ((0 <=? Z.of_nat n) = true) as Hz by (apply Z.leb_le; lia). rewrite Hz, Nat2Z.id in Hf. cbn [andb] in Hf.
        apply Nat.leb_gt in Hf. lia.
      - assert (v = VSock (slot_start (f_slot f))) as -> by congruence. discriminate.
      - assert (v = VPtr (slot_start (f_slot f)) n) as -> by congruence. discriminate.
      - destruct (read_bytes (r_args r) (slot_start (f_slot f)) n) as [b|]; [|discriminate].
        assert (v = VCopy b) as -> by congruence. discriminate.
      - assert (v = VAddrs (f_slot f)) as -> by congruence. discriminate.
      - assert (v = VInt 0) as -> by congruence. discriminate. }
    assert (Hlisted : listed (t_syscall t) f = true) by (destruct (f_kind f); try contradiction; exact Hc1).
    unfold listed, slice_fields in Hlisted. apply existsb_exists in Hlisted.
    destruct Hlisted as ([[k s] kd] & Hink & Hm). cbn [fst snd] in Hm.
    apply andb_true_iff in Hm. destruct Hm as [Hm Hkd]. apply andb_true_iff in Hm. destruct Hm as [Hk Hsl].
    apply Z.eqb_eq in Hk. apply Nat.eqb_eq in Hsl. apply kind_eqb_eq in Hkd.
    rewrite Hname, <- Hsl, <- Hkd in Hdf. unfold ends_the_server. rewrite <- Hk.
    destruct Hink as [E|[E|[E|[E|[E|[]]]]]]; injection E as <- <- <-.
    + left. split; [left; reflexivity|]. apply (Hmin 1%nat 2%nat v); [lia|exact Hdf|exact Hf].
    + left. split; [right; left; reflexivity|]. apply (Hmin 1%nat 2%nat v); [lia|exact Hdf|exact Hf].
    + left. split; [right; right; left; reflexivity|]. apply (Hmin 1%nat 2%nat v); [lia|exact Hdf|exact Hf].
    + right. left. split; [reflexivity|]. apply (Hmin 2%nat 3%nat v); [lia|exact Hdf|exact Hf].
    + right. right. split; [reflexivity|]. apply (Hmax v); [exact Hdf|exact Hf].
  - assert (Hex : forall nr s kd, In (nr, s, kd) slice_fields -> t_syscall t = nr ->
      exists v, v ∈ t_argv t /\ decode_field (r_args r) (Field "" s kd) = Some v).
    { intros nr s kd Hin' E. specialize (Hc2 _ Hin'). cbn [fst snd] in Hc2. rewrite <- E, Hd in Hc2.
      apply existsb_exists in Hc2. destruct Hc2 as (f & Hf & Hm). apply andb_true_iff in Hm. destruct Hm as [Hsl Hkd].
      apply Nat.eqb_eq in Hsl. apply kind_eqb_eq in Hkd. subst s kd. rewrite <- Hname.
      apply elem_of_list_In in Hf. destruct (decode_field (r_args r) f) as [v|] eqn:Ev.
      - exists v. split; [|reflexivity]. apply (decode_values _ _ _ Hv). exists f. tauto.
      - exfalso. revert Hv. clear -Hf Ev. revert Hf. generalize (t_argv t). induction fs as [|g fs IH]; intros vs Hf Hv; [inversion Hf|].
        cbn [decode_fields] in Hv. apply elem_of_cons in Hf. destruct Hf as [->|Hf]; [rewrite Ev in Hv; discriminate|].
        destruct (decode_field (r_args r) g); [|discriminate].
        destruct (decode_fields (r_args r) fs) as [ws|]; [|discriminate]. exact (IH ws Hf eq_refl). }
    intros [[Hnr' Hn]|[[Hnr' Hn]|[Hnr' Hn]]].
    + destruct (Hex (t_syscall t) 1%nat (KSliceMin 2)) as (v & Hin' & Hdf); [|reflexivity|].
      { destruct Hnr' as [<-|[<-|[<-|[]]]]; cbn; tauto. }
      exists v. split; [exact Hin'|]. apply (Hmin 1%nat 2%nat v); [lia|exact Hdf|exact Hn].
    + destruct (Hex 267 2%nat (KSliceMin 3)) as (v & Hin' & Hdf); [cbn; tauto|exact Hnr'|].
      exists v. split; [exact Hin'|]. apply (Hmin 2%nat 3%nat v); [lia|exact Hdf|exact Hn].
    + destruct (Hex 10 3%nat (KSliceMax 1)) as (v & Hin' & Hdf); [cbn; tauto|exact Hnr'|].
      exists v. split; [exact Hin'|]. apply (Hmax v); [exact Hdf|exact Hn].
Qed.

(** Every other event has a message. *)
Lemma message_some p sc c bs t r : bytes bs -> ingest (InBytes bs) = Ingested t -> ingest_bytes bs = Some r ->
  ~ ends_the_server p (r_args r) (t_syscall t) -> is_Some (message p sc c (r_args r) t).
Proof.
  intros Hb Hi Hr Hn. destruct (message p sc c (r_args r) t) as [m|] eqn:E; [eexists; reflexivity|].
  destruct Hn. apply (message_none p sc c bs t r Hb Hi Hr). exact E.
Qed.
