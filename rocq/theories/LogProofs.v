(** The client's log: texts and values. *)
From Coq Require Import ZArith String Ascii Lia.
From stdpp Require Import base list numbers strings pretty gmap.
From Verif Require Import SyscallTable SyscallModel TopoModel RawModel RawSpec RawProofs DecodeModel CodecTables CodecModel CodecSpec CodecNames JsonModel JsonSpec JsonProofs LineModel LineProofs
  MsgModel MsgSpec MsgProofs MsgBound MsgRead ReadSpec ReadProofs ReadTop PrintModel PrintProofs PrintTop UnmarshalModel UnmarshalSpec UnmarshalProofs UnmarshalTop LogModel.

Local Open Scope string_scope.
Local Open Scope list_scope.
Local Open Scope Z_scope.

(** * What is read holds bytes *)

Lemma hex_value_range c d : hex_value c = Some d -> 0 <= d < 16.
Proof.
  unfold hex_value. destruct ((48 <=? c) && (c <=? 57)) eqn:E1; [|destruct ((97 <=? c) && (c <=? 102)) eqn:E2; [|destruct ((65 <=? c) && (c <=? 70)) eqn:E3; [|discriminate]]];
    intros H; apply Some_inj in H; subst d.
  - rewrite andb_true_iff, !Z.leb_le in E1. lia.
  - rewrite andb_true_iff, !Z.leb_le in E2. lia.
  - rewrite andb_true_iff, !Z.leb_le in E3. lia.
Qed.
Lemma utf8_bytes c : 0 <= c < 65536 -> bytes (utf8 c).
Proof.
  intros H. pose proof (Z.mod_pos_bound c 64 ltac:(lia)). pose proof (Z.mod_pos_bound (c / 64) 64 ltac:(lia)).
  pose proof (Z.div_pos c 64 ltac:(lia) ltac:(lia)). pose proof (Z.div_pos c 4096 ltac:(lia) ltac:(lia)).
  unfold utf8. destruct (Z.ltb_spec c 128); [repeat constructor; lia|]. destruct (Z.ltb_spec c 2048).
  - pose proof (Z.div_lt_upper_bound c 64 32 ltac:(lia) ltac:(lia)). repeat constructor; lia.
  - destruct (Z.ltb_spec c 65536); [|lia]. pose proof (Z.div_lt_upper_bound c 4096 16 ltac:(lia) ltac:(lia)). repeat constructor; lia.
Qed.
Lemma short_escape_byte e c : short_escape e = Some c -> 0 <= c < 256.
Proof.
  unfold short_escape. intros H. repeat match type of H with (if ?b then _ else _) = _ => destruct b; [apply Some_inj in H; lia|] end. discriminate.
Qed.
Lemma unesc_bytes n : forall bs r, (length bs <= n)%nat -> bytes bs -> unesc bs = Some r -> bytes r.
Proof.
  induction n as [|n IH]; intros bs r L B U; [destruct bs; [apply Some_inj in U; subst r; constructor|cbn in L; lia]|].
  destruct bs as [|b t]; [apply Some_inj in U; subst r; constructor|]. cbn [length] in L. apply Forall_cons in B as [Hb B].
  cbn [unesc] in U. destruct (b =? 92).
  - destruct t as [|e t1]; [discriminate|]. cbn [length] in L. apply Forall_cons in B as [He B]. destruct (e =? 117).
    + destruct t1 as [|h3 [|h2 [|h1 [|h0 t2]]]]; try discriminate. cbn [length] in L.
      destruct (hex_value h3) as [d3|] eqn:E3; [|discriminate]. destruct (hex_value h2) as [d2|] eqn:E2; [|discriminate].
      destruct (hex_value h1) as [d1|] eqn:E1; [|discriminate]. destruct (hex_value h0) as [d0|] eqn:E0; [|discriminate].
      destruct (unesc t2) as [q|] eqn:Eq; [|discriminate]. cbv zeta in U. destruct (_ && _); [discriminate|]. apply Some_inj in U. subst r.
      apply hex_value_range in E3, E2, E1, E0. apply Forall_app. split; [apply utf8_bytes; lia|].
      apply (IH t2 q); [lia| |exact Eq]. do 4 (apply Forall_cons in B as [_ B]). exact B.
    + destruct (short_escape e) as [c|] eqn:Ec; [|discriminate]. destruct (unesc t1) as [q|] eqn:Eq; [|discriminate]. apply Some_inj in U. subst r.
      constructor; [exact (short_escape_byte _ _ Ec)|apply (IH t1 q); [lia|exact B|exact Eq]].
  - destruct ((b <? 32) || (b =? 34)); [discriminate|]. destruct (unesc t) as [q|] eqn:Eq; [|discriminate]. apply Some_inj in U. subst r.
    constructor; [exact Hb|apply (IH t q); [lia|exact B|exact Eq]].
Qed.
Lemma to_quote_bytes n : forall bs r k, (length bs <= n)%nat -> bytes bs -> to_quote bs = Some (r, k) -> bytes r /\ bytes k.
Proof.
  induction n as [|n IH]; intros bs r k L B Q; [destruct bs; [discriminate|cbn in L; lia]|].
  destruct bs as [|b t]; [discriminate|]. cbn [length] in L. apply Forall_cons in B as [Hb B]. cbn [to_quote] in Q.
  destruct (b =? 34). { apply Some_inj, pair_equal_spec in Q. destruct Q as [<- <-]. split; [constructor|exact B]. }
  destruct (b =? 92).
  - destruct t as [|e t']; [discriminate|]. cbn [length] in L. apply Forall_cons in B as [He B].
    destruct (to_quote t') as [[r' k']|] eqn:E; [|discriminate]. apply Some_inj, pair_equal_spec in Q. destruct Q as [<- <-].
    destruct (IH t' r' k' ltac:(lia) B E) as [H1 H2]. split; [constructor; [exact Hb|constructor; [exact He|exact H1]]|exact H2].
  - destruct (to_quote t) as [[r' k']|] eqn:E; [|discriminate]. apply Some_inj, pair_equal_spec in Q. destruct Q as [<- <-].
    destruct (IH t r' k' ltac:(lia) B E) as [H1 H2]. split; [constructor; [exact Hb|exact H1]|exact H2].
Qed.
Lemma read_string_bytes bs s k : bytes bs -> read_string bs = Some (s, k) -> bytes s /\ bytes k.
Proof.
  intros B R. unfold read_string in R. destruct (to_quote bs) as [[raw k']|] eqn:E; [|discriminate].
  destruct (unesc raw) as [s'|] eqn:U; [|discriminate]. apply Some_inj, pair_equal_spec in R. destruct R as [<- <-].
  destruct (to_quote_bytes _ bs raw k' (Nat.le_refl _) B E) as [H1 H2]. split; [|exact H2]. exact (unesc_bytes _ raw s' (Nat.le_refl _) H1 U).
Qed.
Lemma skip_bytes bs : bytes bs -> bytes (skip bs).
Proof. induction 1 as [|b t Hb Ht IH]; [constructor|]. cbn [skip]. destruct (_ || _); [exact IH|constructor; assumption]. Qed.
Lemma after_bytes c bs k : bytes bs -> ReadSpec.after c bs = Some k -> bytes k.
Proof.
  intros B A. destruct bs as [|b t]; [discriminate|]. cbn [ReadSpec.after] in A. destruct (b =? c); [|discriminate]. apply Some_inj in A. subst k.
  apply Forall_cons in B as [_ B]. exact B.
Qed.
Lemma after_all_bytes cs : forall bs k, bytes bs -> after_all cs bs = Some k -> bytes k.
Proof.
  induction cs as [|c cs IH]; intros bs k B A; cbn [after_all] in A; [apply Some_inj in A; subst k; exact B|].
  destruct (ReadSpec.after c bs) as [k'|] eqn:E; [|discriminate]. exact (IH _ _ (after_bytes _ _ _ B E) A).
Qed.
Lemma more_bytes c bs m k : bytes bs -> more_or_end c bs = Some (m, k) -> bytes k.
Proof.
  intros B M. unfold more_or_end in M. apply skip_bytes in B. destruct (ReadSpec.after 44 (skip bs)) as [k'|] eqn:E.
  - apply Some_inj, pair_equal_spec in M. destruct M as [_ <-]. exact (after_bytes _ _ _ B E).
  - destruct (ReadSpec.after c (skip bs)) as [k'|] eqn:E'; [|discriminate]. apply Some_inj, pair_equal_spec in M. destruct M as [_ <-]. exact (after_bytes _ _ _ B E').
Qed.
Lemma read_digits_bytes bs : forall acc z k, bytes bs -> read_digits bs acc = (z, k) -> bytes k.
Proof.
  induction bs as [|b t IH]; intros acc z k B R; cbn [read_digits] in R; [apply pair_equal_spec in R; destruct R as [_ <-]; constructor|].
  destruct (is_digit b); [apply Forall_cons in B as [_ B]; exact (IH _ _ _ B R)|]. apply pair_equal_spec in R. destruct R as [_ <-]. exact B.
Qed.
Lemma read_nat_bytes bs z k : bytes bs -> read_nat bs = Some (z, k) -> bytes k.
Proof.
  intros B R. destruct bs as [|b t]; [discriminate|]. apply Forall_cons in B as [_ B]. cbn [read_nat] in R. destruct (b =? 48).
  - apply Some_inj, pair_equal_spec in R. destruct R as [_ <-]. exact B.
  - destruct (is_digit b); [|discriminate]. apply Some_inj in R. exact (read_digits_bytes _ _ _ _ B R).
Qed.
Lemma read_num_bytes bs z k : bytes bs -> read_num bs = Some (z, k) -> bytes k.
Proof.
  intros B R. destruct bs as [|b t]; [discriminate|]. cbn [read_num] in R. destruct (b =? 45).
  - apply Forall_cons in B as [_ B]. destruct (read_nat t) as [[z' k']|] eqn:E; [|discriminate]. apply Some_inj, pair_equal_spec in R. destruct R as [_ <-].
    exact (read_nat_bytes _ _ _ B E).
  - exact (read_nat_bytes _ _ _ B R).
Qed.

Lemma reads_good n :
  (forall bs j k, bytes bs -> read_value n bs = Some (j, k) -> good j /\ bytes k)
  /\ (forall bs l k, bytes bs -> read_items n bs = Some (l, k) -> Forall good l /\ bytes k)
  /\ (forall bs l k, bytes bs -> read_members n bs = Some (l, k) -> Forall (fun e => bytes (fst e) /\ good (snd e)) l /\ bytes k).
Proof.
  induction n as [|n (IHv & IHi & IHm)]; [repeat split; discriminate|]. split; [|split]; intros bs j k B R.
  - cbn [read_value] in R. pose proof (skip_bytes _ B) as Bs. destruct (skip bs) as [|b t]; [discriminate|]. pose proof Bs as Bt. apply Forall_cons in Bt as [_ Bt].
    destruct (b =? 34).
    { destruct (read_string t) as [[s k']|] eqn:E; [|discriminate]. apply Some_inj, pair_equal_spec in R. destruct R as [<- <-]. exact (read_string_bytes _ _ _ Bt E). }
    destruct (b =? 91).
    { destruct (ReadSpec.after 93 (skip t)) as [k'|] eqn:E.
      - apply Some_inj, pair_equal_spec in R. destruct R as [<- <-]. split; [exact I|exact (after_bytes _ _ _ (skip_bytes _ Bt) E)].
      - destruct (read_items n t) as [[l k']|] eqn:E'; [|discriminate]. apply Some_inj, pair_equal_spec in R. destruct R as [<- <-].
        destruct (IHi _ _ _ Bt E') as [H1 H2]. split; [apply good_arr, H1|exact H2]. }
    destruct (b =? 123).
    { destruct (ReadSpec.after 125 (skip t)) as [k'|] eqn:E.
      - apply Some_inj, pair_equal_spec in R. destruct R as [<- <-]. split; [exact I|exact (after_bytes _ _ _ (skip_bytes _ Bt) E)].
      - destruct (read_members n t) as [[l k']|] eqn:E'; [|discriminate]. apply Some_inj, pair_equal_spec in R. destruct R as [<- <-].
        destruct (IHm _ _ _ Bt E') as [H1 H2]. split; [apply good_obj, H1|exact H2]. }
    destruct (b =? 110).
    { destruct (after_all _ t) as [k'|] eqn:E; [|discriminate]. apply Some_inj, pair_equal_spec in R. destruct R as [<- <-]. split; [exact I|exact (after_all_bytes _ _ _ Bt E)]. }
    destruct (b =? 116).
    { destruct (after_all _ t) as [k'|] eqn:E; [|discriminate]. apply Some_inj, pair_equal_spec in R. destruct R as [<- <-]. split; [exact I|exact (after_all_bytes _ _ _ Bt E)]. }
    destruct (b =? 102).
    { destruct (after_all _ t) as [k'|] eqn:E; [|discriminate]. apply Some_inj, pair_equal_spec in R. destruct R as [<- <-]. split; [exact I|exact (after_all_bytes _ _ _ Bt E)]. }
    destruct (read_num (b :: t)) as [[z k']|] eqn:E; [|discriminate]. apply Some_inj, pair_equal_spec in R. destruct R as [<- <-]. split; [exact I|exact (read_num_bytes _ _ _ Bs E)].
  - cbn [read_items] in R. destruct (read_value n bs) as [[v k1]|] eqn:E1; [|discriminate]. destruct (IHv _ _ _ B E1) as [Gv B1].
    destruct (more_or_end 93 k1) as [[[] k2]|] eqn:E2; [|..]; [| |discriminate].
    + pose proof (more_bytes _ _ _ _ B1 E2) as B2. destruct (read_items n k2) as [[l k3]|] eqn:E3; [|discriminate]. apply Some_inj, pair_equal_spec in R. destruct R as [<- <-].
      destruct (IHi _ _ _ B2 E3) as [H1 H2]. split; [constructor; assumption|exact H2].
    + apply Some_inj, pair_equal_spec in R. destruct R as [<- <-]. split; [constructor; [exact Gv|constructor]|exact (more_bytes _ _ _ _ B1 E2)].
  - cbn [read_members] in R. destruct (ReadSpec.after 34 (skip bs)) as [t|] eqn:E0; [|discriminate]. pose proof (after_bytes _ _ _ (skip_bytes _ B) E0) as B0.
    destruct (read_string t) as [[key k0]|] eqn:Es; [|discriminate]. destruct (read_string_bytes _ _ _ B0 Es) as [Bk B01].
    destruct (ReadSpec.after 58 (skip k0)) as [k00|] eqn:E00; [|discriminate]. pose proof (after_bytes _ _ _ (skip_bytes _ B01) E00) as B02.
    destruct (read_value n k00) as [[v k1]|] eqn:E1; [|discriminate]. destruct (IHv _ _ _ B02 E1) as [Gv B1].
    destruct (more_or_end 125 k1) as [[[] k2]|] eqn:E2; [|..]; [| |discriminate].
    + pose proof (more_bytes _ _ _ _ B1 E2) as B2. destruct (read_members n k2) as [[l k3]|] eqn:E3; [|discriminate]. apply Some_inj, pair_equal_spec in R. destruct R as [<- <-].
      destruct (IHm _ _ _ B2 E3) as [H1 H2]. split; [constructor; [split; assumption|exact H1]|exact H2].
    + apply Some_inj, pair_equal_spec in R. destruct R as [<- <-]. split; [constructor; [split; assumption|constructor]|exact (more_bytes _ _ _ _ B1 E2)].
Qed.
Lemma read_json_good bs j : bytes bs -> read_json bs = Some j -> good j.
Proof.
  intros B R. unfold read_json in R. destruct (read_value (length bs) bs) as [[v k]|] eqn:E; [|discriminate].
  destruct (skip k); [|discriminate]. apply Some_inj in R. subst v. exact (proj1 (proj1 (reads_good (length bs)) bs j k B E)).
Qed.

Lemma sextet_range c v : sextet c = Some v -> 0 <= v < 64.
Proof.
  unfold sextet. destruct ((65 <=? c) && (c <=? 90)) eqn:E1; [|destruct ((97 <=? c) && (c <=? 122)) eqn:E2; [|destruct ((48 <=? c) && (c <=? 57)) eqn:E3;
    [|destruct (c =? 43); [|destruct (c =? 47); [|discriminate]]]]]; intros H; apply Some_inj in H; subst v; lia.
Qed.
Lemma unb64_bytes n : forall cs bs, (length cs <= n)%nat -> unb64 cs = Some bs -> bytes bs.
Proof.
  assert (Q : forall a m, 0 <= a < 64 -> 0 < m -> m <= 64 -> 0 <= a / m <= 64 / m).
  { intros a m Ha Hm _. split; [apply Z.div_pos; lia|]. apply Z.div_le_mono; lia. }
  induction n as [|n IH]; intros cs bs L U; [destruct cs; [apply Some_inj in U; subst bs; constructor|cbn in L; lia]|].
  destruct cs as [|c0 [|c1 [|c2 [|c3 t]]]]; try discriminate; [apply Some_inj in U; subst bs; constructor|].
  cbn [unb64] in U. cbn [length] in L. destruct (sextet c0) as [s0|] eqn:E0; [|discriminate]. destruct (sextet c1) as [s1|] eqn:E1; [|discriminate].
  destruct (unb64 t) as [r|] eqn:Et; [|discriminate]. apply sextet_range in E0, E1.
  assert (D1 : 0 <= s1 / 16 < 4) by (split; [apply Z.div_pos; lia|apply Z.div_lt_upper_bound; lia]).
  pose proof (Z.mod_pos_bound s1 16 ltac:(lia)) as M1.
  assert (Br : bytes r) by (apply (IH t r); [lia|exact Et]). destruct (c3 =? 61).
  - destruct t as [|x t']; [|discriminate]. destruct (c2 =? 61).
    + apply Some_inj in U. subst bs. repeat constructor; lia.
    + destruct (sextet c2) as [s2|] eqn:E2; [|discriminate]. apply sextet_range in E2. apply Some_inj in U. subst bs.
      assert (D2 : 0 <= s2 / 4 < 16) by (split; [apply Z.div_pos; lia|apply Z.div_lt_upper_bound; lia]). repeat constructor; lia.
  - destruct (sextet c2) as [s2|] eqn:E2; [|discriminate]. destruct (sextet c3) as [s3|] eqn:E3; [|discriminate]. apply sextet_range in E2, E3.
    apply Some_inj in U. subst bs. pose proof (Z.mod_pos_bound s2 4 ltac:(lia)) as M2.
    assert (D2 : 0 <= s2 / 4 < 16) by (split; [apply Z.div_pos; lia|apply Z.div_lt_upper_bound; lia]).
    constructor; [lia|]. constructor; [lia|]. constructor; [lia|exact Br].
Qed.

(** * Texts of values are one line *)

Definition line (bs : list Z) : Prop := Forall (fun b => b <> 10) bs.
Lemma line_app a b : line a -> line b -> line (a ++ b).
Proof. intros Ha Hb. apply Forall_app. split; assumption. Qed.
Definition lineb (bs : list Z) : bool := forallb (fun b => negb (b =? 10)) bs.
Lemma lineb_line bs : lineb bs = true -> line bs.
Proof.
  unfold lineb, line. intros H. rewrite forallb_forall in H. apply Forall_forall. intros b Hb. apply elem_of_list_In in Hb. specialize (H b Hb).
  apply negb_true_iff, Z.eqb_neq in H. exact H.
Qed.
Lemma digits_line s : forall acc n, digits acc s = Some n -> line (txt s).
Proof.
  induction s as [|c s IH]; intros acc n H; [constructor|]. cbn [digits] in H. destruct (digit c) as [d|] eqn:D; [|discriminate].
  change (txt (String c s)) with (Z.of_N (N_of_ascii c) :: txt s). constructor; [|exact (IH _ _ H)].
  unfold digit in D. destruct (_ && _) eqn:B; [|discriminate]. apply andb_true_iff in B as [B1 B2]. apply Z.leb_le in B1, B2. lia.
Qed.
Lemma num_line z : line (num z).
Proof.
  unfold num, pretty, pretty_Z. destruct z as [|q|q].
  - apply lineb_line. reflexivity.
  - eapply digits_line. exact (digits_pretty (N.pos q)).
  - change (txt _) with (45 :: txt (pretty (N.pos q))). constructor; [lia|]. eapply digits_line. exact (digits_pretty (N.pos q)).
Qed.
Lemma hexd_line d : 0 <= d < 16 -> hexd d <> 10.
Proof. intros H. unfold hexd. destruct (Z.ltb_spec d 10); lia. Qed.
Lemma esc_byte_line b : 0 <= b < 256 -> line (esc_byte b).
Proof.
  intros Hb. unfold esc_byte. destruct (Z.eqb_spec b 34); [subst b; apply lineb_line; reflexivity|]. destruct (Z.eqb_spec b 92); [subst b; apply lineb_line; reflexivity|].
  cbn [orb]. destruct (Z.eqb_spec b 10); [apply lineb_line; reflexivity|]. destruct (b =? 13); [apply lineb_line; reflexivity|]. destruct (b =? 9); [apply lineb_line; reflexivity|].
  destruct (_ || _); [|constructor; [assumption|constructor]]. apply line_app; [apply lineb_line; reflexivity|].
  pose proof (Z.mod_pos_bound b 16 ltac:(lia)). assert (0 <= b / 16 < 16) by (split; [apply Z.div_pos; lia|apply Z.div_lt_upper_bound; lia]).
  constructor; [apply hexd_line; lia|]. constructor; [apply hexd_line; lia|constructor].
Qed.
Lemma esc_line n : forall bs, (length bs <= n)%nat -> bytes bs -> line (esc bs).
Proof.
  induction n as [|n IH]; intros bs H Hb; [destruct bs; [constructor|cbn in H; lia]|].
  destruct bs as [|b0 t]; [constructor|]. cbn [length] in H.
  inversion Hb as [|? ? Hb0 Hbt]; subst. change (bytes t) in Hbt.
  assert (Hbad : line (txt "\ufffd" ++ esc t)) by (apply line_app; [apply lineb_line; reflexivity|apply IH; [lia|exact Hbt]]).
  cbn [esc].
  destruct (Z.ltb_spec b0 128).
  { apply line_app; [apply esc_byte_line; lia|apply IH; [lia|exact Hbt]]. }
  destruct t as [|b1 t1]; [exact Hbad|]. cbn [length] in H. inversion Hbt as [|? ? Hb1 Hbt1]; subst. change (bytes t1) in Hbt1.
  destruct (seq2 b0 b1) eqn:E2.
  { destruct (seq2_high _ _ E2). constructor; [lia|]. constructor; [lia|]. apply IH; [lia|exact Hbt1]. }
  destruct t1 as [|b2 t2]; [exact Hbad|]. cbn [length] in H. inversion Hbt1 as [|? ? Hb2 Hbt2]; subst. change (bytes t2) in Hbt2.
  destruct (seq3 b0 b1 b2) eqn:E3.
  { apply line_app; [|apply IH; [lia|exact Hbt2]]. destruct (seq3_high _ _ _ E3) as (? & ? & ?). destruct (line_sep b0 b1 b2).
    - apply line_app; [apply lineb_line; reflexivity|]. constructor; [|constructor]. lia.
    - repeat (constructor; [lia|]). constructor. }
  destruct t2 as [|b3 t3]; [exact Hbad|]. cbn [length] in H. inversion Hbt2 as [|? ? Hb3 Hbt3]; subst. change (bytes t3) in Hbt3.
  destruct (seq4 b0 b1 b2 b3) eqn:E4; [|exact Hbad]. destruct (seq4_high _ _ _ _ E4) as (? & ? & ? & ?).
  repeat (constructor; [lia|]). apply IH; [lia|exact Hbt3].
Qed.
Lemma quote_line bs : bytes bs -> line (quote bs).
Proof.
  intros B. unfold quote. apply line_app; [apply lineb_line; reflexivity|]. apply line_app; [exact (esc_line _ bs (Nat.le_refl _) B)|apply lineb_line; reflexivity].
Qed.
Lemma commas_line l : Forall line l -> line (commas l).
Proof.
  induction 1 as [|x l Hx Hl IH]; [constructor|]. destruct l as [|y l]; [exact Hx|]. rewrite commas_cons.
  apply line_app; [exact Hx|]. apply line_app; [apply lineb_line; reflexivity|exact IH].
Qed.
Lemma jtext_line : forall j, good j -> line (jtext j).
Proof.
  fix IH 1. intros [|[]|z|bs|l|l] G.
  - apply lineb_line. reflexivity.
  - apply lineb_line. reflexivity.
  - apply lineb_line. reflexivity.
  - apply num_line.
  - apply quote_line, G.
  - apply good_arr in G. cbn [jtext]. unfold arr. apply line_app; [apply lineb_line; reflexivity|]. apply line_app; [|apply lineb_line; reflexivity].
    apply commas_line. induction l as [|x l IHl]; [constructor|]. apply Forall_cons in G as [Gx G]. cbn [map]. constructor; [exact (IH x Gx)|exact (IHl G)].
  - apply good_obj in G. rewrite obj_members. apply line_app; [apply lineb_line; reflexivity|]. apply line_app; [|apply lineb_line; reflexivity].
    apply commas_line. induction l as [|[k v] l IHl]; [constructor|]. apply Forall_cons in G as [[Gk Gv] G]. cbn [map fst snd] in *.
    constructor; [|exact (IHl G)]. unfold member_text'. cbn [fst snd]. apply line_app; [exact (quote_line k Gk)|]. apply line_app; [apply lineb_line; reflexivity|exact (IH v Gv)].
Qed.
