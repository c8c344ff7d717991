(** Proofs about the texts of flag sets and named numbers. *)
From Coq Require Import ZArith String Ascii Lia.
From stdpp Require Import base list numbers strings pretty.
From Verif Require Import RawModel DecodeModel CaptureModel CaptureSpec CaptureProofs CodecTables CodecModel CodecSpec CodecProofs CodecNames LineModel LineSpec LineProofs LineTop TextModel TextSpec.

Local Open Scope string_scope.
Local Open Scope list_scope.
Local Open Scope Z_scope.

(** * From the task's arguments to the printed text *)

(** The text printed behind a label, for a call with these registers and memory. *)
Definition printed_text (order : list (Z * string) -> list (Z * string)) (base : Z) (nr : Z) (regs : list Z) (mem : memory) (ret : Z) (old : list Z)
    (label : string) (text : list Z) : Prop :=
  exists fs argv printed ty,
    length old = 640%nat /\ decoder nr = Some fs /\ decode_fields (captured_args nr regs mem ret old) fs = Some argv
    /\ arguments (line_printer order base argv) nr (captured_args nr regs mem ret old) argv = Some printed /\ (ty, label, text) ∈ printed.

Definition labels : list (Z * string * string) :=
  map (fun e : Z * string * string * list (string * Z) * option (Z * string) => e.1.1) flag_params
  ++ map (fun e : Z * string * string * list (string * Z) => e.1) number_params
  ++ map (fun e : Z * string * string * nat * string * list (nat * nat * bool) => e.1.1.1) struct_params
  ++ [(85, "mode", "mode"); (83, "mode", "mode"); (269, "mode", "mode"); (41, "type", "type"); (55, "optname", "name"); (54, "optname", "name");
      (35, "req", "req"); (35, "rem", "rem")].
Definition label_ok (l : Z * string * string) : bool :=
  forallb (fun e : Z * string * list shown_arg =>
    negb (Z.eqb (fst (fst e)) l.1.1)
    || forallb (fun a => negb (String.eqb (a_label a) l.1.2)
                         || match a_src a with One m s => String.eqb m l.2 && style_eqb s Other | Words _ => false end) (snd e)) calls.
Lemma labels_ok : forallb label_ok labels = true.
Proof. vm_compute. reflexivity. Qed.

Lemma text_source order base nr regs mem ret old label member text : printed_text order base nr regs mem ret old label text ->
  (nr, label, member) ∈ labels ->
  exists fs argv f sh, length old = 640%nat /\ decoder nr = Some fs /\ decode_fields (captured_args nr regs mem ret old) fs = Some argv
    /\ field_named fs member = Some f /\ member_printed f (captured_args nr regs mem ret old) = Some sh
    /\ text = p_other (line_printer order base argv) nr member sh.
Proof.
  intros (fs & argv & printed & ty & L & D & F & P & I) M. pose proof labels_ok as K. rewrite forallb_forall in K. apply elem_of_list_In in M. specialize (K _ M).
  destruct (printed_in _ _ _ _ _ _ _ _ _ P D F I) as (c & shs & a & C & A & La & _ & V). apply call_in in C.
  unfold label_ok in K. rewrite forallb_forall in K. specialize (K _ C). cbn [fst snd] in K. rewrite Z.eqb_refl in K. cbn [negb orb] in K.
  rewrite forallb_forall in K. specialize (K a A). rewrite La, String.eqb_refl in K. cbn [negb orb] in K.
  destruct (a_src a) as [m s|]; [|discriminate]. apply andb_true_iff in K as [K1 K2]. apply String.eqb_eq in K1 as ->. apply style_eqb_eq in K2 as ->.
  cbn [value_of] in V. destruct (field_named fs member) as [f|] eqn:N; [|discriminate]. destruct (member_printed f _) as [sh|] eqn:S; [|discriminate].
  exists fs, argv, f, sh. split; [exact L|]. split; [exact D|]. split; [exact F|]. split; [exact N|]. split; [exact S|].
  apply Some_inj in V. rewrite <- V. unfold write_value. destruct sh as [z|bs|[b q]|k]; reflexivity.
Qed.

Lemma text_is order base nr regs mem ret old label member m sh text : printed_text order base nr regs mem ret old label text ->
  (nr, label, member) ∈ labels -> doc nr member = Some m -> is_wrong nr member = false -> expected regs mem m = Some sh ->
  exists fs argv, decoder nr = Some fs /\ decode_fields (captured_args nr regs mem ret old) fs = Some argv
    /\ text = p_other (line_printer order base argv) nr member sh.
Proof.
  intros P M Dc W E. destruct (text_source _ _ _ _ _ _ _ _ _ _ P M) as (fs & argv & f & sh' & L & D & F & N & S & ->).
  destruct (field_named_in _ _ _ N) as [If <-]. destruct (members_shown nr fs f D If W) as (m' & Dm & Sh). rewrite Dc in Dm. apply Some_inj in Dm as <-.
  rewrite (printed_shown _ _ _ (Sh regs mem ret old sh L E)) in S. apply Some_inj in S as <-. exists fs, argv. auto.
Qed.

(** * Words *)

Lemma split_bars_plain s : forall cur rest, 124 ∉ s -> split_bars cur (s ++ 124 :: rest) = (cur ++ s) :: split_bars [] rest.
Proof.
  induction s as [|c s IH]; intros cur rest H; cbn [app split_bars].
  - rewrite Z.eqb_refl, app_nil_r. reflexivity.
  - apply not_elem_of_cons in H as [H1 H2]. replace (c =? 124) with false by (symmetry; apply Z.eqb_neq; congruence).
    rewrite IH by exact H2. rewrite <- app_assoc. reflexivity.
Qed.
Lemma split_bars_last s : forall cur, 124 ∉ s -> split_bars cur s = [cur ++ s].
Proof.
  induction s as [|c s IH]; intros cur H; cbn [split_bars].
  - rewrite app_nil_r. reflexivity.
  - apply not_elem_of_cons in H as [H1 H2]. replace (c =? 124) with false by (symmetry; apply Z.eqb_neq; congruence).
    rewrite IH by exact H2. rewrite <- app_assoc. reflexivity.
Qed.
Definition plain_name (s : string) : bool := negb (bool_decide (124 ∈ txt s)) && negb (String.eqb s "") && cleanb (txt s).
Lemma split_join ls : ls <> [] -> Forall (fun l => 124 ∉ l) ls -> split_bars [] (join (txt "|") ls) = ls.
Proof.
  intros N F. induction F as [|l ls H F IH]; [contradiction|]. destruct ls as [|l' ls].
  - cbn [join]. rewrite split_bars_last by exact H. reflexivity.
  - change (join (txt "|") (l :: l' :: ls)) with (l ++ 124 :: join (txt "|") (l' :: ls)).
    rewrite split_bars_plain by exact H. rewrite IH by discriminate. reflexivity.
Qed.
Lemma plain_name_spec s : plain_name s = true -> 124 ∉ txt s /\ txt s <> [].
Proof.
  unfold plain_name. intros H. apply andb_true_iff in H as [H _]. apply andb_true_iff in H as [H1 H2]. split.
  - apply negb_true_iff, bool_decide_eq_false in H1. exact H1.
  - intros E. destruct s as [|c s]; [discriminate|]. cbn in E. discriminate.
Qed.
Lemma words_bars names : Forall (fun n => plain_name n = true) names -> words (bars names) = map txt names.
Proof.
  intros F. destruct names as [|n names]; [reflexivity|].
  assert (S : split_bars [] (bars (n :: names)) = map txt (n :: names)).
  { unfold bars. apply split_join; [discriminate|]. apply Forall_fmap. eapply Forall_impl; [exact F|]. intros x X. apply (proj1 (plain_name_spec x X)). }
  unfold words. destruct (bars (n :: names)) as [|b bs] eqn:E; [|exact S].
  exfalso. apply Forall_inv in F as X. apply plain_name_spec in X as [_ X]. unfold bars in E. cbn [map] in E.
  destruct names as [|n' names]; cbn [map join] in E; [contradiction|]. destruct (txt n) as [|y ys]; [contradiction|discriminate].
Qed.
Lemma txt_inj a : forall b, txt a = txt b -> a = b.
Proof.
  induction a as [|c a IH]; intros [|d b]; [reflexivity|discriminate|discriminate|]. intros H.
  change (txt (String c a)) with (Z.of_N (N_of_ascii c) :: txt a) in H. change (txt (String d b)) with (Z.of_N (N_of_ascii d) :: txt b) in H.
  injection H as H1 H2. apply N2Z.inj in H1. assert (c = d) by (rewrite <- (ascii_N_embedding c), H1; apply ascii_N_embedding). subst. f_equal. apply IH. exact H2.
Qed.

(** * Flag sets *)

Lemma hits_pow v i : 0 <= i -> hits v (2 ^ i) = Z.testbit v i.
Proof.
  intros I. apply eq_true_iff_eq. rewrite hits_bit. split.
  - intros (j & V & M). destruct (Z.eq_dec j i) as [->|N]; [exact V|].
    rewrite Z.pow2_bits_false in M by congruence. discriminate.
  - intros V. exists i. split; [exact V|]. apply Z.pow2_bits_true. exact I.
Qed.

Definition names_of (l : list (Z * string)) : list string := map snd (List.filter (fun e => negb (fst e =? 0)) l).
Definition flag_ok (nr : Z) (c : codec) (t : string * Z) : bool :=
  (0 <=? snd t) && match number (fst t) with Some _ => false | None => true end
  && (if mem_pair unnamed nr (fst t) then negb (existsb (fun e => String.eqb (snd e) (fst t)) (c_masks c))
      else mem_pair shared nr (fst t) || existsb (fun e => Z.eqb (fst e) (2 ^ snd t) && String.eqb (snd e) (fst t)) (c_masks c))
  && negb (existsb (fun e => String.eqb (snd e) (fst t)) (c_exact c)).
Definition mask_ok (nr : Z) (tbl : list (string * Z)) (e : Z * string) : bool :=
  plain_name (snd e)
  && ((fst e =? 0) || existsb (fun t => String.eqb (fst t) (snd e) && ((fst e =? 2 ^ snd t) || mem_pair shared nr (snd e))) tbl).
Definition whole_eqb (a : list (Z * string)) (b : option (Z * string)) : bool :=
  match a, b with [], None => true | [x], Some y => Z.eqb x.1 y.1 && String.eqb x.2 y.2 && plain_name x.2 | _, _ => false end.
Definition param_ok (e : Z * string * string * list (string * Z) * option (Z * string)) : bool :=
  let '(nr, label, member, tbl, whole) := e in
  match other_of nr member with
  | Some (Flags c number) =>
      forallb (flag_ok nr c) tbl && forallb (mask_ok nr tbl) (c_masks c) && bool_decide (NoDup (map snd (c_masks c)))
      && whole_eqb (c_exact c) whole && Bool.eqb number (mem_pair [(44, "f"); (45, "f")] nr "f")
      && match whole with Some (w, _) => (w =? 0) || ((nr =? 254) && (w =? 4095)) | None => true end
  | _ => false
  end.
Lemma params_ok : forallb param_ok flag_params = true.
Proof. vm_compute. reflexivity. Qed.

Lemma mem_pair_false l nr s : (nr, s) ∉ l -> mem_pair l nr s = false.
Proof. intros N. destruct (mem_pair l nr s) eqn:E; [|reflexivity]. apply mem_pair_spec in E. contradiction. Qed.

Record row_facts (nr : Z) (tbl : list (string * Z)) (whole : option (Z * string)) (c : codec) (number : bool) : Prop := {
  rf_flags : forall t, t ∈ tbl -> flag_ok nr c t = true;
  rf_masks : forall e, e ∈ c_masks c -> mask_ok nr tbl e = true;
  rf_nodup : NoDup (map snd (c_masks c));
  rf_whole : c_exact c = match whole with Some w => [w] | None => [] end;
  rf_plain : forall w n, whole = Some (w, n) -> plain_name n = true;
  rf_number : number = true <-> nr = 44 \/ nr = 45;
  rf_value : forall w n, whole = Some (w, n) -> w = 0 \/ nr = 254 /\ w = 4095 }.
Lemma flag_row nr label member tbl whole : flag_param nr label member tbl whole ->
  (nr, label, member) ∈ labels /\ exists c number, other_of nr member = Some (Flags c number) /\ row_facts nr tbl whole c number.
Proof.
  intros P. unfold flag_param in P. split.
  { unfold labels. apply elem_of_app. left. apply elem_of_list_fmap. exists (nr, label, member, tbl, whole). split; [reflexivity|exact P]. }
  pose proof params_ok as K. rewrite forallb_forall in K. apply elem_of_list_In in P. specialize (K _ P). unfold param_ok in K.
  destruct (other_of nr member) as [[c number|?| | | |? ?|]|]; try discriminate. exists c, number. split; [reflexivity|].
  repeat (apply andb_true_iff in K as [K ?]). rewrite forallb_forall in *.
  constructor.
  - intros t T. apply K. apply elem_of_list_In. exact T.
  - intros t T. apply H3. apply elem_of_list_In. exact T.
  - apply bool_decide_eq_true in H2. exact H2.
  - destruct (c_exact c) as [|[x y] [|? ?]]; destruct whole as [[w n]|]; try discriminate; [reflexivity|]. cbn in H1.
    apply andb_true_iff in H1 as [H1 _]. apply andb_true_iff in H1 as [E1 E2]. apply Z.eqb_eq in E1 as ->. apply String.eqb_eq in E2 as ->. reflexivity.
  - intros w n ->. destruct (c_exact c) as [|[x y] [|? ?]]; try discriminate. cbn in H1.
    apply andb_true_iff in H1 as [H1 E3]. apply andb_true_iff in H1 as [E1 E2]. apply String.eqb_eq in E2 as <-. exact E3.
  - apply Bool.eqb_prop in H0. rewrite H0, mem_pair_spec. split.
    + intros M. apply elem_of_cons in M as [[= <-]|M]; [left; reflexivity|]. apply elem_of_list_singleton in M. injection M as <-. right. reflexivity.
    + intros [->| ->]; [left|right; left].
  - intros w n ->. apply orb_true_iff in H as [H|H]; [left; apply Z.eqb_eq; exact H|right]. apply andb_true_iff in H as [A B]. split; apply Z.eqb_eq; assumption.
Qed.

(** The names of a value. *)
Lemma encode_names c order v n : (forall l : list (Z * string), order l ≡ₚ l) -> assoc_z (c_exact c) v = None ->
  (n ∈ encode c (order (c_masks c)) v <-> exists m, (m, n) ∈ c_masks c /\ hits v m = true).
Proof.
  intros O A. unfold encode. rewrite A. rewrite elem_of_list_In, in_map_iff. split.
  - intros ([m x] & <- & I). apply filter_In in I as [I H]. exists m. split; [|exact H]. rewrite <- (O (c_masks c)). apply elem_of_list_In. exact I.
  - intros (m & I & H). exists (m, n). split; [reflexivity|]. apply filter_In. split; [|exact H]. apply elem_of_list_In. rewrite (O (c_masks c)). exact I.
Qed.
Lemma filter_nodup {A B} (f : A -> B) (q : A -> bool) l : NoDup (map f l) -> NoDup (map f (List.filter q l)).
Proof.
  induction l as [|x l IH]; [intros _; constructor|]. cbn [map List.filter]. intros N. apply NoDup_cons in N as [N1 N2].
  destruct (q x); [|exact (IH N2)]. cbn [map]. apply NoDup_cons. split; [|exact (IH N2)].
  intros I. apply N1. apply elem_of_list_In in I. apply in_map_iff in I as (y & E & I). apply filter_In in I as [I _]. apply elem_of_list_In, in_map_iff. exists y. split; assumption.
Qed.
Lemma encode_nodup c order v : (forall l : list (Z * string), order l ≡ₚ l) -> NoDup (map snd (c_masks c)) -> NoDup (encode c (order (c_masks c)) v).
Proof.
  intros O N. unfold encode. destruct (assoc_z _ v); [apply NoDup_singleton|]. apply filter_nodup.
  assert (E : map snd (order (c_masks c)) ≡ₚ map snd (c_masks c)) by (apply fmap_Permutation; apply O). rewrite E. exact N.
Qed.

Lemma whole_assoc (whole : option (Z * string)) v : assoc_z (match whole with Some w => [w] | None => [] end) v =
  match whole with Some (w, n) => if w =? v then Some n else None | None => None end.
Proof. destruct whole as [[w n]|]; reflexivity. Qed.

Lemma encode_plain nr tbl whole c number order v : row_facts nr tbl whole c number -> (forall l : list (Z * string), order l ≡ₚ l) ->
  Forall (fun n => plain_name n = true) (encode c (order (c_masks c)) v).
Proof.
  intros R O. destruct (assoc_z (c_exact c) v) as [n|] eqn:A.
  - unfold encode. rewrite A. constructor; [|constructor]. rewrite (rf_whole _ _ _ _ _ R), whole_assoc in A.
    destruct whole as [[w n']|] eqn:W; [|discriminate]. destruct (w =? v); [|discriminate]. apply Some_inj in A as <-. eapply (rf_plain _ _ _ _ _ R). reflexivity.
  - apply Forall_forall. intros n I. apply (encode_names c order v n O A) in I as (m & I & _).
    pose proof (rf_masks _ _ _ _ _ R _ I) as K. unfold mask_ok in K. apply andb_true_iff in K as [K _]. exact K.
Qed.

(** No bar in a number. *)
Lemma digits_no_bar s : forall acc n, digits acc s = Some n -> 124 ∉ txt s.
Proof.
  induction s as [|c s IH]; intros acc n H; [apply not_elem_of_nil|]. cbn [digits] in H. destruct (digit c) as [d|] eqn:D; [|discriminate].
  change (txt (String c s)) with (Z.of_N (N_of_ascii c) :: txt s). apply not_elem_of_cons. split; [|exact (IH _ _ H)].
  unfold digit in D. intros E. rewrite <- E in D. discriminate.
Qed.
Lemma pretty_no_bar (z : Z) : 124 ∉ txt (pretty z).
Proof.
  unfold pretty, pretty_Z. destruct z as [|q|q].
  - apply not_elem_of_cons. split; [discriminate|apply not_elem_of_nil].
  - eapply digits_no_bar. exact (digits_pretty (N.pos q)).
  - rewrite txt_app. apply not_elem_of_app. split; [apply not_elem_of_cons; split; [discriminate|apply not_elem_of_nil]|]. eapply digits_no_bar. exact (digits_pretty (N.pos q)).
Qed.
Lemma pretty_txt_nonempty (z : Z) : txt (pretty z) <> [].
Proof. intros E. pose proof (number_pretty z) as N. destruct (pretty z) as [|c s]; [discriminate N|]. change (txt (String c s)) with (Z.of_N (N_of_ascii c) :: txt s) in E. discriminate E. Qed.
Lemma words_pretty (z : Z) : words (txt (pretty z)) = [txt (pretty z)].
Proof.
  pose proof (pretty_txt_nonempty z) as N. pose proof (split_bars_last (txt (pretty z)) [] (pretty_no_bar z)) as S. unfold words.
  destruct (txt (pretty z)); [contradiction|exact S].
Qed.

(** The text of a flag set. *)
Definition flag_text (order : list (Z * string) -> list (Z * string)) (c : codec) (number : bool) (v : Z) : list Z :=
  match encode c (order (c_masks c)) v with
  | [] => if number then txt (pretty v) else []
  | names => bars names
  end.
Lemma flag_words nr tbl whole c number order v : row_facts nr tbl whole c number -> (forall l : list (Z * string), order l ≡ₚ l) ->
  words (flag_text order c number v)
  = match encode c (order (c_masks c)) v with [] => if number then [txt (pretty v)] else [] | names => map txt names end.
Proof.
  intros R O. pose proof (encode_plain _ _ _ _ _ order v R O) as P. unfold flag_text. destruct (encode c (order (c_masks c)) v) as [|n ns].
  - destruct number; [apply words_pretty|reflexivity].
  - apply words_bars. exact P.
Qed.
Lemma in_map_txt n l : txt n ∈ map txt l <-> n ∈ l.
Proof.
  rewrite !elem_of_list_In, in_map_iff. split; [|intros I; exists n; auto]. intros (x & E & I). apply txt_inj in E as ->. exact I.
Qed.
Lemma shows_encode nr tbl whole c number order v n : row_facts nr tbl whole c number -> (forall l : list (Z * string), order l ≡ₚ l) -> CodecModel.number n = None ->
  (shows_name (flag_text order c number v) n <-> n ∈ encode c (order (c_masks c)) v).
Proof.
  intros R O N. unfold shows_name. rewrite (flag_words _ _ _ _ _ order v R O), <- txt_bytes. destruct (encode c (order (c_masks c)) v) as [|x xs].
  - destruct number; [|split; intros I; exfalso; eapply not_elem_of_nil; exact I]. rewrite elem_of_list_singleton. split.
    + intros E. apply txt_inj in E as ->. rewrite number_pretty in N. discriminate.
    + intros I. exfalso. eapply not_elem_of_nil. exact I.
  - apply in_map_txt.
Qed.

(** The names and the bits. *)
Lemma row_name nr tbl whole c number order v name i : row_facts nr tbl whole c number -> (forall l : list (Z * string), order l ≡ₚ l) ->
  (name, i) ∈ tbl -> (nr, v) <> (254, 4095) -> (nr, name) ∉ unnamed -> (nr, name) ∉ shared ->
  (name ∈ encode c (order (c_masks c)) v <-> Z.testbit v i = true).
Proof.
  intros R O T V U S. pose proof (rf_flags _ _ _ _ _ R _ T) as K. unfold flag_ok in K. cbn [fst snd] in K.
  apply andb_true_iff in K as [K Kx]. apply andb_true_iff in K as [K Km]. apply andb_true_iff in K as [Ki _]. apply Z.leb_le in Ki.
  rewrite (mem_pair_false _ _ _ U), (mem_pair_false _ _ _ S) in Km. cbn [orb] in Km. apply existsb_exists in Km as ([m n] & Im & Em). cbn [fst snd] in Em.
  apply andb_true_iff in Em as [E1 E2]. apply Z.eqb_eq in E1 as ->. apply String.eqb_eq in E2 as ->. apply elem_of_list_In in Im.
  destruct (assoc_z (c_exact c) v) as [x|] eqn:A.
  - assert (name <> x) as Nx.
    { intros ->. apply negb_true_iff in Kx. assert (existsb (fun e : Z * string => String.eqb e.2 x) (c_exact c) = true) as X; [|congruence].
      apply existsb_exists. exists (v, x). split; [apply assoc_z_in; exact A|apply String.eqb_refl]. }
    unfold encode. rewrite A, elem_of_list_singleton. rewrite (rf_whole _ _ _ _ _ R), whole_assoc in A. destruct whole as [[w y]|] eqn:W; [|discriminate].
    destruct (Z.eqb_spec w v) as [->|]; [|discriminate]. destruct (rf_value _ _ _ _ _ R v y eq_refl) as [->|[-> ->]]; [|contradiction].
    rewrite Z.bits_0. split; [contradiction|discriminate].
  - rewrite (encode_names c order v name O A). split.
    + intros (m & I & H). assert (m = 2 ^ i) as ->; [|rewrite hits_pow in H by exact Ki; exact H].
      pose proof (rf_nodup _ _ _ _ _ R) as N. revert N I Im. clear. induction (c_masks c) as [|[a b] l IH]; intros N I1 I2; [apply elem_of_nil in I1 as []|].
      cbn [map snd] in N. apply NoDup_cons in N as [N1 N2]. apply elem_of_cons in I1 as [E1|I1]; apply elem_of_cons in I2 as [E2|I2].
      * congruence.
      * injection E1 as <- <-. exfalso. apply N1. apply elem_of_list_fmap. exists (2 ^ i, name). auto.
      * injection E2 as E2 E3. exfalso. apply N1. rewrite <- E3. apply elem_of_list_fmap. exists (m, name). auto.
      * exact (IH N2 I1 I2).
    + intros B. exists (2 ^ i). split; [exact Im|]. rewrite hits_pow by exact Ki. exact B.
Qed.
Lemma row_unnamed nr tbl whole c number order v name i : row_facts nr tbl whole c number -> (forall l : list (Z * string), order l ≡ₚ l) ->
  (name, i) ∈ tbl -> (nr, name) ∈ unnamed -> name ∉ encode c (order (c_masks c)) v.
Proof.
  intros R O T U. pose proof (rf_flags _ _ _ _ _ R _ T) as K. unfold flag_ok in K. cbn [fst snd] in K.
  apply andb_true_iff in K as [K Kx]. apply andb_true_iff in K as [K Km]. apply mem_pair_spec in U. rewrite U in Km. apply negb_true_iff in Km, Kx.
  destruct (assoc_z (c_exact c) v) as [x|] eqn:A.
  - unfold encode. rewrite A, elem_of_list_singleton. intros ->. assert (existsb (fun e : Z * string => String.eqb e.2 x) (c_exact c) = true) as X; [|congruence].
    apply existsb_exists. exists (v, x). split; [apply assoc_z_in; exact A|apply String.eqb_refl].
  - rewrite (encode_names c order v name O A). intros (m & I & _). assert (existsb (fun e : Z * string => String.eqb e.2 name) (c_masks c) = true) as X; [|congruence].
    apply existsb_exists. exists (m, name). split; [apply elem_of_list_In; exact I|apply String.eqb_refl].
Qed.
Lemma row_back nr tbl whole c number order v name : row_facts nr tbl whole c number -> (forall l : list (Z * string), order l ≡ₚ l) ->
  name ∈ encode c (order (c_masks c)) v ->
  whole = Some (v, name) \/ exists i, (name, i) ∈ tbl /\ ((nr, name) ∈ shared \/ Z.testbit v i = true).
Proof.
  intros R O I. destruct (assoc_z (c_exact c) v) as [x|] eqn:A.
  - left. unfold encode in I. rewrite A in I. apply elem_of_list_singleton in I as ->. rewrite (rf_whole _ _ _ _ _ R), whole_assoc in A.
    destruct whole as [[w y]|]; [|discriminate]. destruct (Z.eqb_spec w v) as [->|]; [|discriminate]. apply Some_inj in A as ->. reflexivity.
  - right. apply (encode_names c order v name O A) in I as (m & I & H). pose proof (rf_masks _ _ _ _ _ R _ I) as K. unfold mask_ok in K. cbn [fst snd] in K.
    apply andb_true_iff in K as [_ K]. apply orb_true_iff in K as [K|K].
    { apply Z.eqb_eq in K as ->. unfold hits in H. rewrite Z.land_0_r in H. discriminate. }
    apply existsb_exists in K as ([n i] & It & E). cbn [fst snd] in E. apply andb_true_iff in E as [E1 E2]. apply String.eqb_eq in E1 as ->.
    apply elem_of_list_In in It. exists i. split; [exact It|]. apply orb_true_iff in E2 as [E2|E2]; [|left; apply mem_pair_spec; exact E2].
    right. apply Z.eqb_eq in E2 as ->. rewrite hits_pow in H; [exact H|]. pose proof (rf_flags _ _ _ _ _ R _ It) as K. unfold flag_ok in K. cbn [fst snd] in K.
    apply andb_true_iff in K as [K _]. apply andb_true_iff in K as [K _]. apply andb_true_iff in K as [K _]. apply Z.leb_le. exact K.
Qed.
