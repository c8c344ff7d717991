(** Proofs about the printed values, assembled. *)
From Coq Require Import ZArith String Ascii Lia.
From stdpp Require Import base list numbers strings pretty.
From Verif Require Import RawModel RawSpec DecodeModel CaptureModel CaptureSpec CaptureProofs CodecTables CodecModel CodecSpec CodecProofs CodecNames LineModel LineSpec LineProofs LineTop TextModel TextSpec TextProofs.

Local Open Scope string_scope.
Local Open Scope list_scope.
Local Open Scope Z_scope.

(** * Flag sets *)

Lemma flags_text order base nr regs mem ret old label member tbl whole m v text :
  printed_text order base nr regs mem ret old label text -> flag_param nr label member tbl whole -> doc nr member = Some m -> is_wrong nr member = false ->
  expected regs mem m = Some (ShInt v) ->
  exists c number, row_facts nr tbl whole c number /\ text = flag_text order c number v.
Proof.
  intros P F D W E. destruct (flag_row _ _ _ _ _ F) as (L & c & number & O & R). destruct (text_is _ _ _ _ _ _ _ _ _ _ _ _ P L D W E) as (fs & argv & _ & _ & ->).
  exists c, number. split; [exact R|]. cbn [line_printer p_other]. rewrite O. reflexivity.
Qed.

Lemma flag_number nr tbl whole c number name i : row_facts nr tbl whole c number -> (name, i) ∈ tbl -> CodecModel.number name = None.
Proof.
  intros R T. pose proof (rf_flags _ _ _ _ _ R _ T) as K. unfold flag_ok in K. cbn [fst snd] in K.
  apply andb_true_iff in K as [K _]. apply andb_true_iff in K as [K _]. apply andb_true_iff in K as [_ K]. destruct (CodecModel.number name); [discriminate|reflexivity].
Qed.

Lemma flags_shown order base nr regs mem ret old label member tbl whole m v text name i :
  (forall l, order l ≡ₚ l) ->
  printed_text order base nr regs mem ret old label text -> flag_param nr label member tbl whole -> doc nr member = Some m -> is_wrong nr member = false ->
  expected regs mem m = Some (ShInt v) -> (name, i) ∈ tbl -> (nr, v) <> (254, 4095) -> (nr, name) ∉ unnamed -> (nr, name) ∉ shared ->
  (shows_name text name <-> Z.testbit v i = true).
Proof.
  intros O P F D W E T V U S. destruct (flags_text _ _ _ _ _ _ _ _ _ _ _ _ _ _ P F D W E) as (c & number & R & ->).
  rewrite (shows_encode _ _ _ _ _ order v name R O (flag_number _ _ _ _ _ _ _ R T)). exact (row_name _ _ _ _ _ order v name i R O T V U S).
Qed.
Lemma flags_unnamed order base nr regs mem ret old label member tbl whole m v text name i :
  (forall l, order l ≡ₚ l) ->
  printed_text order base nr regs mem ret old label text -> flag_param nr label member tbl whole -> doc nr member = Some m -> is_wrong nr member = false ->
  expected regs mem m = Some (ShInt v) -> (name, i) ∈ tbl -> (nr, name) ∈ unnamed -> ~ shows_name text name.
Proof.
  intros O P F D W E T U. destruct (flags_text _ _ _ _ _ _ _ _ _ _ _ _ _ _ P F D W E) as (c & number & R & ->).
  rewrite (shows_encode _ _ _ _ _ order v name R O (flag_number _ _ _ _ _ _ _ R T)). exact (row_unnamed _ _ _ _ _ order v name i R O T U).
Qed.
Lemma flags_only order base nr regs mem ret old label member tbl whole m v text w :
  (forall l, order l ≡ₚ l) ->
  printed_text order base nr regs mem ret old label text -> flag_param nr label member tbl whole -> doc nr member = Some m -> is_wrong nr member = false ->
  expected regs mem m = Some (ShInt v) -> w ∈ words text ->
  (exists name i, w = text_bytes name /\ (name, i) ∈ tbl /\ ((nr, name) ∈ shared \/ Z.testbit v i = true))
  \/ (exists name, w = text_bytes name /\ text = text_bytes name /\ whole = Some (v, name))
  \/ ((nr = 44 \/ nr = 45) /\ text = text_bytes (pretty v)).
Proof.
  intros O P F D W E I. destruct (flags_text _ _ _ _ _ _ _ _ _ _ _ _ _ _ P F D W E) as (c & number & R & ->).
  rewrite (flag_words _ _ _ _ _ order v R O) in I. unfold flag_text. destruct (encode c (order (c_masks c)) v) as [|x xs] eqn:X.
  - destruct number eqn:Nb; [|apply elem_of_nil in I as []]. right. right. split; [apply (rf_number _ _ _ _ _ R); reflexivity|rewrite txt_bytes; reflexivity].
  - apply elem_of_list_fmap in I as (n & -> & I). rewrite <- X in I. destruct (row_back _ _ _ _ _ order v n R O I) as [Wh|(i & T & B)].
    + right. left. exists n. rewrite txt_bytes. split; [reflexivity|]. split; [|exact Wh].
      assert (A : encode c (order (c_masks c)) v = [n]).
      { unfold encode. rewrite (rf_whole _ _ _ _ _ R), Wh. cbn [assoc_z]. rewrite Z.eqb_refl. reflexivity. }
      rewrite A in X. injection X as <- <-. unfold bars. cbn [map join]. apply txt_bytes.
    + left. exists n, i. rewrite txt_bytes. split; [reflexivity|]. split; [exact T|exact B].
Qed.
Lemma flags_once order base nr regs mem ret old label member tbl whole m v text :
  (forall l, order l ≡ₚ l) ->
  printed_text order base nr regs mem ret old label text -> flag_param nr label member tbl whole -> doc nr member = Some m -> is_wrong nr member = false ->
  expected regs mem m = Some (ShInt v) -> NoDup (words text).
Proof.
  intros O P F D W E. destruct (flags_text _ _ _ _ _ _ _ _ _ _ _ _ _ _ P F D W E) as (c & number & R & ->).
  rewrite (flag_words _ _ _ _ _ order v R O). pose proof (encode_nodup c order v O (rf_nodup _ _ _ _ _ R)) as N. destruct (encode c (order (c_masks c)) v) as [|x xs].
  - destruct number; [apply NoDup_singleton|constructor].
  - refine (NoDup_fmap_2 txt _ N). intros a b. apply txt_inj.
Qed.
Lemma flags_whole order base nr regs mem ret old label member tbl v name m text :
  printed_text order base nr regs mem ret old label text -> flag_param nr label member tbl (Some (v, name)) -> doc nr member = Some m -> is_wrong nr member = false ->
  expected regs mem m = Some (ShInt v) -> text = text_bytes name.
Proof.
  intros P F D W E. destruct (flags_text _ _ _ _ _ _ _ _ _ _ _ _ _ _ P F D W E) as (c & number & R & ->).
  unfold flag_text, encode. rewrite (rf_whole _ _ _ _ _ R). cbn [assoc_z]. rewrite Z.eqb_refl. unfold bars. cbn [map join]. apply txt_bytes.
Qed.
Lemma flags_none order base nr regs mem ret old label member tbl whole m v text :
  (forall l, order l ≡ₚ l) ->
  printed_text order base nr regs mem ret old label text -> flag_param nr label member tbl whole -> doc nr member = Some m -> is_wrong nr member = false ->
  expected regs mem m = Some (ShInt v) -> (forall name, whole <> Some (v, name)) ->
  (forall name i, (name, i) ∈ tbl -> (nr, name) ∉ unnamed -> Z.testbit v i = false) ->
  (forall name, (nr, name) ∈ shared -> ~ shows_name text name) ->
  text = if (nr =? 44) || (nr =? 45) then text_bytes (pretty v) else [].
Proof.
  intros O P F D W E Wh B Sh. destruct (flags_text _ _ _ _ _ _ _ _ _ _ _ _ _ _ P F D W E) as (c & number & R & ->).
  assert (N : encode c (order (c_masks c)) v = []).
  { destruct (encode c (order (c_masks c)) v) as [|x xs] eqn:X; [reflexivity|exfalso]. assert (I : x ∈ encode c (order (c_masks c)) v) by (rewrite X; left).
    destruct (row_back _ _ _ _ _ order v x R O I) as [Z|(i & T & [S|Z])].
    - exact (Wh _ Z).
    - apply (Sh x S). apply (shows_encode _ _ _ _ _ order v x R O (flag_number _ _ _ _ _ _ _ R T)). exact I.
    - destruct (decide ((nr, x) ∈ unnamed)) as [U|U]; [exact (row_unnamed _ _ _ _ _ order v x i R O T U I)|]. rewrite (B x i T U) in Z. discriminate. }
  unfold flag_text. rewrite N. pose proof (rf_number _ _ _ _ _ R) as Nb. destruct ((nr =? 44) || (nr =? 45)) eqn:Q.
  - apply orb_true_iff in Q. rewrite !Z.eqb_eq in Q. apply Nb in Q as ->. apply txt_bytes.
  - apply orb_false_iff in Q as [Q1 Q2]. apply Z.eqb_neq in Q1, Q2. destruct number; [|reflexivity]. destruct (proj1 Nb eq_refl); contradiction.
Qed.
Lemma elem_of_map_txt w l : w ∈ map txt l <-> exists n, w = txt n /\ n ∈ l.
Proof. rewrite elem_of_list_fmap. reflexivity. Qed.
Lemma flags_order order order' base base' nr regs mem ret old ret' old' label member tbl whole m v text text' :
  (forall l, order l ≡ₚ l) -> (forall l, order' l ≡ₚ l) ->
  printed_text order base nr regs mem ret old label text -> printed_text order' base' nr regs mem ret' old' label text' ->
  flag_param nr label member tbl whole -> doc nr member = Some m -> is_wrong nr member = false ->
  expected regs mem m = Some (ShInt v) -> words text ≡ₚ words text'.
Proof.
  intros O O' P P' F D W E. destruct (flag_row _ _ _ _ _ F) as (L & c & number & Ot & R).
  destruct (text_is _ _ _ _ _ _ _ _ _ _ _ _ P L D W E) as (fs & argv & _ & _ & ->). destruct (text_is _ _ _ _ _ _ _ _ _ _ _ _ P' L D W E) as (fs' & argv' & _ & _ & ->).
  cbn [line_printer p_other]. rewrite Ot. change (words (flag_text order c number v) ≡ₚ words (flag_text order' c number v)).
  rewrite (flag_words _ _ _ _ _ order v R O), (flag_words _ _ _ _ _ order' v R O').
  assert (Q : encode c (order (c_masks c)) v ≡ₚ encode c (order' (c_masks c)) v).
  { unfold encode. destruct (assoc_z (c_exact c) v); [reflexivity|]. apply Permutation_map. apply filter_perm. rewrite (O (c_masks c)), (O' (c_masks c)). reflexivity. }
  destruct (encode c (order (c_masks c)) v) as [|x xs]; [apply Permutation_nil in Q; rewrite Q; reflexivity|].
  destruct (encode c (order' (c_masks c)) v) as [|y ys]; [symmetry in Q; apply Permutation_nil in Q; discriminate|]. apply Permutation_map. exact Q.
Qed.

(** The shared names *)
Lemma file_row : other_of 2 "flags" = Some (Flags file_codec false) /\ other_of 257 "flags" = Some (Flags file_codec false).
Proof. split; reflexivity. Qed.
Definition sync_mask : Z := 1052672.
Lemma sync_in : forall m, (m, "O_SYNC") ∈ file_masks -> m = sync_mask.
Proof.
  intros m I. assert (K : forallb (fun e : Z * string => negb (String.eqb e.2 "O_SYNC") || (e.1 =? sync_mask)) file_masks = true) by (vm_compute; reflexivity).
  rewrite forallb_forall in K. apply elem_of_list_In in I. specialize (K _ I). cbn in K. apply Z.eqb_eq. exact K.
Qed.
Lemma sync_hits v : hits v sync_mask = true <-> Z.testbit v 12 = true \/ Z.testbit v 20 = true.
Proof.
  rewrite hits_bit. change sync_mask with (Z.lor (2 ^ 12) (2 ^ 20)). split.
  - intros (i & V & M). rewrite Z.lor_spec in M. apply orb_true_iff in M as [M|M].
    + destruct (Z.eq_dec i 12) as [->|N]; [left; exact V|]. rewrite Z.pow2_bits_false in M by congruence. discriminate.
    + destruct (Z.eq_dec i 20) as [->|N]; [right; exact V|]. rewrite Z.pow2_bits_false in M by congruence. discriminate.
  - intros [V|V]; [exists 12|exists 20]; (split; [exact V|reflexivity]).
Qed.
Lemma open_sync order base nr regs mem ret old label text v m : (forall l, order l ≡ₚ l) -> nr = 2 \/ nr = 257 ->
  printed_text order base nr regs mem ret old label text -> label = "flags" -> doc nr "flags" = Some m -> expected regs mem m = Some (ShInt v) ->
  (shows_name text "O_SYNC" <-> Z.testbit v 12 = true \/ Z.testbit v 20 = true).
Proof.
  intros O N P -> D E.
  assert (F : flag_param nr "flags" "flags" open_flags (Some (0, "O_RDONLY"))).
  { unfold flag_param. destruct N as [->| ->]; apply elem_of_list_In; vm_compute; tauto. }
  assert (W : is_wrong nr "flags" = false) by (destruct N as [->| ->]; reflexivity).
  destruct (flag_row _ _ _ _ _ F) as (L & c & number & Ot & R). destruct (text_is _ _ _ _ _ _ _ _ _ _ _ _ P L D W E) as (fs & argv & _ & _ & ->).
  cbn [line_printer p_other]. rewrite Ot. assert (c = file_codec) as ->. { destruct N as [->| ->]; destruct file_row as [A B]; [rewrite A in Ot|rewrite B in Ot]; injection Ot as <- _; reflexivity. }
  change (shows_name (flag_text order file_codec number v) "O_SYNC" <-> Z.testbit v 12 = true \/ Z.testbit v 20 = true).
  rewrite (shows_encode _ _ _ _ _ order v "O_SYNC" R O) by reflexivity. destruct (assoc_z (c_exact file_codec) v) as [x|] eqn:A.
  - unfold encode. rewrite A. cbn [file_codec c_exact assoc_z] in A. destruct (Z.eqb_spec 0 v) as [<-|]; [|discriminate]. apply Some_inj in A as <-.
    rewrite !Z.bits_0, elem_of_list_singleton. split; [discriminate|]. intros [H|H]; discriminate.
  - rewrite (encode_names file_codec order v "O_SYNC" O A), <- sync_hits. split.
    + intros (k & I & H). apply sync_in in I as ->. exact H.
    + intros H. exists sync_mask. split; [|exact H]. apply elem_of_list_In. vm_compute. tauto.
Qed.
Lemma nouser_in : forall m, (m, "MS_NOUSER") ∈ mount_masks -> m = - 2 ^ 31.
Proof.
  intros m I. assert (K : forallb (fun e : Z * string => negb (String.eqb e.2 "MS_NOUSER") || (e.1 =? - 2 ^ 31)) mount_masks = true) by (vm_compute; reflexivity).
  rewrite forallb_forall in K. apply elem_of_list_In in I. specialize (K _ I). cbn [fst snd] in K. change (String.eqb "MS_NOUSER" "MS_NOUSER") with true in K. cbn [negb orb] in K. apply Z.eqb_eq. exact K.
Qed.
Lemma nouser_hits v : hits v (- 2 ^ 31) = true <-> ~ 0 <= v < 2 ^ 31.
Proof.
  replace (- 2 ^ 31) with (Z.lnot (Z.ones 31)) by reflexivity. unfold hits. rewrite <- Z.ldiff_land. rewrite Z.ldiff_ones_r by lia. rewrite negb_true_iff, Z.eqb_neq.
  rewrite Z.shiftl_mul_pow2, Z.shiftr_div_pow2 by lia. pose proof (Z.div_mod v (2 ^ 31) ltac:(lia)). pose proof (Z.mod_pos_bound v (2 ^ 31) ltac:(lia)). split.
  - intros N B. apply N. rewrite Z.div_small by exact B. reflexivity.
  - intros N Z. apply N. assert (v / 2 ^ 31 = 0) by lia. lia.
Qed.
Lemma mount_nouser order base regs mem ret old text v m : (forall l, order l ≡ₚ l) ->
  printed_text order base 165 regs mem ret old "mountflags" text -> doc 165 "flags" = Some m -> expected regs mem m = Some (ShInt v) ->
  (shows_name text "MS_NOUSER" <-> ~ 0 <= v < 2 ^ 31).
Proof.
  intros O P D E.
  assert (F : flag_param 165 "mountflags" "flags" mount_flags (Some (0, "MS_NONE"))) by (unfold flag_param; apply elem_of_list_In; vm_compute; tauto).
  destruct (flag_row _ _ _ _ _ F) as (L & c & number & Ot & R). destruct (text_is _ _ _ _ _ _ _ _ _ _ _ _ P L D eq_refl E) as (fs & argv & _ & _ & ->).
  cbn [line_printer p_other]. rewrite Ot. assert (c = mount_codec) as -> by (injection Ot as <- _; reflexivity).
  change (shows_name (flag_text order mount_codec number v) "MS_NOUSER" <-> ~ 0 <= v < 2 ^ 31).
  rewrite (shows_encode _ _ _ _ _ order v "MS_NOUSER" R O) by reflexivity. rewrite <- nouser_hits. destruct (assoc_z (c_exact mount_codec) v) as [x|] eqn:A.
  - unfold encode. rewrite A. cbn [mount_codec c_exact assoc_z] in A. destruct (Z.eqb_spec 0 v) as [<-|]; [|discriminate]. apply Some_inj in A as <-.
    rewrite elem_of_list_singleton. split; discriminate.
  - rewrite (encode_names mount_codec order v "MS_NOUSER" O A). split.
    + intros (k & I & H). apply nouser_in in I as ->. exact H.
    + intros H. exists (- 2 ^ 31). split; [|exact H]. unfold mount_codec, c_masks, mount_masks. apply elem_of_list_In. vm_compute. tauto.
Qed.

(** * Named numbers *)

Definition number_ok (e : Z * string * string * list (string * Z)) : bool :=
  let '(nr, label, member, tbl) := e in
  match other_of nr member with
  | Some (Names l) =>
      forallb (fun t : string * Z => if mem_pair nameless nr t.1 then match assoc_z l t.2 with None => true | _ => false end
                      else match assoc_z l t.2 with Some n => String.eqb n t.1 | None => false end) tbl
      && bool_decide (NoDup (map snd l)) && bool_decide (NoDup (map fst l))
      && forallb (fun e : Z * string => match number (snd e) with None => true | _ => false end) l
  | _ => false
  end.
Lemma numbers_ok : forallb number_ok number_params = true.
Proof. vm_compute. reflexivity. Qed.

Lemma assoc_nodup (l : list (Z * string)) : NoDup (map snd l) -> forall v v' n, assoc_z l v = Some n -> assoc_z l v' = Some n -> v = v'.
Proof.
  intros N v v' n A B. apply assoc_z_in in A, B. apply elem_of_list_In in A, B. revert N A B. induction l as [|[x y] l IH]; intros N A B; [apply elem_of_nil in A as []|].
  cbn [map snd] in N. apply NoDup_cons in N as [N1 N2]. apply elem_of_cons in A as [A|A]; apply elem_of_cons in B as [B|B].
  - congruence.
  - injection A as -> ->. exfalso. apply N1. apply elem_of_list_fmap. exists (v', y). auto.
  - injection B as -> ->. exfalso. apply N1. apply elem_of_list_fmap. exists (v, y). auto.
  - exact (IH N2 A B).
Qed.
Lemma render_inj l : NoDup (map snd l) -> (forall e, In e l -> number (snd e) = None) -> forall v v', render l v = render l v' -> v = v'.
Proof.
  intros N Q v v'. unfold render. destruct (assoc_z l v) as [n|] eqn:A; destruct (assoc_z l v') as [n'|] eqn:B.
  - intros ->. exact (assoc_nodup l N _ _ _ A B).
  - intros E. apply assoc_z_in in A. specialize (Q _ A). cbn [snd] in Q. rewrite E, number_pretty in Q. discriminate.
  - intros E. apply assoc_z_in in B. specialize (Q _ B). cbn [snd] in Q. rewrite <- E, number_pretty in Q. discriminate.
  - intros E. pose proof (number_pretty v) as X. rewrite E, number_pretty in X. apply Some_inj in X. symmetry. exact X.
Qed.
Lemma number_row nr label member tbl : number_param nr label member tbl ->
  (nr, label, member) ∈ labels /\ exists l, other_of nr member = Some (Names l)
    /\ (forall name z, (name, z) ∈ tbl -> assoc_z l z = if mem_pair nameless nr name then None else Some name)
    /\ (forall v v', render l v = render l v' -> v = v').
Proof.
  intros P. unfold number_param in P. split.
  { unfold labels. apply elem_of_app. right. apply elem_of_app. left. apply elem_of_list_fmap. exists (nr, label, member, tbl). split; [reflexivity|exact P]. }
  pose proof numbers_ok as K. rewrite forallb_forall in K. apply elem_of_list_In in P. specialize (K _ P). unfold number_ok in K.
  destruct (other_of nr member) as [[? ?|l| | | |? ?|]|]; try discriminate. exists l. split; [reflexivity|].
  apply andb_true_iff in K as [K K4]. apply andb_true_iff in K as [K K3]. apply andb_true_iff in K as [K1 K2]. apply bool_decide_eq_true in K2. rewrite forallb_forall in K1, K4. split.
  - intros name z T. apply elem_of_list_In in T. specialize (K1 _ T). cbn [fst snd] in K1. destruct (mem_pair nameless nr name).
    + destruct (assoc_z l z); [discriminate|reflexivity].
    + destruct (assoc_z l z) as [n|]; [|discriminate]. apply String.eqb_eq in K1 as ->. reflexivity.
  - apply render_inj; [exact K2|]. intros e I. specialize (K4 e I). destruct (number e.2); [discriminate|reflexivity].
Qed.
Lemma number_text order base nr regs mem ret old label member tbl m v text :
  printed_text order base nr regs mem ret old label text -> number_param nr label member tbl -> doc nr member = Some m -> is_wrong nr member = false ->
  expected regs mem m = Some (ShInt v) ->
  exists l, other_of nr member = Some (Names l) /\ text = text_bytes (render l v).
Proof.
  intros P F D W E. destruct (number_row _ _ _ _ F) as (L & l & O & _). destruct (text_is _ _ _ _ _ _ _ _ _ _ _ _ P L D W E) as (fs & argv & _ & _ & ->).
  exists l. split; [exact O|]. cbn [line_printer p_other]. rewrite O. apply txt_bytes.
Qed.
Lemma number_named order base nr regs mem ret old label member tbl m v text name :
  printed_text order base nr regs mem ret old label text -> number_param nr label member tbl -> doc nr member = Some m -> is_wrong nr member = false ->
  expected regs mem m = Some (ShInt v) -> (name, v) ∈ tbl ->
  text = text_bytes (if decide ((nr, name) ∈ nameless) then pretty v else name).
Proof.
  intros P F D W E T. destruct (number_text _ _ _ _ _ _ _ _ _ _ _ _ _ P F D W E) as (l & O & ->). destruct (number_row _ _ _ _ F) as (_ & l' & O' & N & _).
  rewrite O in O'. injection O' as <-. unfold render. rewrite (N _ _ T). destruct (decide ((nr, name) ∈ nameless)) as [I|I].
  - apply mem_pair_spec in I. rewrite I. reflexivity.
  - rewrite (mem_pair_false _ _ _ I). reflexivity.
Qed.
Lemma number_tells order base nr regs mem ret old order' base' regs' mem' ret' old' label member tbl m v v' text :
  printed_text order base nr regs mem ret old label text -> printed_text order' base' nr regs' mem' ret' old' label text ->
  number_param nr label member tbl -> doc nr member = Some m -> is_wrong nr member = false ->
  expected regs mem m = Some (ShInt v) -> expected regs' mem' m = Some (ShInt v') -> v = v'.
Proof.
  intros P P' F D W E E'. destruct (number_text _ _ _ _ _ _ _ _ _ _ _ _ _ P F D W E) as (l & O & ->). destruct (number_text _ _ _ _ _ _ _ _ _ _ _ _ _ P' F D W E') as (l' & O' & T).
  rewrite O in O'. injection O' as <-. destruct (number_row _ _ _ _ F) as (_ & l' & O' & _ & I). rewrite O in O'. injection O' as <-.
  apply I. rewrite <- !txt_bytes in T. exact (txt_inj _ _ T).
Qed.

(** * Socket options *)

Definition option_fields (len : field) : list field :=
  [Field "fd" 0 KS32; Field "level" 1 KS32; Field "name" 2 KS32; Field "val" 3 (KSlice 4); len].
Lemma option_decoders : decoder 55 = Some (option_fields (Field "len" 4 KS32)) /\ decoder 54 = Some (option_fields (Field "len" 4 KS32)).
Proof. split; reflexivity. Qed.
Lemma option_text order base nr regs mem ret old text : nr = 54 \/ nr = 55 ->
  printed_text order base nr regs mem ret old "optname" text ->
  text = text_bytes (render_option (s32 (nth 1 regs 0)) (s32 (nth 2 regs 0))).
Proof.
  intros N P. assert (L : (nr, "optname", "name") ∈ labels) by (destruct N as [->| ->]; apply elem_of_list_In; vm_compute; tauto).
  assert (D : doc nr "name" = Some (Arg Int 2)) by (destruct N as [->| ->]; reflexivity).
  assert (D1 : doc nr "level" = Some (Arg Int 1)) by (destruct N as [->| ->]; reflexivity).
  assert (W : is_wrong nr "name" = false) by (destruct N as [->| ->]; reflexivity).
  assert (W1 : is_wrong nr "level" = false) by (destruct N as [->| ->]; reflexivity).
  assert (O : length old = 640%nat) by (destruct P as (? & ? & ? & ? & O & _); exact O).
  destruct (text_is _ _ _ _ _ _ _ _ _ _ _ _ P L D W eq_refl) as (fs & argv & Dc & F & ->). cbn [line_printer p_other].
  assert (Ot : other_of nr "name" = Some OptionName) by (destruct N as [->| ->]; reflexivity). rewrite Ot. cbn [other_text].
  assert (Fs : fs = option_fields (Field "len" 4 KS32)).
  { destruct option_decoders as [A B]. destruct N as [->| ->]; [rewrite B in Dc|rewrite A in Dc]; apply Some_inj in Dc; symmetry; exact Dc. }
  pose proof (decode_fields_forall _ _ _ F) as F2. rewrite Fs in F2. unfold option_fields in F2.
  assert (Q : level_of argv = s32 (nth 1 regs 0)).
  { destruct (members_shown nr fs (Field "level" 1 KS32) Dc ltac:(rewrite Fs; right; left; reflexivity) W1) as (m' & Dm & Sh). cbn [f_name] in Dm. rewrite D1 in Dm. apply Some_inj in Dm as <-.
    specialize (Sh regs mem ret old _ O eq_refl). unfold member_shown in Sh. inversion F2 as [|f1 v1 ? r1 V1 F3 X1 Y1]; subst. inversion F3 as [|f2 v2 ? r2 V2 F4 X2 Y2]; subst.
    rewrite V2 in Sh. unfold level_of. cbn [lookup list_lookup]. destruct v2 as [z|bs|bs|o l|o|o n|k]; cbn [show] in Sh.
    - injection Sh as ->. reflexivity.
    - discriminate.
    - discriminate.
    - destruct (l <? 0); [discriminate|]. destruct (read_bytes _ _ _); discriminate.
    - discriminate.
    - destruct (read_bytes _ _ _); discriminate.
    - discriminate. }
  rewrite Q. apply txt_bytes.
Qed.
Definition option_ok (e : Z * Z * string) : bool := String.eqb (render_option e.1.1 e.1.2) e.2.
Lemma options_ok : forallb option_ok options = true.
Proof. vm_compute. reflexivity. Qed.
Lemma option_tables : forallb (fun l => bool_decide (NoDup (map snd l)) && forallb (fun e : Z * string => match number (snd e) with None => true | _ => false end) l)
  [so_names; tcp_names; ip_names; ip6_names] = true.
Proof. vm_compute. reflexivity. Qed.
Lemma option_table l : In l [so_names; tcp_names; ip_names; ip6_names] -> forall v v', render l v = render l v' -> v = v'.
Proof.
  intros I. pose proof option_tables as K. rewrite forallb_forall in K. specialize (K l I). apply andb_true_iff in K as [K1 K2]. apply bool_decide_eq_true in K1.
  apply render_inj; [exact K1|]. rewrite forallb_forall in K2. intros e J. specialize (K2 e J). destruct (number e.2); [discriminate|reflexivity].
Qed.
Lemma option_inj lv v v' : render_option lv v = render_option lv v' -> v = v'.
Proof.
  unfold render_option. destruct (lv =? SOL_SOCKET); [apply option_table; cbn; tauto|]. destruct (lv =? SOL_TCP); [apply option_table; cbn; tauto|].
  destruct (lv =? SOL_IP); [apply option_table; cbn; tauto|]. destruct (lv =? SOL_IPV6); [apply option_table; cbn; tauto|].
  intros E. pose proof (number_pretty v) as X. rewrite E, number_pretty in X. apply Some_inj in X. symmetry. exact X.
Qed.
Lemma option_named order base nr regs mem ret old text lv v name : nr = 54 \/ nr = 55 ->
  printed_text order base nr regs mem ret old "optname" text -> s32 (nth 1 regs 0) = lv -> s32 (nth 2 regs 0) = v -> (lv, v, name) ∈ options -> text = text_bytes name.
Proof.
  intros N P <- <- I. rewrite (option_text _ _ _ _ _ _ _ _ N P). pose proof options_ok as K. rewrite forallb_forall in K. apply elem_of_list_In in I. specialize (K _ I).
  unfold option_ok in K. cbn [fst snd] in K. apply String.eqb_eq in K. rewrite K. reflexivity.
Qed.
Lemma option_tells order base nr regs mem ret old order' base' regs' mem' ret' old' text : nr = 54 \/ nr = 55 ->
  printed_text order base nr regs mem ret old "optname" text -> printed_text order' base' nr regs' mem' ret' old' "optname" text ->
  s32 (nth 1 regs 0) = s32 (nth 1 regs' 0) -> s32 (nth 2 regs 0) = s32 (nth 2 regs' 0).
Proof.
  intros N P P' L. pose proof (option_text _ _ _ _ _ _ _ _ N P) as T. rewrite (option_text _ _ _ _ _ _ _ _ N P'), L in T. rewrite <- !txt_bytes in T.
  apply txt_inj, option_inj in T. symmetry. exact T.
Qed.

(** * Socket types *)

Lemma type_text order base regs mem ret old text : printed_text order base 41 regs mem ret old "type" text -> text = bars (encode_socktype (s32 (nth 1 regs 0))).
Proof.
  intros P. assert (L : (41, "type", "type") ∈ labels) by (apply elem_of_list_In; vm_compute; tauto).
  destruct (text_is order base 41 regs mem ret old "type" "type" (Arg Int 1) _ text P L eq_refl eq_refl eq_refl) as (fs & argv & _ & _ & ->). reflexivity.
Qed.
Lemma type_flag v i : 4 <= i -> (0 <? Z.land (Z.land v (Z.lnot 15)) (2 ^ i)) = Z.testbit v i.
Proof.
  intros H. rewrite <- Z.land_assoc. assert (E : Z.land (Z.lnot 15) (2 ^ i) = 2 ^ i).
  { apply Z.bits_inj'. intros j J. rewrite Z.land_spec, Z.lnot_spec by exact J. destruct (Z.eq_dec i j) as [<-|N].
    - rewrite Z.pow2_bits_true by lia. change 15 with (Z.ones 4). rewrite Z.ones_spec_high by lia. reflexivity.
    - rewrite Z.pow2_bits_false by congruence. apply andb_false_r. }
  rewrite E. pose proof (hits_pow v i ltac:(lia)) as Hh. unfold hits in Hh. rewrite <- Hh. pose proof (Z.land_nonneg v (2 ^ i)) as [_ NN].
  specialize (NN ltac:(right; apply Z.pow_nonneg; lia)). destruct (Z.eqb_spec (Z.land v (2 ^ i)) 0) as [->|]; [reflexivity|]. cbn [negb]. apply Z.ltb_lt. lia.
Qed.
Lemma type_form order base regs mem ret old text name k : printed_text order base 41 regs mem ret old "type" text ->
  (name, k) ∈ socket_types -> s32 (nth 1 regs 0) mod 16 = k ->
  text = text_bytes (name +:+ (if Z.testbit (s32 (nth 1 regs 0)) 19 then "|SOCK_CLOEXEC" else "") +:+ (if Z.testbit (s32 (nth 1 regs 0)) 11 then "|SOCK_NONBLOCK" else "")).
Proof.
  intros P T K. rewrite (type_text _ _ _ _ _ _ _ P). generalize dependent (s32 (nth 1 regs 0)). intros v K. unfold encode_socktype.
  change SOCK_CLOEXEC with (2 ^ 19). change SOCK_NONBLOCK with (2 ^ 11). rewrite !type_flag by lia.
  replace (Z.land v 15) with k by (change 15 with (Z.ones 4); rewrite Z.land_ones by lia; symmetry; exact K).
  assert (A : assoc_z socktype_names k = Some name).
  { assert (Q : forallb (fun t : string * Z => match assoc_z socktype_names t.2 with Some n => String.eqb n t.1 | None => false end) socket_types = true) by (vm_compute; reflexivity).
    rewrite forallb_forall in Q. apply elem_of_list_In in T. specialize (Q _ T). cbn [fst snd] in Q. destruct (assoc_z socktype_names k); [|discriminate]. apply String.eqb_eq in Q as ->. reflexivity. }
  rewrite A, <- txt_bytes, !txt_app. destruct (Z.testbit v 19), (Z.testbit v 11); unfold bars; cbn [map app join]; rewrite ?app_nil_r; reflexivity.
Qed.

(** * Modes *)

Lemma mode_is order base nr regs mem ret old m v text : nr ∈ mode_calls -> printed_text order base nr regs mem ret old "mode" text ->
  doc nr "mode" = Some m -> expected regs mem m = Some (ShInt v) -> text = mode_text v.
Proof.
  intros N P D E. unfold mode_calls in N. rewrite !elem_of_cons, elem_of_nil in N.
  assert (L : (nr, "mode", "mode") ∈ labels) by (destruct N as [->|[->|[->|[]]]]; apply elem_of_list_In; vm_compute; tauto).
  assert (W : is_wrong nr "mode" = false) by (destruct N as [->|[->|[->|[]]]]; reflexivity).
  assert (O : other_of nr "mode" = Some Mode) by (destruct N as [->|[->|[->|[]]]]; reflexivity).
  destruct (text_is _ _ _ _ _ _ _ _ _ _ _ _ P L D W E) as (fs & argv & _ & _ & ->). cbn [line_printer p_other]. rewrite O. reflexivity.
Qed.
Lemma high_bits v i : 0 <= v < 2 ^ 19 -> 19 <= i -> Z.testbit v i = false.
Proof. intros B I. destruct (Z.eq_dec v 0) as [->|N]; [apply Z.bits_0|]. apply Z.bits_above_log2; [lia|]. assert (Z.log2 v < 19); [|lia]. apply Z.log2_lt_pow2; lia. Qed.
Lemma mode_small v : 0 <= v < 2 ^ 19 -> mode_text v = text_bytes ("-" +:+ permissions v).
Proof.
  intros B. unfold mode_text. assert (E : mode_letters v 31 "dalTLDpSugct?" = []).
  { cbn [mode_letters]. unfold bit_set. rewrite !(high_bits v) by (exact B || lia). reflexivity. }
  rewrite E, <- txt_bytes, !txt_app. f_equal. unfold permissions, permission. rewrite !txt_app. cbn [mode_rwx]. unfold bit_set.
  change (8 - 1) with 7. change (7 - 1) with 6. change (6 - 1) with 5. change (5 - 1) with 4. change (4 - 1) with 3. change (3 - 1) with 2. change (2 - 1) with 1. change (1 - 1) with 0.
  rewrite app_nil_r.
  repeat match goal with |- context [Z.testbit v ?i] => destruct (Z.testbit v i) end; reflexivity.
Qed.
Lemma mode_form order base nr regs mem ret old m v text : nr ∈ mode_calls -> printed_text order base nr regs mem ret old "mode" text ->
  doc nr "mode" = Some m -> expected regs mem m = Some (ShInt v) -> 0 <= v < 2 ^ 19 -> text = text_bytes ("-" +:+ permissions v).
Proof. intros N P D E B. rewrite (mode_is _ _ _ _ _ _ _ _ _ _ N P D E). apply mode_small. exact B. Qed.
Lemma permissions_low v v' : v mod 512 = v' mod 512 -> permissions v = permissions v'.
Proof.
  intros E. assert (T : forall i, 0 <= i < 9 -> Z.testbit v i = Z.testbit v' i).
  { intros i I. rewrite <- (Z.mod_pow2_bits_low v 9 i), <- (Z.mod_pow2_bits_low v' 9 i) by lia. change (2 ^ 9) with 512. rewrite E. reflexivity. }
  unfold permissions, permission. rewrite !(T _) by lia. reflexivity.
Qed.

(** * Structs *)

Lemma value_at bs off size signed : size = 4%nat \/ size = 8%nat -> number_of size signed (drop off bs) = member_value bs (off, size, signed).
Proof.
  intros S. unfold number_of, member_value, s32, s64, u32, u64. destruct S as [->| ->]; cbn [Nat.eqb].
  - change (8 * Z.of_nat 4) with 32. destruct signed; [|reflexivity]. cbn [andb]. change (32 - 1) with 31.
    destruct (Z.ltb_spec (le (take 4 (drop off bs)) mod 2 ^ 32) (2 ^ 31)); destruct (Z.leb_spec (2 ^ 31) (le (take 4 (drop off bs)) mod 2 ^ 32)); try reflexivity; lia.
  - change (8 * Z.of_nat 8) with 64. destruct signed; [|reflexivity]. cbn [andb]. change (64 - 1) with 63.
    destruct (Z.ltb_spec (le (take 8 (drop off bs)) mod 2 ^ 64) (2 ^ 63)); destruct (Z.leb_spec (2 ^ 63) (le (take 8 (drop off bs)) mod 2 ^ 64)); try reflexivity; lia.
Qed.
(** The pieces as a format, from an offset. *)
Fixpoint format_of (ps : list piece) : string :=
  match ps with [] => "" | Lit s :: ps => s +:+ format_of ps | Value _ _ :: ps => "%v" +:+ format_of ps end.
Fixpoint members_of (off : nat) (ps : list piece) : list (nat * nat * bool) :=
  match ps with [] => [] | Lit _ :: ps => members_of off ps | Value size signed :: ps => (off, size, signed) :: members_of (off + size) ps end.
Definition piece_ok (p : piece) : bool :=
  match p with Lit s => forallb (fun c => negb (Ascii.eqb c "%"%char)) (list_ascii_of_string s) | Value size _ => Nat.eqb size 4 || Nat.eqb size 8 end.
Lemma printf_lit count s f args : forallb (fun c => negb (Ascii.eqb c "%"%char)) (list_ascii_of_string s) = true ->
  printf count None (s +:+ f) args = txt s ++ printf count None f args.
Proof.
  induction s as [|c s IH]; [reflexivity|]. cbn [list_ascii_of_string forallb]. intros K. apply andb_true_iff in K as [K1 K2]. apply negb_true_iff in K1.
  change (String c s +:+ f) with (String c (s +:+ f)). cbn [printf]. rewrite K1. rewrite (IH K2). reflexivity.
Qed.
Lemma write_format ps : forallb piece_ok ps = true -> forall bs off,
  write_pieces ps (drop off bs) = printf (fun _ => O) None (format_of ps) (map (fun m => text_bytes (pretty (member_value bs m))) (members_of off ps)).
Proof.
  induction ps as [|[s|size signed] ps IH]; [reflexivity| |]; cbn [forallb]; intros K bs off; apply andb_true_iff in K as [K1 K2].
  - cbn [write_pieces format_of members_of]. rewrite printf_lit by exact K1. rewrite (IH K2). reflexivity.
  - cbn [write_pieces format_of members_of map]. change ("%v" +:+ format_of ps) with (String "%"%char (String "v"%char (format_of ps))). cbn [printf].
    change (Ascii.eqb "%" "%") with true. change (Ascii.eqb "v" "-") with false. change (digit_of "v") with (@None nat). cbv iota. unfold padded. cbn [repeat Nat.sub app].
    cbn [piece_ok] in K1. apply orb_true_iff in K1. rewrite !Nat.eqb_eq in K1. rewrite drop_drop, (IH K2), (value_at bs off size signed K1), txt_bytes. reflexivity.
Qed.
Definition struct_ok (e : Z * string * string * nat * string * list (nat * nat * bool)) : bool :=
  let '(nr, label, member, size, format, members) := e in
  match other_of nr member with
  | Some (Record_ ref s) =>
      forallb piece_ok (pieces s) && String.eqb format ((if ref then "&" else "") +:+ format_of (pieces s))
      && bool_decide (members = members_of 0 (pieces s))
      && bool_decide (size = fold_right (fun m n => Nat.max n (m.1.1 + m.1.2)) 0 members)%nat
  | _ => false
  end.
Lemma structs_ok : forallb struct_ok struct_params = true.
Proof. vm_compute. reflexivity. Qed.
Lemma struct_row nr label member size format members : struct_param nr label member size format members ->
  (nr, label, member) ∈ labels /\ forall order base argv bs, p_other (line_printer order base argv) nr member (ShBytes bs) = formatted format members bs.
Proof.
  intros P. unfold struct_param in P. split.
  { unfold labels. apply elem_of_app. right. apply elem_of_app. right. apply elem_of_app. left. apply elem_of_list_fmap. exists (nr, label, member, size, format, members). split; [reflexivity|exact P]. }
  pose proof structs_ok as K. rewrite forallb_forall in K. apply elem_of_list_In in P. specialize (K _ P). unfold struct_ok in K. intros order base argv bs. cbn [line_printer p_other].
  destruct (other_of nr member) as [[? ?|?| | | |ref s|]|]; try discriminate. apply andb_true_iff in K as [K _]. apply andb_true_iff in K as [K Km]. apply andb_true_iff in K as [Kp Kf].
  apply String.eqb_eq in Kf as ->. apply bool_decide_eq_true in Km as ->. unfold formatted. cbn [other_text].
  rewrite printf_lit by (destruct ref; reflexivity). rewrite <- (drop_0 bs) at 1. rewrite (write_format _ Kp bs 0). destruct ref; reflexivity.
Qed.
Lemma struct_text order base nr regs mem ret old label member size format members fs f bs text :
  printed_text order base nr regs mem ret old label text -> struct_param nr label member size format members ->
  decoder nr = Some fs -> field_named fs member = Some f -> member_shown f (captured_args nr regs mem ret old) = Some (ShBytes bs) ->
  text = formatted format members bs.
Proof.
  intros P S D N M. destruct (struct_row _ _ _ _ _ _ S) as [L T]. destruct (text_source _ _ _ _ _ _ _ _ _ _ P L) as (fs' & argv & f' & sh & _ & D' & _ & N' & M' & ->).
  rewrite D in D'. apply Some_inj in D' as <-. rewrite N in N'. apply Some_inj in N' as <-. rewrite (printed_shown _ _ _ M) in M'. apply Some_inj in M' as <-. apply T.
Qed.
Lemma struct_expected order base nr regs mem ret old label member size format members m bs text :
  printed_text order base nr regs mem ret old label text -> struct_param nr label member size format members ->
  doc nr member = Some m -> is_wrong nr member = false -> expected regs mem m = Some (ShBytes bs) -> text = formatted format members bs.
Proof.
  intros P S D W E. destruct (struct_row _ _ _ _ _ _ S) as [L T]. destruct (text_is _ _ _ _ _ _ _ _ _ _ _ _ P L D W E) as (fs & argv & _ & _ & ->). apply T.
Qed.

(** nanosleep *)
Lemma nanosleep_text order order' base regs mem ret old regs' mem' ret' old' label text text' : label = "req" \/ label = "rem" ->
  printed_text order base 35 regs mem ret old label text -> printed_text order' base 35 regs' mem' ret' old' label text' -> text = text'.
Proof.
  intros N P P'. assert (L : (35, label, label) ∈ labels) by (destruct N as [->| ->]; apply elem_of_list_In; vm_compute; tauto).
  destruct (text_source _ _ _ _ _ _ _ _ _ _ P L) as (fs & argv & f & sh & _ & D & _ & F & M & ->).
  destruct (text_source _ _ _ _ _ _ _ _ _ _ P' L) as (fs' & argv' & f' & sh' & _ & D' & _ & F' & M' & ->).
  assert (E : fs = [Field "req" 0 KAddrs; Field "rem" 1 KAddrs]) by (change (decoder 35) with (Some [Field "req" 0 KAddrs; Field "rem" 1 KAddrs]) in D; apply Some_inj in D; symmetry; exact D).
  rewrite D in D'. apply Some_inj in D' as <-. rewrite F in F'. apply Some_inj in F' as <-. rewrite E in F.
  assert (sh = sh') as <-.
  { destruct N as [->| ->]; cbn in F; apply Some_inj in F as <-; unfold member_printed in M, M'; cbn in M, M'; congruence. }
  cbn [line_printer p_other]. destruct N as [->| ->]; cbn in F; apply Some_inj in F as <-; unfold member_printed in M; cbn in M; apply Some_inj in M as <-; reflexivity.
Qed.

(** * The latency *)

Lemma rne_near a b : 0 < b -> 2 * Z.abs (rne a b * b - a) <= b.
Proof.
  intros B. unfold rne. pose proof (Z.div_mod a b ltac:(lia)) as D. pose proof (Z.mod_pos_bound a b B) as M. set (q := a / b) in *. set (r := a mod b) in *.
  destruct (Z.ltb_spec (2 * r) b); cbn [orb]; [rewrite Z.abs_neq; nia|]. destruct (Z.eqb_spec (2 * r) b); cbn [andb]; [destruct (Z.even q)|].
  - rewrite Z.abs_neq; nia.
  - rewrite Z.abs_eq; nia.
  - rewrite Z.abs_eq; nia.
Qed.
Lemma rne_tie a b : 0 < b -> 2 * Z.abs (rne a b * b - a) = b -> Z.even (rne a b) = true.
Proof.
  intros B. unfold rne. pose proof (Z.div_mod a b ltac:(lia)) as D. pose proof (Z.mod_pos_bound a b B) as M. set (q := a / b) in *. set (r := a mod b) in *.
  destruct (Z.ltb_spec (2 * r) b); cbn [orb]; [rewrite Z.abs_neq; nia|]. destruct (Z.eqb_spec (2 * r) b); cbn [andb]; [destruct (Z.even q) eqn:Q|].
  - intros _. exact Q.
  - intros _. rewrite Z.even_add, Q. reflexivity.
  - rewrite Z.abs_eq; nia.
Qed.
Lemma rne_mono a b c d : 0 < b -> 0 < d -> a * d <= c * b -> rne a b <= rne c d.
Proof.
  intros B D H. destruct (Z_le_gt_dec (rne a b) (rne c d)) as [|G]; [assumption|exfalso].
  pose proof (rne_near a b B) as Na. pose proof (rne_near c d D) as Nc. pose proof (rne_tie a b B) as Ta. pose proof (rne_tie c d D) as Tc.
  set (p := rne a b) in *. set (q := rne c d) in *.
  assert (A1 : 2 * (p * b - a) <= b) by lia. assert (C1 : 2 * (c - q * d) <= d) by lia.
  assert (A2 : (2 * p - 1) * b * d <= 2 * a * d) by nia. assert (C2 : 2 * c * b <= (2 * q + 1) * d * b) by nia.
  assert (E : (2 * p - 1) * (b * d) <= (2 * q + 1) * (b * d)) by nia. assert (P : p = q + 1) by nia. subst p.
  assert (Ea : 2 * (rne a b * b - a) = b) by nia. assert (Ec : 2 * (c - q * d) = d) by nia.
  rewrite Z.abs_eq in Ta by nia. rewrite Z.abs_neq in Tc by nia. specialize (Ta Ea). specialize (Tc ltac:(lia)). rewrite P, Z.even_add, Tc in Ta. discriminate.
Qed.

(** The binary digits of the quotient. *)
Lemma divided_range n m s : 0 < n < 2 ^ 64 -> divided n = (m, s) -> 8 <= s /\ 2 ^ 52 * 1000000 <= n * 2 ^ s < 2 ^ 53 * 1000000.
Proof.
  intros N D. unfold divided in D. set (x := n * 2 ^ 80 / 1000000) in *. assert (X0 : 0 < x). { unfold x. apply Z.div_str_pos. nia. }
  pose proof (Z.log2_spec x X0) as [L1 L2]. set (k := Z.log2 x) in *. assert (K0 : 0 <= k) by apply Z.log2_nonneg. injection D as _ <-.
  assert (X1 : x * 1000000 <= n * 2 ^ 80) by (unfold x; pose proof (Z.mul_div_le (n * 2 ^ 80) 1000000 ltac:(lia)); lia).
  assert (X2 : n * 2 ^ 80 < (x + 1) * 1000000) by (unfold x; pose proof (Z.mul_succ_div_gt (n * 2 ^ 80) 1000000 ltac:(lia)); lia).
  assert (K : k <= 124).
  { apply Z.lt_succ_r. apply (Z.pow_lt_mono_r_iff 2); [lia|lia|]. apply Z.le_lt_trans with x; [exact L1|]. assert (2 ^ 64 * 2 ^ 80 < 1000000 * 2 ^ Z.succ 124) by (vm_compute; reflexivity). nia. }
  split; [lia|]. rewrite Z.pow_succ_r in L2 by exact K0.
  assert (Y1 : 2 ^ k * 1000000 <= n * 2 ^ 80) by nia. assert (Y2 : n * 2 ^ 80 < 2 ^ k * 2 * 1000000) by nia.
  assert (E : 2 ^ (52 - (k - 80)) * 2 ^ k = 2 ^ 52 * 2 ^ 80) by (rewrite <- !Z.pow_add_r by lia; f_equal; lia).
  assert (Pk : 0 < 2 ^ k) by (apply Z.pow_pos_nonneg; lia). assert (Ps : 0 < 2 ^ (52 - (k - 80))) by (apply Z.pow_pos_nonneg; lia).
  set (u := 2 ^ (52 - (k - 80))) in *. set (w := 2 ^ k) in *. split; nia.
Qed.
Lemma thousandths_near n : 0 <= n < 2 ^ 53 -> Z.abs (1000 * thousandths n - n) <= 500.
Proof.
  intros N. unfold thousandths. destruct (Z.eqb_spec n 0) as [->|N0]; [cbn; lia|]. destruct (divided n) as [m s] eqn:D.
  assert (R : 0 < n < 2 ^ 64) by (split; [lia|]; apply Z.lt_trans with (2 ^ 53); [lia|vm_compute; reflexivity]). destruct (divided_range n m s R D) as (S & L & _).
  assert (M : m = rne (n * 2 ^ s) 1000000) by (unfold divided in D; injection D as <- <-; reflexivity).
  pose proof (rne_near (n * 2 ^ s) 1000000 ltac:(lia)) as N1. rewrite <- M in N1.
  assert (P : 0 < 2 ^ s) by (apply Z.pow_pos_nonneg; lia). pose proof (rne_near (1000 * m) (2 ^ s) P) as N2.
  set (t := rne (1000 * m) (2 ^ s)) in *. set (u := 2 ^ s) in *. assert (U : 500000 < u).
  { destruct (Z_le_gt_dec u 500000) as [G|G]; [exfalso|lia]. assert (n * u < 2 ^ 53 * 500000 + 1) by nia. assert (2 ^ 53 * 500000 = 2 ^ 52 * 1000000) by reflexivity. nia. }
  nia.
Qed.
Lemma thousandths_mono n n' : 0 <= n <= n' -> n' < 2 ^ 64 -> thousandths n <= thousandths n'.
Proof.
  intros N B. unfold thousandths. destruct (Z.eqb_spec n 0) as [->|N0].
  - destruct (Z.eqb_spec n' 0) as [|N0']; [reflexivity|]. destruct (divided n') as [m s] eqn:D. destruct (divided_range n' m s ltac:(lia) D) as (S & L & _).
    assert (P : 0 < 2 ^ s) by (apply Z.pow_pos_nonneg; lia). assert (M : m = rne (n' * 2 ^ s) 1000000) by (unfold divided in D; injection D as <- <-; reflexivity).
    assert (0 <= m) by (rewrite M; change 0 with (rne 0 1); apply rne_mono; nia). change 0 with (rne 0 1). apply rne_mono; nia.
  - destruct (Z.eqb_spec n' 0) as [|N0']; [lia|]. destruct (divided n) as [m s] eqn:D. destruct (divided n') as [m' s'] eqn:D'.
    destruct (divided_range n m s ltac:(lia) D) as (S & L1 & L2). destruct (divided_range n' m' s' ltac:(lia) D') as (S' & L1' & L2').
    assert (M : m = rne (n * 2 ^ s) 1000000) by (unfold divided in D; injection D as <- <-; reflexivity).
    assert (M' : m' = rne (n' * 2 ^ s') 1000000) by (unfold divided in D'; injection D' as <- <-; reflexivity).
    assert (P : 0 < 2 ^ s) by (apply Z.pow_pos_nonneg; lia). assert (P' : 0 < 2 ^ s') by (apply Z.pow_pos_nonneg; lia).
    apply rne_mono; [exact P|exact P'|].
    destruct (Z.lt_trichotomy s s') as [G|[G|G]].
    + exfalso. assert (E : 2 ^ s' = 2 ^ s * 2 ^ (s' - s)) by (rewrite <- Z.pow_add_r by lia; f_equal; lia). assert (2 ^ 1 <= 2 ^ (s' - s)) by (apply Z.pow_le_mono_r; lia).
      assert (n * 2 ^ s * 2 <= n' * 2 ^ s') by nia. assert (2 ^ 53 = 2 * 2 ^ 52) by reflexivity. nia.
    + subst s'. assert (m <= m'); [|nia]. rewrite M, M'. apply rne_mono; nia.
    + assert (A : m <= 2 ^ 53). { rewrite M. replace (2 ^ 53) with (rne (2 ^ 53) 1) by (vm_compute; reflexivity). apply rne_mono; nia. }
      assert (A' : 2 ^ 52 <= m'). { rewrite M'. replace (2 ^ 52) with (rne (2 ^ 52) 1) by (vm_compute; reflexivity). apply rne_mono; nia. }
      assert (E : 2 ^ s = 2 ^ s' * 2 ^ (s - s')) by (rewrite <- Z.pow_add_r by lia; f_equal; lia). assert (2 ^ 1 <= 2 ^ (s - s')) by (apply Z.pow_le_mono_r; lia).
      assert (2 ^ 53 = 2 * 2 ^ 52) by reflexivity. assert (2 ^ s' * 2 <= 2 ^ s) by nia. nia.
Qed.
Lemma thousandths_pos n : 0 <= n < 2 ^ 64 -> 0 <= thousandths n.
Proof. intros N. change 0 with (thousandths 0). apply thousandths_mono; lia. Qed.

Lemma digit_text d : 0 <= d < 10 -> text_bytes (pretty d) = [48 + d].
Proof.
  intros D. assert (K : forallb (fun d => bool_decide (text_bytes (pretty d) = [48 + d])) [0; 1; 2; 3; 4; 5; 6; 7; 8; 9] = true) by (vm_compute; reflexivity).
  rewrite forallb_forall in K. assert (I : In d [0; 1; 2; 3; 4; 5; 6; 7; 8; 9]) by (cbn; lia). specialize (K d I). apply bool_decide_eq_true in K. exact K.
Qed.
Lemma ms_form n : 0 <= n < 2 ^ 64 -> ms_text n = right_align 6 (text_bytes (decimal3 (thousandths n))).
Proof.
  intros N. unfold ms_text. rewrite Z.abs_eq by lia. replace (n <? 0) with false by (symmetry; apply Z.ltb_ge; lia). unfold decimal3.
  set (p := thousandths n). rewrite <- !txt_bytes, !txt_app, !txt_bytes.
  assert (D1 : p / 100 mod 10 = p mod 1000 / 100).
  { assert (E : p = (p / 1000) * 1000 + p mod 1000) by (pose proof (Z.div_mod p 1000); lia). pose proof (Z.mod_pos_bound p 1000 ltac:(lia)) as B. set (r := p mod 1000) in *. set (q := p / 1000) in *.
    rewrite E. replace (q * 1000 + r) with (r + (q * 10) * 100) by ring. rewrite Z.div_add by lia. rewrite Z.add_mod, Z.mod_mul, Z.add_0_r, Z.mod_mod by lia. apply Z.mod_small. split; [apply Z.div_pos; lia|apply Z.div_lt_upper_bound; lia]. }
  assert (D2 : p / 10 mod 10 = p mod 1000 / 10 mod 10).
  { assert (E : p = (p / 1000) * 1000 + p mod 1000) by (pose proof (Z.div_mod p 1000); lia). set (r := p mod 1000) in *. set (q := p / 1000) in *.
    rewrite E at 1. replace (q * 1000 + r) with (r + (q * 100) * 10) by ring. rewrite Z.div_add by lia. replace (q * 100) with ((q * 10) * 10) by ring. rewrite Z.mod_add by lia. reflexivity. }
  assert (D3 : p mod 10 = p mod 1000 mod 10).
  { assert (E : p = (p / 1000) * 1000 + p mod 1000) by (pose proof (Z.div_mod p 1000); lia). set (r := p mod 1000) in *. set (q := p / 1000) in *.
    rewrite E at 1. replace (q * 1000 + r) with (r + (q * 100) * 10) by ring. rewrite Z.mod_add by lia. reflexivity. }
  rewrite D1, D2, D3. pose proof (Z.mod_pos_bound p 1000 ltac:(lia)) as B. set (r := p mod 1000) in *.
  assert (B1 : 0 <= r / 100 < 10) by (split; [apply Z.div_pos; lia|apply Z.div_lt_upper_bound; lia]).
  rewrite (digit_text (r / 100) B1), (digit_text (r / 10 mod 10)), (digit_text (r mod 10)) by (apply Z.mod_pos_bound; lia). cbn [app]. reflexivity.
Qed.

(** * No line feeds *)

Definition other_ok (o : other) : bool :=
  match o with
  | Flags c _ => forallb (fun e : Z * string => cleanb (txt e.2)) (c_masks c ++ c_exact c)
  | Names l => forallb (fun e : Z * string => cleanb (txt e.2)) l
  | OptionName => forallb (fun e : Z * string => cleanb (txt e.2)) (so_names ++ tcp_names ++ ip_names ++ ip6_names)
  | Record_ _ s => forallb (fun p => match p with Lit s => cleanb (txt s) | _ => true end) (pieces s)
  | _ => true
  end.
Lemma others_ok : forallb (fun e : Z * string * other => other_ok e.2) others = true.
Proof. vm_compute. reflexivity. Qed.
Lemma render_clean l v : forallb (fun e : Z * string => cleanb (txt e.2)) l = true -> clean (txt (render l v)).
Proof.
  intros K. unfold render. destruct (assoc_z l v) as [n|] eqn:A; [|apply pretty_clean]. apply assoc_z_in in A. rewrite forallb_forall in K. apply cleanb_clean. exact (K _ A).
Qed.
Lemma bars_clean names : (forall n, n ∈ names -> clean (txt n)) -> clean (bars names).
Proof.
  intros H. unfold bars. apply join_clean; [apply cleanb_clean; reflexivity|]. apply Forall_forall. intros x I. apply elem_of_list_fmap in I as (n & -> & I). exact (H n I).
Qed.
Lemma letters_clean v s : clean (txt s) -> forall i, clean (mode_letters v i s).
Proof.
  induction s as [|c s IH]; intros C i; [apply clean_nil|]. change (txt (String c s)) with (txt (String c EmptyString) ++ txt s) in C. unfold clean in C. apply not_elem_of_app in C as [C1 C2].
  cbn [mode_letters]. apply clean_app; [destruct (bit_set v i); [exact C1|apply clean_nil]|exact (IH C2 _)].
Qed.
Lemma rwx_clean v s : clean (txt s) -> forall i, clean (mode_rwx v i s).
Proof.
  induction s as [|c s IH]; intros C i; [apply clean_nil|]. change (txt (String c s)) with (txt (String c EmptyString) ++ txt s) in C. unfold clean in C. apply not_elem_of_app in C as [C1 C2].
  cbn [mode_rwx]. apply clean_app; [destruct (bit_set v i); [exact C1|apply cleanb_clean; reflexivity]|exact (IH C2 _)].
Qed.
Lemma pieces_clean ps : forallb (fun p => match p with Lit s => cleanb (txt s) | _ => true end) ps = true -> forall bs, clean (write_pieces ps bs).
Proof.
  induction ps as [|[s|size signed] ps IH]; intros K bs; [apply clean_nil| |]; cbn [forallb] in K; apply andb_true_iff in K as [K1 K2]; cbn [write_pieces].
  - apply clean_app; [apply cleanb_clean; exact K1|exact (IH K2 bs)].
  - apply clean_app; [apply pretty_clean|exact (IH K2 _)].
Qed.
Lemma other_clean order level base o sh : (forall l, order l ≡ₚ l) -> other_ok o = true -> clean (other_text order level base o sh).
Proof.
  intros O K. destruct o as [c number|l| | | |ref s|]; destruct sh as [v|bs|a|k]; cbn [other_text]; try apply clean_nil.
  - cbn [other_ok] in K. destruct (encode c (order (c_masks c)) v) as [|x xs] eqn:E; [destruct number; [apply pretty_clean|apply clean_nil]|].
    rewrite <- E. apply bars_clean. intros n I. rewrite forallb_forall in K. apply cleanb_clean. destruct (assoc_z (c_exact c) v) as [y|] eqn:A.
    + unfold encode in I. rewrite A in I. apply elem_of_list_singleton in I as ->. apply (K (v, y)). apply in_or_app. right. apply assoc_z_in. exact A.
    + apply (encode_names c order v n O A) in I as (m & I & _). apply (K (m, n)). apply in_or_app. left. apply elem_of_list_In. exact I.
  - apply render_clean. exact K.
  - cbn [other_ok] in K. rewrite !forallb_app in K. apply andb_true_iff in K as [K1 K]. apply andb_true_iff in K as [K2 K]. apply andb_true_iff in K as [K3 K4].
    unfold render_option. repeat match goal with |- context [if ?b then _ else _] => destruct b end; try (apply render_clean; assumption). apply pretty_clean.
  - apply bars_clean. intros n I. unfold encode_socktype in I. apply elem_of_app in I as [I|I]; [|apply elem_of_app in I as [I|I]].
    + destruct (assoc_z socktype_names (Z.land v 15)) as [y|] eqn:A; apply elem_of_list_singleton in I as ->.
      * assert (Q : forallb (fun e : Z * string => cleanb (txt e.2)) socktype_names = true) by (vm_compute; reflexivity). rewrite forallb_forall in Q. apply assoc_z_in in A. apply cleanb_clean. exact (Q _ A).
      * rewrite !txt_app. apply clean_app; [apply cleanb_clean; reflexivity|]. apply clean_app; [apply pretty_clean|apply cleanb_clean; reflexivity].
    + destruct (0 <? _); [apply elem_of_list_singleton in I as ->; apply cleanb_clean; reflexivity|apply elem_of_nil in I as []].
    + destruct (0 <? _); [apply elem_of_list_singleton in I as ->; apply cleanb_clean; reflexivity|apply elem_of_nil in I as []].
  - unfold mode_text. apply clean_app; [|apply rwx_clean; apply cleanb_clean; reflexivity]. pose proof (letters_clean v "dalTLDpSugct?" ltac:(apply cleanb_clean; reflexivity) 31) as C.
    destruct (mode_letters v 31 "dalTLDpSugct?"); [apply cleanb_clean; reflexivity|exact C].
  - apply clean_app; [destruct ref; apply cleanb_clean; reflexivity|]. apply pieces_clean. exact K.
  - apply clean_app; [apply cleanb_clean; reflexivity|]. apply clean_app; [apply pretty_clean|].
    apply clean_app; [apply cleanb_clean; reflexivity|]. apply clean_app; [apply pretty_clean|apply cleanb_clean; reflexivity].
Qed.
Lemma ms_clean ns : clean (ms_text ns).
Proof.
  unfold ms_text. apply right_clean. set (p := thousandths (Z.abs ns)). apply clean_app; [destruct (ns <? 0); apply cleanb_clean; reflexivity|].
  apply clean_app; [apply pretty_clean|]. apply clean_app; [apply cleanb_clean; reflexivity|]. unfold three_digits, clean. pose proof (Z.mod_pos_bound p 1000 ltac:(lia)) as B. set (r := p mod 1000) in *.
  assert (0 <= r / 100) by (apply Z.div_pos; lia). pose proof (Z.mod_pos_bound (r / 10) 10 ltac:(lia)). pose proof (Z.mod_pos_bound r 10 ltac:(lia)).
  rewrite !not_elem_of_cons. repeat split; try lia. apply not_elem_of_nil.
Qed.
Lemma printer_quiet order base argv : (forall l, order l ≡ₚ l) -> quiet_printer (line_printer order base argv).
Proof.
  intros O. split; [|exact ms_clean]. intros nr name sh. cbn [line_printer p_other]. unfold other_of. destruct (List.find _ others) as [e|] eqn:F; [|apply clean_nil].
  apply other_clean; [exact O|]. apply List.find_some in F as [I _]. pose proof others_ok as K. rewrite forallb_forall in K. exact (K e I).
Qed.
Lemma one_line_of order base tty nc c t raw fs out : (forall l, order l ≡ₚ l) ->
  (forall name pod ns, c = Some (name, pod, ns) -> 10 ∉ name /\ 10 ∉ pod /\ 10 ∉ ns) -> 10 ∉ t_comm t -> decoder (t_syscall t) = Some fs ->
  decode_fields raw fs = Some (t_argv t) -> Forall is_byte raw -> Forall (no_line_feed raw) fs -> line_of order base tty nc c t raw = Some out -> one_line out.
Proof.
  intros O C. apply prints_one_line; [apply printer_quiet; exact O|]. destruct c as [[[a b] d]|]; [exact (C a b d eq_refl)|exact I].
Qed.
