(** Proofs about the JSON codecs. *)
From stdpp Require Import base list numbers strings pretty gmap.
From Coq Require Import ZArith String Ascii Lia.
From Verif Require Import CodecTables CodecModel CodecSpec.

Local Open Scope Z_scope.

(** * Unions *)

Lemma union_app a b : union (a ++ b) = Z.lor (union a) (union b).
Proof.
  induction a as [|x a IH]; [reflexivity|].
  cbn [app union fold_right]. unfold union in *. cbn. rewrite IH. apply Z.lor_assoc.
Qed.

Lemma union_bit l i : Z.testbit (union l) i = existsb (fun m => Z.testbit m i) l.
Proof.
  induction l as [|x l IH]; [apply Z.testbit_0_l|].
  unfold union in *. cbn. rewrite Z.lor_spec, IH. reflexivity.
Qed.

Lemma existsb_ext_in {A} (f g : A -> bool) (a b : list A) :
  (forall x, In x a -> f x = true -> exists y, In y b /\ g y = true) ->
  existsb f a = true -> existsb g b = true.
Proof.
  intros H. rewrite !existsb_exists. intros (x & Hx & Hf). eauto.
Qed.

(** Two lists have the same union if each bit of one is in the other. *)
Lemma union_eq a b :
  (forall m i, In m a -> Z.testbit m i = true -> exists m', In m' b /\ Z.testbit m' i = true) ->
  (forall m i, In m b -> Z.testbit m i = true -> exists m', In m' a /\ Z.testbit m' i = true) ->
  union a = union b.
Proof.
  intros H1 H2. apply Z.bits_inj. intros i. rewrite !union_bit.
  apply eq_true_iff_eq. split; apply existsb_ext_in; eauto.
Qed.

Lemma union_perm a b : a ≡ₚ b -> union a = union b.
Proof.
  intros H. apply union_eq; intros m i Hm Hi; exists m; split; trivial.
  - eapply Permutation_in; eauto.
  - eapply Permutation_in; [symmetry|]; eauto.
Qed.

Lemma nonzero_bit z : z <> 0 -> exists i, Z.testbit z i = true.
Proof.
  intros H. destruct (Z_lt_le_dec z 0) as [Hn|Hn].
  - exists (Z.log2 (Z.pred (- z)) + 1).
    apply (Z.bits_above_log2_neg z); lia.
  - exists (Z.log2 z). apply Z.bit_log2. lia.
Qed.

Lemma hits_bit v m : hits v m = true <-> exists i, Z.testbit v i = true /\ Z.testbit m i = true.
Proof.
  unfold hits. rewrite negb_true_iff, Z.eqb_neq. split.
  - intros H. destruct (nonzero_bit _ H) as [i Hi].
    rewrite Z.land_spec, andb_true_iff in Hi. eauto.
  - intros (i & Hv & Hm) H0.
    assert (Z.testbit (Z.land v m) i = true) as Hi by (rewrite Z.land_spec, Hv, Hm; reflexivity).
    rewrite H0, Z.testbit_0_l in Hi. discriminate.
Qed.

(** [m] is part of [m']. *)
Definition part (m m' : Z) : bool := Z.land m m' =? m.

Lemma part_bit m m' : part m m' = true ->
  forall i, Z.testbit m i = true -> Z.testbit m' i = true.
Proof.
  unfold part. rewrite Z.eqb_eq. intros H i Hi. rewrite <- H, Z.land_spec in Hi.
  apply andb_true_iff in Hi. tauto.
Qed.

(** * The round trip of flag sets *)

(** What is checked of a codec's tables, by computation. [allowed] are the flags
    that survive. *)
Definition keys_match (c : codec) : bool :=
  forallb (fun e => negb (existsb (String.eqb (snd e)) (c_zero c))
                    && match assoc_s (c_keys c) (snd e) with Some m => m =? fst e | None => false end)
    (c_masks c).

Definition exact_match (c : codec) (allowed : list Z) : bool :=
  forallb (fun e => (decode_step c 0 (snd e) =? fst e)
                    && (union (List.filter (fun m => part m (fst e)) allowed) =? fst e))
    (c_exact c).

Definition closed (c : codec) (allowed : list Z) : bool :=
  forallb (fun e => forallb (fun m' => (Z.land m' (fst e) =? 0) || part (fst e) m') allowed) (c_masks c).

Definition covered (c : codec) (allowed : list Z) : bool :=
  forallb (fun e => existsb (fun m' => part (fst e) m') allowed) (c_masks c).

Definition included (c : codec) (allowed : list Z) : bool :=
  forallb (fun m => existsb (Z.eqb m) (map fst (c_masks c))) allowed.

Definition codec_ok (c : codec) (allowed : list Z) : bool :=
  keys_match c && exact_match c allowed && closed c allowed && covered c allowed
  && included c allowed.

Definition hit_masks (v : Z) (tbl : list (Z * string)) : list Z :=
  map fst (List.filter (fun e => hits v (fst e)) tbl).

Lemma in_hit_masks v tbl m :
  In m (hit_masks v tbl) <-> In m (map fst tbl) /\ hits v m = true.
Proof.
  unfold hit_masks. rewrite !in_map_iff. split.
  - intros (e & <- & He). apply filter_In in He. destruct He. eauto.
  - intros ((e & <- & He) & Hh). exists e. split; trivial. apply filter_In. eauto.
Qed.

Lemma filter_perm {A} (f : A -> bool) (a b : list A) :
  a ≡ₚ b -> List.filter f a ≡ₚ List.filter f b.
Proof.
  induction 1 as [|x a b H IH|x y a|a b c H1 IH1 H2 IH2]; cbn.
  - constructor.
  - destruct (f x); [constructor|]; trivial.
  - destruct (f x), (f y); try reflexivity. constructor.
  - etransitivity; eauto.
Qed.

Lemma hit_masks_perm v a b : a ≡ₚ b -> union (hit_masks v a) = union (hit_masks v b).
Proof.
  intros H. apply union_perm. unfold hit_masks. apply Permutation_map.
  apply filter_perm. exact H.
Qed.

(** Decoding names of flags adds their union. *)
Lemma fold_names c es acc :
  (forall e, In e es -> In e (c_masks c)) ->
  keys_match c = true ->
  fold_left (decode_step c) (map snd es) acc = Z.lor acc (union (map fst es)).
Proof.
  intros Hin Hk. revert acc. induction es as [|e es IH]; intros acc.
  - cbn. rewrite Z.lor_0_r. reflexivity.
  - cbn [map fold_left]. rewrite IH by (intros; apply Hin; right; assumption).
    unfold keys_match in Hk. rewrite forallb_forall in Hk.
    pose proof (Hk e (Hin e (or_introl eq_refl))) as He.
    apply andb_true_iff in He. destruct He as [Hz Hm].
    unfold decode_step. apply negb_true_iff in Hz. rewrite Hz.
    destruct (assoc_s (c_keys c) (snd e)) as [m|]; [|discriminate].
    apply Z.eqb_eq in Hm. subst m. unfold union. cbn. rewrite Z.lor_assoc. reflexivity.
Qed.

Lemma assoc_z_in {A} (l : list (Z * A)) k a : assoc_z l k = Some a -> In (k, a) l.
Proof.
  induction l as [|[x b] l IH]; cbn; [discriminate|].
  destruct (Z.eqb_spec x k) as [->|Hn]; [intros [= ->]; left; reflexivity|right; auto].
Qed.

Lemma decode_encode c order start v :
  keys_match c = true -> order ≡ₚ c_masks c -> assoc_z (c_exact c) v = None ->
  decode c start (encode c order v)
  = Z.lor (if c_clears c then 0 else start) (union (hit_masks v (c_masks c))).
Proof.
  intros Hk Hp Hx. unfold decode, encode. rewrite Hx.
  etransitivity; [apply (fold_names c)|].
  - intros e He. apply filter_In in He. destruct He as [He _].
    eapply Permutation_in; eauto.
  - exact Hk.
  - f_equal. exact (hit_masks_perm v _ _ Hp).
Qed.

Lemma codec_ok_all c allowed : codec_ok c allowed = true ->
  keys_match c = true /\ exact_match c allowed = true /\ closed c allowed = true
  /\ covered c allowed = true /\ included c allowed = true.
Proof. unfold codec_ok. rewrite !andb_true_iff. tauto. Qed.

Lemma exact_value c allowed order v n :
  codec_ok c allowed = true -> assoc_z (c_exact c) v = Some n ->
  decode_step c 0 n = v /\ made_of allowed v /\ encode c order v = [n].
Proof.
  intros (_ & Hx & _)%codec_ok_all Hv. unfold exact_match in Hx.
  rewrite forallb_forall in Hx.
  specialize (Hx _ (assoc_z_in _ _ _ Hv)). cbn [fst snd] in Hx.
  apply andb_true_iff in Hx. destruct Hx as [H1 H2].
  apply Z.eqb_eq in H1, H2. split; [exact H1|]. split.
  - eexists. split; [|symmetry; exact H2]. intros m Hm. apply filter_In in Hm. tauto.
  - unfold encode. rewrite Hv. reflexivity.
Qed.

(** A flag value survives JSON exactly when it is made of the allowed flags. *)
Theorem flags_round_trip c allowed order v :
  codec_ok c allowed = true -> order ≡ₚ c_masks c ->
  (decode c 0 (encode c order v) = v <-> made_of allowed v).
Proof.
  intros Hok Hp. destruct (assoc_z (c_exact c) v) as [n|] eqn:Hx.
  { destruct (exact_value c allowed order v n Hok Hx) as (Hd & Hm & He).
    rewrite He. unfold decode. cbn [fold_left].
    destruct (c_clears c); rewrite Hd; tauto. }
  destruct (codec_ok_all _ _ Hok) as (Hk & _ & Hcl & Hco & Hinc).
  rewrite (decode_encode c order 0 v Hk Hp Hx).
  replace (if c_clears c then 0 else 0) with 0 by (destruct (c_clears c); reflexivity).
  rewrite Z.lor_0_l. unfold closed in Hcl. unfold covered in Hco. unfold included in Hinc.
  rewrite forallb_forall in Hcl, Hco, Hinc. split.
  - intros Hv.
    exists (List.filter (hits v) allowed). split.
    { intros m Hm. apply filter_In in Hm. tauto. }
    rewrite <- Hv at 1. apply union_eq.
    + intros m i Hm Hi. apply in_hit_masks in Hm. destruct Hm as [Hm Hh].
      apply in_map_iff in Hm. destruct Hm as (e & <- & He).
      specialize (Hco e He). apply existsb_exists in Hco. destruct Hco as (m' & Hm' & Hpt).
      exists m'. split; [|exact (part_bit _ _ Hpt i Hi)].
      apply filter_In. split; trivial.
      apply hits_bit in Hh. destruct Hh as (j & Hj & Hj'). apply hits_bit.
      exists j. split; trivial. exact (part_bit _ _ Hpt j Hj').
    + intros m i Hm Hi. apply filter_In in Hm. destruct Hm as [Hm Hh].
      exists m. split; trivial. apply in_hit_masks. split; trivial.
      specialize (Hinc m Hm). apply existsb_exists in Hinc.
      destruct Hinc as (m' & Hm' & ->%Z.eqb_eq). exact Hm'.
  - intros (sub & Hsub & Hv). apply Z.bits_inj. intros i. apply eq_true_iff_eq.
    rewrite union_bit, existsb_exists. split.
    + intros (m & Hm & Hi). apply in_hit_masks in Hm. destruct Hm as [Hm Hh].
      apply in_map_iff in Hm. destruct Hm as (e & <- & He).
      apply hits_bit in Hh. destruct Hh as (j & Hj & Hj').
      rewrite Hv, union_bit in Hj. apply existsb_exists in Hj. destruct Hj as (m' & Hm' & Hb).
      specialize (Hcl e He). rewrite forallb_forall in Hcl.
      specialize (Hcl m' (Hsub m' Hm')). apply orb_true_iff in Hcl.
      destruct Hcl as [H0|Hpt].
      * apply Z.eqb_eq in H0. exfalso.
        assert (Z.testbit (Z.land m' (fst e)) j = true) as Hl
          by (rewrite Z.land_spec, Hb, Hj'; reflexivity).
        rewrite H0, Z.testbit_0_l in Hl. discriminate.
      * rewrite Hv, union_bit. apply existsb_exists. exists m'. split; trivial.
        exact (part_bit _ _ Hpt i Hi).
    + intros Hi. pose proof Hi as Hi0. rewrite Hv, union_bit in Hi.
      apply existsb_exists in Hi. destruct Hi as (m & Hm & Hb).
      exists m. split; trivial. apply in_hit_masks. split.
      * specialize (Hinc m (Hsub m Hm)). apply existsb_exists in Hinc.
        destruct Hinc as (m' & Hm' & ->%Z.eqb_eq). exact Hm'.
      * apply hits_bit. eauto.
Qed.

(** What survives of any value at all. *)
Lemma flags_trip_any c allowed order start v :
  codec_ok c allowed = true -> order ≡ₚ c_masks c -> assoc_z (c_exact c) v = None ->
  decode c start (encode c order v)
  = Z.lor (if c_clears c then 0 else start) (decode c 0 (encode c order v)).
Proof.
  intros (Hk & _)%codec_ok_all Hp Hx.
  rewrite !(decode_encode c order _ v Hk Hp Hx).
  destruct (c_clears c); reflexivity.
Qed.

(** Tables of single bits: exactly the known bits survive. *)
Definition single_bits (tbl : list (Z * string)) : bool :=
  forallb (fun e => (0 <? fst e) && (2 ^ Z.log2 (fst e) =? fst e)) tbl.

Lemma single_bit_hit m v : 0 < m -> 2 ^ Z.log2 m = m ->
  forall i, Z.testbit m i = true -> hits v m = Z.testbit v i.
Proof.
  intros Hp He i Hi. rewrite <- He in Hi.
  assert (i = Z.log2 m) as ->.
  { destruct (Z.eq_dec (Z.log2 m) i) as [->|Hn]; trivial.
    rewrite Z.pow2_bits_false in Hi by (intros ?; lia). discriminate. }
  apply eq_true_iff_eq. rewrite hits_bit. split.
  - intros (j & Hv & Hm). rewrite <- He in Hm.
    destruct (Z.eq_dec (Z.log2 m) j) as [->|Hn]; trivial.
    rewrite Z.pow2_bits_false in Hm by (intros ?; lia). discriminate.
  - intros Hv. exists (Z.log2 m). split; trivial. apply Z.bit_log2. lia.
Qed.

Lemma single_bits_hit v tbl : single_bits tbl = true ->
  union (hit_masks v tbl) = Z.land v (union (map fst tbl)).
Proof.
  intros Hs. unfold single_bits in Hs. rewrite forallb_forall in Hs.
  assert (forall m i, In m (map fst tbl) -> Z.testbit m i = true -> hits v m = Z.testbit v i) as Hb.
  { intros m i Hm Hi. apply in_map_iff in Hm. destruct Hm as (e & <- & He).
    specialize (Hs e He). apply andb_true_iff in Hs. destruct Hs as [H1 H2].
    apply Z.ltb_lt in H1. apply Z.eqb_eq in H2. eapply single_bit_hit; eauto. }
  apply Z.bits_inj. intros i. rewrite Z.land_spec, !union_bit. apply eq_true_iff_eq.
  rewrite andb_true_iff, !existsb_exists. split.
  - intros (m & Hm & Hi). apply in_hit_masks in Hm. destruct Hm as [Hm Hh].
    rewrite (Hb m i Hm Hi) in Hh. eauto.
  - intros (Hv & m & Hm & Hi). exists m. split; trivial. apply in_hit_masks.
    split; trivial. rewrite (Hb m i Hm Hi). exact Hv.
Qed.

Lemma single_bits_trip c allowed order v :
  codec_ok c allowed = true -> single_bits (c_masks c) = true ->
  forallb (fun e => part (fst e) (union (map fst (c_masks c)))) (c_exact c) = true ->
  order ≡ₚ c_masks c ->
  decode c 0 (encode c order v) = Z.land v (union (map fst (c_masks c))).
Proof.
  intros Hok Hs Hex Hp. destruct (assoc_z (c_exact c) v) as [n|] eqn:Hx.
  - destruct (exact_value c allowed order v n Hok Hx) as (Hd & _ & He).
    rewrite He. unfold decode. cbn [fold_left].
    rewrite forallb_forall in Hex. specialize (Hex _ (assoc_z_in _ _ _ Hx)).
    apply Z.eqb_eq in Hex. cbn [fst] in Hex.
    destruct (c_clears c); rewrite Hd; symmetry; exact Hex.
  - destruct (codec_ok_all _ _ Hok) as (Hk & _).
    rewrite (decode_encode c order 0 v Hk Hp Hx).
    replace (if c_clears c then 0 else 0) with 0 by (destruct (c_clears c); reflexivity).
    rewrite Z.lor_0_l. apply single_bits_hit. exact Hs.
Qed.

(** The seven flag types with the flags that survive: all, but O_DSYNC. *)
Definition flag_types : list (codec * list Z) :=
  [(accept_codec, map fst accept_masks); (msg_codec, map fst msg_masks);
   (umount_codec, map fst umount_masks); (timer_codec, map fst timer_masks);
   (inotify_codec, map fst inotify_masks); (mount_codec, map fst mount_masks);
   (file_codec, flags_but ["O_DSYNC"%string] file_masks)].

Lemma flag_types_ok : forallb (fun p => codec_ok (fst p) (snd p)) flag_types = true.
Proof. vm_compute. reflexivity. Qed.

Lemma flag_type_ok c allowed : In (c, allowed) flag_types -> codec_ok c allowed = true.
Proof.
  intros H. pose proof flag_types_ok as Hok. rewrite forallb_forall in Hok.
  exact (Hok _ H).
Qed.

(** * Decoding into a used variable *)

Lemma fold_decode_acc c names acc :
  forallb (fun n => negb (existsb (String.eqb n) (c_zero c))) names = true ->
  fold_left (decode_step c) names acc = Z.lor acc (fold_left (decode_step c) names 0).
Proof.
  revert acc. induction names as [|n names IH]; intros acc H.
  - cbn. rewrite Z.lor_0_r. reflexivity.
  - cbn [forallb] in H. apply andb_true_iff in H. destruct H as [Hn H].
    apply negb_true_iff in Hn. cbn [fold_left].
    rewrite (IH (decode_step c acc n) H), (IH (decode_step c 0 n) H).
    unfold decode_step. rewrite Hn. destruct (assoc_s (c_keys c) n) as [m|].
    + rewrite Z.lor_0_l, Z.lor_assoc. reflexivity.
    + rewrite Z.lor_0_l. reflexivity.
Qed.

Lemma decode_accumulates c start names :
  c_clears c = false ->
  (forall n, In n names -> ~ In n (c_zero c)) ->
  decode c start names = Z.lor start (decode c 0 names).
Proof.
  intros Hc H. unfold decode. rewrite Hc. apply fold_decode_acc.
  apply forallb_forall. intros n Hn. apply negb_true_iff.
  destruct (existsb (String.eqb n) (c_zero c)) eqn:E; trivial.
  apply existsb_exists in E. destruct E as (x & Hx & Heq). apply String.eqb_eq in Heq.
  subst x. destruct (H n Hn Hx).
Qed.

Lemma decode_replaces c start names :
  c_clears c = true -> decode c start names = decode c 0 names.
Proof. intros Hc. unfold decode. rewrite Hc. reflexivity. Qed.

(** A name that assigns 0 makes what came before irrelevant. *)
Lemma decode_zero c start names n :
  In n (c_zero c) -> In n names -> decode c start names = decode c 0 names.
Proof.
  intros Hz Hin. unfold decode. destruct (c_clears c); trivial.
  apply in_split in Hin. destruct Hin as (a & b & ->).
  rewrite !fold_left_app. cbn [fold_left].
  assert (forall acc, decode_step c acc n = 0) as Hs.
  { intros acc. unfold decode_step.
    destruct (existsb (String.eqb n) (c_zero c)) eqn:E; trivial.
    assert (existsb (String.eqb n) (c_zero c) = true); [|congruence].
    apply existsb_exists. exists n. split; trivial. apply String.eqb_refl. }
  rewrite !Hs. reflexivity.
Qed.

(** * The two exceptions *)

Lemma made_of_bit known v i : made_of known v -> Z.testbit v i = true ->
  exists m, In m known /\ Z.testbit m i = true.
Proof.
  intros (sub & Hs & ->) Hi. rewrite union_bit in Hi. apply existsb_exists in Hi.
  destruct Hi as (m & Hm & Hb). eauto.
Qed.

Lemma made_of_add known v m : made_of known v -> In m known -> made_of known (Z.lor v m).
Proof.
  intros (sub & Hs & ->) Hm. exists (m :: sub). split.
  - intros x [<-|Hx]; auto.
  - unfold union. cbn. apply Z.lor_comm.
Qed.

Lemma made_of_mono a b v : (forall m, In m a -> In m b) -> made_of a v -> made_of b v.
Proof. intros H (sub & Hs & ->). exists sub. split; auto. Qed.

(** Adding a flag that is not there adds its hits. *)
Lemma hit_masks_lor v w tbl :
  union (hit_masks (Z.lor v w) tbl) = Z.lor (union (hit_masks v tbl)) (union (hit_masks w tbl)).
Proof.
  rewrite <- union_app. apply union_eq.
  - intros m i Hm Hi. exists m. split; trivial. apply in_hit_masks in Hm.
    destruct Hm as [Hm Hh]. apply in_app_iff. rewrite !in_hit_masks.
    apply hits_bit in Hh. destruct Hh as (j & Hj & Hj'). rewrite Z.lor_spec in Hj.
    apply orb_true_iff in Hj. destruct Hj as [Hj|Hj].
    + left. split; trivial. apply hits_bit. eauto.
    + right. split; trivial. apply hits_bit. eauto.
  - intros m i Hm Hi. exists m. split; trivial. apply in_app_iff in Hm.
    rewrite !in_hit_masks in Hm. apply in_hit_masks.
    destruct Hm as [[Hm Hh]|[Hm Hh]]; split; trivial; apply hits_bit in Hh;
      destruct Hh as (j & Hj & Hj'); apply hits_bit; exists j; rewrite Z.lor_spec, Hj;
      split; trivial; apply orb_true_r.
Qed.

Lemma trip_lor c allowed order v w :
  codec_ok c allowed = true -> order ≡ₚ c_masks c ->
  assoc_z (c_exact c) (Z.lor v w) = None -> assoc_z (c_exact c) v = None ->
  assoc_z (c_exact c) w = None ->
  decode c 0 (encode c order (Z.lor v w))
  = Z.lor (decode c 0 (encode c order v)) (decode c 0 (encode c order w)).
Proof.
  intros (Hk & _)%codec_ok_all Hp H1 H2 H3.
  rewrite !(decode_encode c order _ _ Hk Hp) by assumption.
  rewrite hit_masks_lor. destruct (c_clears c); rewrite !Z.lor_0_l; reflexivity.
Qed.

Lemma exact_zero_only v n : assoc_z [(0, n)] v = (if v =? 0 then Some n else None : option string).
Proof. cbn. rewrite Z.eqb_sym. reflexivity. Qed.

Lemma lor_zero a b : Z.lor a b = 0 <-> a = 0 /\ b = 0.
Proof. split; [apply Z.lor_eq_0_iff|intros [-> ->]; reflexivity]. Qed.

Lemma file_allowed_in :
  In (file_codec, flags_but ["O_DSYNC"%string] file_masks) flag_types.
Proof. do 6 right. left. reflexivity. Qed.
Lemma mount_allowed_in : In (mount_codec, map fst mount_masks) flag_types.
Proof. do 5 right. left. reflexivity. Qed.

Lemma file_dsync order v :
  order ≡ₚ file_masks -> made_of (flags_but ["O_DSYNC"%string] file_masks) v ->
  decode file_codec 0 (encode file_codec order (Z.lor v 4096)) = Z.lor v 1052672.
Proof.
  intros Hp Hv. pose proof (flag_type_ok _ _ file_allowed_in) as Hok.
  assert (Hw : decode file_codec 0 (encode file_codec order 4096) = 1052672).
  { destruct (codec_ok_all _ _ Hok) as (Hk & _).
    rewrite (decode_encode file_codec order 0 4096 Hk Hp eq_refl). vm_compute. reflexivity. }
  destruct (Z.eq_dec v 0) as [->|Hn]; [rewrite !Z.lor_0_l; exact Hw|].
  rewrite (trip_lor file_codec _ order v 4096 Hok Hp).
  - rewrite Hw. f_equal. apply (flags_round_trip file_codec _ order v Hok Hp). exact Hv.
  - cbn [c_exact file_codec]. rewrite exact_zero_only.
    destruct (Z.eqb_spec (Z.lor v 4096) 0) as [H|]; [|reflexivity].
    apply lor_zero in H. destruct H; discriminate.
  - cbn [c_exact file_codec]. rewrite exact_zero_only.
    destruct (Z.eqb_spec v 0); [contradiction|reflexivity].
  - reflexivity.
Qed.

(** MS_NOUSER as the kernel has it, bit 31. *)
Lemma mount_nouser_alone order :
  order ≡ₚ mount_masks ->
  decode mount_codec 0 (encode mount_codec order 2147483648) = - 2147483648.
Proof.
  intros Hp. destruct (codec_ok_all _ _ (flag_type_ok _ _ mount_allowed_in)) as (Hk & _).
  etransitivity; [exact (decode_encode mount_codec order 0 2147483648 Hk Hp eq_refl)|].
  vm_compute. reflexivity.
Qed.

Lemma mount_exact v : v <> 0 -> assoc_z (c_exact mount_codec) v = None.
Proof.
  intros H. change (assoc_z [(0, "MS_NONE"%string)] v = None). rewrite exact_zero_only.
  destruct (Z.eqb_spec v 0); [contradiction|reflexivity].
Qed.

Lemma mount_but_in m : In m (flags_but ["MS_NOUSER"%string] mount_masks) -> In m (map fst mount_masks).
Proof.
  unfold flags_but. generalize mount_masks. intros l Hm.
  apply in_map_iff in Hm. destruct Hm as (e & <- & He). apply filter_In in He.
  apply in_map. tauto.
Qed.

Lemma mount_nouser order v :
  order ≡ₚ mount_masks -> made_of (flags_but ["MS_NOUSER"%string] mount_masks) v ->
  decode mount_codec 0 (encode mount_codec order (Z.lor v 2147483648)) = Z.lor v (- 2147483648).
Proof.
  intros Hp Hv. pose proof (flag_type_ok _ _ mount_allowed_in) as Hok.
  pose proof (mount_nouser_alone order Hp) as Hw.
  destruct (Z.eq_dec v 0) as [->|Hn]; [rewrite !Z.lor_0_l; exact Hw|].
  assert (Hv' : decode mount_codec 0 (encode mount_codec order v) = v).
  { apply (flags_round_trip mount_codec _ order v Hok Hp).
    exact (made_of_mono _ _ _ mount_but_in Hv). }
  pose proof (trip_lor mount_codec _ order v 2147483648 Hok Hp) as Ht.
  rewrite Hw, Hv' in Ht. apply Ht; apply mount_exact; try discriminate.
  - intros [_ H]%lor_zero. discriminate.
  - exact Hn.
Qed.

Lemma mount_nouser_values v :
  made_of (flags_but ["MS_NOUSER"%string] mount_masks) v ->
  0 <= v < 2147483648 /\ Z.lor v 2147483648 = v + 2147483648
  /\ Z.lor v (- 2147483648) = v - 2147483648.
Proof.
  intros Hv. change (-2147483648) with (- 2 ^ 31). change 2147483648 with (2 ^ 31).
  assert (Hb : forall i, 31 <= i -> Z.testbit v i = false).
  { intros i Hi. destruct (Z.testbit v i) eqn:E; trivial. exfalso.
    destruct (made_of_bit _ _ i Hv E) as (m & Hm & Hmi).
    assert (forallb (fun m => (0 <=? m) && (m <? 2 ^ 31)) (flags_but ["MS_NOUSER"%string] mount_masks) = true)
      as Hall by (vm_compute; reflexivity).
    rewrite forallb_forall in Hall. specialize (Hall m Hm).
    apply andb_true_iff in Hall. destruct Hall as [H1 H2].
    apply Z.leb_le in H1. apply Z.ltb_lt in H2.
    rewrite (Z.bits_above_log2 m i) in Hmi; [discriminate|lia|].
    destruct (Z.eq_dec m 0) as [->|]; [cbn; lia|].
    apply (Z.lt_le_trans _ 31); [|lia]. apply Z.log2_lt_pow2; lia. }
  assert (Hr : v = v mod 2 ^ 31).
  { rewrite <- Z.land_ones by lia. apply Z.bits_inj'. intros i Hi. rewrite Z.land_spec.
    destruct (Z_lt_le_dec i 31).
    - rewrite Z.ones_spec_low by lia. rewrite andb_true_r. reflexivity.
    - rewrite Hb by lia. reflexivity. }
  pose proof (Z.mod_pos_bound v (2 ^ 31) ltac:(lia)) as Hm. rewrite <- Hr in Hm.
  split; [exact Hm|].
  assert (Hadd : forall m, (forall i, i < 31 -> Z.testbit m i = false) -> Z.lor v m = v + m).
  { intros m Hz.
    assert (Z.land v m = 0) as H0.
    { apply Z.bits_inj. intros i. rewrite Z.land_spec, Z.testbit_0_l.
      destruct (Z_lt_le_dec i 31); [rewrite Hz by lia; apply andb_false_r|].
      rewrite Hb by lia. reflexivity. }
    rewrite (Z.add_nocarry_lxor v m H0). symmetry. apply Z.lxor_lor. exact H0. }
  split.
  - apply Hadd. intros i Hi. destruct (Z_lt_le_dec i 0); [apply Z.testbit_neg_r; lia|].
    apply Z.pow2_bits_false. lia.
  - rewrite Hadd; [lia|]. intros i Hi. destruct (Z_lt_le_dec i 0); [apply Z.testbit_neg_r; lia|].
    replace (- 2 ^ 31) with (-1 * 2 ^ 31) by lia. apply Z.mul_pow2_bits_low. lia.
Qed.

(** * Names shown *)

Lemma names_shown c order v n :
  order ≡ₚ c_masks c -> assoc_z (c_exact c) v = None ->
  (In n (encode c order v) <-> exists m, In (m, n) (c_masks c) /\ Z.land v m <> 0).
Proof.
  intros Hp Hx. unfold encode. rewrite Hx, in_map_iff. split.
  - intros ([m n'] & Hn & He). cbn in Hn. subst n'. apply filter_In in He.
    destruct He as [He Hh]. exists m. split; [eapply Permutation_in; eauto|].
    unfold hits in Hh. apply negb_true_iff, Z.eqb_neq in Hh. exact Hh.
  - intros (m & He & Hh). exists (m, n). split; trivial. apply filter_In. split.
    + eapply Permutation_in; [symmetry|]; eauto.
    + unfold hits. apply negb_true_iff, Z.eqb_neq. exact Hh.
Qed.

(** Decoding twice. *)
Lemma encode_no_zero c allowed order v :
  codec_ok c allowed = true -> order ≡ₚ c_masks c -> assoc_z (c_exact c) v = None ->
  forall n, In n (encode c order v) -> ~ In n (c_zero c).
Proof.
  intros (Hk & _)%codec_ok_all Hp Hx n Hn Hz.
  apply (names_shown c order v n Hp Hx) in Hn. destruct Hn as (m & Hm & _).
  unfold keys_match in Hk. rewrite forallb_forall in Hk. specialize (Hk _ Hm).
  cbn [snd] in Hk. apply andb_true_iff in Hk. destruct Hk as [Hk _].
  apply negb_true_iff in Hk.
  assert (existsb (String.eqb n) (c_zero c) = true); [|congruence].
  apply existsb_exists. exists n. split; trivial. apply String.eqb_refl.
Qed.

Lemma accumulating_types c :
  In c [accept_codec; msg_codec; umount_codec; timer_codec; inotify_codec] ->
  c_clears c = false /\ c_zero c = [] /\ In (c, map fst (c_masks c)) flag_types
  /\ single_bits (c_masks c) = true
  /\ forallb (fun e => part (fst e) (union (map fst (c_masks c)))) (c_exact c) = true.
Proof.
  intros H. repeat (destruct H as [<-|H]; [split; [reflexivity|split; [reflexivity|split;
    [|split; vm_compute; reflexivity]]]|]); [| | | | |destruct H].
  - left. reflexivity.
  - right. left. reflexivity.
  - do 2 right. left. reflexivity.
  - do 3 right. left. reflexivity.
  - do 4 right. left. reflexivity.
Qed.

Lemma decode_twice c order a b :
  In c [accept_codec; msg_codec; umount_codec; timer_codec; inotify_codec] ->
  order ≡ₚ c_masks c ->
  made_of (map fst (c_masks c)) a -> made_of (map fst (c_masks c)) b ->
  decode c (decode c 0 (encode c order a)) (encode c order b) = Z.lor a b.
Proof.
  intros Hc Hp Ha Hb. destruct (accumulating_types c Hc) as (Hcl & Hz & Hin & _).
  pose proof (flag_type_ok _ _ Hin) as Hok.
  rewrite decode_accumulates; [|exact Hcl|rewrite Hz; intros ? _ []].
  apply (flags_round_trip c _ order a Hok Hp) in Ha.
  apply (flags_round_trip c _ order b Hok Hp) in Hb. rewrite Ha, Hb. reflexivity.
Qed.

Lemma plain_types c :
  In c [accept_codec; msg_codec; umount_codec; timer_codec; inotify_codec; mount_codec] ->
  In (c, map fst (c_masks c)) flag_types.
Proof.
  intros H. repeat (destruct H as [<-|H]); [left|right; left|do 2 right; left|do 3 right; left
    |do 4 right; left|do 5 right; left|destruct H]; reflexivity.
Qed.
