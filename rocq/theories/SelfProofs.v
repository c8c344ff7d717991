(** Proofs about the self-test. *)
From Coq Require Import ZArith String Ascii Bool Lia.
From stdpp Require Import base list numbers strings gmap.
From Verif Require Import OffsetModel OffsetSpec OffsetProofs SelfModel SelfSpec.

Local Open Scope string_scope.
Local Open Scope Z_scope.

Lemma mounts_iff a : check_mounts a = true <-> not_missing a.
Proof. unfold not_missing. destruct a; cbn; split; intros H; try discriminate; try reflexivity. destruct (H eq_refl). Qed.
Lemma slc2str_is r name : slc2str r = name <-> release_is r name.
Proof.
  split.
  - intros <-. induction r as [|v r (pre & post & -> & N & P & E)].
    + exists [], []. split; [reflexivity|]. split; [intros []|]. split; [left; reflexivity|reflexivity].
    + cbn [slc2str]. destruct (Z.eqb_spec v 0) as [->|V].
      * exists [], (0 :: pre ++ post)%list. split; [reflexivity|]. split; [intros []|]. split; [right; eauto|reflexivity].
      * exists (v :: pre), post. split; [reflexivity|]. split; [intros [H|H]; [congruence|exact (N H)]|]. split; [exact P|]. rewrite E. reflexivity.
  - intros (pre & post & -> & N & P & ->). induction pre as [|v pre IH].
    + destruct P as [->|(post' & ->)]; reflexivity.
    + cbn [app slc2str]. destruct (Z.eqb_spec v 0) as [->|V]; [destruct N; left; reflexivity|]. cbn [map string_of_list_ascii]. f_equal. apply IH. intros H. apply N. right. exact H.
Qed.
Lemma config_line_iff l w : config_line l = Some w <-> run re_word w /\ (l = w +:+ "=y" \/ l = w +:+ "=m").
Proof.
  unfold config_line. split.
  - destruct (many re_word l) as [[a b]|] eqn:M; [|discriminate]. apply many_spec in M as (E & R & _).
    destruct (String.eqb_spec b "=y") as [->|B]; cbn [orb].
    + intros [= <-]. auto.
    + destruct (String.eqb_spec b "=m") as [->|B']; [|discriminate]. intros [= <-]. auto.
  - intros (R & E). assert (M : exists b, (b = "=y" \/ b = "=m") /\ l = w +:+ b) by (destruct E as [->| ->]; eauto).
    destruct M as (b & B & ->). assert (M : many re_word (w +:+ b) = Some (w, b)).
    { apply many_spec. split; [reflexivity|]. split; [exact R|]. intros c r H. destruct B as [->| ->]; injection H as <- _; reflexivity. }
    rewrite M. destruct B as [->| ->]; reflexivity.
Qed.
Lemma config_names_in ls w : w ∈ config_names ls <-> exists l, In l ls /\ config_line l = Some w.
Proof.
  induction ls as [|l ls IH].
  - cbn. split; [set_solver|]. intros (l & [] & _).
  - cbn [config_names]. destruct (config_line l) as [v|] eqn:C.
    + rewrite elem_of_union, elem_of_singleton, IH. split.
      * intros [->|(l' & I & E)]; [exists l; split; [left; reflexivity|exact C]|exists l'; split; [right; exact I|exact E]].
      * intros (l' & [->|I] & E); [left; congruence|right; eauto].
    + rewrite IH. split; intros (l' & I & E); [exists l'; split; [right; exact I|exact E]|]. destruct I as [->|I]; [congruence|eauto].
Qed.
Lemma drop_cr_cases l : (exists p, l = p +:+ String return_char "" /\ drop_cr l = p) \/ (drop_cr l = l /\ forall p, l <> p +:+ String return_char "").
Proof.
  induction l as [|c l IH].
  - right. split; [reflexivity|]. intros [|x p]; discriminate.
  - destruct l as [|d l].
    + change (drop_cr (String c "")) with (if Ascii.eqb c return_char then "" else String c ""). destruct (Ascii.eqb_spec c return_char) as [->|N].
      * left. exists "". split; reflexivity.
      * right. split; [reflexivity|]. intros [|x p] E; [injection E as E; contradiction|]. injection E as _ E. destruct p; discriminate.
    + change (drop_cr (String c (String d l))) with (String c (drop_cr (String d l))). destruct IH as [(p & E & D)|(D & N)].
      * left. exists (String c p). rewrite D, E. split; reflexivity.
      * right. rewrite D. split; [reflexivity|]. intros [|x p] E; [discriminate|]. injection E as _ E. exact (N p E).
Qed.
Lemma feature_line f l : run re_word f -> (config_line (drop_cr l) = Some f <-> switches_on f l).
Proof.
  intros R. rewrite config_line_iff. unfold switches_on. split.
  - intros (_ & E). destruct (drop_cr_cases l) as [(p & -> & D)|(D & N)]; rewrite D in E.
    + destruct E as [->| ->]; [exists "y"|exists "m"]; exists (String return_char ""); (split; [auto|split; [auto|]]); rewrite !sapp_assoc; reflexivity.
    + destruct E as [->| ->]; [exists "y"|exists "m"]; exists ""; (split; [auto|split; [auto|]]); reflexivity.
  - intros (v & e & V & E & ->). split; [exact R|].
    assert (D : drop_cr (f +:+ "=" +:+ v +:+ e) = f +:+ "=" +:+ v).
    { destruct (drop_cr_cases (f +:+ "=" +:+ v +:+ e)) as [(p & P & D)|(D & N)].
      - rewrite D. destruct E as [->| ->].
        + exfalso. rewrite sapp_nil_r in P. destruct V as [->| ->].
          * revert P. clear. revert p. induction f as [|c f IH]; intros [|x p] P; try discriminate. { injection P as _ P. destruct p as [|y p]; [discriminate|]. injection P as _ P. destruct p; discriminate. } { injection P as _ P. destruct f; discriminate. } injection P as _ P. exact (IH p P).
          * revert P. clear. revert p. induction f as [|c f IH]; intros [|x p] P; try discriminate. { injection P as _ P. destruct p as [|y p]; [discriminate|]. injection P as _ P. destruct p; discriminate. } { injection P as _ P. destruct f; discriminate. } injection P as _ P. exact (IH p P).
        + assert (Q : (f +:+ "=" +:+ v) +:+ String return_char "" = p +:+ String return_char "") by (rewrite !sapp_assoc; exact P).
          clear - Q. revert p Q. generalize (f +:+ "=" +:+ v). intros a. induction a as [|c a IH]; intros [|x p] Q; [reflexivity| | |].
          * injection Q as _ Q. destruct p; discriminate.
          * injection Q as _ Q. destruct a; discriminate.
          * injection Q as -> Q. f_equal. exact (IH p Q).
      - rewrite D. destruct E as [->| ->]; [rewrite sapp_nil_r; reflexivity|]. exfalso. apply (N (f +:+ "=" +:+ v)). rewrite !sapp_assoc. reflexivity. }
    rewrite D. destruct V as [->| ->]; auto.
Qed.
Lemma features_words : Forall (run re_word) features.
Proof. repeat (apply Forall_cons; split; [split; [discriminate|reflexivity]|]). apply Forall_nil. exact I. Qed.
Lemma has_option_iff ls f : In f features -> Forall one_line ls -> Forall fits ls -> (f ∈ config_names (scan (unlines ls)) <-> has_option f ls).
Proof.
  intros F O T. rewrite config_names_in, (scan_unlines ls O T). unfold has_option.
  assert (R : run re_word f) by (pose proof features_words as W; rewrite List.Forall_forall in W; apply W, F). split.
  - intros (l & I & C). apply in_map_iff in I as (l' & <- & I). exists l'. split; [exact I|]. apply (feature_line f l' R), C.
  - intros (l & I & C). exists (drop_cr l). split; [apply in_map, I|]. apply (feature_line f l R), C.
Qed.
Lemma too_long ls l rest f : In f features -> Forall one_line (ls ++ l :: rest)%list -> Forall fits ls -> ~ fits l -> ~ has_option f ls -> f ∉ config_names (scan (unlines (ls ++ l :: rest)%list)).
Proof.
  intros F O T L N I. apply config_names_in in I as (l' & I & C). rewrite (scan_too_long ls l rest O T L) in I. apply in_map_iff in I as (x & <- & I).
  assert (R : run re_word f) by (pose proof features_words as W; rewrite List.Forall_forall in W; apply W, F). apply N. exists x. split; [exact I|]. apply (feature_line f x R), C.
Qed.
Lemma all_features (names : gset string) : forallb (fun c => bool_decide (c ∈ names)) features = true <-> forall f, In f features -> f ∈ names.
Proof. rewrite forallb_forall. split; intros H f F; specialize (H f F); [apply bool_decide_eq_true_1 in H; exact H|apply bool_decide_eq_true_2, H]. Qed.

Lemma features_pass_iff s : features_pass s = true <-> exists f, config_file s f /\
  (sy_stat s f = NotExist \/ (sy_stat s f = Gives () /\ (sy_open s f = NotExist \/ exists t, sy_open s f = Gives t /\ forall o, In o features -> o ∈ config_names (scan t)))).
Proof.
  unfold features_pass, check_features, parse_boot_config, boot_config_file, config_file. destruct (sy_release s) as [r|]; [|split; [discriminate|intros (f & (r & n & H & _) & _); discriminate]].
  assert (U : forall f, (exists r0 name, Some r = Some r0 /\ release_is r0 name /\ f = "/boot/config-" +:+ name) <-> f = "/boot/config-" +:+ slc2str r).
  { intros f. split; [intros (r0 & n & [= <-] & H & ->); apply slc2str_is in H; rewrite H; reflexivity|]. intros ->. exists r, (slc2str r). split; [reflexivity|]. split; [apply slc2str_is; reflexivity|reflexivity]. }
  setoid_rewrite U. set (cfg := "/boot/config-" +:+ slc2str r). clearbody cfg. clear U r.
  destruct (sy_stat s cfg) as [[]| |] eqn:S.
  - destruct (sy_open s cfg) as [t| |] eqn:O.
    + destruct (forallb (fun c => bool_decide (c ∈ config_names (scan t))) features) eqn:F.
      * split; [|reflexivity]. intros _. exists cfg. split; [reflexivity|]. right. split; [exact S|]. right. exists t. split; [exact O|]. apply all_features, F.
      * split; [discriminate|]. intros (f & -> & [H|(_ & [H|(t' & H & A)])]); try congruence. rewrite O in H. injection H as <-. apply all_features in A. congruence.
    + split; [|reflexivity]. intros _. exists cfg. split; [reflexivity|]. right. split; [exact S|]. left. exact O.
    + split; [discriminate|]. intros (f & -> & [H|(_ & [H|(t' & H & A)])]); congruence.
  - split; [|reflexivity]. intros _. exists cfg. split; [reflexivity|]. left. exact S.
  - split; [discriminate|]. intros (f & -> & [H|(H & _)]); congruence.
Qed.
Lemma self_test_iff fix_ s : (self_test fix_ s).1 = true <-> sy_caps s = Some true /\ mounted fix_ s /\ features_pass s = true.
Proof.
  unfold self_test, mounted. rewrite <- !mounts_iff. unfold check_capabilities. destruct (sy_caps s) as [[]|]; cbn [negb fst]; [|split; [discriminate|intros [H _]; discriminate]|split; [discriminate|intros [H _]; discriminate]].
  destruct (check_mounts (sy_tracing s)) eqn:M; cbn [negb fst]; [split; [intros H; split; [reflexivity|split; [left; reflexivity|exact H]]|intros (_ & _ & H); exact H]|].
  destruct fix_; cbn [negb fst]; [|split; [discriminate|intros (_ & [H|(H & _)] & _); discriminate]].
  destruct (sy_mount s); cbn [negb fst]; [|split; [discriminate|intros (_ & [H|(_ & H & _)] & _); discriminate]].
  destruct (check_mounts (sy_tracing_then s)); cbn [negb fst]; [split; [intros H; split; [reflexivity|split; [right; split; [reflexivity|split; reflexivity]|exact H]]|intros (_ & _ & H); exact H]|split; [discriminate|intros (_ & [H|(_ & _ & H)] & _); discriminate]].
Qed.
Lemma mounts_at_most fix_ s : (self_test fix_ s).2 = 1%nat /\ fix_ = true /\ sy_caps s = Some true /\ sy_tracing s = NotExist
  \/ (self_test fix_ s).2 = 0%nat /\ ~ (fix_ = true /\ sy_caps s = Some true /\ sy_tracing s = NotExist).
Proof.
  unfold self_test, check_capabilities. destruct (sy_caps s) as [[]|]; cbn [negb snd]; [|right; split; [reflexivity|intros (_ & H & _); discriminate]|right; split; [reflexivity|intros (_ & H & _); discriminate]].
  destruct (sy_tracing s) as [[]| |]; cbn [check_mounts snd]; [right; split; [reflexivity|intros (_ & _ & H); discriminate]| |right; split; [reflexivity|intros (_ & _ & H); discriminate]].
  destruct fix_; cbn [negb snd]; [|right; split; [reflexivity|intros (H & _); discriminate]]. left. destruct (sy_mount s); cbn [negb snd]; [|auto]. destruct (check_mounts (sy_tracing_then s)); auto.
Qed.
