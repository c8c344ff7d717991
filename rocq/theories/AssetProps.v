(** Property C120: the probe embedded in the program, as pkg/kernel/assets hands it out and
    writes it to a directory. *)
From Coq Require Import ZArith String Ascii Lia.
From stdpp Require Import base list numbers strings gmap.
From Verif Require Import AssetModel.

Local Open Scope string_scope.
Local Open Scope list_scope.

(** * Specification *)
(** A file is written by RestoreAsset or RestoreAssets, which end with or without error. *)
Definition restores (u : user) (now : Z) (data : string) (f : fs) (dir : list string) (name : string) (f' : fs) (ok : bool) : Prop :=
  restore_asset u now data f dir name = (f', ok) \/ exists fuel, restore_assets fuel u now data f dir name = Some (f', ok).
(** Where the probe belongs below a directory. *)
Definition target (dir : list string) : list string := dir ++ ["internal"; "bpf"; "probe.o"].
(** The directory is there, the user may add to it, and it has no entry "internal". *)
Definition ready (u : user) (f : fs) (dir : list string) : Prop :=
  (forall p, p `prefix_of` dir -> exists w, f !! p = Some (Dir w)) /\
  (root u = true \/ f !! dir = Some (Dir true)) /\ (forall p, f !! (dir ++ "internal" :: p) = None).

(** * Names *)
Lemma canonical_cons s c t : canonical s = String c t -> exists c' s', s = String c' s' /\ canonical s' = t /\ (c' = c \/ c' = "\"%char /\ c = "/"%char).
Proof.
  destruct s as [|c' s']; [discriminate|]. cbn [canonical]. intros [= E1 E2]. exists c', s'. split; [done|]. split; [done|].
  destruct (Ascii.eqb c' "\") eqn:E; [right; apply Ascii.eqb_eq in E; done|by left].
Qed.
Lemma canonical_nil s : canonical s = "" -> s = "".
Proof. destruct s; [done|discriminate]. Qed.
Ltac chars H :=
  let c := fresh "c" in let s := fresh "s" in let H' := fresh "H" in
  first [apply canonical_nil in H; subst
        |destruct (canonical_cons _ _ _ H) as (c & s & -> & H' & [->|[-> E]]); clear H; [chars H'|first [discriminate E|clear E; chars H']]].
Lemma canonical_probe name : canonical name = "internal/bpf/probe.o" <->
  name ∈ ["internal/bpf/probe.o"; "internal/bpf\probe.o"; "internal\bpf/probe.o"; "internal\bpf\probe.o"].
Proof.
  split.
  - intros H. chars H; rewrite !elem_of_cons; tauto.
  - rewrite !elem_of_cons, elem_of_nil. intros [->|[->|[->|[->|[]]]]]; reflexivity.
Qed.
Lemma canonical_internal name : canonical name = "internal" -> name = "internal".
Proof. intros H. chars H; reflexivity. Qed.
Lemma canonical_bpf name : canonical name = "internal/bpf" -> name = "internal/bpf" \/ name = "internal\bpf".
Proof. intros H. chars H; [by left|by right]. Qed.

Fixpoint glue (l : list string) : string :=
  match l with [] => "" | [w] => w | w :: ws => (w ++ "/" ++ glue ws)%string end.
Lemma split_cons s : exists w ws, split_slash s = w :: ws.
Proof.
  induction s as [|c s IH]; [by exists "", []|]. destruct IH as (w & ws & E). cbn [split_slash]. rewrite E.
  destruct (Ascii.eqb c "/"); eauto.
Qed.
Lemma glue_split s : glue (split_slash s) = s.
Proof.
  induction s as [|c s IH]; [done|]. cbn [split_slash]. destruct (split_cons s) as (w & ws & E). rewrite E in *.
  destruct (Ascii.eqb c "/") eqn:Ec.
  - apply Ascii.eqb_eq in Ec. subst c. change (String "/" (glue (w :: ws)) = String "/" s). by rewrite IH.
  - destruct ws as [|w' ws]; cbn [glue] in *; [by rewrite IH|]. rewrite <- IH. done.
Qed.

(** The names of directories. *)
Lemma dir_names name cs : asset_dir name = Some cs ->
  name = "" /\ cs = ["internal"] \/ name = "internal" /\ cs = ["bpf"] \/ (name = "internal/bpf" \/ name = "internal\bpf") /\ cs = ["probe.o"].
Proof.
  unfold asset_dir. destruct (String.eqb name "") eqn:E.
  - apply String.eqb_eq in E. subst. intros [= <-]. by left.
  - pose proof (glue_split (canonical name)) as G. remember (split_slash (canonical name)) as ps eqn:Ep.
    destruct ps as [|p ps]; [destruct (split_cons (canonical name)) as (? & ? & E2); congruence|].
    unfold tree. cbn [walk child]. destruct (String.eqb p "internal") eqn:E1; [|discriminate]. apply String.eqb_eq in E1. subst p.
    destruct ps as [|p ps].
    { cbn [walk]. intros [= <-]. right. left. split; [|done]. by apply canonical_internal. }
    cbn [walk child]. destruct (String.eqb p "bpf") eqn:E1; [|discriminate]. apply String.eqb_eq in E1. subst p.
    destruct ps as [|p ps].
    { cbn [walk]. intros [= <-]. right. right. split; [|done]. by apply canonical_bpf. }
    cbn [walk child]. destruct (String.eqb p "probe.o"); [|discriminate]. destruct ps; discriminate.
Qed.

(** C120: Asset hands out the embedded bytes for the asset's name, with either kind of
    separator, and an error for every other name; so does LoadBPF, without error. *)
Theorem C120_asset_is_found_by_its_name : forall data name d,
  (asset data name = Some d <->
   d = data /\ name ∈ ["internal/bpf/probe.o"; "internal/bpf\probe.o"; "internal\bpf/probe.o"; "internal\bpf\probe.o"]) /\
  load_bpf data = data.
Proof.
  intros data name d. split; [|done]. rewrite <- canonical_probe. unfold asset.
  destruct (String.eqb (canonical name) "internal/bpf/probe.o") eqn:E.
  - apply String.eqb_eq in E. split; [intros [= <-]; by split|intros [-> _]; done].
  - apply String.eqb_neq in E. split; [discriminate|intros [_ ?]; contradiction].
Qed.

(** C120: AssetDir lists a name exactly if it is the next part of the path of an asset below
    the directory, and is an error if there is none. *)
Definition components (name : string) : list string := if String.eqb name "" then [] else split_slash (canonical name).
Theorem C120_directories_list_what_is_below : forall name,
  (forall cs c, asset_dir name = Some cs -> c ∈ cs <-> exists a rest, a ∈ asset_names /\ split_slash a = components name ++ c :: rest) /\
  (asset_dir name = None <-> ~ exists a c rest, a ∈ asset_names /\ split_slash a = components name ++ c :: rest).
Proof.
  assert (S : split_slash "internal/bpf/probe.o" = ["internal"; "bpf"; "probe.o"]) by reflexivity.
  intros name. split.
  - intros cs c H. unfold asset_names. setoid_rewrite elem_of_list_singleton. unfold components.
    destruct (dir_names _ _ H) as [[-> ->]|[[-> ->]|[[->| ->] ->]]];
      (split; [intros ->%elem_of_list_singleton; eexists _, _; split; [reflexivity|reflexivity]
              |intros (a & rest & -> & E); rewrite S in E; cbn in E; injection E as <- <-; by left]).
  - split.
    + intros H (a & c & rest & ->%elem_of_list_singleton & E). rewrite S in E. unfold components in E. unfold asset_dir in H.
      destruct (String.eqb name "") eqn:En; [discriminate H|].
      destruct (split_cons (canonical name)) as (w & ws & Es). rewrite Es in E, H. cbn [app] in E. injection E as <- E.
      destruct ws as [|w ws]; [discriminate H|]. cbn [app] in E. injection E as <- E.
      destruct ws as [|w ws]; [discriminate H|]. cbn [app] in E. injection E as <- E. destruct ws; discriminate E.
    + intros H. destruct (asset_dir name) as [cs|] eqn:E; [|done]. exfalso. apply H. unfold asset_names, components.
      destruct (dir_names _ _ E) as [[-> ->]|[[-> ->]|[[->| ->] ->]]]; exists "internal/bpf/probe.o"; eexists _, _; (split; [by left|reflexivity]).
Qed.

(** * Restoring *)
(** RestoreAssets is RestoreAsset of one name. *)
Definition good_name (g : string) : Prop := g = "internal/bpf/probe.o" \/ g = "internal\bpf/probe.o".
Lemma restore_assets_is fuel u now data f dir : forall name r, restore_assets fuel u now data f dir name = Some r ->
  exists g, r = restore_asset u now data f dir g /\ (asset_dir name = None /\ g = name \/ is_Some (asset_dir name) /\ good_name g).
Proof.
  induction fuel as [|fuel IH]; [discriminate|]. intros name r. cbn [restore_assets].
  destruct (asset_dir name) as [cs|] eqn:E.
  - intros H. assert (K : forall c, cs = [c] -> restore_assets fuel u now data f dir (join name c) = Some r).
    { intros c ->. destruct (restore_assets fuel u now data f dir (join name c)) as [[f1 [|]]|] eqn:Er; exact H. }
    destruct (dir_names _ _ E) as [[-> ->]|[[-> ->]|[[->| ->] ->]]]; specialize (K _ eq_refl); destruct (IH _ _ K) as (g & -> & Hg);
      (exists g; split; [done|right; split; [by eexists|]]);
      (destruct Hg as [[Hn ->]|[Hs Hg]]; [try discriminate Hn|exact Hg]); [left; reflexivity|right; reflexivity].
  - intros [= <-]. exists name. split; [done|by left].
Qed.
Lemma restore_assets_ends fuel u now data f dir name : (4 <= fuel)%nat -> is_Some (restore_assets fuel u now data f dir name).
Proof.
  intros H. do 4 (destruct fuel as [|fuel]; [lia|]). clear H.
  assert (E0 : asset_dir "" = Some ["internal"]) by reflexivity.
  assert (E1 : asset_dir "internal" = Some ["bpf"]) by reflexivity.
  assert (E2 : asset_dir "internal/bpf" = Some ["probe.o"]) by reflexivity.
  assert (E3 : asset_dir "internal\bpf" = Some ["probe.o"]) by reflexivity.
  assert (E4 : asset_dir "internal/bpf/probe.o" = None) by reflexivity.
  assert (E5 : asset_dir "internal\bpf/probe.o" = None) by reflexivity.
  assert (One : forall n nm c, asset_dir nm = Some [c] -> is_Some (restore_assets n u now data f dir (join nm c)) -> is_Some (restore_assets (S n) u now data f dir nm)).
  { intros n nm c E [[f1 [|]] H]; cbn [restore_assets]; rewrite E, H; by eexists. }
  assert (Z : forall n nm, asset_dir nm = None -> is_Some (restore_assets (S n) u now data f dir nm)).
  { intros n nm E. cbn [restore_assets]. rewrite E. by eexists. }
  destruct (asset_dir name) as [cs|] eqn:E; [|by apply Z].
  destruct (dir_names _ _ E) as [[-> ->]|[[-> ->]|[[->| ->] ->]]].
  - apply (One _ _ _ E0). apply (One _ "internal" _ E1). apply (One _ "internal/bpf" _ E2). by apply Z.
  - apply (One _ _ _ E1). apply (One _ "internal/bpf" _ E2). by apply Z.
  - apply (One _ _ _ E2). by apply Z.
  - apply (One _ _ _ E3). by apply Z.
Qed.
Lemma restores_one u now data f dir name f' ok : restores u now data f dir name f' ok ->
  exists g, restore_asset u now data f dir g = (f', ok) /\ (g = name \/ is_Some (asset_dir name) /\ good_name g).
Proof.
  intros [H|(fuel & H)]; [eauto|]. destruct (restore_assets_is _ _ _ _ _ _ _ _ H) as (g & E & Hg). exists g. split; [done|].
  destruct Hg as [[_ ->]|Hg]; [by left|by right].
Qed.

(** Directories made. *)
Lemma mkdirs_changes u rest : forall f at_ f' ok, mkdirs u f at_ rest = (f', ok) -> forall p,
  f' !! p = f !! p \/ f !! p = None /\ f' !! p = Some (Dir true) /\ exists k, k `prefix_of` rest /\ p = at_ ++ k.
Proof.
  induction rest as [|c rest IH]; intros f at_ f' ok H p; cbn [mkdirs] in H; [injection H as <- <-; by left|].
  assert (L : forall k, at_ ++ [c] ++ k = at_ ++ c :: k) by done.
  destruct (f !! (at_ ++ [c])) as [[w|]|] eqn:E.
  - destruct (IH _ _ _ _ H p) as [?|(? & ? & k & Hk & ->)]; [by left|right]. split_and!; [done..|].
    exists (c :: k). split; [by apply prefix_cons|by rewrite <- app_assoc].
  - injection H as <- <-. by left.
  - destruct (can_add u f at_); [|injection H as <- <-; by left].
    destruct (IH _ _ _ _ H p) as [Hp|(Hp & Hq & k & Hk & ->)].
    + destruct (decide (p = at_ ++ [c])) as [->|Hne].
      * rewrite lookup_insert in Hp. right. split_and!; [done..|]. exists [c]. split; [apply prefix_cons, prefix_nil|done].
      * rewrite lookup_insert_ne in Hp by done. by left.
    + destruct (decide ((at_ ++ [c]) ++ k = at_ ++ [c])) as [Ec|Hne].
      { rewrite Ec, lookup_insert in Hp. discriminate Hp. }
      rewrite lookup_insert_ne in Hp by done. right. split_and!; [done..|].
      exists (c :: k). split; [by apply prefix_cons|by rewrite <- app_assoc].
Qed.

(** The paths of a name that is found. *)
Lemma found_paths data name d dir : asset data name = Some d ->
  d = data /\ file_path dir name = target dir /\ exists k, dir_path dir name = dir ++ k /\ k `prefix_of` ["internal"; "bpf"].
Proof.
  intros H. destruct (proj1 (proj1 (C120_asset_is_found_by_its_name data name d)) H) as [-> N]. split; [done|].
  rewrite !elem_of_cons, elem_of_nil in N. unfold file_path, dir_path, target.
  destruct N as [->|[->|[->|[->|[]]]]]; (split; [reflexivity|]).
  - exists ["internal"; "bpf"]. split; [reflexivity|done].
  - exists ["internal"]. split; [reflexivity|]. by exists ["bpf"].
  - exists ["internal"; "bpf"]. split; [reflexivity|done].
  - exists []. split; [reflexivity|]. by exists ["internal"; "bpf"].
Qed.
Lemma write_changes u now f p d f' ok : write_file u now f p d = (f', ok) -> forall q, q <> p -> f' !! q = f !! q.
Proof.
  unfold write_file. intros H q Hq. destruct (f !! p) as [[w|d0 r w own t]|].
  - by injection H as <- <-.
  - destruct (root u || w); injection H as <- <-; [by rewrite lookup_insert_ne|done].
  - destruct (can_add _ _ _); injection H as <- <-; [by rewrite lookup_insert_ne|done].
Qed.
Lemma chtimes_changes u f p t f' ok : chtimes u f p t = (f', ok) -> forall q, q <> p -> f' !! q = f !! q.
Proof.
  unfold chtimes. intros H q Hq. destruct (f !! p) as [[w|d0 r w own t0]|]; [by injection H as <- <-| |by injection H as <- <-].
  destruct (root u || own); injection H as <- <-; [by rewrite lookup_insert_ne|done].
Qed.
Lemma app_prefix_target (dir k j : list string) : k `prefix_of` dir ++ j -> j `prefix_of` ["internal"; "bpf"] -> k `prefix_of` target dir /\ k <> target dir.
Proof.
  intros Hk [j' Hj]. unfold target. assert (P : k `prefix_of` dir ++ ["internal"; "bpf"]).
  { etrans; [exact Hk|]. rewrite Hj, app_assoc. by apply prefix_app_r. }
  split; [etrans; [exact P|]; apply prefix_app; by exists ["probe.o"]|].
  intros ->. apply prefix_length in P. rewrite !app_length in P. cbn [length] in P. lia.
Qed.

(** C120: whatever happens, nothing but the probe's own file is changed; what is added
    otherwise are directories above it. *)
Theorem C120_nothing_else_is_touched : forall u now data f dir name f' ok, restores u now data f dir name f' ok ->
  forall p, p <> target dir -> f' !! p = f !! p \/ f !! p = None /\ f' !! p = Some (Dir true) /\ p `prefix_of` target dir.
Proof.
  intros u now data f dir name f' ok (g & H & _)%restores_one p Hp. unfold restore_asset in H.
  destruct (asset data g) as [d|] eqn:E; [|injection H as <- <-; by left].
  destruct (found_paths _ _ _ dir E) as (-> & Ef & k & Ek & Hk). rewrite Ef, Ek in H.
  destruct (mkdirs u f [] (dir ++ k)) as [f1 ok1] eqn:Em.
  assert (X : f1 !! p = f !! p \/ f !! p = None /\ f1 !! p = Some (Dir true) /\ p `prefix_of` target dir).
  { destruct (mkdirs_changes _ _ _ _ _ _ Em p) as [?|(? & ? & q & Hq & ->)]; [by left|right]. split_and!; [done..|].
    apply (app_prefix_target _ _ _ Hq Hk). }
  destruct ok1; cbn [negb] in H; [|injection H as <- <-; exact X].
  destruct (write_file u now f1 (target dir) data) as [f2 ok2] eqn:Ew. rewrite <- (write_changes _ _ _ _ _ _ _ Ew p Hp) in X.
  destruct ok2; cbn [negb] in H; [|injection H as <- <-; exact X].
  by rewrite <- (chtimes_changes _ _ _ _ _ _ H p Hp) in X.
Qed.

(** C120: without error, the file holds the embedded bytes, with the time 0; and a file
    that was there keeps its permissions, a new one has none. Root can read it in any case. *)
Theorem C120_restored_is_embedded : forall u now data f dir name f', restores u now data f dir name f' true ->
  exists r w own, f' !! target dir = Some (File data r w own 0) /\
    match f !! target dir with
    | Some (File _ r0 w0 own0 _) => r = r0 /\ w = w0 /\ own = own0
    | Some (Dir _) => False
    | None => r = false /\ w = false /\ own = true
    end /\
    forall u2, read_file u2 f' (target dir) = if root u2 || r then Some data else None.
Proof.
  intros u now data f dir name f' (g & H & _)%restores_one. unfold restore_asset in H.
  destruct (asset data g) as [d|] eqn:E; [|discriminate]. destruct (found_paths _ _ _ dir E) as (-> & Ef & k & Ek & Hk). rewrite Ef, Ek in H.
  destruct (mkdirs u f [] (dir ++ k)) as [f1 ok1] eqn:Em. destruct ok1; cbn [negb] in H; [|discriminate].
  assert (X : f1 !! target dir = f !! target dir).
  { destruct (mkdirs_changes _ _ _ _ _ _ Em (target dir)) as [?|(_ & _ & q & Hq & Et)]; [done|].
    destruct (app_prefix_target _ _ _ Hq Hk) as [_ N]. cbn [app] in Et. congruence. }
  rewrite <- X. unfold write_file in H. destruct (f1 !! target dir) as [[w|d0 r w own t]|] eqn:E1; [discriminate H| |].
  - destruct (root u || w); cbn [negb] in H; [|discriminate]. unfold chtimes in H. rewrite lookup_insert in H.
    destruct (root u || own); [|discriminate]. injection H as <-. exists r, w, own. unfold read_file. by rewrite lookup_insert.
  - destruct (can_add _ _ _); cbn [negb] in H; [|discriminate]. unfold chtimes in H. rewrite lookup_insert in H.
    rewrite orb_true_r in H. injection H as <-. exists false, false, true. unfold read_file. by rewrite lookup_insert.
Qed.

(** Directories that are there are passed, then new ones are made. *)
Lemma mkdirs_there u rest2 : forall rest1 f at_, (forall k, k `prefix_of` rest1 -> k <> [] -> exists w, f !! (at_ ++ k) = Some (Dir w)) ->
  mkdirs u f at_ (rest1 ++ rest2) = mkdirs u f (at_ ++ rest1) rest2.
Proof.
  induction rest1 as [|c rest1 IH]; intros f at_ H; [by rewrite app_nil_r|]. cbn [mkdirs app].
  destruct (H [c]) as [w ->]; [apply prefix_cons, prefix_nil|done|]. rewrite IH; [by rewrite <- app_assoc|].
  intros k Hk Hne. rewrite <- app_assoc. apply H; [by apply prefix_cons|done].
Qed.

(** C120: RestoreAsset of the asset's name, written with slashes, and RestoreAssets of that
    name or of any directory above it succeed below a directory the user may write to. *)
Theorem C120_restores_into_a_directory : forall u now data f dir name, ready u f dir ->
  ((name = "internal/bpf/probe.o" \/ is_Some (asset_dir name)) ->
   exists f', forall fuel, (4 <= fuel)%nat -> restore_assets fuel u now data f dir name = Some (f', true)) /\
  exists f', restore_asset u now data f dir "internal/bpf/probe.o" = (f', true).
Proof.
  intros u now data f dir name (Hup & Hw & Hnone).
  assert (G : forall g, good_name g -> exists f', restore_asset u now data f dir g = (f', true)).
  { intros g Hg. assert (E : asset data g = Some data /\ file_path dir g = target dir /\ dir_path dir g = dir ++ ["internal"; "bpf"]).
    { destruct Hg as [->| ->]; split_and!; reflexivity. }
    destruct E as (Ea & Ef & Ed). unfold restore_asset. rewrite Ea, Ef, Ed.
    rewrite mkdirs_there by (intros k Hk _; by apply Hup). cbn [app mkdirs].
    rewrite (Hnone []). replace (can_add u f dir) with true.
    2: { unfold can_add. destruct (Hup dir) as [w E]; [done|]. rewrite E. destruct Hw as [->|Hw]; [done|]. rewrite E in Hw. injection Hw as ->. by rewrite orb_true_r. }
    rewrite lookup_insert_ne. 2: { intros E. symmetry in E. rewrite <- app_assoc in E. apply app_inv_head in E. discriminate. }
    rewrite <- app_assoc. cbn [app]. rewrite (Hnone ["bpf"]).
    replace (can_add u (<[dir ++ ["internal"] := Dir true]> f) (dir ++ ["internal"])) with true.
    2: { unfold can_add. rewrite lookup_insert. by rewrite orb_true_r. }
    cbn [negb]. unfold write_file, target.
    rewrite !lookup_insert_ne, (Hnone ["bpf"; "probe.o"]) by (intros E; apply app_inv_head in E; discriminate).
    replace (removelast (dir ++ ["internal"; "bpf"; "probe.o"])) with (dir ++ ["internal"; "bpf"]) by (by rewrite removelast_app).
    unfold can_add. rewrite lookup_insert, orb_true_r. cbn [negb]. unfold chtimes. rewrite lookup_insert, orb_true_r. eauto. }
  split; [|apply G; by left]. intros Hn.
  assert (G' : exists f', forall g, good_name g -> restore_asset u now data f dir g = (f', true)).
  { destruct (G "internal/bpf/probe.o" (or_introl eq_refl)) as [f' E]. exists f'. intros g [->| ->]; [exact E|]. rewrite <- E. reflexivity. }
  destruct G' as [f' G']. exists f'. intros fuel Hf. destruct (restore_assets_ends fuel u now data f dir name Hf) as [r Hr].
  rewrite Hr. f_equal. destruct (restore_assets_is _ _ _ _ _ _ _ _ Hr) as (g & -> & Hg). apply G'.
  destruct Hg as [[Hnone' ->]|[_ Hg]]; [|exact Hg]. destruct Hn as [->|[x Hx]]; [by left|congruence].
Qed.

(** C120, false of the code: that the user who restored the probe can use it. A new file
    has no permissions: nobody but root can read it, and restoring it again fails. *)
Theorem C120_restored_can_be_used_refuted : forall u now data f dir name f', root u = false -> f !! target dir = None ->
  restores u now data f dir name f' true ->
  read_file u f' (target dir) = None /\
  forall now2 data2 name2 f2 ok, restores u now2 data2 f' dir name2 f2 ok -> ok = false /\ f2 !! target dir = f' !! target dir.
Proof.
  intros u now data f dir name f' Hu Hn H. destruct (C120_restored_is_embedded _ _ _ _ _ _ _ H) as (r & w & own & E & X & _).
  rewrite Hn in X. destruct X as (-> & -> & ->). unfold read_file. rewrite E, Hu. split; [done|].
  intros now2 data2 name2 f2 ok (g & H2 & _)%restores_one. unfold restore_asset in H2.
  destruct (asset data2 g) as [d|] eqn:Ea; [|injection H2 as <- <-; by rewrite E].
  destruct (found_paths _ _ _ dir Ea) as (-> & Ef & k & Ek & Hk). rewrite Ef, Ek in H2.
  destruct (mkdirs u f' [] (dir ++ k)) as [f1 ok1] eqn:Em.
  assert (X : f1 !! target dir = f' !! target dir).
  { destruct (mkdirs_changes _ _ _ _ _ _ Em (target dir)) as [?|(N & _)]; [done|congruence]. }
  destruct ok1; cbn [negb] in H2; [|injection H2 as <- <-; by rewrite X, E].
  unfold write_file in H2. rewrite X, E, Hu in H2. cbn [orb negb] in H2. injection H2 as <- <-. by rewrite X, E.
Qed.

(** C120, false of the code: that every name Asset accepts can be restored. With a
    backslash before the file's name the directories are not made. *)
Theorem C120_every_name_restores_refuted : forall data, exists name, asset data name = Some data /\
  forall u now f dir f' ok, f !! (dir ++ ["internal"; "bpf"]) = None -> f !! target dir = None ->
  restores u now data f dir name f' ok -> ok = false.
Proof.
  intros data. exists "internal\bpf\probe.o". split; [done|]. intros u now f dir f' ok Hn Ht (g & H & Hg)%restores_one.
  assert (g = "internal\bpf\probe.o") as ->. { destruct Hg as [?|[[x Hx] _]]; [done|discriminate Hx]. }
  unfold restore_asset in H. change (asset data "internal\bpf\probe.o") with (Some data) in H. cbn iota in H.
  change (file_path dir "internal\bpf\probe.o") with (target dir) in H.
  change (dir_path dir "internal\bpf\probe.o") with (dir ++ []) in H. rewrite app_nil_r in H.
  destruct (mkdirs u f [] dir) as [f1 ok1] eqn:Em. destruct ok1; cbn [negb] in H; [|by injection H as _ <-].
  assert (X : forall k c, f !! (dir ++ c :: k) = None -> f1 !! (dir ++ c :: k) = None).
  { intros k c Hx. destruct (mkdirs_changes _ _ _ _ _ _ Em (dir ++ c :: k)) as [?|(_ & _ & q & Hq & Et)]; [congruence|].
    cbn [app] in Et. subst q. apply prefix_length in Hq. rewrite app_length in Hq. cbn [length] in Hq. lia. }
  unfold write_file in H. unfold target in H at 1. rewrite (X _ _ Ht) in H. unfold can_add in H. unfold target in H at 1.
  rewrite removelast_app in H by done. cbn [removelast] in H. rewrite (X _ _ Hn) in H. cbn [negb] in H. by injection H as _ <-.
Qed.

(** An ordinary user and their empty home directory. *)
Example C120_nonvacuous :
  let u := User false in let f : fs := <[[] := Dir false]> (<[["home"] := Dir true]> ∅) in
  ready u f ["home"] /\
  (exists f', restore_asset u 7 "ELF" f ["home"] "internal/bpf/probe.o" = (f', true) /\ f' !! ["home"; "internal"; "bpf"; "probe.o"] = Some (File "ELF" false false true 0)) /\
  restore_assets 4 u 7 "ELF" f ["home"] "" = Some (restore_asset u 7 "ELF" f ["home"] "internal/bpf/probe.o") /\
  (restore_asset u 7 "ELF" f ["home"] "internal\bpf\probe.o").2 = false /\
  read_file (User true) (restore_asset u 7 "ELF" f ["home"] "internal/bpf/probe.o").1 (target ["home"]) = Some "ELF".
Proof.
  cbv zeta. split; [|split; [|split; [|split]]].
  - split_and!.
    + intros p [q Hq]. destruct p as [|x p]; [by exists false|]. injection Hq as <- Hq. destruct p; [by exists true|discriminate].
    + by right.
    + intros p. by rewrite !lookup_insert_ne by done.
  - eexists. split; reflexivity.
  - reflexivity.
  - reflexivity.
  - reflexivity.
Qed.

Print Assumptions C120_asset_is_found_by_its_name.
Print Assumptions C120_directories_list_what_is_below.
Print Assumptions C120_nothing_else_is_touched.
Print Assumptions C120_restored_is_embedded.
Print Assumptions C120_restores_into_a_directory.
Print Assumptions C120_restored_can_be_used_refuted.
Print Assumptions C120_every_name_restores_refuted.
