(** Proofs about copies. *)
From Coq Require Import ZArith String Lia.
From stdpp Require Import base list numbers strings gmap.
From Verif Require Import DeepModel DeepSpec.

Local Open Scope string_scope.
Local Open Scope list_scope.

(** ** Reading *)
Fixpoint read_fields (c : gmap nat cell) (fs : list (string * ty)) (vs : list (string * val)) {struct fs} : option (list (string * tree)) :=
  match fs, vs with
  | [], [] => Some []
  | (n, t) :: fs, (n', v) :: vs =>
      if String.eqb n n' then match read c t v, read_fields c fs vs with Some x, Some r => Some ((n, x) :: r) | _, _ => None end else None
  | _, _ => None
  end.
Fixpoint places_fields (c : gmap nat cell) (fs : list (string * ty)) (vs : list (string * val)) {struct fs} : list nat :=
  match fs, vs with
  | (_, t) :: fs, (_, v) :: vs => places c t v ++ places_fields c fs vs
  | _, _ => []
  end.
Lemma read_struct c fs vs : read c (TStruct fs) (VStruct vs) = match read_fields c fs vs with Some r => Some (LStruct r) | None => None end.
Proof.
  cbn [read]. match goal with |- match ?a with _ => _ end = _ => assert (a = read_fields c fs vs) as E end; [|rewrite E; reflexivity].
  revert vs. induction fs as [|[n t] fs IH]; intros [|[n' v] vs]; try reflexivity. cbn [read_fields]. rewrite <- IH. reflexivity.
Qed.
Lemma places_struct c fs vs : places c (TStruct fs) (VStruct vs) = places_fields c fs vs.
Proof. cbn [places]. revert vs. induction fs as [|[n t] fs IH]; intros [|[n' v] vs]; try reflexivity. cbn [places_fields]. rewrite <- IH. reflexivity. Qed.

Lemma ty_rec' (P : ty -> Prop) :
  P TBase -> (forall t, P t -> P (TPtr t)) -> (forall t, P t -> P (TSlice t)) -> P TMap ->
  (forall fs, Forall (fun f => P f.2) fs -> P (TStruct fs)) -> forall t, P t.
Proof.
  intros H1 H2 H3 H4 H5. fix self 1. intros [ |t|t| |fs]; [exact H1|apply H2, self|apply H3, self|exact H4|].
  apply H5. induction fs as [|[n t] fs IH]; constructor; [exact (self t)|exact IH].
Qed.

Definition agree (ps : list nat) (c c' : gmap nat cell) : Prop := forall p, p ∈ ps -> c' !! p = c !! p.
Lemma agree_app ps qs c c' : agree (ps ++ qs) c c' <-> agree ps c c' /\ agree qs c c'.
Proof. unfold agree. split; [intros H; split; intros p Hp; apply H, elem_of_app; auto|intros [H1 H2] p Hp; apply elem_of_app in Hp as [Hp|Hp]; auto]. Qed.
Lemma agree_cons p ps c c' : agree (p :: ps) c c' <-> c' !! p = c !! p /\ agree ps c c'.
Proof. unfold agree. split; [intros H; split; [apply H, elem_of_cons; auto|intros q Hq; apply H, elem_of_cons; auto]|intros [H1 H2] q Hq; apply elem_of_cons in Hq as [->|Hq]; auto]. Qed.

Definition frames (t : ty) : Prop := forall v c c' x, read c t v = Some x -> agree (places c t v) c c' ->
  read c' t v = Some x /\ places c' t v = places c t v.
Lemma frame_list t (F : frames t) xs : forall c c' ys, mapM (read c t) xs = Some ys -> agree (flat_map (places c t) xs) c c' ->
  mapM (read c' t) xs = Some ys /\ flat_map (places c' t) xs = flat_map (places c t) xs.
Proof.
  induction xs as [|x xs IH]; intros c c' ys R A; [split; [exact R|reflexivity]|].
  apply mapM_Some_1 in R. apply Forall2_cons_inv_l in R as (y & ys' & Ry & Rys & ->). cbn [flat_map] in *. apply agree_app in A as [A1 A2].
  destruct (F x c c' y Ry A1) as [R1 P1]. destruct (IH c c' ys' (mapM_Some_2 _ _ _ Rys) A2) as [R2 P2]. rewrite P1, P2. split; [|reflexivity].
  apply mapM_Some_2. constructor; [exact R1|apply mapM_Some_1, R2].
Qed.
Lemma frame_fields fs (F : Forall (fun f => frames f.2) fs) : forall vs c c' r, read_fields c fs vs = Some r -> agree (places_fields c fs vs) c c' ->
  read_fields c' fs vs = Some r /\ places_fields c' fs vs = places_fields c fs vs.
Proof.
  induction F as [|[n t] fs Ft F IH]; intros [|[n' v] vs] c c' r R A; try discriminate R; [split; [exact R|reflexivity]|].
  cbn [read_fields places_fields] in *. apply agree_app in A as [A1 A2]. destruct (String.eqb n n'); [|discriminate R].
  destruct (read c t v) as [x|] eqn:Rx; [|discriminate R]. destruct (read_fields c fs vs) as [r'|] eqn:Rr; [|discriminate R].
  destruct (Ft v c c' x Rx A1) as [R1 P1]. destruct (IH vs c c' r' Rr A2) as [R2 P2]. cbn [snd] in *. rewrite R1, R2, P1, P2. split; [exact R|reflexivity].
Qed.
Lemma frame : forall t, frames t.
Proof.
  apply ty_rec'; unfold frames.
  - intros [] c c' x R A; try discriminate R. split; [exact R|reflexivity].
  - intros t F [|  |p| | |] c c' x R A; try discriminate R; [split; [exact R|reflexivity]|]. cbn [read places] in *. apply agree_cons in A as [Ep A]. rewrite Ep.
    destruct (c !! p) as [[[|y [|]]|]|]; try discriminate R. destruct (read c t y) as [z|] eqn:Ry; [|discriminate R].
    destruct (F y c c' z Ry A) as [R1 P1]. rewrite R1, P1. split; [exact R|reflexivity].
  - intros t F [|  | |p off len| |] c c' x R A; try discriminate R; [split; [exact R|reflexivity]|]. cbn [read places] in *. apply agree_cons in A as [Ep A]. rewrite Ep.
    destruct (c !! p) as [[xs|]|]; try discriminate R. destruct (Nat.leb _ _); [|discriminate R].
    destruct (mapM _ _) as [ys|] eqn:Ry; [|discriminate R]. destruct (frame_list t F _ c c' ys Ry A) as [R1 P1]. rewrite R1, P1. split; [exact R|reflexivity].
  - intros [|  | | |p|] c c' x R A; try discriminate R; [split; [exact R|reflexivity]|]. cbn [read places] in *. apply agree_cons in A as [Ep A]. rewrite Ep. split; [exact R|reflexivity].
  - intros fs F [|  | | | |vs] c c' x R A; try discriminate R. rewrite !places_struct in *. rewrite read_struct in *.
    destruct (read_fields c fs vs) as [r|] eqn:Rr; [|discriminate R]. destruct (frame_fields fs F vs c c' r Rr A) as [R1 P1]. rewrite R1, P1. split; [exact R|reflexivity].
Qed.

(** What a reader follows is there. *)
Definition there (c : gmap nat cell) (ps : list nat) : Prop := Forall (fun p => is_Some (c !! p)) ps.
Lemma there_list t c (F : forall v x, read c t v = Some x -> there c (places c t v)) xs : forall ys, mapM (read c t) xs = Some ys -> there c (flat_map (places c t) xs).
Proof.
  induction xs as [|x xs IH]; intros ys R; [constructor|]. apply mapM_Some_1 in R. apply Forall2_cons_inv_l in R as (y & ys' & Ry & Rys & ->).
  cbn [flat_map]. apply Forall_app. split; [exact (F x y Ry)|exact (IH ys' (mapM_Some_2 _ _ _ Rys))].
Qed.
Lemma there_all c : forall t v x, read c t v = Some x -> there c (places c t v).
Proof.
  intros t. induction t as [ |t F|t F| |fs F] using ty_rec'.
  - intros [] x R; try discriminate R. constructor.
  - intros [|  |p| | |] x R; try discriminate R; [constructor|]. cbn [read places] in *. destruct (c !! p) as [[[|y [|]]|]|] eqn:E; try discriminate R.
    destruct (read c t y) eqn:Ry; [|discriminate R]. constructor; [rewrite E; eauto|exact (F _ _ Ry)].
  - intros [|  | |p off len| |] x R; try discriminate R; [constructor|]. cbn [read places] in *. destruct (c !! p) as [[xs|]|] eqn:E; try discriminate R.
    destruct (Nat.leb _ _); [|discriminate R]. destruct (mapM _ _) as [ys|] eqn:Ry; [|discriminate R]. constructor; [rewrite E; eauto|exact (there_list t c F _ ys Ry)].
  - intros [|  | | |p|] x R; try discriminate R; [constructor|]. cbn [read places] in *. destruct (c !! p) eqn:E; [|discriminate R]. constructor; [rewrite E; eauto|constructor].
  - intros [|  | | | |vs] x R; try discriminate R. rewrite places_struct. rewrite read_struct in R. destruct (read_fields c fs vs) as [r|] eqn:Rr; [clear R|discriminate R].
    revert vs r Rr. induction F as [|[n t] fs Ft F IH]; intros [|[n' v] vs] r R; try discriminate R; [constructor|]. cbn [read_fields places_fields] in *.
    destruct (String.eqb n n'); [|discriminate R]. destruct (read c t v) as [y|] eqn:Ry; [|discriminate R]. destruct (read_fields c fs vs) as [r'|] eqn:Rr; [|discriminate R].
    apply Forall_app. split; [exact (Ft v y Ry)|exact (IH vs r' Rr)].
Qed.
Lemma places_old h t v x : sound h -> read (cells h) t v = Some x -> Forall (fun p => p < next h) (places (cells h) t v).
Proof. intros S R. eapply Forall_impl; [exact (there_all _ _ _ _ R)|]. intros p [c E]. exact (proj1 (S p c E)). Qed.

(** Plain types hold no address. *)
Fixpoint plain (t : ty) : bool := match t with TBase => true | TStruct fs => forallb (fun f => plain f.2) fs | _ => false end.
Lemma plain_no_address c : forall t v x, plain t = true -> read c t v = Some x -> addresses v = [] /\ places c t v = [].
Proof.
  intros t. induction t as [ |t F|t F| |fs F] using ty_rec'; intros v x P R; try discriminate P.
  - destruct v; try discriminate R. split; reflexivity.
  - destruct v as [| | | | |vs]; try discriminate R. rewrite places_struct. rewrite read_struct in R. destruct (read_fields c fs vs) as [r|] eqn:Rr; [clear R|discriminate R].
    cbn [addresses plain] in *. revert vs r Rr P. induction F as [|[n t] fs Ft F IH]; intros [|[n' v] vs] r R P; try discriminate R; [split; reflexivity|].
    cbn [read_fields places_fields forallb flat_map fst snd] in *. apply andb_prop in P as [P1 P2]. destruct (String.eqb n n'); [|discriminate R].
    destruct (read c t v) as [y|] eqn:Ry; [|discriminate R]. destruct (read_fields c fs vs) as [r'|] eqn:Rr; [|discriminate R].
    destruct (Ft v y P1 Ry) as [-> ->]. exact (IH vs r' Rr P2).
Qed.

(** ** Growing the memory *)
Record grow (h h' : mem) : Prop := Grow {
  g_sound : sound h';
  g_next : next h <= next h';
  g_same : forall p, p < next h -> cells h' !! p = cells h !! p;
  g_new : forall p c, next h <= p -> cells h' !! p = Some c -> Forall (fun q => next h <= q) (cell_addresses c) }.
Record apart (h h' : mem) (ad pl : list nat) : Prop := Apart {
  a_ad : Forall (fun q => next h <= q < next h') ad;
  a_pl : Forall (fun q => next h <= q < next h') pl;
  a_once : NoDup pl }.
Lemma grow_refl h : sound h -> grow h h.
Proof. intros S. constructor; [exact S|lia|auto|]. intros p c L E. pose proof (proj1 (S p c E)). lia. Qed.
Lemma grow_trans h h1 h2 : grow h h1 -> grow h1 h2 -> grow h h2.
Proof.
  intros G1 G2. pose proof (g_next _ _ G1). pose proof (g_next _ _ G2). constructor; [exact (g_sound _ _ G2)|lia| |].
  - intros p L. rewrite (g_same _ _ G2) by lia. apply (g_same _ _ G1), L.
  - intros p c L E. destruct (decide (p < next h1)) as [Lp|Lp].
    + rewrite (g_same _ _ G2) in E by exact Lp. exact (g_new _ _ G1 p c L E).
    + eapply Forall_impl; [exact (g_new _ _ G2 p c ltac:(lia) E)|]. cbn. intros q Hq. lia.
Qed.
Lemma apart_none h h' : apart h h' [] [].
Proof. constructor; constructor. Qed.
Lemma apart_app h h1 h2 ad1 pl1 ad2 pl2 : grow h h1 -> grow h1 h2 -> apart h h1 ad1 pl1 -> apart h1 h2 ad2 pl2 -> apart h h2 (ad1 ++ ad2) (pl1 ++ pl2).
Proof.
  intros G1 G2 [A1 P1 N1] [A2 P2 N2]. pose proof (g_next _ _ G1). pose proof (g_next _ _ G2).
  rewrite Forall_forall in *. constructor.
  - apply Forall_forall. intros q Hq. apply elem_of_app in Hq as [Hq|Hq]; [specialize (A1 q Hq)|specialize (A2 q Hq)]; lia.
  - apply Forall_forall. intros q Hq. apply elem_of_app in Hq as [Hq|Hq]; [specialize (P1 q Hq)|specialize (P2 q Hq)]; lia.
  - apply NoDup_app. split; [exact N1|split; [|exact N2]]. intros q H1 H2. specialize (P1 q H1). specialize (P2 q H2). lia.
Qed.
Lemma alloc_grow h h1 c : grow h h1 -> Forall (fun q => next h <= q < next h1) (cell_addresses c) ->
  grow h (Mem (<[next h1 := c]> (cells h1)) (S (next h1))).
Proof.
  intros G A. pose proof (g_next _ _ G). constructor; cbn.
  - intros p c' E. cbn [cells next] in *. destruct (decide (p = next h1)) as [->|N].
    + rewrite lookup_insert in E. apply Some_inj in E. subst c'. split; [lia|]. eapply Forall_impl; [exact A|]. cbn. lia.
    + rewrite lookup_insert_ne in E by auto. destruct (g_sound _ _ G p c' E) as [L F]. split; [lia|]. eapply Forall_impl; [exact F|]. cbn. lia.
  - lia.
  - intros p L. rewrite lookup_insert_ne by lia. apply (g_same _ _ G), L.
  - intros p c' L E. destruct (decide (p = next h1)) as [->|N].
    + rewrite lookup_insert in E. apply Some_inj in E. subst c'. eapply Forall_impl; [exact A|]. cbn. lia.
    + rewrite lookup_insert_ne in E by auto. exact (g_new _ _ G p c' L E).
Qed.
Lemma alloc_same h c p : sound h -> is_Some (cells h !! p) -> <[next h := c]> (cells h) !! p = cells h !! p.
Proof. intros S [c' E]. apply lookup_insert_ne. pose proof (proj1 (S p c' E)). lia. Qed.

(** ** Copies *)
Definition copies (copy : val -> act val) (t : ty) : Prop :=
  forall h v x, sound h -> read (cells h) t v = Some x ->
    exists h' v', copy v h = Some (h', v') /\ grow h h' /\ read (cells h') t v' = Some x
      /\ apart h h' (addresses v') (places (cells h') t v').

Lemma read_grow h h' t v x : sound h -> grow h h' -> read (cells h) t v = Some x -> read (cells h') t v = Some x /\ places (cells h') t v = places (cells h) t v.
Proof.
  intros S G R. apply (frame t v (cells h)); [exact R|]. intros p Hp. apply (g_same _ _ G).
  exact (proj1 (Forall_forall _ _) (places_old h t v x S R) p Hp).
Qed.
Lemma copies_plain t : plain t = true -> copies assign t.
Proof.
  intros P h v x S R. exists h, v. destruct (plain_no_address _ t v x P R) as [-> ->]. split; [reflexivity|]. split; [apply grow_refl, S|]. split; [exact R|apply apart_none].
Qed.
Lemma copies_map : copies copy_map TMap.
Proof.
  intros h [|  | | |p|] x S R; try discriminate R.
  - exists h, VNil. split; [reflexivity|]. split; [apply grow_refl, S|]. split; [exact R|apply apart_none].
  - cbn [read] in R. destruct (cells h !! p) as [[|m]|] eqn:E; try discriminate R. cbn [copy_map]. unfold bind, strmap. rewrite E.
    assert (map_fold (fun k v out => <[k := v]> out) ∅ m = m) as Em.
    { apply (map_fold_ind (fun r m => r = m)); [reflexivity|]. intros k v m' r _ ->. reflexivity. }
    rewrite Em. eexists _, _. split; [reflexivity|].
    split; [apply alloc_grow; [apply grow_refl, S|constructor]|]. cbn [read places cells addresses next]. rewrite lookup_insert. split; [exact R|].
    constructor; cbn; [repeat constructor; lia|repeat constructor; lia|repeat constructor; set_solver].
Qed.
Lemma copies_ptr copy t : copies copy t -> copies (copy_ptr copy) (TPtr t).
Proof.
  intros C h [|  |p| | |] x S R; try discriminate R.
  - exists h, VNil. split; [reflexivity|]. split; [apply grow_refl, S|]. split; [exact R|apply apart_none].
  - cbn [read] in R. destruct (cells h !! p) as [[[|y [|]]|]|] eqn:E; try discriminate R. destruct (read (cells h) t y) as [z|] eqn:Ry; [|discriminate R].
    destruct (C h y z S Ry) as (h1 & y' & E1 & G & R1 & A). cbn [copy_ptr]. unfold bind, pointee, bind, array. rewrite E. unfold ret at 1. cbn. rewrite E1.
    eexists _, _. split; [reflexivity|]. pose proof (g_sound _ _ G) as S1.
    assert (agree (places (cells h1) t y') (cells h1) (<[next h1 := CArr [y']]> (cells h1))) as Ag.
    { intros q Hq. apply alloc_same; [exact S1|]. exact (proj1 (Forall_forall _ _) (there_all _ _ _ _ R1) q Hq). }
    destruct (frame t y' _ _ _ R1 Ag) as [R2 P2].
    split; [apply alloc_grow; [exact G|]; cbn; rewrite app_nil_r; apply A|]. cbn [read places cells addresses next]. rewrite lookup_insert, R2, P2. split; [exact R|].
    pose proof (g_next _ _ G). destruct A as [A1 A2 A3]. rewrite Forall_forall in A1, A2. constructor; cbn.
    + repeat constructor; lia.
    + constructor; [lia|]. apply Forall_forall. intros q Hq. specialize (A2 q Hq). lia.
    + constructor; [|exact A3]. intros Hq. specialize (A2 _ Hq). lia.
Qed.
Lemma copies_each_list copy t : copies copy t -> forall xs h ys, sound h -> mapM (read (cells h) t) xs = Some ys ->
  exists h' xs', each copy xs h = Some (h', xs') /\ grow h h' /\ mapM (read (cells h') t) xs' = Some ys /\ length xs' = length xs
    /\ apart h h' (flat_map addresses xs') (flat_map (places (cells h') t) xs').
Proof.
  intros C. induction xs as [|x xs IH]; intros h ys S R.
  { exists h, []. split; [reflexivity|]. split; [apply grow_refl, S|]. split; [exact R|]. split; [reflexivity|apply apart_none]. }
  apply mapM_Some_1 in R. apply Forall2_cons_inv_l in R as (y & ys' & Ry & Rys & ->).
  destruct (C h x y S Ry) as (h1 & x' & E1 & G1 & R1 & A1). pose proof (g_sound _ _ G1) as S1.
  assert (mapM (read (cells h1) t) xs = Some ys') as Rys1.
  { apply mapM_Some_2. eapply Forall2_impl; [exact Rys|]. intros a b Rab. exact (proj1 (read_grow h h1 t a b S G1 Rab)). }
  destruct (IH h1 ys' S1 Rys1) as (h2 & xs' & E2 & G2 & R2 & L2 & A2).
  exists h2, (x' :: xs'). cbn [each]. unfold bind. rewrite E1, E2. split; [reflexivity|].
  split; [exact (grow_trans _ _ _ G1 G2)|]. destruct (read_grow h1 h2 t x' y S1 G2 R1) as [R1' P1'].
  split; [apply mapM_Some_2; constructor; [exact R1'|apply mapM_Some_1, R2]|]. split; [cbn; congruence|]. cbn [flat_map]. rewrite P1'.
  exact (apart_app _ _ _ _ _ _ _ G1 G2 A1 A2).
Qed.
Lemma copies_each copy t : copies copy t -> copies (copy_each copy) (TSlice t).
Proof.
  intros C h [|  | |p off len| |] x S R; try discriminate R.
  - exists h, VNil. split; [reflexivity|]. split; [apply grow_refl, S|]. split; [exact R|apply apart_none].
  - cbn [read] in R. destruct (cells h !! p) as [[xs|]|] eqn:E; try discriminate R. destruct (Nat.leb_spec (off + len) (length xs)) as [L|]; [|discriminate R].
    destruct (mapM _ _) as [ys|] eqn:Ry; [|discriminate R].
    destruct (copies_each_list copy t C _ h ys S Ry) as (h1 & xs' & E1 & G & R1 & L1 & A). cbn [copy_each]. unfold bind, array. rewrite E, E1.
    eexists _, _. split; [reflexivity|]. pose proof (g_sound _ _ G) as S1. rewrite take_length, drop_length in L1.
    assert (agree (flat_map (places (cells h1) t) xs') (cells h1) (<[next h1 := CArr xs']> (cells h1))) as Ag.
    { intros q Hq. apply alloc_same; [exact S1|]. exact (proj1 (Forall_forall _ _) (there_list t _ (there_all _ t) _ _ R1) q Hq). }
    destruct (frame_list t (frame t) _ _ _ _ R1 Ag) as [R2 P2].
    split; [apply alloc_grow; [exact G|apply A]|]. cbn [read places cells addresses next]. rewrite lookup_insert, drop_0, take_ge by lia. rewrite R2, P2.
    destruct (Nat.leb_spec (0 + len) (length xs')); [|lia]. split; [exact R|].
    pose proof (g_next _ _ G). destruct A as [A1 A2 A3]. rewrite Forall_forall in A1, A2. constructor; cbn.
    + repeat constructor; lia.
    + constructor; [lia|]. apply Forall_forall. intros q Hq. specialize (A2 q Hq). lia.
    + constructor; [|exact A3]. intros Hq. specialize (A2 _ Hq). lia.
Qed.
Lemma each_assign xs h : each assign xs h = Some (h, xs).
Proof. induction xs as [|x xs IH]; [reflexivity|]. cbn [each]. unfold bind, assign, ret in *. rewrite IH. reflexivity. Qed.
Lemma copies_slice t : plain t = true -> copies copy_slice (TSlice t).
Proof.
  intros P h v x S R. destruct (copies_each assign t (copies_plain t P) h v x S R) as (h' & v' & E & Rest). exists h', v'. split; [|exact Rest]. rewrite <- E.
  destruct v; try reflexivity. cbn [copy_each copy_slice]. unfold bind. destruct (array p h) as [[h1 xs]|]; [|reflexivity]. rewrite each_assign. reflexivity.
Qed.

(** Structs, field by field. *)
Fixpoint walk (steps : list (string * (val -> act val))) (fs : list (string * val)) : act (list (string * val)) :=
  match fs with
  | [] => ret []
  | (n, v) :: fs =>
      match steps with
      | [] => ret ((n, v) :: fs)
      | (name, copy) :: steps' =>
          if String.eqb n name then do y <- copy v; do r <- walk steps' fs; ret ((n, y) :: r)
          else do r <- walk steps fs; ret ((n, v) :: r)
      end
  end.
Inductive steps_ok : list (string * (val -> act val)) -> list (string * ty) -> Prop :=
| ok_nil : steps_ok [] []
| ok_copy n copy t steps fs : copies copy t -> steps_ok steps fs -> steps_ok ((n, copy) :: steps) ((n, t) :: fs)
| ok_plain n t steps fs : plain t = true -> steps_ok steps fs -> steps_ok steps ((n, t) :: fs).
Lemma in_sublist {A} (x : A) l k : x ∈ l -> sublist l k -> x ∈ k.
Proof. intros H S. induction S; [exact H|apply elem_of_cons in H as [->|H]; [left|right; auto]|right; auto]. Qed.
Lemma steps_names steps fs : steps_ok steps fs -> sublist (map fst steps) (map fst fs).
Proof. induction 1; cbn; [constructor|apply sublist_skip; assumption|apply sublist_cons; assumption]. Qed.
Lemma field_app name pre fs : name ∉ map fst pre -> field name (pre ++ fs) = field name fs.
Proof. induction pre as [|[n v] pre IH]; intros N; [reflexivity|]. cbn in *. destruct (String.eqb_spec n name) as [->|]; [exfalso; apply N; left|]. apply IH. intros X. apply N. right. exact X. Qed.
Lemma set_field_app name x pre fs : name ∉ map fst pre -> set_field name x (pre ++ fs) = pre ++ set_field name x fs.
Proof. induction pre as [|[n v] pre IH]; intros N; [reflexivity|]. cbn in *. destruct (String.eqb_spec n name) as [->|]; [exfalso; apply N; left|]. f_equal. apply IH. intros X. apply N. right. exact X. Qed.
Lemma assigns_walk fs : forall steps pin pout h, map fst pin = map fst pout -> NoDup (map fst (pin ++ fs)) -> sublist (map fst steps) (map fst fs) ->
  assigns steps (pin ++ fs) (pout ++ fs) h = match walk steps fs h with Some (h', r) => Some (h', pout ++ r) | None => None end.
Proof.
  induction fs as [|[n v] fs IH]; intros steps pin pout h Ep N Sub.
  { inversion Sub as [Es| |]. destruct steps; [|discriminate]. reflexivity. }
  destruct steps as [|[name copy] steps]; [reflexivity|]. cbn [walk].
  assert (n ∉ map fst pin /\ n ∉ map fst fs) as [Npin Nfs].
  { rewrite map_app in N. apply NoDup_app in N as (_ & D & N2). cbn in N2. apply NoDup_cons in N2 as [N2 _]. split; [|exact N2]. intros X. apply (D n X). left. }
  destruct (String.eqb_spec n name) as [<-|Ne].
  - assert (sublist (map fst steps) (map fst fs)) as Sub'.
    { cbn in Sub. inversion Sub as [|? ? ? H|? ? ? H]; subst; [exact H|]. exfalso. apply Nfs. eapply in_sublist; [|exact H]. left. }
    cbn [assigns]. rewrite (field_app n pin) by exact Npin. cbn [field]. rewrite String.eqb_refl. unfold bind at 1 2. destruct (copy v h) as [[h1 y]|]; [|reflexivity].
    rewrite set_field_app by (rewrite <- Ep; exact Npin). cbn [set_field]. rewrite String.eqb_refl.
    specialize (IH steps (pin ++ [(n, v)]) (pout ++ [(n, y)]) h1). rewrite <- !app_assoc in IH. cbn [app] in IH. rewrite IH; [|rewrite !map_app, Ep; reflexivity|exact N|exact Sub'].
    unfold bind, ret. destruct (walk steps fs h1) as [[h2 r]|]; [|reflexivity]. rewrite <- app_assoc. reflexivity.
  - assert (sublist (map fst ((name, copy) :: steps)) (map fst fs)) as Sub'.
    { cbn in Sub |- *. inversion Sub as [|? ? ? H|? ? ? H]; subst; [congruence|exact H]. }
    specialize (IH ((name, copy) :: steps) (pin ++ [(n, v)]) (pout ++ [(n, v)]) h). rewrite <- !app_assoc in IH. cbn [app] in IH. rewrite IH; [|rewrite !map_app, Ep; reflexivity|exact N|exact Sub'].
    unfold bind, ret. destruct (walk _ fs h) as [[h2 r]|]; [|reflexivity]. rewrite <- app_assoc. reflexivity.
Qed.
Lemma read_names c fs : forall vs r, read_fields c fs vs = Some r -> map fst vs = map fst fs.
Proof.
  induction fs as [|[n t] fs IH]; intros [|[n' v] vs] r R; try discriminate R; [reflexivity|]. cbn [read_fields map fst] in *. destruct (String.eqb_spec n n') as [->|]; [|discriminate R].
  destruct (read c t v); [|discriminate R]. destruct (read_fields c fs vs) eqn:E; [|discriminate R]. f_equal. exact (IH vs _ E).
Qed.
Lemma read_fields_grow h h' fs vs r : sound h -> grow h h' -> read_fields (cells h) fs vs = Some r ->
  read_fields (cells h') fs vs = Some r /\ places_fields (cells h') fs vs = places_fields (cells h) fs vs.
Proof.
  intros S G R. apply (frame_fields fs); [apply Forall_forall; intros f _; apply frame|exact R|]. intros p Hp. apply (g_same _ _ G).
  assert (read (cells h) (TStruct fs) (VStruct vs) = Some (LStruct r)) as R' by (rewrite read_struct, R; reflexivity). rewrite <- places_struct in Hp.
  exact (proj1 (Forall_forall _ _) (places_old h _ _ _ S R') p Hp).
Qed.
Lemma walk_copies steps fs : steps_ok steps fs -> NoDup (map fst fs) -> forall h vs r, sound h -> read_fields (cells h) fs vs = Some r ->
  exists h' vs', walk steps vs h = Some (h', vs') /\ grow h h' /\ read_fields (cells h') fs vs' = Some r
    /\ apart h h' (flat_map (fun f => addresses f.2) vs') (places_fields (cells h') fs vs').
Proof.
  induction 1 as [|n copy t steps fs C O IH|n t steps fs P O IH]; intros N h [|[n' v] vs] r S R; try discriminate R.
  - exists h, []. split; [reflexivity|]. split; [apply grow_refl, S|]. split; [exact R|apply apart_none].
  - cbn [read_fields map fst] in *. apply NoDup_cons in N as [_ N]. destruct (String.eqb_spec n n') as [<-|]; [|discriminate R].
    destruct (read (cells h) t v) as [x|] eqn:Rx; [|discriminate R]. destruct (read_fields (cells h) fs vs) as [r'|] eqn:Rr; [|discriminate R].
    destruct (C h v x S Rx) as (h1 & v' & E1 & G1 & R1 & A1). pose proof (g_sound _ _ G1) as S1.
    destruct (IH N h1 vs r' S1 (proj1 (read_fields_grow h h1 fs vs r' S G1 Rr))) as (h2 & vs' & E2 & G2 & R2 & A2).
    exists h2, ((n, v') :: vs'). cbn [walk]. rewrite String.eqb_refl. unfold bind. rewrite E1, E2. split; [reflexivity|]. split; [exact (grow_trans _ _ _ G1 G2)|].
    destruct (read_grow h1 h2 t v' x S1 G2 R1) as [R1' P1']. cbn [read_fields places_fields flat_map snd]. rewrite ?String.eqb_refl, R1', R2, P1'. split; [exact R|].
    exact (apart_app _ _ _ _ _ _ _ G1 G2 A1 A2).
  - cbn [read_fields map fst] in *. apply NoDup_cons in N as [N1 N]. destruct (String.eqb_spec n n') as [<-|]; [|discriminate R].
    destruct (read (cells h) t v) as [x|] eqn:Rx; [|discriminate R]. destruct (read_fields (cells h) fs vs) as [r'|] eqn:Rr; [|discriminate R].
    destruct (IH N h vs r' S Rr) as (h2 & vs' & E2 & G2 & R2 & A2). destruct (plain_no_address _ t v x P Rx) as [Av Pv].
    assert (walk steps ((n, v) :: vs) h = Some (h2, (n, v) :: vs')) as Ew.
    { cbn [walk]. destruct steps as [|[name copy] steps].
      - unfold ret. destruct vs as [|[? ?] ?]; cbn [walk] in E2; unfold ret in E2; apply Some_inj in E2; apply pair_equal_spec in E2 as [-> <-]; reflexivity.
      - destruct (String.eqb_spec n name) as [<-|].
        + exfalso. apply N1. eapply in_sublist; [|exact (steps_names _ _ O)]. left.
        + unfold bind. rewrite E2. reflexivity. }
    exists h2, ((n, v) :: vs'). split; [exact Ew|]. split; [exact G2|]. destruct (read_grow h h2 t v x S G2 Rx) as [Rx' Px']. cbn [read_fields places_fields flat_map snd].
    rewrite ?String.eqb_refl, Rx', R2, Px', Av, Pv. split; [exact R|exact A2].
Qed.
Lemma copies_into steps fs : steps_ok steps fs -> NoDup (map fst fs) -> copies (into steps) (TStruct fs).
Proof.
  intros O N h [|  | | | |vs] x S R; try discriminate R. rewrite read_struct in R. destruct (read_fields (cells h) fs vs) as [r|] eqn:Rr; [|discriminate R].
  destruct (walk_copies steps fs O N h vs r S Rr) as (h' & vs' & E & G & R' & A). exists h', (VStruct vs'). split.
  - cbn [into]. unfold bind. pose proof (assigns_walk vs steps [] [] h eq_refl) as W. cbn [app] in W. rewrite W; [rewrite E; reflexivity|rewrite (read_names _ _ _ _ Rr); exact N|].
    rewrite (read_names _ _ _ _ Rr). exact (steps_names _ _ O).
  - split; [exact G|]. rewrite read_struct, places_struct, R'. split; [exact R|exact A].
Qed.

Ltac struct_copy lems :=
  apply copies_into; [|refine (bool_decide_eq_true_1 _ _); vm_compute; reflexivity];
  repeat first [apply ok_nil | apply ok_copy; [solve [lems]|] | apply ok_plain; [reflexivity|]].
Ltac basics := first [apply copies_slice; reflexivity | apply copies_map | apply copies_ptr, copies_plain; reflexivity | apply copies_plain; reflexivity].

Lemma requirement_copies : copies LabelSelectorRequirement_DeepCopyInto ty_LabelSelectorRequirement.
Proof. struct_copy basics. Qed.
Lemma selector_copies : copies LabelSelector_DeepCopyInto ty_LabelSelector.
Proof. struct_copy ltac:(first [basics|apply copies_each, requirement_copies]). Qed.
Lemma owner_copies : copies OwnerReference_DeepCopyInto ty_OwnerReference.
Proof. struct_copy basics. Qed.
Lemma fieldsv1_copies : copies FieldsV1_DeepCopyInto ty_FieldsV1.
Proof. struct_copy basics. Qed.
Lemma managed_copies : copies ManagedFieldsEntry_DeepCopyInto ty_ManagedFieldsEntry.
Proof. struct_copy ltac:(first [basics|apply copies_ptr, fieldsv1_copies]). Qed.
Lemma objectmeta_copies : copies ObjectMeta_DeepCopyInto ty_ObjectMeta.
Proof. struct_copy ltac:(first [basics|apply copies_each, owner_copies|apply copies_each, managed_copies]). Qed.
Lemma listmeta_copies : copies ListMeta_DeepCopyInto ty_ListMeta.
Proof. struct_copy basics. Qed.
Lemma spec_copies : copies TraceSpec_DeepCopyInto ty_TraceSpec.
Proof. struct_copy ltac:(first [basics|apply selector_copies]). Qed.
Lemma status_copies : copies TraceStatus_DeepCopyInto ty_TraceStatus.
Proof. struct_copy basics. Qed.
Lemma trace_copies : copies Trace_DeepCopyInto ty_Trace.
Proof. struct_copy ltac:(first [basics|apply objectmeta_copies|apply spec_copies|apply status_copies]). Qed.
Lemma list_copies : copies TraceList_DeepCopyInto ty_TraceList.
Proof. struct_copy ltac:(first [basics|apply listmeta_copies|apply copies_each, trace_copies]). Qed.
Lemma api_copies t into_ copy : api_type t into_ copy -> copies into_ t /\ copy = copy_ptr into_.
Proof.
  intros [[-> [-> ->]]|[[-> [-> ->]]|[[-> [-> ->]]|[-> [-> ->]]]]]; (split; [|reflexivity]); [apply trace_copies|apply list_copies|apply spec_copies|apply status_copies].
Qed.
Lemma api_copy t into_ copy h p x : api_type t into_ copy -> sound h -> read (cells h) (TPtr t) (VPtr p) = Some x ->
  exists h' q, copy (VPtr p) h = Some (h', VPtr q) /\ grow h h' /\ read (cells h') (TPtr t) (VPtr q) = Some x
    /\ apart h h' [q] (places (cells h') (TPtr t) (VPtr q)) /\ read (cells h') (TPtr t) (VPtr p) = Some x.
Proof.
  intros T S R. destruct (api_copies _ _ _ T) as [C ->]. destruct (copies_ptr _ _ C h (VPtr p) x S R) as (h' & v' & E & G & R' & A).
  destruct (read_grow h h' _ _ _ S G R) as [Rp _]. clear C T.
  assert (exists q, v' = VPtr q) as [q ->].
  { cbn [copy_ptr] in E. unfold bind, ret in E. destruct (pointee p h) as [[h1 v]|]; [|discriminate E]. destruct (into_ v h1) as [[h2 y]|]; [|discriminate E].
    unfold alloc in E. apply Some_inj in E. apply pair_equal_spec in E as [_ <-]. eexists. reflexivity. }
  exists h', q. split; [exact E|]. split; [exact G|]. split; [exact R'|]. split; [exact A|exact Rp].
Qed.

(** ** Programs *)
Section untouched.
  Variable P : nat -> Prop.
  Definition clean (v : val) : Prop := Forall (fun q => ~ P q) (addresses v).
  Record away (s : prog) : Prop := Away {
    w_held : Forall clean (p_held s);
    w_cells : forall p c, cells (p_mem s) !! p = Some c -> ~ P p -> Forall (fun q => ~ P q) (cell_addresses c);
    w_next : forall p, next (p_mem s) <= p -> ~ P p }.
  Lemma away_hold s v : away s -> clean v -> away (hold s v).
  Proof using. intros [H C N] V. constructor; [apply Forall_app; split; [exact H|constructor; [exact V|constructor]]|exact C|exact N]. Qed.
  Lemma clean_elem xs n x : Forall (fun q => ~ P q) (flat_map addresses xs) -> xs !! n = Some x -> clean x.
  Proof using. intros F E. apply elem_of_list_lookup_2 in E. induction E as [x xs|x y xs _ IH]; cbn in F; apply Forall_app in F as [F1 F2]; [exact F1|exact (IH F2)]. Qed.
  Lemma clean_all xs : Forall clean xs -> Forall (fun q => ~ P q) (flat_map addresses xs).
  Proof using. induction 1 as [|x xs Hx _ IH]; cbn; [constructor|apply Forall_app; split; [exact Hx|exact IH]]. Qed.
  Lemma clean_elems xs : Forall (fun q => ~ P q) (flat_map addresses xs) -> Forall clean xs.
  Proof using. induction xs as [|x xs IH]; cbn; intros F; [constructor|]. apply Forall_app in F as [F1 F2]. constructor; [exact F1|exact (IH F2)]. Qed.
  Lemma clean_field name fs x : clean (VStruct fs) -> field name fs = Some x -> clean x.
  Proof using.
    unfold clean. cbn [addresses]. induction fs as [|[n v] fs IH]; cbn; intros F E; [discriminate E|]. apply Forall_app in F as [F1 F2].
    destruct (String.eqb n name); [apply Some_inj in E; subst x; exact F1|exact (IH F2 E)].
  Qed.
  Lemma clean_set name x fs : clean (VStruct fs) -> clean x -> clean (VStruct (set_field name x fs)).
  Proof using.
    unfold clean. cbn [addresses]. intros F V. induction fs as [|[n v] fs IH]; cbn in *; [constructor|]. apply Forall_app in F as [F1 F2].
    destruct (String.eqb n name); cbn; apply Forall_app; split; auto.
  Qed.
  Lemma clean_slot v j p n : clean v -> slot v j = Some (p, n) -> ~ P p.
  Proof using.
    intros V E. destruct v; cbn [slot] in E; try discriminate E.
    - destruct (Nat.eqb j 0); [|discriminate E]. apply Some_inj in E. apply pair_equal_spec in E as [<- _]. exact (Forall_inv V).
    - destruct (Nat.ltb j len); [|discriminate E]. apply Some_inj in E. apply pair_equal_spec in E as [<- _]. exact (Forall_inv V).
  Qed.
  Lemma away_set s p c : away s -> ~ P p -> Forall (fun q => ~ P q) (cell_addresses c) ->
    away (set_cell s p c) /\ forall l, P l -> cells (p_mem (set_cell s p c)) !! l = cells (p_mem s) !! l.
  Proof using.
    intros [H C N] Np F. split.
    - constructor; [exact H| |exact N]. intros q c' E Nq. cbn [set_cell p_mem cells] in E. destruct (decide (q = p)) as [->|D].
      + rewrite lookup_insert in E. apply Some_inj in E. subst c'. exact F.
      + rewrite lookup_insert_ne in E by auto. exact (C q c' E Nq).
    - intros l Hl. cbn. apply lookup_insert_ne. intros ->. exact (Np Hl).
  Qed.
  Lemma away_alloc s c v : away s -> Forall (fun q => ~ P q) (cell_addresses c) -> (forall q, ~ P q -> clean (v q)) ->
    away (op_alloc s c v) /\ forall l, P l -> cells (p_mem (op_alloc s c v)) !! l = cells (p_mem s) !! l.
  Proof using.
    intros [H C N] F V. assert (~ P (next (p_mem s))) as Nn by (apply N; lia). split.
    - constructor; cbn [op_alloc alloc p_mem p_held cells next].
      + apply Forall_app. split; [exact H|]. constructor; [exact (V _ Nn)|constructor].
      + intros q c' E Nq. destruct (decide (q = next (p_mem s))) as [->|D].
        * rewrite lookup_insert in E. apply Some_inj in E. subst c'. exact F.
        * rewrite lookup_insert_ne in E by auto. exact (C q c' E Nq).
      + intros p L. apply N. lia.
    - intros l Hl. cbn. apply lookup_insert_ne. intros <-. exact (Nn Hl).
  Qed.
  Lemma held_clean s i v : away s -> p_held s !! i = Some v -> clean v.
  Proof using. intros A E. exact (proj1 (Forall_lookup _ _) (w_held _ A) i v E). Qed.
  Lemma away_step s o : away s -> away (op_step s o) /\ forall l, P l -> cells (p_mem (op_step s o)) !! l = cells (p_mem s) !! l.
  Proof using.
    intros A. assert (forall v, clean v -> away (hold s v) /\ forall l, P l -> cells (p_mem (hold s v)) !! l = cells (p_mem s) !! l) as Hold.
    { intros v V. split; [exact (away_hold s v A V)|reflexivity]. }
    assert (away s /\ forall l, P l -> cells (p_mem s) !! l = cells (p_mem s) !! l) as Stay by (split; [exact A|reflexivity]).
    destruct o as [b| |i j|i name|i name k|fs|i j k|k|ks|i lo hi| |i k v|i k]; cbn [op_step].
    - apply Hold. constructor.
    - apply Hold. constructor.
    - destruct (p_held s !! i) as [v|] eqn:Ei; [|exact Stay]. destruct (slot v j) as [[p n]|] eqn:Es; [|exact Stay].
      destruct (cells (p_mem s) !! p) as [[xs|]|] eqn:Ec; try exact Stay. destruct (xs !! n) as [x|] eqn:Ex; [|exact Stay].
      apply Hold. exact (clean_elem xs n x (w_cells _ A p _ Ec (clean_slot v j p n (held_clean s i v A Ei) Es)) Ex).
    - destruct (p_held s !! i) as [[]|] eqn:Ei; try exact Stay. destruct (field name fs) as [x|] eqn:Ef; [|exact Stay]. apply Hold. exact (clean_field name fs x (held_clean s i _ A Ei) Ef).
    - destruct (p_held s !! i) as [[]|] eqn:Ei; try exact Stay. destruct (p_held s !! k) as [x|] eqn:Ek; [|exact Stay]. apply Hold. exact (clean_set name x fs (held_clean s i _ A Ei) (held_clean s k _ A Ek)).
    - destruct (mapM _ fs) as [l|] eqn:Em; [|exact Stay]. apply Hold. apply mapM_Some_1 in Em. unfold clean. cbn [addresses].
      induction Em as [|[n i] [n' x] fs l E _ IH]; cbn; [constructor|]. apply Forall_app. split; [|exact IH]. cbn in E. destruct (p_held s !! i) as [y|] eqn:Ei; [|discriminate E].
      apply Some_inj in E. apply pair_equal_spec in E as [_ <-]. exact (held_clean s i y A Ei).
    - destruct (p_held s !! i) as [v|] eqn:Ei; [|exact Stay]. destruct (p_held s !! k) as [x|] eqn:Ek; [|exact Stay]. destruct (slot v j) as [[p n]|] eqn:Es; [|exact Stay].
      destruct (cells (p_mem s) !! p) as [[xs|]|] eqn:Ec; try exact Stay. pose proof (clean_slot v j p n (held_clean s i v A Ei) Es) as Np. apply away_set; [exact A|exact Np|].
      apply clean_all. apply Forall_insert; [exact (clean_elems xs (w_cells _ A p _ Ec Np))|exact (held_clean s k x A Ek)].
    - destruct (p_held s !! k) as [x|] eqn:Ek; [|exact Stay]. apply away_alloc; [exact A|cbn; rewrite app_nil_r; exact (held_clean s k x A Ek)|].
      intros q Nq. constructor; [exact Nq|constructor].
    - destruct (mapM _ ks) as [xs|] eqn:Em; [|exact Stay]. apply away_alloc; [exact A| |intros q Nq; constructor; [exact Nq|constructor]].
      apply mapM_Some_1 in Em. apply clean_all. induction Em as [|i x ks xs E _ IH]; constructor; [exact (held_clean s i x A E)|exact IH].
    - destruct (p_held s !! i) as [[]|] eqn:Ei; try exact Stay. destruct (cells (p_mem s) !! p) as [[xs|]|]; try exact Stay. destruct (_ && _); [|exact Stay].
      apply Hold. exact (held_clean s i _ A Ei).
    - apply away_alloc; [exact A|constructor|]. intros q Nq. constructor; [exact Nq|constructor].
    - destruct (p_held s !! i) as [[]|] eqn:Ei; try exact Stay. destruct (cells (p_mem s) !! p) as [[|m]|]; try exact Stay.
      apply away_set; [exact A|exact (Forall_inv (held_clean s i _ A Ei))|constructor].
    - destruct (p_held s !! i) as [[]|] eqn:Ei; try exact Stay. destruct (cells (p_mem s) !! p) as [[|m]|]; try exact Stay.
      apply away_set; [exact A|exact (Forall_inv (held_clean s i _ A Ei))|constructor].
  Qed.
  Lemma away_run os : forall s, away s -> forall l, P l -> cells (p_mem (op_run s os)) !! l = cells (p_mem s) !! l.
  Proof using.
    induction os as [|o os IH]; intros s A l Hl; [reflexivity|]. cbn [op_run fold_left]. destruct (away_step s o A) as [A' E]. rewrite <- (E l Hl). exact (IH _ A' l Hl).
  Qed.
End untouched.
