(** What the client prints: the theorems' proofs. *)
From Coq Require Import ZArith String Ascii Lia.
From stdpp Require Import base list numbers strings pretty.
From Verif Require Import ChartModel TopModel RawModel RawSpec DecodeModel CodecTables CodecModel CodecSpec CodecNames JsonModel JsonSpec JsonProofs LineModel LineProofs TextModel TextProofs
  PrintModel PrintSpec PrintProofs.

Local Open Scope string_scope.
Local Open Scope list_scope.
Local Open Scope Z_scope.

(** * The create command *)

Lemma container_kept c : container_utf8 c -> client_container c = c.
Proof.
  destruct c as [[[n p] ns]|]; [|reflexivity]. intros (H1 & H2 & H3). cbn [client_container].
  rewrite (json_text_keeps _ H1), (json_text_keeps _ H2), (json_text_keeps _ H3). reflexivity.
Qed.

Lemma create_prints order heap order' base name c bs r t fs ms line :
  bytes bs -> ingest_bytes bs = Some r -> ingest (InBytes bs) = Ingested t -> decoder (t_syscall t) = Some fs ->
  server_members (r_args r) (t_syscall t) fs (t_argv t) = Some ms ->
  well_formed (t_comm t) -> In (t_error t) (map fst errno_names) -> Forall2 (survives (r_args r) (t_syscall t)) fs (t_argv t) ->
  container_utf8 c -> (forall l, order l ≡ₚ l) -> bytes heap ->
  line_of order' base false false c t (r_args r) = Some line ->
  exists e a b, received order heap name c t (r_args r) = Some e
    /\ line = txt "(" ++ ms_text (latency (t_start t) (t_finish t)) ++ txt "ms) " ++ a ++ right_align 9 (t_comm t) ++ b
    /\ create_line order' base false e = Some (a ++ right_align 11 (t_comm t) ++ b).
Proof.
  intros B R I D S W E F C O Hh L.
  destruct (proj2 (whole_event bs r t fs ms B R I D S) (conj W (conj E F)) order heap O Hh) as (Wc & We & Wm).
  destruct (ingest_decodes bs r t R I) as (fs' & D' & G). rewrite D in D'. injection D' as <-.
  set (e := ClientEvent (t_syscall t) name (client_comm t) (t_sid t) (client_error order t) (client_container c) fs ms).
  assert (A : client_arguments (client_printer order' base e) e = arguments (line_printer order' base (t_argv t)) (t_syscall t) (r_args r) (t_argv t)).
  { apply same_arguments; [reflexivity|exact D|exact S|]. intros N. exact (level_agrees (r_args r) (t_syscall t) fs (t_argv t) ms e D G S eq_refl N). }
  assert (K : ce_container e = c) by exact (container_kept c C). rewrite <- K in L.
  destruct (create_is_trace order' base e t (r_args r) line eq_refl Wc We A L) as (a & b & H1 & H2).
  exists e, a, b. split; [|split; [exact H1|exact H2]]. unfold received. rewrite D, Wm. reflexivity.
Qed.

(** * The watch command: a line can be read *)

Lemma cut_first {A} (x : A) a : forall a' b b', x ∉ a -> x ∉ a' -> a ++ x :: b = a' ++ x :: b' -> a = a' /\ b = b'.
Proof.
  induction a as [|y a IH]; intros [|y' a'] b b' H H' E.
  - injection E as ->. split; reflexivity.
  - injection E as -> _. destruct (H' (elem_of_list_here _ _)).
  - injection E as -> _. destruct (H (elem_of_list_here _ _)).
  - injection E as -> E. apply not_elem_of_cons in H as [_ H]. apply not_elem_of_cons in H' as [_ H'].
    destruct (IH a' b b' H H' E) as [-> ->]. split; reflexivity.
Qed.
Lemma cut_last {A} (x : A) a a' b b' : x ∉ b -> x ∉ b' -> a ++ x :: b = a' ++ x :: b' -> a = a' /\ b = b'.
Proof.
  intros H H' E. apply (f_equal (@List.rev A)) in E. rewrite !rev_app_distr in E. cbn [List.rev] in E. rewrite <- !app_assoc in E. cbn [app] in E.
  assert (N : forall l : list A, x ∉ l -> x ∉ List.rev l) by (intros l Hl; rewrite elem_of_list_In, <- in_rev, <- elem_of_list_In; exact Hl).
  apply cut_first in E as [E1 E2]; [|apply N, H|apply N, H'].
  apply (f_equal (@List.rev A)) in E1, E2. rewrite !rev_involutive in E1, E2. split; assumption.
Qed.

Definition freeb (x : Z) (bs : list Z) : bool := forallb (fun b => negb (b =? x)) bs.
Lemma freeb_free x bs : freeb x bs = true -> x ∉ bs.
Proof.
  unfold freeb. intros H I. rewrite forallb_forall in H. specialize (H x (proj1 (elem_of_list_In _ _) I)). rewrite Z.eqb_refl in H. discriminate H.
Qed.
Lemma digits_no_esc s : forall acc n, digits acc s = Some n -> 27 ∉ txt s.
Proof.
  induction s as [|c s IH]; intros acc n H; [apply not_elem_of_nil|]. cbn [digits] in H. destruct (digit c) as [d|] eqn:D; [|discriminate].
  change (txt (String c s)) with (Z.of_N (N_of_ascii c) :: txt s). apply not_elem_of_cons. split; [|exact (IH _ _ H)].
  unfold digit in D. intros E. rewrite <- E in D. discriminate.
Qed.
Lemma pretty_no_esc (z : Z) : 27 ∉ txt (pretty z).
Proof.
  unfold pretty, pretty_Z. destruct z as [|q|q].
  - apply freeb_free. reflexivity.
  - eapply digits_no_esc. exact (digits_pretty (N.pos q)).
  - rewrite txt_app. apply not_elem_of_app. split; [apply freeb_free; reflexivity|]. eapply digits_no_esc. exact (digits_pretty (N.pos q)).
Qed.
Lemma assoc_in {A} (l : list (Z * A)) z s : assoc_z l z = Some s -> In (z, s) l.
Proof.
  induction l as [|[k v] l IH]; [discriminate|]. cbn [assoc_z]. destruct (Z.eqb_spec k z) as [->|N]; [|right; apply IH; assumption].
  intros E. injection E as ->. left. reflexivity.
Qed.
Lemma errno_no_esc z : 27 ∉ txt (errno_to_string z).
Proof.
  unfold errno_to_string. destruct (assoc_z errno_names z) as [s|] eqn:E; [|apply freeb_free; reflexivity].
  apply assoc_in in E. assert (X : forallb (fun e => freeb 27 (txt (snd e))) errno_names = true) by (vm_compute; reflexivity).
  rewrite forallb_forall in X. apply freeb_free. exact (X _ E).
Qed.

Lemma ses_inj (s s' : Z) : txt " ses=" ++ txt (pretty s) ++ [10] = txt " ses=" ++ txt (pretty s') ++ [10] -> s = s'.
Proof.
  intros E. apply app_inv_head, app_inv_tail, txt_inj in E. apply (inj pretty) in E. exact E.
Qed.

Lemma watch_reads e e' args args' :
  27 ∉ fqdn (ce_container e) -> 27 ∉ fqdn (ce_container e') -> 27 ∉ ce_comm e -> 27 ∉ ce_comm e' ->
  40 ∉ ce_name e -> 40 ∉ ce_name e' -> watch_text e args = watch_text e' args' ->
  fqdn (ce_container e) = fqdn (ce_container e') /\ ce_comm e = ce_comm e' /\ ce_name e = ce_name e' /\ args = args'
  /\ errno_to_string (ce_error e) = errno_to_string (ce_error e') /\ ce_sid e = ce_sid e'.
Proof.
  intros Hf Hf' Hc Hc' Hn Hn' E. unfold watch_text in E.
  apply app_inv_head, app_inv_head in E.
  assert (E1 : (fqdn (ce_container e) ++ txt ":") ++ 27 :: (txt "[0m [" ++ [27] ++ txt "[4m" ++ ce_comm e
     ++ [27] ++ txt "[0m] " ++ ce_name e ++ txt "(" ++ args ++ txt ") err=" ++ coloured_error (ce_error e)
     ++ txt " ses=" ++ txt (pretty (ce_sid e)) ++ [10])
   = (fqdn (ce_container e') ++ txt ":") ++ 27 :: (txt "[0m [" ++ [27] ++ txt "[4m" ++ ce_comm e'
     ++ [27] ++ txt "[0m] " ++ ce_name e' ++ txt "(" ++ args' ++ txt ") err=" ++ coloured_error (ce_error e')
     ++ txt " ses=" ++ txt (pretty (ce_sid e')) ++ [10])) by (rewrite <- !app_assoc; exact E).
  assert (N : forall c, 27 ∉ c -> 27 ∉ c ++ txt ":") by (intros c H; apply not_elem_of_app; split; [exact H|apply freeb_free; reflexivity]).
  apply cut_first in E1 as [E0 E1]; [|apply N; exact Hf|apply N; exact Hf']. apply app_inv_tail in E0. clear E N.
  apply app_inv_head, app_inv_head, app_inv_head in E1.
  change ([27] ++ ?x) with (27 :: x) in E1.
  apply cut_first in E1 as [E2 E1]; [|exact Hc|exact Hc']. apply app_inv_head in E1.
  change (txt "(") with [40] in E1. change ([40] ++ ?x) with (40 :: x) in E1.
  apply cut_first in E1 as [E3 E1]; [|exact Hn|exact Hn'].
  unfold coloured_error in E1.
  assert (E4 : (args ++ txt ") err=" ++ [27] ++ txt (if ce_error e =? 0 then "[1;32m" else "[1;31m") ++ txt (errno_to_string (ce_error e)))
       ++ 27 :: (txt "[0m" ++ txt " ses=" ++ txt (pretty (ce_sid e)) ++ [10])
     = (args' ++ txt ") err=" ++ [27] ++ txt (if ce_error e' =? 0 then "[1;32m" else "[1;31m") ++ txt (errno_to_string (ce_error e')))
       ++ 27 :: (txt "[0m" ++ txt " ses=" ++ txt (pretty (ce_sid e')) ++ [10])).
  { clear -E1. rewrite <- !app_assoc in *. exact E1. }
  assert (N : forall s : Z, 27 ∉ txt "[0m" ++ txt " ses=" ++ txt (pretty s) ++ [10]).
  { intros s. rewrite !not_elem_of_app. repeat split; try (apply freeb_free; reflexivity). apply pretty_no_esc. }
  apply cut_last in E4 as [E4 E5]; [|apply N|apply N]. apply app_inv_head, ses_inj in E5.
  assert (E6 : (args ++ txt ") err=") ++ 27 :: (txt (if ce_error e =? 0 then "[1;32m" else "[1;31m") ++ txt (errno_to_string (ce_error e)))
     = (args' ++ txt ") err=") ++ 27 :: (txt (if ce_error e' =? 0 then "[1;32m" else "[1;31m") ++ txt (errno_to_string (ce_error e'))))
    by (rewrite <- !app_assoc; exact E4).
  assert (M : forall z : Z, 27 ∉ txt (if z =? 0 then "[1;32m" else "[1;31m") ++ txt (errno_to_string z)).
  { intros z. rewrite !not_elem_of_app. split; [|apply errno_no_esc]. destruct (z =? 0); apply freeb_free; reflexivity. }
  apply cut_last in E6 as [E6 E7]; [|apply M|apply M]. apply app_inv_tail in E6.
  assert (E8 : errno_to_string (ce_error e) = errno_to_string (ce_error e')).
  { apply txt_inj. apply (f_equal (drop 6)) in E7.
    assert (Z6 : forall (z : Z) k, drop 6 (txt (if z =? 0 then "[1;32m" else "[1;31m") ++ k) = k) by (intros z k; destruct (z =? 0); reflexivity).
    rewrite !Z6 in E7. exact E7. }
  repeat split; assumption.
Qed.

(** * The watch command: every argument is there *)

Definition piece_eqb (a b : piece) : bool :=
  match a, b with
  | Lit s, Lit s' => String.eqb s s'
  | Value n g, Value n' g' => Nat.eqb n n' && Bool.eqb g g'
  | _, _ => false
  end.
Lemma piece_eqb_eq a b : piece_eqb a b = true -> a = b.
Proof.
  destruct a, b; cbn; try discriminate.
  - intros H. apply String.eqb_eq in H as ->. reflexivity.
  - intros H. apply andb_prop in H as [H1 H2]. apply Nat.eqb_eq in H1 as ->. apply Bool.eqb_prop in H2 as ->. reflexivity.
Qed.
Fixpoint pieces_eqb (a b : list piece) : bool :=
  match a, b with
  | [], [] => true
  | x :: a, y :: b => piece_eqb x y && pieces_eqb a b
  | _, _ => false
  end.
Lemma pieces_eqb_eq a : forall b, pieces_eqb a b = true -> a = b.
Proof.
  induction a as [|x a IH]; intros [|y b]; cbn; try discriminate; [reflexivity|].
  intros H. apply andb_prop in H as [H1 H2]. apply piece_eqb_eq in H1 as ->. apply IH in H2 as ->. reflexivity.
Qed.

Definition record_is (nr : Z) (m : string) (ref : bool) (s : shape) : bool :=
  match other_of nr m with Some (Record_ ref' s') => Bool.eqb ref ref' && pieces_eqb (pieces s) (pieces s') | _ => false end.
Definition fits (nr : Z) (src : source) (f : watch_field) : bool :=
  match src, f with
  | One m Raw, WText m' | One m Buf, WText m' => String.eqb m m'
  | One m Num, WNumber _ m' | One m Hex, WNumber _ m' => String.eqb m m'
  | One m Dir, WSays m' Dir | One m Sock, WSays m' Sock | One m Other, WSays m' Other => String.eqb m m'
  | One m Other, WStruct m' s => String.eqb m m' && record_is nr m false s
  | One m Other, WBehind _ m' s => String.eqb m m' && record_is nr m true s
  | One m Other, WAddrs m' => String.eqb m m' && match other_of nr m with Some Pointers => true | _ => false end
  | Words ms, WWords ms' => bool_decide (ms = ms')
  | _, _ => false
  end.

Lemma pieces_typed ps : forall bs, numbers_typed (write_pieces ps bs) (watch_pieces ps bs).
Proof.
  induction ps as [|[s|n g] ps IH]; intros bs; cbn [write_pieces watch_pieces].
  - constructor.
  - apply typed_text, IH.
  - apply typed_number, IH.
Qed.


Lemma fits_watched order base e src f bs w : fits (ce_nr e) src f = true ->
  client_arg (client_printer order base e) e src = Some bs -> watch_value (client_printer order base e) base e f = Some w -> watched_as src bs w.
Proof.
  intros F A W. destruct src as [m s|ms].
  - cbn [client_arg] in A. destruct (client_member_of e m) as [sh|] eqn:M; [|discriminate A]. injection A as <-.
    destruct s, f as [m'|ty m'|m' s'|m' s'|ty m' s'|m'|ms'|ty]; try discriminate F; try (destruct s'; discriminate F); cbn [fits] in F.
    + apply String.eqb_eq in F as <-. cbn [watch_value] in W. rewrite M in W. destruct sh; try discriminate W. apply Some_inj in W; subst w. constructor.
    + apply String.eqb_eq in F as <-. cbn [watch_value] in W. rewrite M in W. destruct sh; try discriminate W. apply Some_inj in W; subst w. constructor.
    + destruct s'; try discriminate F. apply String.eqb_eq in F as <-. cbn [watch_value] in W. rewrite M in W. apply Some_inj in W; subst w. constructor.
    + apply String.eqb_eq in F as <-. cbn [watch_value] in W. rewrite M in W. destruct sh; try discriminate W. apply Some_inj in W; subst w. constructor.
    + destruct s'; try discriminate F. apply String.eqb_eq in F as <-. cbn [watch_value] in W. rewrite M in W. apply Some_inj in W; subst w. constructor.
    + apply String.eqb_eq in F as <-. cbn [watch_value] in W. rewrite M in W. destruct sh; try discriminate W. apply Some_inj in W; subst w. constructor.
    + destruct s'; try discriminate F. apply String.eqb_eq in F as <-. cbn [watch_value] in W. rewrite M in W. apply Some_inj in W; subst w. constructor.
    + apply andb_prop in F as [F R]. apply String.eqb_eq in F as <-. cbn [watch_value] in W. rewrite M in W. destruct sh; try discriminate W. apply Some_inj in W; subst w.
      unfold record_is in R. destruct (other_of (ce_nr e) m) as [o|] eqn:O; [|discriminate R]. destruct o; try discriminate R.
      apply andb_prop in R as [R1 R2]. apply Bool.eqb_prop in R1 as <-. apply pieces_eqb_eq in R2.
      cbn [write_value client_printer p_other]. rewrite O. cbn [other_text app]. rewrite <- R2. apply as_struct, pieces_typed.
    + apply andb_prop in F as [F R]. apply String.eqb_eq in F as <-. cbn [watch_value] in W. rewrite M in W. destruct sh; try discriminate W. apply Some_inj in W; subst w.
      unfold record_is in R. destruct (other_of (ce_nr e) m) as [o|] eqn:O; [|discriminate R]. destruct o; try discriminate R.
      apply andb_prop in R as [R1 R2]. apply Bool.eqb_prop in R1 as <-. apply pieces_eqb_eq in R2.
      cbn [write_value client_printer p_other]. rewrite O. cbn [other_text]. rewrite <- R2. apply as_pointer.
    + apply andb_prop in F as [F R]. apply String.eqb_eq in F as <-. cbn [watch_value] in W. rewrite M in W. destruct sh; try discriminate W. apply Some_inj in W; subst w.
      destruct (other_of (ce_nr e) m) as [o|] eqn:O; [|discriminate R]. destruct o; try discriminate R.
      cbn [write_value client_printer p_other]. rewrite O. cbn [other_text]. apply as_struct.
      apply typed_text, typed_number, typed_text, typed_number. rewrite <- (app_nil_r (txt "}")). apply typed_text, typed_end.
  - destruct f as [m'|ty m'|m' s'|m' s'|ty m' s'|m'|ms'|ty]; try discriminate F. cbn [fits] in F. apply bool_decide_eq_true in F as <-.
    cbn [client_arg watch_value] in *. destruct (mapM _ ms) as [ws|]; [|discriminate A]. injection A as <-. apply Some_inj in W; subst w. constructor.
Qed.

Fixpoint aligned (nr : Z) (shs : list shown_arg) (fs : list watch_field) : bool :=
  match shs with
  | [] => true
  | sh :: shs' =>
      (fix go fs := match fs with
                    | [] => false
                    | f :: fs' => if fits nr (a_src sh) f then aligned nr shs' fs' else go fs'
                    end) fs
  end.

Lemma aligned_sublist order base e shs : forall fs args ws, aligned (ce_nr e) shs fs = true ->
  mapM (fun a => match client_arg (client_printer order base e) e (a_src a) with Some bs => Some (a_type a, a_label a, bs) | None => None end) shs = Some args ->
  mapM (watch_value (client_printer order base e) base e) fs = Some ws ->
  exists ws', sublist ws' ws /\ Forall2 (fun a w => watched_as (a_src (fst a)) (snd a) w) (zip shs (map snd args)) ws'.
Proof.
  induction shs as [|sh shs IH]; intros fs args ws A Ha Hw.
  - exists []. split; [apply sublist_nil_l|]. constructor.
  - cbn [mapM] in Ha. destruct (client_arg _ e (a_src sh)) as [bs|] eqn:B; [|discriminate Ha]. cbn in Ha.
    apply bind_Some in Ha as (args' & Ha & E). injection E as <-. cbn [aligned] in A.
    revert ws A Hw. induction fs as [|f fs IHf]; intros ws A Hw; [discriminate A|].
    cbn [mapM] in Hw. apply bind_Some in Hw as (w & W & Hw). apply bind_Some in Hw as (ws1 & Hw & E). injection E as <-.
    destruct (fits (ce_nr e) (a_src sh) f) eqn:F.
    + destruct (IH fs args' ws1 A Ha Hw) as (ws' & S & R). exists (w :: ws'). split; [apply sublist_skip, S|].
      cbn. constructor; [exact (fits_watched order base e _ f bs w F B W)|exact R].
    + destruct (IHf ws1 A Hw) as (ws' & S & R). exists ws'. split; [apply sublist_cons, S|exact R].
Qed.

(** Clone shows its flags last. *)
Definition turned {A} (nr : Z) (l : list A) : list A :=
  if nr =? 56 then match l with x :: l => l ++ [x] | [] => [] end else l.
Lemma turned_perm {A} nr (l : list A) : turned nr l ≡ₚ l.
Proof. unfold turned. destruct (nr =? 56); [|reflexivity]. destruct l as [|x l]; [reflexivity|]. rewrite Permutation_app_comm. reflexivity. Qed.
Lemma mapM_turned {A B} (f : A -> option B) nr l ws : mapM f l = Some ws -> mapM f (turned nr l) = Some (turned nr ws).
Proof.
  unfold turned. destruct (nr =? 56); [|exact (fun H => H)]. destruct l as [|x l]; [intros H; injection H as <-; reflexivity|].
  cbn [mapM]. intros H. apply bind_Some in H as (w & W & H). apply bind_Some in H as (ws1 & H & E). injection E as <-.
  rewrite mapM_Some in H |- *. apply Forall2_app; [exact H|]. constructor; [exact W|constructor].
Qed.

Definition all_aligned : bool :=
  forallb (fun c => match struct_of (fst (fst c)) with Some (_, fs) => aligned (fst (fst c)) (snd c) (turned (fst (fst c)) fs) | None => false end) calls.
Lemma all_aligned_true : all_aligned = true.
Proof. vm_compute. reflexivity. Qed.

Lemma watch_shows order base e name shs args line :
  call (ce_nr e) = Some (name, shs) -> client_arguments (client_printer order base e) e = Some args ->
  watch_line order base e = Some line ->
  exists (embedded : bool) ws ws', line = watch_text e (txt (if embedded then "&{{" else "&{") ++ join (txt " ") ws ++ txt (if embedded then "}}" else "}"))
    /\ ws' ⊆+ ws /\ (name <> "clone" -> sublist ws' ws)
    /\ Forall2 (fun a w => watched_as (a_src (fst a)) (snd a) w) (zip shs (map snd args)) ws'.
Proof.
  intros C A L. unfold watch_line, watch_args in L. destruct (struct_of (ce_nr e)) as [[emb fs]|] eqn:S; [|discriminate L].
  destruct (mapM _ fs) as [ws|] eqn:W; [|discriminate L]. injection L as <-. unfold client_arguments in A. rewrite C in A.
  assert (X : aligned (ce_nr e) shs (turned (ce_nr e) fs) = true).
  { unfold call in C. destruct (List.find _ calls) as [c|] eqn:F; [|discriminate C].
    apply find_some in F as [I E]. pose proof all_aligned_true as Y. unfold all_aligned in Y. rewrite forallb_forall in Y. specialize (Y _ I).
    apply Z.eqb_eq in E. rewrite E, S in Y. injection C as _ <-. exact Y. }
  destruct (aligned_sublist order base e shs _ args _ X A (mapM_turned _ _ _ _ W)) as (ws' & H1 & H2).
  exists emb, ws, ws'. split; [reflexivity|]. split; [rewrite <- (turned_perm (ce_nr e) ws); apply sublist_submseteq, H1|split; [|exact H2]].
  intros N. unfold turned in H1. destruct (ce_nr e =? 56) eqn:E; [|exact H1]. apply Z.eqb_eq in E. rewrite E in C. injection C as <- _. contradiction (N eq_refl).
Qed.

(** * Every event the client has is printed *)

Inductive class := CInt | CBytes | CSock | CAddrs.
Definition class_of (k : kind) : class :=
  match k with
  | KS32 | KU32 | KS64 | KU64 | KUnset => CInt
  | KSock => CSock
  | KAddrs => CAddrs
  | _ => CBytes
  end.
Definition in_class (c : class) (sh : shown) : bool :=
  match c, sh with
  | CInt, ShInt _ | CBytes, ShBytes _ | CSock, ShSock _ | CAddrs, ShAddrs _ => true
  | _, _ => false
  end.
Lemma member_class order heap raw nr f v m : decode_field raw f = Some v -> client_member order heap raw nr f v = Some m ->
  in_class (class_of (f_kind f)) (shown_of m) = true.
Proof.
  intros D C.
  assert (Y : forall o, match o with Some s => Some (of_shown s) | None => None end = Some m -> o = Some (shown_of m))
    by (intros [s|] Y; [injection Y as <-; destruct s; reflexivity|discriminate Y]).
  assert (V : forall o, vint o = Some v -> in_class CInt (shown_of m) = true).
  { intros [z|] H; [|discriminate H]. injection H as <-. cbn [client_member] in C. unfold client_int in C.
    destruct (jtype_of nr (f_name f)) as [|c|l| | |];
      repeat match type of C with match ?x with _ => _ end = _ => destruct x end; try discriminate C; injection C as <-; reflexivity. }
  unfold decode_field in D. destruct (f_kind f); cbn [class_of];
    try (exact (V _ D));
    try (destruct (read_bytes raw _ _) as [bs|] in D; [|discriminate D]);
    try (destruct (c64 raw _) as [z|] in D; [|discriminate D]);
    injection D as <-; cbn [client_member] in C.
  - injection C as <-. reflexivity.
  - apply Y in C. cbn [show] in C. destruct (_ <? 0); [discriminate C|]. destruct (read_bytes _ _ _); [|discriminate C]. injection C as <-. reflexivity.
  - apply Y in C. cbn [show] in C. destruct (_ <? 0); [discriminate C|]. destruct (read_bytes _ _ _); [|discriminate C]. injection C as <-. reflexivity.
  - apply Y in C. cbn [show] in C. destruct (_ <? 0); [discriminate C|]. destruct (read_bytes _ _ _); [|discriminate C]. injection C as <-. reflexivity.
  - injection C as <-. reflexivity.
  - apply Y in C. cbn [show] in C. destruct (read_bytes _ _ _); [|discriminate C]. injection C as <-. reflexivity.
  - apply Y in C. injection C as <-. reflexivity.
  - apply Y in C. injection C as <-. reflexivity.
  - exact (V (Some 0) eq_refl).
Qed.

Definition named (fs : list field) (name : string) : option class :=
  match List.find (fun f => String.eqb (f_name f) name) fs with Some f => Some (class_of (f_kind f)) | None => None end.
Lemma named_member order heap raw nr name c fs : forall vs ms, decode_fields raw fs = Some vs -> client_members order heap raw nr fs vs = Some ms ->
  named fs name = Some c ->
  exists m, List.find (fun m => String.eqb (f_name (fst m)) name) (combine fs ms) = Some m /\ in_class c (shown_of (snd m)) = true.
Proof.
  induction fs as [|f fs IH]; intros vs ms D M N; [discriminate N|]. cbn [decode_fields] in D.
  destruct (decode_field raw f) as [v|] eqn:Dv; [|discriminate D]. destruct (decode_fields raw fs) as [vs'|] eqn:Ds; [|discriminate D].
  injection D as <-. cbn [client_members] in M. destruct (client_member order heap raw nr f v) as [m|] eqn:Cm; [|discriminate M].
  destruct (client_members order heap raw nr fs vs') as [ms'|] eqn:Cs; [|discriminate M]. injection M as <-.
  cbn [combine List.find fst]. unfold named in N. cbn [List.find] in N. destruct (String.eqb (f_name f) name) eqn:E.
  - exists (f, m). split; [reflexivity|]. injection N as <-. exact (member_class order heap raw nr f v m Dv Cm).
  - exact (IH vs' ms' eq_refl Cs N).
Qed.

Definition is_class (c : class) (o : option class) : bool :=
  match c, o with CInt, Some CInt | CBytes, Some CBytes | CSock, Some CSock | CAddrs, Some CAddrs => true | _, _ => false end.
Definition src_ok (fs : list field) (src : source) : bool :=
  match src with
  | One m _ => match named fs m with Some _ => true | None => false end
  | Words ms => forallb (fun m => is_class CBytes (named fs m)) ms
  end.
Definition watch_ok (fs : list field) (f : watch_field) : bool :=
  match f with
  | WText m | WStruct m _ | WBehind _ m _ => is_class CBytes (named fs m)
  | WNumber _ m => is_class CInt (named fs m)
  | WSays m _ => match named fs m with Some _ => true | None => false end
  | WAddrs m => is_class CAddrs (named fs m)
  | WWords ms => forallb (fun m => is_class CBytes (named fs m)) ms
  | WUnset _ => true
  end.
Definition all_printed : bool :=
  forallb (fun d => match call (fst (fst d)), struct_of (fst (fst d)) with
                    | Some (_, shs), Some (_, wfs) => forallb (fun a => src_ok (snd d) (a_src a)) shs && forallb (watch_ok (snd d)) wfs
                    | _, _ => false
                    end) decoders.
Lemma all_printed_true : all_printed = true.
Proof. vm_compute. reflexivity. Qed.

Lemma is_class_eq c o : is_class c o = true -> o = Some c.
Proof. destruct c, o as [[]|]; try discriminate; reflexivity. Qed.
Lemma mapM_total {A B} (f : A -> option B) l : (forall x, In x l -> f x <> None) -> mapM f l <> None.
Proof.
  induction l as [|x l IH]; intros H; [discriminate|]. cbn. destruct (f x) as [y|] eqn:E; [|destruct (H x (or_introl eq_refl) E)]. cbn.
  destruct (mapM f l) eqn:F; [discriminate|]. destruct (IH (fun z I => H z (or_intror I)) eq_refl).
Qed.

Lemma every_event order heap order' base name c t raw e fs : decoder (t_syscall t) = Some fs -> decode_fields raw fs = Some (t_argv t) ->
  received order heap name c t raw = Some e -> (forall tty, create_line order' base tty e <> None) /\ watch_line order' base e <> None.
Proof.
  intros D F R. unfold received in R. rewrite D in R. destruct (client_members order heap raw (t_syscall t) fs (t_argv t)) as [ms|] eqn:M; [|discriminate R].
  apply Some_inj in R. pose proof all_printed_true as P. unfold all_printed in P. rewrite forallb_forall in P. unfold decoder in D.
  destruct (List.find _ decoders) as [d|] eqn:Fd; [|discriminate D]. injection D as <-. apply find_some in Fd as [I E]. apply Z.eqb_eq in E.
  specialize (P _ I). rewrite E in P. assert (K : ce_nr e = t_syscall t) by (subst e; reflexivity).
  assert (Hm : forall m cl, named (snd d) m = Some cl -> exists sh, client_member_of e m = Some sh /\ in_class cl sh = true).
  { intros m cl N. destruct (named_member order heap raw (t_syscall t) m cl _ _ _ F M N) as ((f & x) & E1 & E2). exists (shown_of x). split; [|exact E2].
    subst e. unfold client_member_of. cbn [ce_fields ce_members]. rewrite E1. reflexivity. }
  clear R M F. destruct (call (t_syscall t)) as [[nm shs]|] eqn:C; [|discriminate P]. destruct (struct_of (t_syscall t)) as [[emb wfs]|] eqn:S; [|discriminate P].
  apply andb_prop in P as [P1 P2]. rewrite forallb_forall in P1, P2.
  assert (W : forall ns, forallb (fun m => is_class CBytes (named (snd d) m)) ns = true -> mapM (fun n => bytes_shown (client_member_of e n)) ns <> None).
  { intros ns H. apply mapM_total. intros n In_. rewrite forallb_forall in H. specialize (H _ In_). apply is_class_eq in H. destruct (Hm _ _ H) as (sh & -> & Q).
    destruct sh; try discriminate Q. discriminate. }
  split.
  - intros tty. unfold create_line, client_arguments. rewrite K, C.
    destruct (mapM _ shs) as [l|] eqn:L; [discriminate|]. exfalso. revert L. apply mapM_total. intros a Ia. specialize (P1 _ Ia).
    destruct (a_src a) as [m s|ns]; cbn [src_ok client_arg] in *.
    + destruct (named (snd d) m) as [cl|] eqn:N; [|discriminate P1]. destruct (Hm _ _ N) as (sh & -> & _). discriminate.
    + specialize (W ns P1). destruct (mapM _ ns); [discriminate|contradiction].
  - unfold watch_line, watch_args. rewrite K, S. destruct (mapM _ wfs) as [l|] eqn:L; [discriminate|]. exfalso. revert L. apply mapM_total. intros f If. specialize (P2 _ If).
    destruct f as [m|ty m|m s|m s|ty m s|m|ns|ty]; cbn [watch_ok watch_value] in *;
      try (apply is_class_eq in P2; destruct (Hm _ _ P2) as (sh & -> & Q); destruct sh; try discriminate Q; discriminate).
    + destruct (named (snd d) m) as [cl|] eqn:N; [|discriminate P2]. destruct (Hm _ _ N) as (sh & -> & _). discriminate.
    + specialize (W ns P2). destruct (mapM _ ns); [discriminate|contradiction].
    + discriminate.
Qed.
