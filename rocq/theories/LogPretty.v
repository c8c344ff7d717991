(** The client's log and the program that prints it. *)
From Coq Require Import ZArith String Ascii Lia.
From stdpp Require Import base list numbers strings pretty gmap.
From Verif Require Import TopModel SyscallTable SyscallModel SyscallSpec SyscallProofs TopoModel RawModel RawSpec RawProofs DecodeModel CodecTables CodecModel CodecSpec CodecNames JsonModel JsonSpec JsonProofs LineModel LineProofs TextModel
  MsgModel MsgSpec MsgProofs MsgBound MsgRead ReadSpec ReadProofs ReadTop PrintModel PrintProofs PrintTop UnmarshalModel UnmarshalSpec UnmarshalProofs UnmarshalTop LogModel LogSpec LogProofs LogTop LogSame.
From Verif Require ThroughProofs MsgProps.

Local Open Scope string_scope.
Local Open Scope list_scope.
Local Open Scope Z_scope.

Local Notation Read := UnmarshalModel.Read.

(** * Every event that is read is printed *)

Lemma un_member_class order heap base nr f j m : un_member order heap base nr f j = Some m -> in_class (class_of (f_kind f)) (shown_of m) = true.
Proof.
  assert (Hi : un_int order nr (f_name f) j = Some m -> in_class CInt (shown_of m) = true).
  { unfold un_int. intros E. destruct (jtype_of nr (f_name f)) as [|c|l| | |]; destruct j; try discriminate;
      repeat match type of E with match ?x with _ => _ end = _ => destruct x end; try discriminate; apply Some_inj in E; subst m; reflexivity. }
  unfold un_member. destruct (f_kind f); cbn [class_of]; try exact Hi; destruct j as [| | |s| |ms]; try discriminate.
  - intros E. apply Some_inj in E. subst m. reflexivity.
  - destruct (unb64 s); [|discriminate]. intros E. apply Some_inj in E. subst m. reflexivity.
  - destruct (unb64 s); [|discriminate]. intros E. apply Some_inj in E. subst m. reflexivity.
  - destruct (unb64 s); [|discriminate]. intros E. apply Some_inj in E. subst m. reflexivity.
  - unfold un_sockaddr. destruct (un_struct _ ms); [|discriminate]. intros E. apply Some_inj in E. subst m. reflexivity.
  - destruct (un_struct _ ms); [|discriminate]. intros E. apply Some_inj in E. subst m. reflexivity.
  - destruct (un_struct _ ms); [|discriminate]. intros E. apply Some_inj in E. subst m. reflexivity.
  - destruct (num_at ms "Sec"); [|discriminate]. destruct (num_at ms "Nsec"); [|discriminate]. intros E. apply Some_inj in E. subst m. reflexivity.
Qed.
Lemma class_named fs : forall (ms : list JsonModel.member) name c, Forall2 (fun f m => in_class (class_of (f_kind f)) (shown_of m) = true) fs ms -> named fs name = Some c ->
  exists m, List.find (fun m => String.eqb (f_name (fst m)) name) (combine fs ms) = Some m /\ in_class c (shown_of (snd m)) = true.
Proof.
  induction fs as [|f fs IH]; intros ms name c F N; [discriminate N|]. inversion F as [|? m ? ms' Hm F']; subst. cbn [combine List.find fst].
  unfold named in N. cbn [List.find] in N. destruct (String.eqb (f_name f) name).
  - exists (f, m). split; [reflexivity|]. injection N as <-. exact Hm.
  - exact (IH ms' name c F' N).
Qed.

Lemma un_event_read order heap base j e : un_event order heap base j = Read e ->
  decoder (ce_nr e) = Some (ce_fields e) /\ Forall2 (fun f m => in_class (class_of (f_kind f)) (shown_of m) = true) (ce_fields e) (ce_members e).
Proof.
  unfold un_event. destruct j as [| | | | |l]; try discriminate. intros E.
  destruct (un_syscall l) as [sc|]; [|discriminate]. destruct (UnmarshalModel.text_at l "comm") as [comm|]; [|discriminate]. destruct (num_at l "session") as [sid|]; [|discriminate].
  destruct (un_error order l) as [er|]; [|discriminate]. destruct (un_container l) as [c|]; [|discriminate].
  destruct (forallb _ numbers); [|discriminate]. destruct sc as [[nr name]|]; [|discriminate]. destruct (decoder nr) as [fs|] eqn:D; [|discriminate].
  destruct (member_of l "args") as [a|]; [|discriminate]. destruct (args_members nr a) as [ms|]; [|destruct a; discriminate].
  destruct (forallb (present ms) fs); [|discriminate]. destruct (mapM _ fs) as [vs|] eqn:M; [|discriminate]. injection E as <-. cbn [ce_nr ce_fields ce_members].
  split; [exact D|]. apply mapM_forall2 in M. eapply Forall2_impl; [exact M|]. intros f m H. cbv beta in H. destruct (argument_of ms (f_name f)) as [j|]; [|discriminate].
  exact (un_member_class _ _ _ _ _ _ _ H).
Qed.

Lemma read_is_printed order heap base j e order' base' : un_event order heap base j = Read e ->
  (forall tty, pretty_line order' base' tty e <> None) /\ (forall tty, create_line order' base' tty e <> None) /\ watch_line order' base' e <> None.
Proof.
  intros R. destruct (un_event_read _ _ _ _ _ R) as [D F]. pose proof all_printed_true as P. unfold all_printed in P. rewrite forallb_forall in P. unfold decoder in D.
  destruct (List.find _ decoders) as [d|] eqn:Fd; [|discriminate D]. apply Some_inj in D. apply find_some in Fd as [I E]. apply Z.eqb_eq in E.
  specialize (P _ I). rewrite E, D in P. rewrite <- ?D in *.
  assert (Hm : forall m cl, named (snd d) m = Some cl -> exists sh, client_member_of e m = Some sh /\ in_class cl sh = true).
  { intros m cl N. rewrite D in N. rewrite D in F. destruct (class_named _ _ m cl F N) as ((f & x) & E1 & E2). exists (shown_of x). split; [|exact E2].
    unfold client_member_of. rewrite E1. reflexivity. }
  clear R F. destruct (call (ce_nr e)) as [[nm shs]|] eqn:C; [|discriminate P]. destruct (struct_of (ce_nr e)) as [[emb wfs]|] eqn:S; [|discriminate P].
  apply andb_prop in P as [P1 P2]. rewrite forallb_forall in P1, P2.
  assert (W : forall ns, forallb (fun m => is_class CBytes (named (snd d) m)) ns = true -> mapM (fun n => bytes_shown (client_member_of e n)) ns <> None).
  { intros ns H. apply mapM_total. intros n In_. rewrite forallb_forall in H. specialize (H _ In_). apply is_class_eq in H. destruct (Hm _ _ H) as (sh & -> & Q).
    destruct sh; try discriminate Q. discriminate. }
  assert (A : client_arguments (client_printer order' base' e) e <> None).
  { unfold client_arguments. rewrite C. apply mapM_total. intros a Ia. specialize (P1 _ Ia).
    destruct (a_src a) as [m s|ns]; cbn [src_ok client_arg] in *.
    + destruct (named (snd d) m) as [cl|] eqn:N; [|discriminate P1]. destruct (Hm _ _ N) as (sh & -> & _). discriminate.
    + specialize (W ns P1). destruct (mapM _ ns); [discriminate|contradiction]. }
  split; [|split].
  - intros tty. unfold pretty_line. rewrite C. destruct (client_arguments _ _); [discriminate|contradiction].
  - intros tty. unfold create_line. rewrite C. destruct (client_arguments _ _); [discriminate|contradiction].
  - unfold watch_line, watch_args. rewrite S. destruct (mapM _ wfs) as [l|] eqn:L; [discriminate|]. exfalso. revert L. apply mapM_total. intros f If. specialize (P2 _ If).
    destruct f as [m|ty m|m s|m s|ty m s|m|ns|ty]; cbn [watch_ok watch_value] in *;
      try (apply is_class_eq in P2; destruct (Hm _ _ P2) as (sh & -> & Q); destruct sh; try discriminate Q; discriminate).
    + destruct (named (snd d) m) as [cl|] eqn:N; [|discriminate P2]. destruct (Hm _ _ N) as (sh & -> & _). discriminate.
    + specialize (W ns P2). destruct (mapM _ ns); [discriminate|contradiction].
    + discriminate.
Qed.

(** * The order of the maps does not matter *)

Lemma un_event_any order order' heap base j : (forall l, order l ≡ₚ l) -> (forall l, order' l ≡ₚ l) -> un_event order heap base j = un_event order' heap base j.
Proof.
  intros O O'. unfold un_event. destruct j as [| | | | |l]; try reflexivity. rewrite (ThroughProofs.un_error_any order order') by assumption.
  assert (X : forall nr ms fs, mapM (fun f => match argument_of ms (f_name f) with Some j => un_member order heap base nr f j | None => None end) fs
                             = mapM (fun f => match argument_of ms (f_name f) with Some j => un_member order' heap base nr f j | None => None end) fs).
  { intros nr ms fs. induction fs as [|f fs IH]; [reflexivity|]. cbn [mapM]. rewrite IH.
    destruct (argument_of ms (f_name f)) as [j|]; [|reflexivity].
    assert (E : un_member order heap base nr f j = un_member order' heap base nr f j).
    { unfold un_member. rewrite (ThroughProofs.un_int_any order order') by assumption. reflexivity. }
    rewrite E. reflexivity. }
  destruct (un_syscall l) as [sc|]; [|reflexivity]. destruct (UnmarshalModel.text_at l "comm") as [comm|]; [|reflexivity]. destruct (num_at l "session") as [sid|]; [|reflexivity].
  destruct (un_error order' l) as [er|]; [|reflexivity]. destruct (un_container l) as [c|]; [|reflexivity].
  destruct (forallb _ numbers); [|reflexivity]. destruct sc as [[nr name]|]; [|reflexivity]. destruct (decoder nr) as [fs|]; [|reflexivity].
  destruct (member_of l "args") as [a|]; [|reflexivity]. destruct (args_members nr a) as [ms|]; [|reflexivity]. rewrite X. reflexivity.
Qed.

(** * A written line is read *)

Lemma line_reads order heap ep h order' heap' base' : well_held h ->
  read_log order' heap' base' (jtext (line_tree order heap ep h)) = un_event order' heap' base' (norm (held_tree order heap h)).
Proof.
  intros W. destruct (line_tree_ok order heap ep h W) as [_ G]. unfold read_log.
  pose proof (read_text _ [] G eq_refl) as R. rewrite app_nil_r in R. rewrite R. unfold line_tree. rewrite !norm_tobj by keys. cbn [map fst snd]. rewrite norm_tobj by keys. cbn [map fst snd].
  unfold js_obj. cbn [map fst snd]. set (ms := [_; _]).
  assert (E : endpoint_ok ms = true) by reflexivity. rewrite E.
  change (member_of ms "payload") with (Some (norm (held_tree order heap h))). reflexivity.
Qed.

Lemma line_starts order heap ep h : exists t, jtext (line_tree order heap ep h) = 123 :: 34 :: t.
Proof. unfold line_tree. rewrite tobj_text. cbn [map fst snd]. unfold obj. eexists. reflexivity. Qed.
Lemma line_ends order heap ep h : exists t, jtext (line_tree order heap ep h) = t ++ [125].
Proof. unfold line_tree. rewrite tobj_text. cbn [map fst snd]. unfold obj. rewrite app_assoc. eexists. reflexivity. Qed.

Lemma line_step order heap ep h order' heap' base' tty : well_held h ->
  pretty_step order' heap' base' tty (jtext (line_tree order heap ep h))
  = match un_event order' heap' base' (norm (held_tree order heap h)) with
    | Read e => pretty_line order' base' tty e
    | Skipped => Some []
    | _ => None
    end.
Proof.
  intros W. rewrite <- (line_reads order heap ep h order' heap' base' W). destruct (line_starts order heap ep h) as [t E]. rewrite E.
  unfold pretty_step. change (123 =? 10) with false. change (34 =? 13) with false. cbv iota. destruct (read_log _ _ _ _); reflexivity.
Qed.
Lemma line_goes_on order heap ep h order' heap' base' tty : well_held h ->
  pretty_step order' heap' base' tty (jtext (line_tree order heap ep h)) <> None.
Proof.
  intros W. rewrite line_step by exact W. destruct (held_tree_read order heap h W order' heap' base') as [E|[e E]]; rewrite E; [discriminate|].
  exact (proj1 (read_is_printed _ _ _ _ _ order' base' E) tty).
Qed.

(** * Lines *)

Lemma scan_line b : forall line rest, ~ In 10 b -> Z.of_nat (length line + length b) < 65536 ->
  scan line (b ++ 10 :: rest) = let '(ls, ok) := scan [] rest in (drop_cr (line ++ b) :: ls, ok).
Proof.
  induction b as [|x b IH]; intros line rest N L.
  - cbn [app scan length] in *. change (10 =? 10) with true. cbv iota. destruct (Z.leb_spec 65536 (Z.of_nat (length line))); [lia|].
    rewrite app_nil_r. reflexivity.
  - cbn [app scan length In] in *. destruct (Z.eqb_spec x 10) as [->|_]; [exfalso; apply N; left; reflexivity|].
    rewrite (IH (line ++ [x]) rest); [|intros I; apply N; right; exact I|rewrite app_length; cbn [length]; lia].
    rewrite <- app_assoc. reflexivity.
Qed.
Lemma drop_cr_brace t : drop_cr (t ++ [125]) = t ++ [125].
Proof. unfold drop_cr. rewrite last_snoc. reflexivity. Qed.

Definition short_line (bs : list Z) : Prop := Z.of_nat (length bs) <= 65536.
(** A line and what it makes the program print. *)
Definition step_of (order : list (Z * string) -> list (Z * string)) (heap : list Z) (base : Z) (tty : bool) (line out : list Z) : Prop :=
  exists body, line = body ++ [10] /\ ~ In 10 body /\ drop_cr body = body /\ pretty_step order heap base tty body = Some out.
Lemma lines_printed order heap base tty l outs : Forall2 (fun line out => short_line line /\ step_of order heap base tty line out) l outs ->
  pretty_logs order heap base tty (concat l) = (concat outs, true).
Proof.
  intros F. assert (X : exists bodies, scan [] (concat l) = (bodies, true) /\ pretty_lines order heap base tty bodies = (concat outs, true)).
  { induction F as [|line out l outs [S (body & -> & N & C & P)] F IH]; [exists []; split; reflexivity|].
    destruct IH as (bodies & E1 & E2). exists (body :: bodies). split.
    - cbn [concat]. rewrite <- app_assoc. cbn [app]. unfold short_line in S. rewrite app_length in S. cbn [length] in S.
      rewrite scan_line by (cbn [length]; try assumption; lia). rewrite E1. cbn [app]. rewrite C. reflexivity.
    - cbn [pretty_lines concat]. rewrite P, E2. reflexivity. }
  destruct X as (bodies & E1 & E2). unfold pretty_logs. rewrite E1, E2. reflexivity.
Qed.

Lemma written_step order heap ep h order' heap' base' tty : well_held h ->
  exists out, step_of order' heap' base' tty (log_line order heap ep h) out
    /\ Some out = match un_event order' heap' base' (norm (held_tree order heap h)) with Read e => pretty_line order' base' tty e | Skipped => Some [] | _ => None end.
Proof.
  intros W. destruct (line_tree_ok order heap ep h W) as [E G]. pose proof (line_goes_on order heap ep h order' heap' base' tty W) as N.
  destruct (pretty_step order' heap' base' tty (jtext (line_tree order heap ep h))) as [out|] eqn:P; [|contradiction]. exists out. split.
  - exists (jtext (line_tree order heap ep h)). split; [exact E|]. split; [|split; [|exact P]].
    + intros I10. pose proof (jtext_line _ G) as L. unfold line in L. rewrite Forall_forall in L. exact (L 10 (proj2 (elem_of_list_In _ _) I10) eq_refl).
    + destruct (line_ends order heap ep h) as [t ->]. apply drop_cr_brace.
  - rewrite <- P. apply line_step, W.
Qed.

(** * What is printed *)

Lemma pretty_is_trace order base e t raw line : ce_nr e = t_syscall t -> ce_comm e = t_comm t -> ce_error e = t_error t ->
  client_arguments (client_printer order base e) e = arguments (line_printer order base (t_argv t)) (t_syscall t) raw (t_argv t) ->
  line_of order base false false (ce_container e) t raw = Some line ->
  exists a b, line = txt "(" ++ ms_text (latency (t_start t) (t_finish t)) ++ txt "ms) " ++ a ++ right_align 9 (t_comm t) ++ b
    /\ pretty_line order base false e = Some (a ++ right_align 8 (t_comm t) ++ b).
Proof.
  intros N C E A H. unfold line_of, cli_output in H. unfold pretty_line. rewrite N, A.
  destruct (call (t_syscall t)) as [[name shs]|]; [|discriminate H].
  destruct (arguments _ _ _ _) as [args|]; [|discriminate H]. apply (f_equal (fun x => match x with Some y => y | None => [] end)) in H. cbn iota in H. subst line.
  exists (right_align 35 (fqdn (ce_container e)) ++ txt ": ["),
    (txt "] (" ++ right_align 11 (error_text false (t_error t)) ++ txt ") " ++ txt name ++ txt "("
     ++ join (txt ", ") (map (one_arg false) args) ++ txt ")" ++ [10]).
  split.
  - unfold header, latency_text, paint. cbn [p_ms line_printer]. rewrite <- !app_assoc. reflexivity.
  - assert (X : map (pretty_arg false) args = map (one_arg false) args) by (apply map_ext; intros [[ty lb] bs]; reflexivity).
    unfold bold, paint. rewrite C, E, X. rewrite <- !app_assoc. reflexivity.
Qed.

Lemma received_is order heap name c bs r t fs ms :
  bytes bs -> ingest_bytes bs = Some r -> ingest (InBytes bs) = Ingested t -> decoder (t_syscall t) = Some fs ->
  server_members (r_args r) (t_syscall t) fs (t_argv t) = Some ms ->
  well_formed (t_comm t) -> In (t_error t) (map fst errno_names) -> Forall2 (survives (r_args r) (t_syscall t)) fs (t_argv t) ->
  PrintSpec.container_utf8 c -> (forall l, order l ≡ₚ l) -> bytes heap ->
  received order heap name c t (r_args r) = Some (ClientEvent (t_syscall t) name (t_comm t) (t_sid t) (t_error t) c fs ms).
Proof.
  intros B R I D S W E F C O Hh.
  destruct (proj2 (whole_event bs r t fs ms B R I D S) (conj W (conj E F)) order heap O Hh) as (Wc & We & Wm).
  unfold received. rewrite D, Wm, Wc, We. do 2 f_equal. exact (container_kept c C).
Qed.
Lemma pretty_prints order base name c bs r t fs ms line :
  bytes bs -> ingest_bytes bs = Some r -> ingest (InBytes bs) = Ingested t -> decoder (t_syscall t) = Some fs ->
  server_members (r_args r) (t_syscall t) fs (t_argv t) = Some ms ->
  line_of order base false false c t (r_args r) = Some line ->
  exists a b, line = txt "(" ++ ms_text (latency (t_start t) (t_finish t)) ++ txt "ms) " ++ a ++ right_align 9 (t_comm t) ++ b
    /\ pretty_line order base false (ClientEvent (t_syscall t) name (t_comm t) (t_sid t) (t_error t) c fs ms) = Some (a ++ right_align 8 (t_comm t) ++ b).
Proof.
  intros B R I D S L.
  destruct (ingest_decodes bs r t R I) as (fs' & D' & G). rewrite D in D'. injection D' as <-.
  set (e := ClientEvent _ _ _ _ _ _ _ _).
  assert (A : client_arguments (client_printer order base e) e = arguments (line_printer order base (t_argv t)) (t_syscall t) (r_args r) (t_argv t)).
  { apply same_arguments; [reflexivity|exact D|exact S|]. intros N. exact (level_agrees (r_args r) (t_syscall t) fs (t_argv t) ms e D G S eq_refl N). }
  exact (pretty_is_trace order base e t (r_args r) line eq_refl eq_refl eq_refl A L).
Qed.

(** * The server's messages *)

Lemma json_text_bytes n : forall bs, (length bs <= n)%nat -> bytes bs -> bytes (json_text bs).
Proof.
  induction n as [|n IH]; intros bs H Hb; [destruct bs; [constructor|cbn in H; lia]|].
  destruct bs as [|b0 t]; [constructor|]. cbn [length] in H.
  inversion Hb as [|? ? Hb0 Hbt]; subst. change (bytes t) in Hbt.
  assert (Hbad : bytes ([239; 191; 189] ++ json_text t)) by (cbn [app]; repeat (constructor; [lia|]); apply IH; [lia|exact Hbt]).
  cbn [json_text].
  destruct (Z.ltb_spec b0 128).
  { constructor; [lia|]. apply IH; [lia|exact Hbt]. }
  destruct t as [|b1 t1]; [exact Hbad|]. cbn [length] in H. inversion Hbt as [|? ? Hb1 Hbt1]; subst. change (bytes t1) in Hbt1.
  destruct (seq2 b0 b1) eqn:E2.
  { constructor; [lia|]. constructor; [lia|]. apply IH; [lia|exact Hbt1]. }
  destruct t1 as [|b2 t2]; [exact Hbad|]. cbn [length] in H. inversion Hbt1 as [|? ? Hb2 Hbt2]; subst. change (bytes t2) in Hbt2.
  destruct (seq3 b0 b1 b2) eqn:E3.
  { repeat (constructor; [lia|]). apply IH; [lia|exact Hbt2]. }
  destruct t2 as [|b3 t3]; [exact Hbad|]. cbn [length] in H. inversion Hbt2 as [|? ? Hb3 Hbt3]; subst. change (bytes t3) in Hbt3.
  destruct (seq4 b0 b1 b2 b3) eqn:E4; [|exact Hbad].
  repeat (constructor; [lia|]). apply IH; [lia|exact Hbt3].
Qed.
Lemma norm_good : forall j, good j -> good (norm j).
Proof.
  fix IH 1. intros [|b|z|bs|l|l] G; try exact I.
  - exact (json_text_bytes _ bs (Nat.le_refl _) G).
  - apply good_arr. apply good_arr in G. induction l as [|x l IHl]; [constructor|]. apply Forall_cons in G as [Gx G]. cbn [map]. constructor; [exact (IH x Gx)|exact (IHl G)].
  - rewrite norm_members. apply good_obj. apply good_obj in G. induction l as [|[k v] l IHl]; [constructor|]. apply Forall_cons in G as [[Gk Gv] G]. cbn [map fst snd] in *.
    constructor; [|exact (IHl G)]. split; [exact (json_text_bytes _ k (Nat.le_refl _) Gk)|exact (IH v Gv)].
Qed.
Lemma message_good p sc c bs t r fs msg j : reasonable p -> bytes bs -> ingest (InBytes bs) = Ingested t ->
  ingest_bytes bs = Some r -> decoder (t_syscall t) = Some fs -> message p sc c (r_args r) t = Some msg -> read_json msg = Some j -> good j.
Proof.
  intros Hp Hb Hi Hr Hfs Hm Hj'.
  destruct (ingested bs t Hb Hi) as (r' & fs' & Hr' & Hba & H640 & Hd & Hv & _).
  assert (r' = r) as -> by congruence. assert (fs' = fs) as -> by congruence.
  unfold message in Hm. destruct (args_text p (r_args r) (t_syscall t) (t_argv t)) as [a|] eqn:Ea; [|discriminate].
  apply Some_inj in Hm.
  destruct (args_tree p (r_args r) (t_syscall t) fs (t_argv t) a Hba (re_heap p Hp) (re_base p Hp) Hd Hv Ea)
    as (ja & Hj & Hg & Hs).
  destruct (syscall_tree sc) as (S1 & S2 & S3). destruct (container_tree c) as (C1 & C2 & C3).
  assert (E : msg = jtext (tevent sc c t ja) ++ [10]).
  { rewrite <- Hm. unfold tevent. rewrite tobj_text. cbn [map fst snd]. rewrite S1, C1, Hj. reflexivity. }
  assert (G : good (tevent sc c t ja)).
  { apply good_tobj. repeat (constructor; [first [exact I|exact S2|exact C2|exact Hg|apply txt_bytes|
      exact (comm_bytes bs t Hb Hi)]|]). constructor. }
  rewrite E, (read_text _ _ G) in Hj' by reflexivity. apply Some_inj in Hj'. subst j. apply norm_good, G.
Qed.

Lemma container_small c : utf8_container c -> PrintSpec.container_utf8 (names_of c).
Proof. destruct c as [c|]; [|trivial]. cbn. tauto. Qed.

(** The log line of a surviving event is printed as swoll trace prints the event. *)
Lemma logged_is_printed p tbl c order heap ep order' heap' bs r t fs srv line msg : go_table tbl -> reasonable p ->
  bytes bs -> ingest_bytes bs = Some r -> ingest (InBytes bs) = Ingested t -> decoder (t_syscall t) = Some fs ->
  server_members (r_args r) (t_syscall t) fs (t_argv t) = Some srv ->
  well_formed (t_comm t) -> In (t_error t) (map fst errno_names) -> Forall2 (survives (r_args r) (t_syscall t)) fs (t_argv t) ->
  utf8_container c -> (forall l, order l ≡ₚ l) -> (forall l, order' l ≡ₚ l) -> bytes heap' ->
  line_of order' (j_base p) false false (names_of c) t (r_args r) = Some line ->
  message p (lookup_sc tbl (ByInt (t_syscall t))) c (r_args r) t = Some msg ->
  exists h a b, holds (j_order p) msg = Some h
    /\ line = txt "(" ++ ms_text (latency (t_start t) (t_finish t)) ++ txt "ms) " ++ a ++ right_align 9 (t_comm t) ++ b
    /\ step_of order' heap' (j_base p) false (log_line order heap ep h) (a ++ right_align 8 (t_comm t) ++ b).
Proof.
  intros Ht P B R I D S W E F C O O' Hh L M.
  destruct (held_same p tbl c order heap bs r t fs msg Ht P B I R D W F C M) as (h & Hh1 & Hm).
  set (p' := JParams order (j_base p) (j_heap p)) in *.
  assert (P' : reasonable p') by (constructor; [exact O|exact (re_heap p P)|exact (re_base p P)]).
  destruct (client_reads_table p' tbl c heap' bs r t fs srv _ Ht P' B I R D S Hm) as (s & Es & U).
  pose proof (container_small c C) as Cs.
  destruct (pretty_prints order' (j_base p) (json_text (txt (sc_name s))) (names_of c) bs r t fs srv line B R I D S L) as (a & b & H2 & H3).
  assert (Wh : well_held h).
  { unfold holds in Hh1. destruct (read_json msg) as [j|] eqn:J; [|discriminate].
    exact (held_event_well _ j h (message_good p _ c bs t r fs msg j P B I R D M J) Hh1). }
  destruct (written_step order heap ep h order' heap' (j_base p) false Wh) as (out & So & Eo).
  exists h, a, b. split; [exact Hh1|]. split; [exact H2|].
  assert (U' : un_event order' heap' (j_base p) (norm (held_tree order heap h))
    = Read (ClientEvent (t_syscall t) (json_text (txt (sc_name s))) (t_comm t) (t_sid t) (t_error t) (names_of c) fs srv)).
  { destruct (held_tree_ok order heap h Wh) as [T1 T2]. rewrite <- T1 in U. unfold unmarshal in U. rewrite (read_text _ [10] T2 eq_refl) in U.
    change (j_order p') with order in U. change (j_base p') with (j_base p) in U.
    rewrite (un_event_any order order' heap' (j_base p) _ O O') in U. rewrite U.
    rewrite (received_is order heap' (json_text (txt (sc_name s))) (names_of c) bs r t fs srv B R I D S W E F Cs O Hh). reflexivity. }
  rewrite U', H3 in Eo. apply Some_inj in Eo. subst out. exact So.
Qed.

(** Nothing the client writes ends the program. *)
Lemma taken_goes_on order0 order heap ep msg h order' heap' base' tty : bytes msg -> holds order0 msg = Some h ->
  exists out, step_of order' heap' base' tty (log_line order heap ep h) out.
Proof.
  intros B H. unfold holds in H. destruct (read_json msg) as [j|] eqn:J; [|discriminate].
  destruct (written_step order heap ep h order' heap' base' tty (held_event_well _ j h (read_json_good _ _ B J) H)) as (out & So & _).
  exists out. exact So.
Qed.

(** * As the theorems say it *)

Lemma step_logs order heap base tty line out : short_line line -> step_of order heap base tty line out -> pretty_logs order heap base tty line = (out, true).
Proof.
  intros S H. pose proof (lines_printed order heap base tty [line] [out] ltac:(repeat constructor; assumption)) as X.
  cbn [concat] in X. rewrite !app_nil_r in X. exact X.
Qed.
Lemma logs_go_on order' heap' base' tty l :
  Forall (fun line => short_line line /\ exists order0 msg order heap ep h, bytes msg /\ holds order0 msg = Some h /\ line = log_line order heap ep h) l ->
  exists outs, Forall2 (fun line out => pretty_logs order' heap' base' tty line = (out, true)) l outs
    /\ pretty_logs order' heap' base' tty (concat l) = (concat outs, true).
Proof.
  intros F. assert (X : exists outs, Forall2 (fun line out => short_line line /\ step_of order' heap' base' tty line out) l outs).
  { induction F as [|line l [S (order0 & msg & order & heap & ep & h & B & H & ->)] F (outs & IH)]; [exists []; constructor|].
    destruct (taken_goes_on order0 order heap ep msg h order' heap' base' tty B H) as [out So]. exists (out :: outs). constructor; [split; assumption|exact IH]. }
  destruct X as (outs & X). exists outs. split; [|exact (lines_printed _ _ _ _ _ _ X)].
  eapply Forall2_impl; [exact X|]. intros line out [S H]. exact (step_logs _ _ _ _ _ _ S H).
Qed.
Lemma logged_line p tbl c order heap ep order' heap' bs r t fs srv line msg : go_table tbl -> reasonable p ->
  bytes bs -> ingest_bytes bs = Some r -> ingest (InBytes bs) = Ingested t -> decoder (t_syscall t) = Some fs ->
  server_members (r_args r) (t_syscall t) fs (t_argv t) = Some srv ->
  well_formed (t_comm t) -> In (t_error t) (map fst errno_names) -> Forall2 (survives (r_args r) (t_syscall t)) fs (t_argv t) ->
  utf8_container c -> (forall l, order l ≡ₚ l) -> (forall l, order' l ≡ₚ l) -> bytes heap' ->
  line_of order' (j_base p) false false (names_of c) t (r_args r) = Some line ->
  message p (lookup_sc tbl (ByInt (t_syscall t))) c (r_args r) t = Some msg ->
  exists h a b, holds (j_order p) msg = Some h
    /\ line = txt "(" ++ ms_text (latency (t_start t) (t_finish t)) ++ txt "ms) " ++ a ++ right_align 9 (t_comm t) ++ b
    /\ (Z.of_nat (length (log_line order heap ep h)) <= 65536 ->
        pretty_logs order' heap' (j_base p) false (log_line order heap ep h) = (a ++ right_align 8 (t_comm t) ++ b, true)).
Proof.
  intros. destruct (logged_is_printed p tbl c order heap ep order' heap' bs r t fs srv line msg) as (h & a & b & X1 & X2 & X3); try assumption.
  exists h, a, b. split; [exact X1|]. split; [exact X2|]. intros S. exact (step_logs _ _ _ _ _ _ S X3).
Qed.

Lemma scan_long b : forall line rest, ~ In 10 b -> 65536 <= Z.of_nat (length line + length b) -> scan line (b ++ 10 :: rest) = ([], false).
Proof.
  induction b as [|x b IH]; intros line rest N L.
  - cbn [app scan length] in *. change (10 =? 10) with true. cbv iota. destruct (Z.leb_spec 65536 (Z.of_nat (length line))); [reflexivity|lia].
  - cbn [app scan length In] in *. destruct (Z.eqb_spec x 10) as [->|_]; [exfalso; apply N; left; reflexivity|].
    apply IH; [intros I; apply N; right; exact I|rewrite app_length; cbn [length]; lia].
Qed.
Lemma long_line order heap base tty b rest : ~ In 10 b -> 65536 <= Z.of_nat (length b) -> pretty_logs order heap base tty (b ++ 10 :: rest) = ([], false).
Proof. intros N L. unfold pretty_logs. rewrite scan_long by (cbn [length]; assumption). reflexivity. Qed.

(** A line that is no JSON text, such as one of the client's own messages, is passed over. *)
Lemma other_line order heap base tty b rest : ~ In 10 b -> last b <> Some 13 -> (2 <= length b)%nat -> Z.of_nat (length b) < 65536 -> read_json b = None ->
  pretty_logs order heap base tty (b ++ 10 :: rest) = pretty_logs order heap base tty rest.
Proof.
  intros N C L S J. unfold pretty_logs. rewrite scan_line by (cbn [length]; assumption). cbn [app].
  assert (D : drop_cr b = b).
  { unfold drop_cr. destruct (last b) as [z|]; [|reflexivity]. destruct (Z.eq_dec z 13) as [->|Hn]; [contradiction|].
    destruct z as [|q|q]; try reflexivity. repeat (destruct q as [q|q|]; try reflexivity). contradiction. }
  destruct (scan [] rest) as [ls ok]. rewrite D. cbn [pretty_lines].
  assert (P : pretty_step order heap base tty b = Some []).
  { unfold pretty_step. destruct b as [|b0 [|b1 t]]; [reflexivity|cbn in L; lia|]. destruct (b0 =? 10); [reflexivity|]. destruct (b1 =? 13); [reflexivity|].
    unfold read_log. rewrite J. reflexivity. }
  rewrite P. destruct (pretty_lines order heap base tty ls) as [out ok']. reflexivity.
Qed.

(** The line, spelled out. *)
Lemma log_line_is order heap ep h : log_line order heap ep h
  = obj [("endpoint", obj [("hostname", qs (ep_host ep)); ("port", num (ep_port ep)); ("UseTLS", txt (if ep_tls ep then "true" else "false"))]);
         ("payload", held_text order heap h)] ++ [10].
Proof. reflexivity. Qed.

Lemma logs_ended order heap base tty rest :
  (forall b, b <> 10 -> b <> 13 -> pretty_logs order heap base tty (b :: 10 :: rest) = ([], false))
  /\ pretty_logs order heap base tty (txt "null" ++ 10 :: rest) = ([], false)
  /\ pretty_logs order heap base tty (txt "{}" ++ 10 :: rest) = ([], false)
  /\ pretty_logs order heap base tty (MsgProps.js "{'payload':null}" ++ 10 :: rest) = ([], false)
  /\ pretty_logs order heap base tty (MsgProps.js "{'payload':{}}" ++ 10 :: rest) = ([], false)
  /\ (forall b, ~ In 10 b -> 65536 <= Z.of_nat (length b) -> pretty_logs order heap base tty (b ++ 10 :: rest) = ([], false)).
Proof.
  assert (X : forall b, ~ In 10 b -> Z.of_nat (length b) < 65536 -> pretty_step order heap base tty (drop_cr b) = None ->
    pretty_logs order heap base tty (b ++ 10 :: rest) = ([], false)).
  { intros b N L P. unfold pretty_logs. rewrite scan_line by (cbn [length]; assumption). cbn [app]. destruct (scan [] rest) as [ls ok]. cbn [pretty_lines]. rewrite P. reflexivity. }
  split.
  { intros b N1 N2. apply (X [b]); [cbn; intuition congruence|cbn; lia|].
    assert (D : drop_cr [b] = [b]).
    { unfold drop_cr. cbn [last]. destruct b as [|q|q]; try reflexivity. repeat (destruct q as [q|q|]; try reflexivity). contradiction. }
    rewrite D. unfold pretty_step. destruct (Z.eqb_spec b 10); [contradiction|reflexivity]. }
  split; [apply X; [cbv; intuition discriminate|vm_compute; reflexivity|reflexivity]|].
  split; [apply X; [cbv; intuition discriminate|vm_compute; reflexivity|reflexivity]|].
  split; [apply X; [cbv; intuition discriminate|vm_compute; reflexivity|reflexivity]|].
  split; [apply X; [cbv; intuition discriminate|vm_compute; reflexivity|reflexivity]|].
  intros b N L. exact (long_line order heap base tty b rest N L).
Qed.

Lemma line_spelled order heap ep h : log_line order heap ep h
  = MsgProps.js "{'endpoint':{'hostname':" ++ quote (txt (ep_host ep)) ++ MsgProps.js ",'port':" ++ num (ep_port ep)
    ++ MsgProps.js ",'UseTLS':" ++ txt (if ep_tls ep then "true" else "false") ++ MsgProps.js "},'payload':" ++ held_text order heap h ++ MsgProps.js "}" ++ [10].
Proof.
  unfold log_line, endpoint_text, obj. cbn [map commas fst snd]. rewrite <- !app_assoc. reflexivity.
Qed.
Lemma line_has_message p tbl c order heap ep bs r t fs msg :
  go_table tbl -> reasonable p -> bytes bs -> ingest (InBytes bs) = Ingested t -> ingest_bytes bs = Some r ->
  decoder (t_syscall t) = Some fs -> well_formed (t_comm t) -> Forall2 (survives (r_args r) (t_syscall t)) fs (t_argv t) -> utf8_container c ->
  message p (lookup_sc tbl (ByInt (t_syscall t))) c (r_args r) t = Some msg ->
  exists h body, holds (j_order p) msg = Some h
    /\ message (JParams order (j_base p) (j_heap p)) (lookup_sc tbl (ByInt (t_syscall t))) c (r_args r) t = Some (body ++ [10])
    /\ log_line order heap ep h
       = MsgProps.js "{'endpoint':{'hostname':" ++ quote (txt (ep_host ep)) ++ MsgProps.js ",'port':" ++ num (ep_port ep)
         ++ MsgProps.js ",'UseTLS':" ++ txt (if ep_tls ep then "true" else "false") ++ MsgProps.js "},'payload':" ++ body ++ MsgProps.js "}" ++ [10].
Proof.
  intros Ht P B I R D W F C M. destruct (held_same p tbl c order heap bs r t fs msg Ht P B I R D W F C M) as (h & H1 & H2).
  exists h, (held_text order heap h). split; [exact H1|]. split; [exact H2|]. apply line_spelled.
Qed.
Lemma line_same_order p tbl c heap ep bs r t fs msg :
  go_table tbl -> reasonable p -> bytes bs -> ingest (InBytes bs) = Ingested t -> ingest_bytes bs = Some r ->
  decoder (t_syscall t) = Some fs -> well_formed (t_comm t) -> Forall2 (survives (r_args r) (t_syscall t)) fs (t_argv t) -> utf8_container c ->
  message p (lookup_sc tbl (ByInt (t_syscall t))) c (r_args r) t = Some msg ->
  exists h body, holds (j_order p) msg = Some h /\ msg = body ++ [10]
    /\ log_line (j_order p) heap ep h
       = MsgProps.js "{'endpoint':{'hostname':" ++ quote (txt (ep_host ep)) ++ MsgProps.js ",'port':" ++ num (ep_port ep)
         ++ MsgProps.js ",'UseTLS':" ++ txt (if ep_tls ep then "true" else "false") ++ MsgProps.js "},'payload':" ++ body ++ MsgProps.js "}" ++ [10].
Proof.
  intros Ht P B I R D W F C M. destruct (line_has_message p tbl c (j_order p) heap ep bs r t fs msg Ht P B I R D W F C M) as (h & body & H1 & H2 & H3).
  exists h, body. split; [exact H1|]. split; [|exact H3]. destruct p as [o b hp]. cbn [j_order j_base j_heap] in H2. rewrite M in H2. apply Some_inj in H2. exact H2.
Qed.
