(** Proofs about whole lines. *)
From Coq Require Import ZArith String Lia.
From stdpp Require Import base list numbers strings pretty gmap.
From Verif Require Import RawModel RawSpec RawProofs DecodeModel DecodeProofs KernelModel CaptureModel CaptureSpec CaptureProofs CodecTables CodecModel CodecNames LineModel LineSpec LineProofs LineTop
  TextModel TextSpec TextProofs TextTop PlainModel PlainSpec PlainProofs WholeSpec.

Local Open Scope string_scope.
Local Open Scope list_scope.
Local Open Scope Z_scope.
Local Opaque emit.

(** * The result *)

Lemma errors_ok : forallb (fun e => (1 <=? snd e) && (snd e <=? 4095) && String.eqb (errno_to_string (snd e)) (fst e)) errors = true.
Proof. vm_compute. reflexivity. Qed.
Lemma errors_all : forallb (fun e : Z * string => (fst e =? -1) || (fst e =? 0) || (fst e =? 512) || existsb (fun f => snd f =? fst e) errors) errno_names = true.
Proof. vm_compute. reflexivity. Qed.

Lemma assoc_z_in (l : list (Z * string)) k v : assoc_z l k = Some v -> In (k, v) l.
Proof. induction l as [|[a b] l IH]; [discriminate|]. cbn. destruct (Z.eqb_spec a k) as [->|N]; [intros H; injection H as ->; left; reflexivity|intros H; right; exact (IH H)]. Qed.

Lemma error_named name n : (name, n) ∈ errors -> 1 <= n <= 4095 /\ errno_to_string n = name.
Proof.
  intros H. pose proof errors_ok as K. rewrite forallb_forall in K. apply elem_of_list_In in H. specialize (K _ H). cbn [fst snd] in K.
  apply andb_true_iff in K as [K K3]. apply andb_true_iff in K as [K1 K2]. apply Z.leb_le in K1, K2. apply String.eqb_eq in K3. split; [lia|exact K3].
Qed.
Lemma error_unnamed n : 0 < n -> n <> 512 -> (forall name, (name, n) ∉ errors) -> errno_to_string n = "UNK".
Proof.
  intros P N H. unfold errno_to_string. destruct (assoc_z errno_names n) as [s|] eqn:E; [exfalso|reflexivity]. apply assoc_z_in in E.
  pose proof errors_all as K. rewrite forallb_forall in K. specialize (K _ E). cbn [fst] in K. rewrite !orb_true_iff in K. rewrite !Z.eqb_eq in K. destruct K as [[[K|K]|K]|K]; [lia|lia|lia|].
  apply existsb_exists in K as ([name m] & I & K). apply Z.eqb_eq in K. cbn [snd] in K. subst m. apply (H name). apply elem_of_list_In. exact I.
Qed.

Definition failed_of (n : Z) : bool := negb (n =? 0).
Definition result_of (n : Z) : string := if n =? 0 then "OK" else errno_to_string n.
Lemma error_text_of tty n : error_text tty n = paint tty (if failed_of n then Red else Green) (text_bytes (result_of n)).
Proof. unfold error_text, failed_of, result_of. rewrite !txt_bytes. destruct (n =? 0); reflexivity. Qed.

Lemma result_told nr regs mem ret old fs n : decoder nr = Some fs ->
  n = c_errno (if nr =? nr_execve then capture_execve regs mem old else capture nr regs mem ret old) -> tells nr ret (failed_of n) (result_of n).
Proof.
  intros D ->. unfold tells. destruct (Z.eqb_spec nr nr_execve) as [->|N].
  { change nr_execve with 59. cbn [capture_execve c_errno]. split; [intros _; split; reflexivity|]. split; intros H; congruence. }
  change nr_execve with 59 in N. destruct (proj1 (proj2 (decoder_ops nr fs D))) as [X|Fi]; [congruence|].
  split; [|split].
  - intros [H|[(-> & R & R0)|(N79 & R)]]; [congruence| |].
    + rewrite (result_getcwd _ _ _ _ R R0). split; reflexivity.
    + rewrite (proj1 (result_ok nr regs mem ret old Fi N79 R)). split; reflexivity.
  - intros _ N79 name n I E. destruct (error_named _ _ I) as [B En].
    rewrite (proj1 (result_failed nr regs mem ret old Fi N79 ltac:(lia))). replace (- ret) with n by lia.
    unfold failed_of, result_of. replace (n =? 0) with false by (symmetry; apply Z.eqb_neq; lia). split; [reflexivity|exact En].
  - intros _ N79 R No N512. rewrite (proj1 (result_failed nr regs mem ret old Fi N79 R)).
    unfold failed_of, result_of. replace (- ret =? 0) with false by (symmetry; apply Z.eqb_neq; lia). split; [reflexivity|]. apply error_unnamed; [lia|lia|exact No].
Qed.

(** * From the record to the event *)

Record came_from (e : kevent) (su : surroundings) (scratch : list Z) (fs : list field) (t : trace_event) : Prop := {
  cf_old : length (scratch_args scratch) = 640%nat;
  cf_nr : t_syscall t = ev_nr e;
  cf_pid : t_pid t = ev_tid e mod 2 ^ 32;
  cf_start : t_start t = s64 (ev_entr e);
  cf_finish : t_finish t = s64 (ev_exit e);
  cf_comm : t_comm t = until_nul (su_comm su);
  cf_error : t_error t = c_errno (capture_event e su scratch);
  cf_argv : decode_fields (captured_args (ev_nr e) (ev_enter e) (su_mem su) (ev_ret e) (scratch_args scratch)) fs = Some (t_argv t)
}.
Lemma record_event e su bs t rw : record_of (e, su) bs -> ingest (InBytes bs) = Ingested t -> ingest_bytes bs = Some rw ->
  exists fs scratch, decoder (ev_nr e) = Some fs /\ came_from e su scratch fs t
    /\ r_args rw = captured_args (ev_nr e) (ev_enter e) (su_mem su) (ev_ret e) (scratch_args scratch).
Proof.
  intros R I B. pose proof (ingest_record e su bs R) as (r & B' & Rn & Rl & Hd). rewrite B in B'. apply Some_inj in B'. subst r.
  destruct (decoder (ev_nr e)) as [fs|] eqn:D; [|change (ingest (InKernelEvent bs)) with (ingest (InBytes bs)) in Hd; rewrite I in Hd; discriminate].
  destruct Hd as (t' & I' & _ & _ & _ & A). change (ingest (InKernelEvent bs)) with (ingest (InBytes bs)) in I'. rewrite I in I'. injection I' as <-.
  destruct R as (S & scratch & trailing & L & ->). exists fs, scratch. split; [reflexivity|].
  destruct (end_to_end e su scratch trailing fs S L D) as (t' & I' & H1 & H2 & _ & _ & _ & _ & H3 & H4 & H5 & _ & H6 & _). rewrite I in I'. injection I' as <-.
  pose proof (event_members_ok e su scratch S L) as K. pose proof (ingest_image _ scratch trailing K L) as G. change (kernel_image (event_members e su scratch) scratch) with (emit e su scratch) in G.
  rewrite B in G. apply Some_inj in G.
  assert (Ra : r_args rw = captured_args (ev_nr e) (ev_enter e) (su_mem su) (ev_ret e) (scratch_args scratch)) by (rewrite G; apply capture_event_args).
  split; [|exact Ra]. split; try assumption.
  - unfold scratch_args. rewrite take_length, drop_length, L. reflexivity.
  - rewrite <- Ra. exact A.
Qed.

(** * The line *)

Definition who_of (tty nc : bool) (c : option (list Z * list Z * list Z)) (t : trace_event) : list Z :=
  if nc then text_bytes "[" ++ padded runes false 15 (t_comm t) ++ text_bytes "/" ++ padded runes true 8 (text_bytes (pretty (t_pid t)))
  else padded runes false 35 (paint tty Green (fqdn c)) ++ text_bytes ": [" ++ padded runes false 9 (t_comm t).

Lemma printf_machine lat comm pid er nm : printf runes None "(%vms) [%15s/%-8v] (%11s) %s(" [lat; comm; pid; er; nm]
  = text_bytes "(" ++ lat ++ text_bytes "ms) " ++ text_bytes "[" ++ padded runes false 15 comm ++ text_bytes "/" ++ padded runes true 8 pid ++ text_bytes "] (" ++ padded runes false 11 er
    ++ text_bytes ") " ++ nm ++ text_bytes "(".
Proof. reflexivity. Qed.
Lemma printf_container lat ct comm er nm : printf runes None "(%vms) %35s: [%9s] (%11s) %s(" [lat; ct; comm; er; nm]
  = text_bytes "(" ++ lat ++ text_bytes "ms) " ++ padded runes false 35 ct ++ text_bytes ": [" ++ padded runes false 9 comm ++ text_bytes "] (" ++ padded runes false 11 er
    ++ text_bytes ") " ++ nm ++ text_bytes "(".
Proof. reflexivity. Qed.
Lemma s64_small z : 0 <= z < 2 ^ 53 -> s64 z = z.
Proof. intros H. assert (2 ^ 53 < 2 ^ 63) by reflexivity. assert (2 ^ 63 < 2 ^ 64) by reflexivity. unfold s64. rewrite Z.mod_small by lia. replace (z <? 2 ^ 63) with true by (symmetry; apply Z.ltb_lt; lia). reflexivity. Qed.

Lemma about_line order base tty nc c e su scratch fs t out :
  came_from e su scratch fs t -> decoder (ev_nr e) = Some fs -> 0 <= ev_entr e <= ev_exit e -> ev_exit e < 2 ^ 53 ->
  cli_output (line_printer order base (t_argv t)) tty nc c t (captured_args (ev_nr e) (ev_enter e) (su_mem su) (ev_ret e) (scratch_args scratch)) = Some out ->
  line_about tty (who_of tty nc c t) e (printed_text order base (ev_nr e) (ev_enter e) (su_mem su) (ev_ret e) (scratch_args scratch)) out.
Proof.
  intros C D B F O. destruct (line_form _ _ _ _ _ _ _ O) as (name & shs & args & Ca & A & ->). rewrite (cf_nr _ _ _ _ _ C) in Ca, A.
  destruct (prototype_of _ _ D) as (name' & params & shs' & Pn & Cn). rewrite Cn in Ca. injection Ca as <- <-.
  exists (thousandths (ev_exit e - ev_entr e)), (failed_of (t_error t)), (result_of (t_error t)), name', params, args.
  assert (N : 0 <= ev_exit e - ev_entr e < 2 ^ 53) by lia. assert (2 ^ 53 < 2 ^ 64) by reflexivity.
  split; [|split; [apply thousandths_pos; lia|split; [apply thousandths_near; exact N|split; [|split; [exact Pn|split]]]]].
  - unfold the_line, the_arguments. rewrite (cf_start _ _ _ _ _ C), (cf_finish _ _ _ _ _ C), !s64_small by lia. rewrite latency_exact by lia.
    assert (La : latency_text (line_printer order base (t_argv t)) tty (ev_exit e - ev_entr e) = paint tty (speed (ev_exit e - ev_entr e)) (padded runes false 6 (text_bytes (decimal3 (thousandths (ev_exit e - ev_entr e)))))).
    { unfold latency_text, speed. f_equal. exact (ms_form (ev_exit e - ev_entr e) ltac:(lia)). }
    cbv zeta. rewrite La, error_text_of. generalize (paint tty (speed (ev_exit e - ev_entr e)) (padded runes false 6 (text_bytes (decimal3 (thousandths (ev_exit e - ev_entr e)))))). intros lat.
    generalize (paint tty (if failed_of (t_error t) then Red else Green) (text_bytes (result_of (t_error t)))). intros er.
    assert (Se : separated (text_bytes ", ") (map (fun a : string * string * list Z => printf runes None "(%s)%s=%v" [text_bytes a.1.1; text_bytes a.1.2; paint tty BgBlack (paint tty White a.2)]) args)
      = separated (text_bytes ", ") (map (fun a : string * string * list Z => text_bytes "(" ++ text_bytes a.1.1 ++ text_bytes ")" ++ text_bytes a.1.2 ++ text_bytes "=" ++ paint tty BgBlack (paint tty White a.2)) args)).
    { f_equal. apply map_ext. intros [[ty label] bs]. cbn [fst snd]. rewrite <- (app_nil_r (paint tty BgBlack (paint tty White bs))) at 2. reflexivity. }
    rewrite Se. generalize (separated (text_bytes ", ") (map (fun a : string * string * list Z => text_bytes "(" ++ text_bytes a.1.1 ++ text_bytes ")" ++ text_bytes a.1.2 ++ text_bytes "=" ++ paint tty BgBlack (paint tty White a.2)) args)). intros rest.
    unfold who_of. destruct nc; [rewrite printf_machine|rewrite printf_container]; rewrite <- !app_assoc; reflexivity.
  - rewrite (cf_error _ _ _ _ _ C). unfold capture_event. destruct (ev_nr e =? nr_execve) eqn:X; eapply result_told; try exact D; rewrite X; reflexivity.
  - intros ty label text I. exists fs, (t_argv t), args, ty. split; [exact (cf_old _ _ _ _ _ C)|]. split; [exact D|]. split; [exact (cf_argv _ _ _ _ _ C)|]. split; [exact A|exact I].
  - intros i Hi. exact (coverage _ _ _ _ _ _ _ _ _ A D (cf_argv _ _ _ _ _ C) Pn Hi).
Qed.

(** * The arguments *)

Lemma separated_in sep (ls : list (list Z)) x : x ∈ ls -> exists before after, separated sep ls = before ++ x ++ after.
Proof.
  induction ls as [|l [|l' ls] IH]; intros H; [apply not_elem_of_nil in H; contradiction| |].
  - apply elem_of_list_singleton in H. subst l. exists [], []. cbn [separated]. rewrite app_nil_r. reflexivity.
  - change (separated sep (l :: l' :: ls)) with (l ++ sep ++ separated sep (l' :: ls)). apply elem_of_cons in H as [->|H].
    + exists [], (sep ++ separated sep (l' :: ls)). reflexivity.
    + destruct (IH H) as (b & a & E). exists (l ++ sep ++ b), a. rewrite E, <- !app_assoc. reflexivity.
Qed.
Lemma argument_shown tty us ns who failed result name args ty label text : (ty, label, text) ∈ args ->
  shows_argument tty label text (the_line tty us ns who failed result name args).
Proof.
  intros H. unfold the_line, the_arguments.
  set (f := fun a : string * string * list Z => text_bytes "(" ++ text_bytes a.1.1 ++ text_bytes ")" ++ text_bytes a.1.2 ++ text_bytes "=" ++ paint tty BgBlack (paint tty White a.2)).
  destruct (separated_in (text_bytes ", ") (map f args) (f (ty, label, text))) as (b & a & E); [apply elem_of_list_In, in_map; apply elem_of_list_In; exact H|]. rewrite E. unfold f. cbn [fst snd].
  unfold shows_argument. generalize (paint tty (speed ns) (padded runes false 6 (text_bytes (decimal3 us)))), (padded runes false 11 (paint tty (if failed then Red else Green) (text_bytes result))), (paint tty Cyan (text_bytes name)), (paint tty BgBlack (paint tty White text)).
  intros x1 x2 x3 x4. exists (text_bytes "(" ++ x1 ++ text_bytes "ms) " ++ who ++ text_bytes "] (" ++ x2 ++ text_bytes ") " ++ x3 ++ text_bytes "(" ++ b ++ text_bytes "(" ++ text_bytes ty), (a ++ text_bytes ")" ++ [10]).
  rewrite <- !app_assoc. reflexivity.
Qed.

(** A name stands for one parameter. *)
Definition param_names (ps : list (list string)) : list string := concat ps.
Fixpoint distinct (l : list string) : bool := match l with [] => true | x :: l => negb (existsb (String.eqb x) l) && distinct l end.
Lemma names_distinct : forallb (fun e : Z * string * list (list string) => distinct (param_names (snd e))) prototypes = true.
Proof. vm_compute. reflexivity. Qed.
Lemma distinct_concat (ps : list (list string)) i j a b s : distinct (param_names ps) = true -> ps !! i = Some a -> ps !! j = Some b -> s ∈ a -> s ∈ b -> i = j.
Proof.
  unfold param_names. assert (D : forall l, distinct l = true -> NoDup l).
  { induction l as [|x l IH]; intros H; [constructor|]. cbn in H. apply andb_true_iff in H as [H1 H2]. constructor; [|exact (IH H2)]. intros I. apply negb_true_iff in H1. apply not_true_iff_false in H1. apply H1.
    apply existsb_exists. exists x. split; [apply elem_of_list_In; exact I|apply String.eqb_refl]. }
  intros H. apply D in H. revert i j H. induction ps as [|p ps IH]; intros i j N Hi Hj Sa Sb; [discriminate|]. cbn [concat] in N. apply NoDup_app in N as (_ & N1 & N2).
  assert (X : forall k c, ps !! k = Some c -> s ∈ c -> s ∈ concat ps) by (intros k c Hk Hc; apply elem_of_list_In, in_concat; exists c; split; apply elem_of_list_In; [eapply elem_of_list_lookup_2; exact Hk|exact Hc]).
  destruct i as [|i], j as [|j]; [reflexivity| | |f_equal; exact (IH i j N2 Hi Hj Sa Sb)].
  - cbn in Hi, Hj. injection Hi as ->. destruct (N1 s Sa). exact (X _ _ Hj Sb).
  - cbn in Hi, Hj. injection Hj as ->. destruct (N1 s Sb). exact (X _ _ Hi Sa).
Qed.
Lemma one_parameter nr i j label : names_parameter nr i label -> names_parameter nr j label -> i = j.
Proof.
  intros (call & ps & a & P & Hi & Ha) (call' & ps' & b & P' & Hj & Hb). rewrite P in P'. injection P' as <- <-.
  pose proof names_distinct as K. rewrite forallb_forall in K. unfold prototype in P. destruct (List.find _ prototypes) as [e|] eqn:F; [|discriminate].
  apply List.find_some in F as [I _]. injection P as _ <-. exact (distinct_concat _ _ _ _ _ _ (K e I) Hi Hj Ha Hb).
Qed.

Lemma values_in_line tty who e su order base old out i label0 params :
  line_about tty who e (printed_text order base (ev_nr e) (ev_enter e) (su_mem su) (ev_ret e) old) out ->
  prototype (ev_nr e) = Some (label0, params) -> (i < length params)%nat -> (ev_nr e, i) ∉ unprinted ->
  exists label text, shows_argument tty label text out /\ names_parameter (ev_nr e) i label
    /\ printed_text order base (ev_nr e) (ev_enter e) (su_mem su) (ev_ret e) old label text
    /\ ((ev_nr e, label) ∉ mislabelled -> exists member m, doc (ev_nr e) member = Some m /\ about m = Some i
        /\ (is_wrong (ev_nr e) member = false -> forall sh, expected (ev_enter e) (su_mem su) m = Some sh -> exists other, text = rendering (ev_nr e) label m sh other)).
Proof.
  intros (us & failed & result & name & params' & args & -> & _ & _ & _ & Pn & Ar & Co) P Hi Un. rewrite P in Pn. injection Pn as <- <-.
  assert (E : exists ty label text, (ty, label, text) ∈ args /\ names_parameter (ev_nr e) i label).
  { destruct (existsb (fun a : string * string * list Z => named_here (ev_nr e) i a.1.2) args) eqn:X.
    - apply existsb_exists in X as ([[ty label] text] & I & X). exists ty, label, text. split; [apply elem_of_list_In; exact I|]. apply named_here_spec. exact X.
    - exfalso. apply Un. apply Co; [exact Hi|]. intros (ty & label & text & I & Nm). apply not_true_iff_false in X. apply X. apply existsb_exists. exists (ty, label, text). split; [apply elem_of_list_In; exact I|].
      cbn [fst snd]. apply named_here_spec. exact Nm. }
  destruct E as (ty & label & text & I & Nm). exists label, text. split; [eapply argument_shown; exact I|]. split; [exact Nm|]. pose proof (Ar _ _ _ I) as T. split; [exact T|].
  intros M. destruct T as (fs & argv & printed & ty' & L & D & F & A & J). destruct (values_right _ _ _ _ _ _ _ _ _ _ _ _ L D F A J M) as (i' & member & m & Nm' & Dm & Ab & V).
  rewrite (one_parameter _ _ _ _ Nm' Nm) in Ab. exists member, m. split; [exact Dm|]. split; [exact Ab|]. intros W sh Ex. eexists. exact (V W sh Ex).
Qed.

(** The flags, numbers and structs of the tables are in the line. *)
Definition label_there (l : Z * string * string) : bool :=
  match call l.1.1, prototype l.1.1 with
  | Some (_, shs), Some (_, params) =>
      existsb (fun i => named_here l.1.1 i l.1.2 && negb (mem_nat unprinted l.1.1 i) && forallb (fun a => negb (named_here l.1.1 i (a_label a)) || String.eqb (a_label a) l.1.2) shs) (seq 0 (length params))
  | _, _ => false
  end.
Lemma labels_there : forallb label_there labels = true.
Proof. vm_compute. reflexivity. Qed.
Lemma label_in_line tty who e su order base old out label member :
  line_about tty who e (printed_text order base (ev_nr e) (ev_enter e) (su_mem su) (ev_ret e) old) out -> (ev_nr e, label, member) ∈ labels ->
  exists text, shows_argument tty label text out /\ printed_text order base (ev_nr e) (ev_enter e) (su_mem su) (ev_ret e) old label text.
Proof.
  intros H I. pose proof labels_there as K. rewrite forallb_forall in K. apply elem_of_list_In in I. specialize (K _ I). unfold label_there in K. cbn [fst snd] in K.
  destruct (call (ev_nr e)) as [[c shs]|] eqn:C; [|discriminate]. destruct (prototype (ev_nr e)) as [[name params]|] eqn:P; [|discriminate].
  apply existsb_exists in K as (i & Hi & K). apply in_seq in Hi. apply andb_true_iff in K as [K K3]. apply andb_true_iff in K as [K1 K2].
  destruct (values_in_line _ _ _ _ _ _ _ _ i _ _ H P ltac:(lia)) as (label' & text & Sh & Nm & T & _).
  { intros X. apply mem_nat_spec in X. rewrite X in K2. discriminate. }
  assert (label' = label) as ->; [|exists text; split; [exact Sh|exact T]].
  destruct T as (fs & argv & printed & ty & L & D & F & A & J). destruct (printed_in _ _ _ _ _ _ _ _ _ A D F J) as (c' & shs' & a & C' & A' & La & _ & _).
  rewrite C in C'. injection C' as <- <-. rewrite forallb_forall in K3. specialize (K3 a A'). rewrite La in K3. apply named_here_spec in Nm. rewrite Nm in K3. apply String.eqb_eq. exact K3.
Qed.

Lemma flags_in_line tty who e su order base old out label member tbl whole m v : (forall l, order l ≡ₚ l) ->
  line_about tty who e (printed_text order base (ev_nr e) (ev_enter e) (su_mem su) (ev_ret e) old) out -> flag_param (ev_nr e) label member tbl whole ->
  doc (ev_nr e) member = Some m -> is_wrong (ev_nr e) member = false -> expected (ev_enter e) (su_mem su) m = Some (ShInt v) ->
  exists text, shows_argument tty label text out
    /\ forall name i, (name, i) ∈ tbl -> (ev_nr e, v) <> (254, 4095) -> (ev_nr e, name) ∉ unnamed -> (ev_nr e, name) ∉ shared -> (shows_name text name <-> Z.testbit v i = true).
Proof.
  intros O H Fp D W E. destruct (label_in_line _ _ _ _ _ _ _ _ _ _ H (proj1 (flag_row _ _ _ _ _ Fp))) as (text & Sh & T). exists text. split; [exact Sh|].
  intros name i I N U S. exact (flags_shown _ _ _ _ _ _ _ _ _ _ _ _ _ _ _ _ O T Fp D W E I N U S).
Qed.
Lemma number_in_line tty who e su order base old out label member tbl m v name :
  line_about tty who e (printed_text order base (ev_nr e) (ev_enter e) (su_mem su) (ev_ret e) old) out -> number_param (ev_nr e) label member tbl ->
  doc (ev_nr e) member = Some m -> is_wrong (ev_nr e) member = false -> expected (ev_enter e) (su_mem su) m = Some (ShInt v) -> (name, v) ∈ tbl ->
  shows_argument tty label (text_bytes (if decide ((ev_nr e, name) ∈ nameless) then pretty v else name)) out.
Proof.
  intros H Np D W E I. destruct (label_in_line _ _ _ _ _ _ _ _ _ _ H (proj1 (number_row _ _ _ _ Np))) as (text & Sh & T).
  rewrite <- (number_named _ _ _ _ _ _ _ _ _ _ _ _ _ _ T Np D W E I). exact Sh.
Qed.

(** * Without containers *)

Lemma print_at json p tty evs msgs outs alive j out : Forall2 record_of evs msgs -> print_loop json p "cli" tty msgs = (outs, alive) -> outs !! j = Some out ->
  exists e su bs t rw n, evs !! j = Some (e, su) /\ record_of (e, su) bs /\ ingest (InBytes bs) = Ingested t /\ ingest_bytes bs = Some rw
    /\ cli_output (p n t) tty true None t (r_args rw) = Some out.
Proof.
  intros F. revert outs alive j. induction F as [|[e su] bs evs msgs Hr F IH]; intros outs alive j L Hj; cbn [print_loop] in L; [injection L as <- <-; discriminate|].
  change (ingest (InKernelEvent bs)) with (ingest (InBytes bs)) in L.
  destruct (ingest (InBytes bs)) as [t| |] eqn:I; [|injection L as <- <-; discriminate..]. destruct (ingest_bytes bs) as [r|] eqn:B; [|injection L as <- <-; discriminate].
  unfold show_msg in L. change (String.eqb "cli" "cli") with true in L. cbv iota in L.
  destruct (cli_output (p (length msgs) t) tty true None t (r_args r)) as [o|] eqn:O; [|injection L as <- <-; discriminate].
  destruct (print_loop json p "cli" tty msgs) as [os al] eqn:E. injection L as <- <-. destruct j as [|j].
  - cbn in Hj. injection Hj as <-. exists e, su, bs, t, r, (length msgs). split; [reflexivity|]. split; [exact Hr|]. split; [exact I|]. split; [exact B|exact O].
  - exact (IH os al j eq_refl Hj).
Qed.

Lemma who_container tty c t : who_of tty false (Some c) t = padded runes false 35 (paint tty Green (fqdn (Some c))) ++ text_bytes ": [" ++ padded runes false 9 (t_comm t).
Proof. reflexivity. Qed.

Lemma machine_line json p tty evs msgs outs alive j out : real_printer p -> Forall2 record_of evs msgs -> print_loop json p "cli" tty msgs = (outs, alive) -> outs !! j = Some out ->
  exists e su, evs !! j = Some (e, su) /\ (ev_entr e <= ev_exit e -> ev_exit e < 2 ^ 53 ->
    exists order base old, (forall l, order l ≡ₚ l)
      /\ line_about tty (on_machine (until_nul (su_comm su)) (ev_tid e mod 2 ^ 32)) e (printed_text order base (ev_nr e) (ev_enter e) (su_mem su) (ev_ret e) old) out).
Proof.
  intros P F L Hj. destruct (print_at _ _ _ _ _ _ _ _ _ F L Hj) as (e & su & bs & t & rw & n & He & Hr & I & B & O). exists e, su. split; [exact He|]. intros B1 B2.
  destruct (record_event _ _ _ _ _ Hr I B) as (fs & scratch & D & C & Ra). destruct (P n t) as (order & base & Pe & Ep). rewrite Ra, Ep in O.
  exists order, base, (scratch_args scratch). split; [exact Pe|]. unfold on_machine. rewrite <- (cf_comm _ _ _ _ _ C), <- (cf_pid _ _ _ _ _ C).
  destruct Hr as (So & _). pose proof (so_entr _ _ So). exact (about_line _ _ _ true None _ _ _ _ _ _ C D ltac:(lia) B2 O).
Qed.
