(** What the client prints: proofs. *)
From Coq Require Import ZArith String Ascii Lia.
From stdpp Require Import base list numbers strings pretty.
From Verif Require Import ChartModel TopModel RawModel DecodeModel CodecTables CodecModel JsonModel JsonSpec JsonProofs LineModel TextModel PrintModel.

Local Open Scope string_scope.
Local Open Scope list_scope.
Local Open Scope Z_scope.

(** * The client's members are the server's *)

Lemma shown_member raw nr f v m : server_member raw nr f v = Some m -> walk raw v = Some (shown_of m).
Proof.
  intros H. assert (X : show raw v = Some (shown_of m)).
  { assert (Y : forall o, match o with Some s => Some (of_shown s) | None => None end = Some m -> o = Some (shown_of m))
      by (intros [s|] Y; [injection Y as <-; destruct s; reflexivity|discriminate Y]).
    unfold server_member in H. destruct v; destruct (jtype_of nr (f_name f)); first [exact (Y _ H)|injection H as <-; reflexivity]. }
  destruct v as [| | | off len| | |]; try exact X. unfold walk. destruct (len <? 0) eqn:L; [|exact X]. cbn [show] in X. rewrite L in X. discriminate X.
Qed.

Lemma find_member raw nr name fs : forall vs ms, server_members raw nr fs vs = Some ms ->
  match List.find (fun m => String.eqb (f_name (fst m)) name) (combine fs vs),
        List.find (fun m => String.eqb (f_name (fst m)) name) (combine fs ms) with
  | Some (f, v), Some (f', m) => f = f' /\ server_member raw nr f v = Some m
  | None, None => True
  | _, _ => False
  end.
Proof.
  induction fs as [|f fs IH]; intros [|v vs] ms H; cbn in H.
  - injection H as <-. exact I.
  - injection H as <-. exact I.
  - injection H as <-. exact I.
  - destruct (server_member raw nr f v) as [m|] eqn:Em; [|discriminate H].
    destruct (server_members raw nr fs vs) as [ms'|] eqn:Es; [|discriminate H]. injection H as <-.
    cbn [combine List.find fst]. destruct (String.eqb (f_name f) name); [split; [reflexivity|exact Em]|exact (IH vs ms' Es)].
Qed.

Lemma client_finds e raw nr vs : server_members raw nr (ce_fields e) vs = Some (ce_members e) -> forall name,
  client_member_of e name = member raw (combine (ce_fields e) vs) name.
Proof.
  intros H name. unfold client_member_of, member. pose proof (find_member raw nr name _ _ _ H) as F.
  destruct (List.find _ (combine (ce_fields e) vs)) as [[f v]|], (List.find _ (combine (ce_fields e) (ce_members e))) as [[f' m]|]; try contradiction; [|reflexivity].
  destruct F as [_ F]. symmetry. exact (shown_member _ _ _ _ _ F).
Qed.

(** * The level of a socket option *)

Lemma sockopt_fields nr fs : nr = 54 \/ nr = 55 -> decoder nr = Some fs ->
  fs = [Field "fd" 0 KS32; Field "level" 1 KS32; Field "name" 2 KS32; Field "val" 3 (KSlice 4); Field "len" 4 KS32].
Proof. intros [-> | ->] H; injection H as <-; reflexivity. Qed.

Lemma not_option nr name : nr <> 54 -> nr <> 55 -> other_of nr name <> Some OptionName.
Proof.
  intros N1 N2. unfold other_of. destruct (List.find _ others) as [e|] eqn:F; [|discriminate].
  apply find_some in F as [I E]. apply andb_prop in E as [E _]. apply Z.eqb_eq in E.
  assert (X : forallb (fun e => match snd e with OptionName => (fst (fst e) =? 54) || (fst (fst e) =? 55) | _ => true end) others = true) by reflexivity.
  rewrite forallb_forall in X. specialize (X _ I). intros Y. injection Y as Y. rewrite Y, E in X.
  apply orb_prop in X as [X|X]; apply Z.eqb_eq in X; contradiction.
Qed.

Lemma level_agrees raw nr fs vs ms e : decoder nr = Some fs -> decode_fields raw fs = Some vs ->
  server_members raw nr fs vs = Some ms -> ce_members e = ms ->
  (nr = 54 \/ nr = 55) -> client_level e = level_of vs.
Proof.
  intros D F S E N. rewrite (sockopt_fields _ _ N D) in F, S. unfold client_level. rewrite E. clear E.
  unfold level_of. cbn [decode_fields] in F.
  destruct (decode_field raw (Field "fd" 0 KS32)) as [v0|] eqn:F0; [|discriminate F].
  destruct (decode_field raw (Field "level" 1 KS32)) as [v1|] eqn:F1; [|discriminate F].
  destruct (decode_field raw (Field "name" 2 KS32)) as [v2|] eqn:F2; [|discriminate F].
  destruct (decode_field raw (Field "val" 3 (KSlice 4))) as [v3|] eqn:F3; [|discriminate F].
  destruct (decode_field raw (Field "len" 4 KS32)) as [v4|] eqn:F4; [|discriminate F].
  injection F as <-.
  unfold decode_field in F0, F1, F2. cbn [f_kind f_slot] in F0, F1, F2. unfold vint in F0, F1, F2.
  destruct (c32 raw (slot_start 0)) as [z0|]; [|discriminate F0]. injection F0 as <-.
  destruct (c32 raw (slot_start 1)) as [z1|] eqn:C1; [|discriminate F1]. injection F1 as <-.
  destruct (c32 raw (slot_start 2)) as [z2|]; [|discriminate F2]. injection F2 as <-.
  assert (J : jtype_of nr "fd" = JPlain /\ (exists l, jtype_of nr "level" = JNames l) /\ jtype_of nr "name" = JOption)
    by (destruct N as [-> | ->]; (split; [reflexivity|split; [eexists; reflexivity|reflexivity]])).
  destruct J as (J0 & (l & J1) & J2).
  cbn [server_members] in S.
  assert (S0 : server_member raw nr (Field "fd" 0 KS32) (VInt z0) = Some (MInt z0)) by (unfold server_member; cbn [f_name]; rewrite J0; reflexivity).
  assert (S1 : server_member raw nr (Field "level" 1 KS32) (VInt z1) = Some (MInt z1)) by (unfold server_member; cbn [f_name]; rewrite J1; reflexivity).
  assert (S2 : server_member raw nr (Field "name" 2 KS32) (VInt z2) = Some (MOption z1 z2))
    by (unfold server_member; cbn [f_name]; rewrite J2; unfold option_level; rewrite C1; reflexivity).
  rewrite S0, S1, S2 in S.
  destruct (server_member raw nr (Field "val" 3 (KSlice 4)) v3) as [m3|]; [|discriminate S].
  destruct (server_member raw nr (Field "len" 4 KS32) v4) as [m4|]; [|discriminate S].
  injection S as <-. reflexivity.
Qed.

Lemma other_level order l1 l2 base o sh : o <> OptionName -> other_text order l1 base o sh = other_text order l2 base o sh.
Proof. intros N. destruct o; try reflexivity. contradiction. Qed.

Lemma same_other order base vs e nr name sh : (nr = 54 \/ nr = 55 -> client_level e = level_of vs) ->
  p_other (client_printer order base e) nr name sh = p_other (line_printer order base vs) nr name sh.
Proof.
  intros L. cbn [client_printer line_printer p_other]. destruct (other_of nr name) as [o|] eqn:O; [|reflexivity].
  destruct (Z.eq_dec nr 54) as [E|N1]; [rewrite (L (or_introl E)); reflexivity|].
  destruct (Z.eq_dec nr 55) as [E|N2]; [rewrite (L (or_intror E)); reflexivity|].
  apply other_level. intros ->. exact (not_option nr name N1 N2 O).
Qed.

Lemma same_write order base vs e nr name s sh : (nr = 54 \/ nr = 55 -> client_level e = level_of vs) ->
  write_value (client_printer order base e) nr name s sh = write_value (line_printer order base vs) nr name s sh.
Proof. intros L. destruct s, sh; try reflexivity; exact (same_other order base vs e nr name _ L). Qed.

(** * The arguments are the same *)

Lemma mapM_ext_opt {A B} (f g : A -> option B) l : (forall x, f x = g x) -> mapM f l = mapM g l.
Proof. intros H. induction l as [|x l IH]; [reflexivity|]. cbn. rewrite H. destruct (g x); [|reflexivity]. cbn. rewrite IH. reflexivity. Qed.

Lemma same_arg order base raw nr vs e src : ce_nr e = nr -> server_members raw nr (ce_fields e) vs = Some (ce_members e) ->
  (nr = 54 \/ nr = 55 -> client_level e = level_of vs) ->
  client_arg (client_printer order base e) e src = arg_value (line_printer order base vs) nr raw (combine (ce_fields e) vs) src.
Proof.
  intros N S L. destruct src as [name s|names]; cbn [client_arg arg_value].
  - rewrite (client_finds e raw nr vs S name), N. destruct (member raw _ name) as [sh|]; [|reflexivity].
    f_equal. exact (same_write order base vs e nr name s sh L).
  - rewrite (mapM_ext_opt _ (fun n => bytes_shown (member raw (combine (ce_fields e) vs) n))); [reflexivity|].
    intros n. rewrite (client_finds e raw nr vs S n). reflexivity.
Qed.

Lemma same_arguments order base raw nr vs e : ce_nr e = nr -> decoder nr = Some (ce_fields e) ->
  server_members raw nr (ce_fields e) vs = Some (ce_members e) -> (nr = 54 \/ nr = 55 -> client_level e = level_of vs) ->
  client_arguments (client_printer order base e) e = arguments (line_printer order base vs) nr raw vs.
Proof.
  intros N D S L. unfold client_arguments, arguments. rewrite N, D. destruct (call nr) as [[nm shs]|]; [|reflexivity].
  apply mapM_ext_opt. intros a. rewrite (same_arg order base raw nr vs e (a_src a) N S L). reflexivity.
Qed.

(** * The line *)

Lemma ingest_decodes bs r t : ingest_bytes bs = Some r -> ingest (InBytes bs) = Ingested t ->
  exists fs, decoder (t_syscall t) = Some fs /\ decode_fields (r_args r) fs = Some (t_argv t).
Proof.
  intros R H. unfold ingest in H. rewrite R in H. unfold decode_syscall in H. destruct (decoder (r_syscall r)) as [fs|] eqn:D; [|discriminate H].
  destruct (decode_fields (r_args r) fs) as [vs|] eqn:F; [|discriminate H]. injection H as <-. exists fs. split; [exact D|exact F].
Qed.

Lemma create_args_plain args : map (client_one_arg false) args = map (one_arg false) args.
Proof. reflexivity. Qed.

Lemma create_is_trace order base e t raw line : ce_nr e = t_syscall t -> ce_comm e = t_comm t -> ce_error e = t_error t ->
  client_arguments (client_printer order base e) e = arguments (line_printer order base (t_argv t)) (t_syscall t) raw (t_argv t) ->
  line_of order base false false (ce_container e) t raw = Some line ->
  exists a b, line = txt "(" ++ ms_text (latency (t_start t) (t_finish t)) ++ txt "ms) " ++ a ++ right_align 9 (t_comm t) ++ b
    /\ create_line order base false e = Some (a ++ right_align 11 (t_comm t) ++ b).
Proof.
  intros N C E A H. unfold line_of, cli_output in H. unfold create_line. rewrite N, A.
  destruct (call (t_syscall t)) as [[name shs]|]; [|discriminate H].
  destruct (arguments _ _ _ _) as [args|]; [|discriminate H]. apply (f_equal (fun x => match x with Some y => y | None => [] end)) in H. cbn iota in H. subst line.
  exists (right_align 35 (fqdn (ce_container e)) ++ txt ": ["),
    (txt "] (" ++ right_align 11 (error_text false (t_error t)) ++ txt ") " ++ txt name ++ txt "("
     ++ join (txt ", ") (map (one_arg false) args) ++ txt ")" ++ [10]).
  split.
  - unfold header, latency_text, paint. cbn [p_ms line_printer]. rewrite <- !app_assoc. reflexivity.
  - unfold client_header, client_error_text, error_text, bold, paint. rewrite C, E, create_args_plain. destruct (t_error t =? 0); rewrite <- !app_assoc; reflexivity.
Qed.
