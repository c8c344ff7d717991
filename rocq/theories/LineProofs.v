(** Proofs about the printed lines. *)
From Coq Require Import ZArith String Ascii Lia.
From stdpp Require Import base list numbers strings pretty.
From Verif Require Import ChartModel ChartProofs TopModel TopProofs RawModel RawSpec RawProofs DecodeModel DecodeProofs CaptureModel CaptureSpec CaptureProofs
  CodecTables CodecModel CodecNames JsonModel LineModel LineSpec.

Local Open Scope string_scope.
Local Open Scope list_scope.
Local Open Scope Z_scope.

(** * Text *)

Lemma txt_bytes s : txt s = text_bytes s.
Proof. unfold txt. induction s as [|c s IH]; [reflexivity|]. cbn [list_ascii_of_string map text_bytes]. rewrite IH. reflexivity. Qed.
Lemma txt_app a b : txt (a +:+ b) = txt a ++ txt b.
Proof.
  rewrite !txt_bytes. induction a as [|c a IH]; [reflexivity|].
  change (text_bytes (String c a +:+ b)) with (Z.of_N (N_of_ascii c) :: text_bytes (a +:+ b)). rewrite IH. reflexivity.
Qed.
Lemma byte_ascii b : is_byte b -> Z.of_N (N_of_ascii (ascii_of_N (Z.to_N b))) = b.
Proof. intros H. rewrite N_ascii_embedding by (unfold is_byte in H; lia). unfold is_byte in H. lia. Qed.
Lemma txt_of_bytes bs : Forall is_byte bs -> txt (string_of_bytes bs) = bs.
Proof.
  rewrite txt_bytes. induction 1 as [|b bs B F IH]; [reflexivity|]. cbn [string_of_bytes text_bytes]. rewrite IH, byte_ascii by exact B. reflexivity.
Qed.

(** * The members of a decoded call *)

Lemma decode_fields_forall args fs : forall vs, decode_fields args fs = Some vs -> Forall2 (fun f v => decode_field args f = Some v) fs vs.
Proof.
  induction fs as [|f fs IH]; intros vs H; cbn [decode_fields] in H; [injection H as <-; constructor|].
  destruct (decode_field args f) as [v|] eqn:V; [|discriminate]. destruct (decode_fields args fs) as [vs'|]; [|discriminate].
  injection H as <-. constructor; [exact V|]. apply IH. reflexivity.
Qed.

Definition field_named (fs : list field) (name : string) : option field := List.find (fun f => String.eqb (f_name f) name) fs.

(** A member as it is printed: as it is shown, except for slices of a negative length. *)
Definition member_printed (f : field) (args : list Z) : option shown :=
  match decode_field args f with Some v => walk args v | None => None end.
Lemma printed_shown f args sh : member_shown f args = Some sh -> member_printed f args = Some sh.
Proof.
  unfold member_shown, member_printed. destruct (decode_field args f) as [v|]; [|discriminate].
  destruct v as [z|s|s|o n|o|o n|k]; try exact (fun H => H). cbn [walk]. destruct (n <? 0) eqn:E; [|exact (fun H => H)]. cbn [show]. rewrite E. discriminate.
Qed.
Lemma printed_inv f args sh : member_printed f args = Some sh -> member_shown f args = Some sh \/ (sh = ShBytes [] /\ exists o n, decode_field args f = Some (VSlice o n)).
Proof.
  unfold member_shown, member_printed. destruct (decode_field args f) as [v|]; [|discriminate].
  destruct v as [z|s|s|o n|o|o n|k]; try (intros H; left; exact H). cbn [walk]. destruct (n <? 0) eqn:E; [|intros H; left; exact H].
  intros [= <-]. right. split; [reflexivity|]. exists o, n. reflexivity.
Qed.

Lemma member_of args fs vs name : Forall2 (fun f v => decode_field args f = Some v) fs vs ->
  member args (combine fs vs) name = match field_named fs name with Some f => member_printed f args | None => None end.
Proof.
  unfold member, field_named. induction 1 as [|f v fs vs V F IH]; [reflexivity|]. cbn [combine List.find fst].
  destruct (String.eqb (f_name f) name) eqn:E; [unfold member_printed; rewrite V; reflexivity|exact IH].
Qed.
Lemma field_named_in fs name f : field_named fs name = Some f -> In f fs /\ f_name f = name.
Proof. intros H. apply List.find_some in H as [I E]. apply String.eqb_eq in E. split; assumption. Qed.

(** The printed arguments are the table's, with the values read through. *)
Definition value_of (p : printer) (nr : Z) (args : list Z) (fs : list field) (src : source) : option (list Z) :=
  match src with
  | One name s =>
      match field_named fs name with
      | Some f => match member_printed f args with Some sh => Some (write_value p nr name s sh) | None => None end
      | None => None
      end
  | Words names =>
      match mapM (fun n => bytes_shown (match field_named fs n with Some f => member_printed f args | None => None end)) names with
      | Some ws => Some (join (txt " ") (ws ++ [[]]))
      | None => None
      end
  end.
Lemma mapM_ext_opt {A B} (f g : A -> option B) l : (forall x, f x = g x) -> mapM f l = mapM g l.
Proof. intros H. induction l as [|x l IH]; [reflexivity|]. change (mapM f (x :: l)) with (f x ≫= fun y => mapM f l ≫= fun k => Some (y :: k)).
  change (mapM g (x :: l)) with (g x ≫= fun y => mapM g l ≫= fun k => Some (y :: k)). rewrite H, IH. reflexivity. Qed.
Lemma arg_value_of p nr args fs vs src : Forall2 (fun f v => decode_field args f = Some v) fs vs -> arg_value p nr args (combine fs vs) src = value_of p nr args fs src.
Proof.
  intros F. destruct src as [name s|names]; unfold arg_value, value_of.
  - rewrite (member_of args fs vs name F). destruct (field_named fs name); reflexivity.
  - rewrite (mapM_ext_opt _ (fun n => bytes_shown (match field_named fs n with Some f => member_printed f args | None => None end))); [reflexivity|].
    intros n. rewrite (member_of args fs vs n F). reflexivity.
Qed.
Lemma printed_rows p nr args argv printed : arguments p nr args argv = Some printed -> forall fs, decoder nr = Some fs -> decode_fields args fs = Some argv ->
  exists name shs, call nr = Some (name, shs)
    /\ Forall2 (fun a x => exists bs, value_of p nr args fs (a_src a) = Some bs /\ x = (a_type a, a_label a, bs)) shs printed.
Proof.
  unfold arguments. intros H fs D F. destruct (call nr) as [[name shs]|]; [|discriminate]. rewrite D in H. exists name, shs. split; [reflexivity|].
  apply mapM_Some in H. apply decode_fields_forall in F. eapply Forall2_impl; [exact H|]. intros a x. cbv beta. rewrite (arg_value_of p nr args fs argv) by exact F.
  destruct (value_of p nr args fs (a_src a)) as [bs|]; [|discriminate]. intros [= <-]. exists bs. split; reflexivity.
Qed.

(** * Labels *)

Definition mem_pair (l : list (Z * string)) (nr : Z) (label : string) : bool := existsb (fun e => Z.eqb (fst e) nr && String.eqb (snd e) label) l.
Lemma mem_pair_spec l nr label : mem_pair l nr label = true <-> (nr, label) ∈ l.
Proof.
  unfold mem_pair. rewrite existsb_exists. setoid_rewrite <- elem_of_list_In. split.
  - intros ([a b] & I & E). cbn [fst snd] in E. apply andb_true_iff in E as [E1 E2]. apply Z.eqb_eq in E1. apply String.eqb_eq in E2. subst. exact I.
  - intros I. exists (nr, label). split; [exact I|]. cbn [fst snd]. rewrite Z.eqb_refl, String.eqb_refl. reflexivity.
Qed.

Definition named_here (nr : Z) (i : nat) (label : string) : bool :=
  match prototype nr with
  | Some (_, ps) => match ps !! i with Some names => existsb (String.eqb label) names | None => false end
  | None => false
  end.
Lemma named_here_spec nr i label : named_here nr i label = true <-> names_parameter nr i label.
Proof.
  unfold named_here, names_parameter. destruct (prototype nr) as [[c ps]|] eqn:P.
  2:{ split; [discriminate|]. intros (c & ps & names & E & _). discriminate. }
  destruct (ps !! i) as [names|] eqn:L.
  - rewrite existsb_exists. split.
    + intros (x & I & E). apply String.eqb_eq in E as <-. exists c, ps, names. split; [reflexivity|split; [exact L|apply elem_of_list_In; exact I]].
    + intros (c' & ps' & names' & [= <- <-] & L' & I). rewrite L in L'. injection L' as <-. exists label. rewrite String.eqb_refl. split; [apply elem_of_list_In; exact I|reflexivity].
  - split; [discriminate|]. intros (c' & ps' & names' & [= <- <-] & L' & I). rewrite L in L'. discriminate.
Qed.

Definition style_eqb (a b : style) : bool :=
  match a, b with
  | Raw, Raw | Num, Num | Dir, Dir | Buf, Buf | Sock, Sock | Hex, Hex | Other, Other => true
  | _, _ => false
  end.
Lemma style_eqb_eq a b : style_eqb a b = true -> a = b.
Proof. destruct a, b; (reflexivity || discriminate). Qed.

Definition right_style (nr : Z) (label : string) (m : meaning) : style :=
  if mem_pair elsewhere nr label then Other
  else match m with
       | Arg _ _ | DerefInt _ | DerefLong _ => if String.eqb label "dirfd" then Dir else Num
       | Text _ => Raw
       | Address _ => Sock
       | Elem _ _ | Bytes _ _ | Data _ _ | Nothing => Buf
       end.

Definition arg_ok (nr : Z) (fs : list field) (a : shown_arg) : bool :=
  mem_pair mislabelled nr (a_label a)
  || match a_src a with
     | One name s =>
         match field_named fs name, doc nr name with
         | Some _, Some m =>
             match about m with
             | Some i => named_here nr i (a_label a) && style_eqb s (right_style nr (a_label a) m)
             | None => false
             end
         | _, _ => false
         end
     | Words _ => false
     end.

Definition row_ok (e : Z * string * list shown_arg) : bool :=
  match decoder (fst (fst e)) with
  | Some fs => forallb (arg_ok (fst (fst e)) fs) (snd e)
  | None => false
  end.
Lemma rows_ok : forallb row_ok calls = true.
Proof. vm_compute. reflexivity. Qed.

Lemma call_in nr name shs : call nr = Some (name, shs) -> In (nr, name, shs) calls.
Proof.
  unfold call. destruct (List.find _ calls) as [[[n c] l]|] eqn:F; [|discriminate]. intros [= <- <-].
  apply List.find_some in F as [I E]. cbn [fst] in E. apply Z.eqb_eq in E as ->. exact I.
Qed.

Lemma rendering_style nr label m sh regs mem p name : expected regs mem m = Some sh ->
  rendering nr label m sh (p_other p nr name sh) = write_value p nr name (right_style nr label m) sh.
Proof.
  intros E. unfold rendering, right_style. change (existsb _ elsewhere) with (mem_pair elsewhere nr label).
  destruct (mem_pair elsewhere nr label); [destruct sh as [z|bs|[a q]|n]; reflexivity|].
  destruct m; cbn [expected] in E;
  repeat match type of E with context [match ?x with _ => _ end] => destruct x; try discriminate end; try discriminate; injection E as <-; cbn [rendering write_value];
  rewrite <- ?txt_bytes; try reflexivity;
  try (destruct (String.eqb label "dirfd"); cbn [andb]; cbn [write_value]; try reflexivity;
       match goal with |- context [?a =? -100] => destruct (a =? -100) end; rewrite <- ?txt_bytes; reflexivity);
  try (rewrite !txt_app; reflexivity).
  all: try (match goal with |- context [parse_sockaddr ?x] => destruct (parse_sockaddr x) as [a q] end; rewrite <- txt_bytes, !txt_app; reflexivity).
Qed.

Lemma printed_in p nr args argv printed fs ty label bs : arguments p nr args argv = Some printed -> decoder nr = Some fs -> decode_fields args fs = Some argv ->
  (ty, label, bs) ∈ printed ->
  exists name shs a, call nr = Some (name, shs) /\ In a shs /\ a_label a = label /\ a_type a = ty /\ value_of p nr args fs (a_src a) = Some bs.
Proof.
  intros P D F I. destruct (printed_rows _ _ _ _ _ P fs D F) as (name & shs & C & R). apply elem_of_list_lookup in I as (j & J).
  destruct (Forall2_lookup_r _ _ _ _ _ R J) as (a & A & bs' & V & E). injection E as -> -> ->.
  exists name, shs, a. split; [exact C|]. split; [apply elem_of_list_In; apply elem_of_list_lookup_2 with j; exact A|]. auto.
Qed.

Lemma values_right p nr regs mem ret old fs argv printed ty label text :
  length old = 640%nat -> decoder nr = Some fs ->
  decode_fields (captured_args nr regs mem ret old) fs = Some argv ->
  arguments p nr (captured_args nr regs mem ret old) argv = Some printed ->
  (ty, label, text) ∈ printed -> (nr, label) ∉ mislabelled ->
  exists i name m, names_parameter nr i label /\ doc nr name = Some m /\ about m = Some i
    /\ (is_wrong nr name = false -> forall sh, expected regs mem m = Some sh -> text = rendering nr label m sh (p_other p nr name sh)).
Proof.
  intros L D F P I M. destruct (printed_in _ _ _ _ _ _ _ _ _ P D F I) as (c & shs & a & C & A & <- & _ & V).
  apply call_in in C. pose proof rows_ok as R. rewrite forallb_forall in R. specialize (R _ C). unfold row_ok in R. cbn [fst snd] in R. rewrite D in R.
  rewrite forallb_forall in R. specialize (R a A). unfold arg_ok in R. apply orb_true_iff in R as [R|R]; [apply mem_pair_spec in R; contradiction|].
  destruct (a_src a) as [name s|names]; [|discriminate]. cbn [value_of] in V.
  destruct (field_named fs name) as [f|] eqn:N; [|discriminate]. destruct (doc nr name) as [m|] eqn:Dc; [|discriminate].
  destruct (about m) as [i|] eqn:B; [|discriminate]. apply andb_true_iff in R as [R1 R2]. apply style_eqb_eq in R2 as ->.
  exists i, name, m. split; [apply named_here_spec; exact R1|]. split; [exact Dc|]. split; [exact B|].
  intros W sh E. destruct (field_named_in _ _ _ N) as [If <-]. destruct (members_shown nr fs f D If W) as (m' & Dm & S). rewrite Dc in Dm. injection Dm as <-.
  rewrite (printed_shown _ _ _ (S regs mem ret old sh L E)) in V. injection V as <-. symmetry. apply rendering_style with regs mem. exact E.
Qed.

(** * Order and coverage *)

Definition indices (nr : Z) (a : shown_arg) : list nat :=
  match prototype nr with
  | Some (_, ps) => List.filter (fun i => named_here nr i (a_label a)) (seq 0 (length ps))
  | None => []
  end.
Lemma indices_spec nr a i : In i (indices nr a) <-> names_parameter nr i (a_label a).
Proof.
  unfold indices. destruct (prototype nr) as [[c ps]|] eqn:P.
  - rewrite filter_In, named_here_spec. split; [tauto|]. intros H. split; [|exact H]. destruct H as (c' & ps' & names & E & L & _).
    rewrite P in E. injection E as <- <-. apply in_seq. apply lookup_lt_Some in L. lia.
  - split; [intros []|]. intros (c' & ps' & names & E & _). rewrite P in E. discriminate.
Qed.
Fixpoint increasing (nr : Z) (l : list shown_arg) : bool :=
  match l with
  | [] => true
  | a :: l' => forallb (fun b => forallb (fun i => forallb (fun j => (i <? j)%nat) (indices nr b)) (indices nr a)) l' && increasing nr l'
  end.
Lemma increasing_spec nr l : increasing nr l = true -> forall j k a b x y, (j < k)%nat -> l !! j = Some a -> l !! k = Some b ->
  In x (indices nr a) -> In y (indices nr b) -> (x < y)%nat.
Proof.
  induction l as [|c l IH]; intros H j k a b x y Hjk A B X Y; [rewrite lookup_nil in A; discriminate|].
  cbn [increasing] in H. apply andb_true_iff in H as [H1 H2]. destruct k as [|k]; [lia|]. cbn in B.
  destruct j as [|j].
  - injection A as ->. rewrite forallb_forall in H1. specialize (H1 b (proj1 (elem_of_list_In _ _) (elem_of_list_lookup_2 _ _ _ B))).
    rewrite forallb_forall in H1. specialize (H1 x X). rewrite forallb_forall in H1. specialize (H1 y Y). apply Nat.ltb_lt. exact H1.
  - cbn in A. eapply (IH H2 j k); try eassumption. lia.
Qed.
Lemma orders : forallb (fun e : Z * string * list shown_arg => Z.eqb (fst (fst e)) 56 || increasing (fst (fst e)) (snd e)) calls = true.
Proof. vm_compute. reflexivity. Qed.

Lemma in_order p nr args argv printed fs j k ty label bs ty' label' bs' i i' : nr <> 56 ->
  arguments p nr args argv = Some printed -> decoder nr = Some fs -> decode_fields args fs = Some argv -> (j < k)%nat ->
  printed !! j = Some (ty, label, bs) -> printed !! k = Some (ty', label', bs') ->
  names_parameter nr i label -> names_parameter nr i' label' -> (i < i')%nat.
Proof.
  intros N P D F Hjk J K A B. destruct (printed_rows _ _ _ _ _ P fs D F) as (name & shs & C & R). apply call_in in C.
  pose proof orders as O. rewrite forallb_forall in O. specialize (O _ C). cbn [fst snd] in O. apply orb_true_iff in O as [O|O]; [apply Z.eqb_eq in O; contradiction|].
  destruct (Forall2_lookup_r _ _ _ _ _ R J) as (a & Aj & ? & _ & E). injection E as -> -> ->.
  destruct (Forall2_lookup_r _ _ _ _ _ R K) as (b & Bk & ? & _ & E). injection E as -> -> ->.
  eapply increasing_spec; [exact O|exact Hjk|exact Aj|exact Bk|apply indices_spec; exact A|apply indices_spec; exact B].
Qed.

Definition mem_nat (l : list (Z * nat)) (nr : Z) (i : nat) : bool := existsb (fun e => Z.eqb (fst e) nr && Nat.eqb (snd e) i) l.
Lemma mem_nat_spec l nr i : mem_nat l nr i = true <-> (nr, i) ∈ l.
Proof.
  unfold mem_nat. rewrite existsb_exists. setoid_rewrite <- elem_of_list_In. split.
  - intros ([a b] & I & E). cbn [fst snd] in E. apply andb_true_iff in E as [E1 E2]. apply Z.eqb_eq in E1. apply Nat.eqb_eq in E2. subst. exact I.
  - intros I. exists (nr, i). split; [exact I|]. cbn [fst snd]. rewrite Z.eqb_refl, Nat.eqb_refl. reflexivity.
Qed.
Definition cover_ok (e : Z * string * list shown_arg) : bool :=
  let nr := fst (fst e) in
  match prototype nr with
  | Some (_, ps) => forallb (fun i => Bool.eqb (mem_nat unprinted nr i) (negb (existsb (fun a => named_here nr i (a_label a)) (snd e)))) (seq 0 (length ps))
  | None => false
  end.
Lemma covers : forallb cover_ok calls = true.
Proof. vm_compute. reflexivity. Qed.

Lemma coverage p nr args argv printed fs name params i : arguments p nr args argv = Some printed -> decoder nr = Some fs -> decode_fields args fs = Some argv ->
  prototype nr = Some (name, params) -> (i < length params)%nat ->
  ((nr, i) ∈ unprinted <-> ~ exists ty label bs, (ty, label, bs) ∈ printed /\ names_parameter nr i label).
Proof.
  intros P D F Pr Hi. destruct (printed_rows _ _ _ _ _ P fs D F) as (c & shs & C & R). apply call_in in C.
  pose proof covers as O. rewrite forallb_forall in O. specialize (O _ C). unfold cover_ok in O. cbn [fst snd] in O. rewrite Pr in O.
  rewrite forallb_forall in O. specialize (O i ltac:(apply in_seq; lia)). apply Bool.eqb_prop in O. rewrite <- mem_nat_spec, O, negb_true_iff.
  destruct (existsb _ shs) eqn:E.
  - split; [discriminate|]. intros H. exfalso. apply H. apply existsb_exists in E as (a & A & E). apply named_here_spec in E.
    apply elem_of_list_In, elem_of_list_lookup in A as (j & A). destruct (Forall2_lookup_l _ _ _ _ _ R A) as (x & X & bs & _ & ->).
    exists (a_type a), (a_label a), bs. split; [eapply elem_of_list_lookup_2; exact X|exact E].
  - split; [|reflexivity]. intros _ (ty & label & bs & I & N). apply elem_of_list_lookup in I as (j & J).
    destruct (Forall2_lookup_r _ _ _ _ _ R J) as (a & A & bs' & V & Q). injection Q as -> -> ->.
    assert (T : existsb (fun a => named_here nr i (a_label a)) shs = true).
    { apply existsb_exists. exists a. split; [apply elem_of_list_In; eapply elem_of_list_lookup_2; exact A|apply named_here_spec; exact N]. }
    rewrite T in E. discriminate.
Qed.

(** * Names *)

Lemma names_ok : forallb (fun e : Z * string * list shown_arg =>
  match prototype (fst (fst e)) with Some (c, _) => Z.eqb (fst (fst e)) 166 || String.eqb (snd (fst e)) c | None => false end) calls = true.
Proof. vm_compute. reflexivity. Qed.
Lemma call_name nr name shs c ps : call nr = Some (name, shs) -> prototype nr = Some (c, ps) -> nr <> 166 -> name = c.
Proof.
  intros C P N. apply call_in in C. pose proof names_ok as O. rewrite forallb_forall in O. specialize (O _ C). cbn [fst snd] in O. rewrite P in O.
  apply orb_true_iff in O as [O|O]; [apply Z.eqb_eq in O; contradiction|]. apply String.eqb_eq in O. exact O.
Qed.

Lemma every_call nr fs : decoder nr = Some fs -> exists name shs, call nr = Some (name, shs).
Proof.
  unfold decoder. destruct (List.find _ decoders) as [[[n c] l]|] eqn:F; [|discriminate]. intros _. apply List.find_some in F as [I E].
  cbn [fst] in E. apply Z.eqb_eq in E as ->.
  assert (A : forallb (fun e : Z * string * list field => match call (fst (fst e)) with Some _ => true | None => false end) decoders = true) by (vm_compute; reflexivity).
  rewrite forallb_forall in A. specialize (A _ I). cbn [fst] in A. destruct (call nr) as [[name shs]|]; [|discriminate]. exists name, shs. reflexivity.
Qed.

Local Opaque txt.
Lemma line_names_call p tty nc c t raw out call_ params : t_syscall t <> 166 -> prototype (t_syscall t) = Some (call_, params) ->
  cli_output p tty nc c t raw = Some out ->
  exists before after, out = before ++ paint tty Cyan (text_bytes call_) ++ text_bytes "(" ++ after.
Proof.
  intros N P. unfold cli_output. destruct (call (t_syscall t)) as [[name shs]|] eqn:C; [|discriminate]. destruct (arguments _ _ _ _) as [args|]; [|discriminate].
  intros E. assert (E' := f_equal (fun o => match o with Some x => x | None => out end) E). cbv beta iota in E'. rewrite <- E'. clear E E'. rewrite (call_name _ _ _ _ _ C P N). unfold header. rewrite <- !txt_bytes.
  match goal with |- exists before after, (txt "(" ++ ?b ++ txt "ms) " ++ ?d ++ ?e ++ txt ") " ++ _ ++ txt "(") ++ ?r = _ =>
    exists (txt "(" ++ b ++ txt "ms) " ++ d ++ e ++ txt ") "), r end.
  rewrite <- !app_assoc. reflexivity.
Qed.
