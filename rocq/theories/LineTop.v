(** Line feeds, forged lines, single calls and latencies. *)
From Coq Require Import ZArith String Ascii Lia.
From stdpp Require Import base list numbers strings pretty.
From Verif Require Import ChartModel ChartSpec ChartProofs TopModel TopProofs RawModel RawSpec RawProofs DecodeModel DecodeSpec DecodeProofs CaptureModel CaptureSpec CaptureProofs
  CodecTables CodecModel CodecNames JsonModel LineModel LineSpec LineProofs.

Local Open Scope string_scope.
Local Open Scope list_scope.
Local Open Scope Z_scope.

(** * No line feed *)

Definition clean (bs : list Z) : Prop := 10 ∉ bs.
Definition cleanb (bs : list Z) : bool := forallb (fun b => negb (b =? 10)) bs.
Lemma cleanb_clean bs : cleanb bs = true -> clean bs.
Proof.
  unfold cleanb, clean. intros H I. rewrite forallb_forall in H. specialize (H 10 (proj1 (elem_of_list_In _ _) I)). discriminate.
Qed.
Lemma clean_app a b : clean a -> clean b -> clean (a ++ b).
Proof. unfold clean. rewrite elem_of_app. tauto. Qed.
Lemma clean_nil : clean [].
Proof. unfold clean. apply not_elem_of_nil. Qed.

Lemma digits_clean s : forall acc n, digits acc s = Some n -> clean (txt s).
Proof.
  rewrite txt_bytes. induction s as [|c s IH]; intros acc n H; [apply clean_nil|]. cbn [digits] in H. destruct (digit c) as [d|] eqn:D; [|discriminate].
  cbn [text_bytes]. unfold clean. apply not_elem_of_cons. split; [|exact (IH _ _ H)].
  unfold digit in D. destruct (_ && _) eqn:B; [|discriminate]. apply andb_true_iff in B as [B1 B2]. apply Z.leb_le in B1, B2. lia.
Qed.
Lemma pretty_clean (z : Z) : clean (txt (pretty z)).
Proof.
  unfold pretty, pretty_Z. destruct z as [|q|q].
  - apply cleanb_clean. vm_compute. reflexivity.
  - eapply digits_clean. exact (digits_pretty (N.pos q)).
  - rewrite txt_app. apply clean_app; [apply cleanb_clean; vm_compute; reflexivity|]. eapply digits_clean. exact (digits_pretty (N.pos q)).
Qed.
Lemma join_ints_clean l : clean (txt (join_ints l)).
Proof.
  induction l as [|x l IH]; [apply clean_nil|]. destruct l as [|y l]; [apply pretty_clean|].
  change (join_ints (x :: y :: l)) with (pretty x +:+ " " +:+ join_ints (y :: l)). rewrite !txt_app.
  apply clean_app; [apply pretty_clean|]. apply clean_app; [apply cleanb_clean; vm_compute; reflexivity|exact IH].
Qed.
Lemma hex2_clean b : is_byte b -> clean (txt (hex2 b)).
Proof.
  intros H. apply is_byte_in in H. apply cleanb_clean.
  assert (F : forallb (fun b => cleanb (txt (hex2 b))) (bytes_upto 256) = true) by (vm_compute; reflexivity).
  rewrite forallb_forall in F. exact (F b H).
Qed.
Lemma nth_byte bs i : Forall is_byte bs -> is_byte (nth i bs 0).
Proof.
  intros F. destruct (lt_dec i (length bs)) as [L|L].
  - rewrite Forall_forall in F. apply F. apply elem_of_list_In, nth_In. exact L.
  - rewrite nth_overflow by lia. unfold is_byte. lia.
Qed.
Lemma hex_pair_clean bs i : Forall is_byte bs -> clean (txt (hex_pair bs i)).
Proof. intros F. unfold hex_pair. rewrite txt_app. apply clean_app; apply hex2_clean, nth_byte, F. Qed.
Lemma hex_digits_clean n : forall z, clean (LineModel.hex_digits n z).
Proof.
  induction n as [|n IH]; intros z; [apply clean_nil|]. cbn [LineModel.hex_digits]. apply clean_app; [apply IH|]. unfold clean.
  apply not_elem_of_cons. split; [|apply not_elem_of_nil]. pose proof (Z.mod_pos_bound z 16 ltac:(lia)). destruct (z mod 16 <? 10); lia.
Qed.
Lemma strip_clean n : forall bs, clean bs -> clean (strip_zeros n bs).
Proof.
  induction n as [|n IH]; intros [|b bs] C; try exact C. cbn [strip_zeros]. destruct (b =? 48); [|exact C]. apply IH.
  unfold clean in *. apply not_elem_of_cons in C. tauto.
Qed.

Lemma until_count l : take (nul_count l) l = until_nul l.
Proof. induction l as [|b l IH]; [reflexivity|]. cbn. destruct (Z.eqb b 0); [reflexivity|]. cbn. rewrite IH. reflexivity. Qed.
Lemma make_cstring_is bs n : make_cstring bs n = until_nul (take n bs).
Proof. unfold make_cstring. apply until_count. Qed.
Lemma until_nul_incl b l : b ∈ until_nul l -> b ∈ l.
Proof.
  induction l as [|x l IH]; cbn [until_nul]; [tauto|]. destruct (Z.eqb x 0); [intros I; apply elem_of_nil in I; contradiction|].
  rewrite !elem_of_cons. tauto.
Qed.
Lemma until_nul_bytes l : Forall is_byte l -> Forall is_byte (until_nul l).
Proof. rewrite !Forall_forall. intros F b I. apply F, until_nul_incl, I. Qed.

Ltac quiet := apply cleanb_clean; vm_compute; reflexivity.

Lemma sockaddr_clean mem : Forall is_byte mem -> (le (take 2 mem) = 1 -> clean (until_nul (take 108 (drop 2 mem)))) ->
  clean (txt (fst (parse_sockaddr mem))).
Proof.
  intros F U. unfold parse_sockaddr. destruct (le (take 2 mem) =? AF_INET).
  { cbn [fst]. rewrite !txt_app. repeat (apply clean_app); try apply pretty_clean; quiet. }
  destruct (le (take 2 mem) =? AF_INET6).
  { cbn [fst]. rewrite !txt_app. repeat (apply clean_app); try (apply hex_pair_clean; exact F); quiet. }
  destruct (Z.eqb_spec (le (take 2 mem)) AF_UNIX) as [E|_].
  { cbn [fst]. rewrite txt_app, make_cstring_is. apply clean_app; [quiet|]. rewrite txt_of_bytes; [exact (U E)|].
    apply until_nul_bytes, Forall_take, Forall_drop, F. }
  destruct (le (take 2 mem) =? AF_UNSPEC).
  { cbn [fst]. rewrite !txt_app. repeat (apply clean_app); try apply join_ints_clean; quiet. }
  apply pretty_clean.
Qed.

(** What the table writes without looking: strings only from string members,
    addresses only from address members. *)
Definition is_str (k : kind) : bool := match k with KStr => true | _ => false end.
Definition is_sock (k : kind) : bool := match k with KSock => true | _ => false end.
Definition src_ok (fs : list field) (src : source) : bool :=
  match src with
  | One n s =>
      match field_named fs n, s with
      | Some f, Raw => is_str (f_kind f)
      | Some f, Sock => is_sock (f_kind f)
      | Some _, _ => true
      | None, _ => false
      end
  | Words ns => forallb (fun n => match field_named fs n with Some f => is_str (f_kind f) | None => false end) ns
  end.
Definition shown_ok (fs : list field) (a : shown_arg) : bool := src_ok fs (a_src a) && cleanb (txt (a_label a)) && cleanb (txt (a_type a)).
Lemma shown_oks : forallb (fun e : Z * string * list shown_arg =>
  cleanb (txt (snd (fst e))) && match decoder (fst (fst e)) with Some fs => forallb (shown_ok fs) (snd e) | None => false end) calls = true.
Proof. vm_compute. reflexivity. Qed.
Lemma call_ok nr name shs fs : call nr = Some (name, shs) -> decoder nr = Some fs -> clean (txt name) /\ forall a, In a shs -> shown_ok fs a = true.
Proof.
  intros C D. apply call_in in C. pose proof shown_oks as O. rewrite forallb_forall in O. specialize (O _ C). cbn [fst snd] in O. rewrite D in O.
  apply andb_true_iff in O as [O1 O2]. split; [apply cleanb_clean; exact O1|]. rewrite forallb_forall in O2. exact O2.
Qed.

(** What is left to the printer writes no line feed. *)
Definition quiet_printer (p : printer) : Prop := (forall nr name sh, clean (p_other p nr name sh)) /\ forall ns, clean (p_ms p ns).

Lemma str_member f args sh : is_str (f_kind f) = true -> member_printed f args = Some sh ->
  sh = ShBytes (until_nul (take 128 (drop (128 * f_slot f) args))).
Proof.
  unfold member_printed, decode_field. destruct (f_kind f) eqn:K; try discriminate. intros _. unfold read_bytes, slot_start.
  destruct (_ <=? _)%nat; [|discriminate]. cbn [walk show]. intros [= <-]. rewrite make_cstring_is, take_take.
  replace (f_slot f * arg_len)%nat with (128 * f_slot f)%nat by (unfold arg_len; lia). reflexivity.
Qed.
Lemma sock_member f args sh : is_sock (f_kind f) = true -> member_printed f args = Some sh -> sh = ShSock (parse_sockaddr (drop (128 * f_slot f) args)).
Proof.
  unfold member_printed, decode_field. destruct (f_kind f) eqn:K; try discriminate. intros _. cbn [walk show]. intros [= <-]. unfold slot_start.
  replace (f_slot f * arg_len)%nat with (128 * f_slot f)%nat by (unfold arg_len; lia). reflexivity.
Qed.

Lemma write_clean p nr name s sh : quiet_printer p ->
  (s = Raw -> forall bs, sh = ShBytes bs -> clean bs) -> (s = Sock -> forall a, sh = ShSock a -> clean (txt (fst a))) -> clean (write_value p nr name s sh).
Proof.
  intros [Q _] R S. destruct s, sh as [z|bs|[a q]|n]; cbn [write_value]; try apply Q.
  - exact (R eq_refl _ eq_refl).
  - apply pretty_clean.
  - destruct (z =? -100); [quiet|apply pretty_clean].
  - repeat apply clean_app; try quiet. apply join_ints_clean.
  - specialize (S eq_refl _ eq_refl). cbn [fst] in S. repeat apply clean_app; [exact S|quiet|apply pretty_clean].
  - unfold hex_text. apply clean_app; [quiet|]. apply strip_clean, hex_digits_clean.
Qed.

Lemma join_clean sep l : clean sep -> Forall clean l -> clean (join sep l).
Proof.
  intros S F. induction F as [|x l X F IH]; [apply clean_nil|]. destruct l as [|y l]; [exact X|].
  change (join sep (x :: y :: l)) with (x ++ sep ++ join sep (y :: l)). apply clean_app; [exact X|]. apply clean_app; [exact S|exact IH].
Qed.

Lemma value_clean p nr args fs src bs : quiet_printer p -> Forall is_byte args -> Forall (no_line_feed args) fs -> src_ok fs src = true ->
  value_of p nr args fs src = Some bs -> clean bs.
Proof.
  intros Q B N O V. rewrite Forall_forall in N. destruct src as [name s|names]; cbn [value_of src_ok] in *.
  - destruct (field_named fs name) as [f|] eqn:Fn; [|discriminate]. destruct (field_named_in _ _ _ Fn) as [I _]. apply elem_of_list_In in I. specialize (N f I).
    destruct (member_printed f args) as [sh|] eqn:M; [|discriminate]. injection V as <-. apply write_clean; [exact Q| |].
    + intros -> bs E. pose proof (str_member f args sh O M) as S. rewrite E in S. injection S as ->.
      unfold no_line_feed in N. destruct (f_kind f); try discriminate. exact N.
    + intros -> a E. pose proof (sock_member f args sh O M) as S. rewrite E in S. injection S as ->. apply sockaddr_clean; [apply Forall_drop, B|].
      unfold no_line_feed in N. destruct (f_kind f); try discriminate. intros E1. rewrite take_take in N. specialize (N E1).
      intros X. apply N. rewrite skipn_firstn_comm, take_take. exact X.
  - destruct (mapM _ names) as [ws|] eqn:M; [|discriminate]. injection V as <-. apply join_clean; [quiet|]. apply Forall_app. split; [|constructor; [apply clean_nil|constructor]].
    apply mapM_Some in M. apply Forall_forall. intros w W. apply elem_of_list_lookup in W as (j & J). destruct (Forall2_lookup_r _ _ _ _ _ M J) as (n & Nn & E). cbv beta in E.
    rewrite forallb_forall in O. specialize (O n ltac:(apply elem_of_list_In; eapply elem_of_list_lookup_2; exact Nn)).
    destruct (field_named fs n) as [f|] eqn:Fn; [|discriminate]. destruct (field_named_in _ _ _ Fn) as [I _]. apply elem_of_list_In in I. specialize (N f I).
    destruct (member_printed f args) as [sh|] eqn:Ms; [|discriminate]. pose proof (str_member f args sh O Ms) as ->. injection E as <-.
    unfold no_line_feed in N. destruct (f_kind f); try discriminate. exact N.
Qed.

Lemma paint_clean tty c bs : clean bs -> clean (paint tty c bs).
Proof. intros H. unfold paint. destruct tty; [|exact H]. repeat apply clean_app; try exact H; try quiet. destruct c; quiet. Qed.
Lemma blanks_clean n : clean (blanks n).
Proof. unfold clean, blanks. intros I. apply elem_of_list_In, repeat_spec in I. discriminate. Qed.
Lemma right_clean n bs : clean bs -> clean (right_align n bs).
Proof. intros H. apply clean_app; [apply blanks_clean|exact H]. Qed.
Lemma left_clean n bs : clean bs -> clean (left_align n bs).
Proof. intros H. apply clean_app; [exact H|apply blanks_clean]. Qed.
Lemma errno_names_clean : forallb (fun e : Z * string => cleanb (txt (snd e))) errno_names = true.
Proof. vm_compute. reflexivity. Qed.
Lemma errno_clean e : clean (txt (errno_to_string e)).
Proof.
  unfold errno_to_string. pose proof errno_names_clean as H. revert H. generalize errno_names. intros l.
  induction l as [|[k n] l IH]; [intros _; quiet|]. cbn [forallb assoc_z snd]. intros H. apply andb_true_iff in H as [H1 H2].
  destruct (k =? e); [apply cleanb_clean; exact H1|exact (IH H2)].
Qed.

Definition quiet_container (c : option (list Z * list Z * list Z)) : Prop :=
  match c with Some (a, b, d) => clean a /\ clean b /\ clean d | None => True end.

Local Opaque right_align left_align paint.
Lemma header_clean p tty nc c t name : quiet_printer p -> quiet_container c -> clean (t_comm t) -> clean (txt name) -> clean (header p tty nc c t name).
Proof.
  intros [_ Q] C T N. unfold header. apply clean_app; [quiet|]. apply clean_app; [apply paint_clean, Q|]. apply clean_app; [quiet|].
  apply clean_app.
  { destruct nc.
    - repeat apply clean_app; try quiet; [apply right_clean, T|apply left_clean, pretty_clean].
    - repeat apply clean_app; try quiet; [|apply right_clean, T]. apply right_clean, paint_clean.
      destruct c as [[[a b] d]|]; [|quiet]. destruct C as (A & B & D). unfold fqdn. repeat apply clean_app; try assumption; quiet. }
  apply clean_app.
  { apply right_clean. unfold error_text. destruct (_ =? 0); apply paint_clean; [quiet|apply errno_clean]. }
  apply clean_app; [quiet|]. apply clean_app; [apply paint_clean, N|quiet].
Qed.

Lemma prints_one_line p tty nc c t raw fs out : quiet_printer p -> quiet_container c -> clean (t_comm t) -> decoder (t_syscall t) = Some fs ->
  decode_fields raw fs = Some (t_argv t) -> Forall is_byte raw -> Forall (no_line_feed raw) fs -> cli_output p tty nc c t raw = Some out -> one_line out.
Proof.
  intros Q C T D F B N. unfold cli_output. destruct (call (t_syscall t)) as [[name shs]|] eqn:K; [|discriminate].
  destruct (arguments p (t_syscall t) raw (t_argv t)) as [args|] eqn:A; [|discriminate]. intros E.
  destruct (call_ok _ _ _ _ K D) as [Nm O]. destruct (printed_rows _ _ _ _ _ A fs D F) as (name' & shs' & K' & R). rewrite K in K'. injection K' as <- <-.
  assert (E' := f_equal (fun o => match o with Some x => x | None => out end) E). cbv beta iota in E'. rewrite <- E'.
  exists (header p tty nc c t name ++ join (txt ", ") (map (one_arg tty) args) ++ txt ")"). split; [rewrite <- !app_assoc; reflexivity|].
  apply clean_app; [apply header_clean; assumption|]. apply clean_app; [|quiet]. apply join_clean; [quiet|]. apply Forall_map, Forall_forall.
  intros [[ty label] bs] I. apply elem_of_list_lookup in I as (j & J). destruct (Forall2_lookup_r _ _ _ _ _ R J) as (a & Aj & bs' & V & X). injection X as -> -> ->.
  specialize (O a ltac:(apply elem_of_list_In; eapply elem_of_list_lookup_2; exact Aj)). unfold shown_ok in O. apply andb_true_iff in O as [O O3]. apply andb_true_iff in O as [O1 O2].
  apply cleanb_clean in O2, O3. unfold one_arg. repeat apply clean_app; try quiet; try assumption. apply paint_clean, paint_clean.
  eapply value_clean; [exact Q|exact B|exact N|exact O1|exact V].
Qed.

(** * Which calls are printed *)

Definition kind_cnt (k : kind) : option nat := match k with KSliceMin c => Some c | _ => None end.
(** Every shown member is read in full, given the counts. *)
Definition src_total (fs : list field) (src : source) : bool :=
  match src with
  | One n _ =>
      match field_named fs n with
      | Some f =>
          (f_slot f <? 5)%nat
          && match f_kind f with
             | KSliceMin c => (c <? 5)%nat
             | KSliceMax _ => false
             | KSlice k | KPtr k | KCopy k => ((128 * f_slot f) + k <=? 640)%nat
             | _ => true
             end
      | None => false
      end
  | Words ns => forallb (fun n => match field_named fs n with Some f => is_str (f_kind f) && (f_slot f <? 5)%nat | None => false end) ns
  end.
Lemma totals : forallb (fun e : Z * string * list shown_arg =>
  match decoder (fst (fst e)) with Some fs => forallb (fun a => src_total fs (a_src a)) (snd e) | None => false end) calls = true.
Proof. vm_compute. reflexivity. Qed.

Lemma read_ok args off n : length args = 640%nat -> (off + n <= 640)%nat -> read_bytes args off n = Some (take n (drop off args)).
Proof. intros L H. unfold read_bytes. rewrite L. apply Nat.leb_le in H. rewrite H. reflexivity. Qed.

Lemma field_total args f : length args = 640%nat -> (f_slot f <? 5)%nat
          && match f_kind f with
             | KSliceMin c => (c <? 5)%nat
             | KSliceMax _ => false
             | KSlice k | KPtr k | KCopy k => ((128 * f_slot f) + k <=? 640)%nat
             | _ => true
             end = true -> exists sh, member_printed f args = Some sh.
Proof.
  intros L H. apply andb_true_iff in H as [S H]. apply Nat.ltb_lt in S. unfold member_printed, decode_field, slot_start, arg_len.
  destruct (f_kind f); unfold c32, cu32, c64, cu64; rewrite ?(read_ok args (f_slot f * 128)) by (exact L || lia).
  all: try (eexists; reflexivity).
  - apply Nat.leb_le in H. cbn [walk show]. destruct (Z.of_nat n <? 0) eqn:E; [apply Z.ltb_lt in E; lia|]. rewrite Nat2Z.id. rewrite read_ok by (exact L || lia). eexists. reflexivity.
  - apply Nat.ltb_lt in H. rewrite read_ok by (exact L || lia). set (count := s64 _). cbn [walk show].
    set (len := if count <? Z.of_nat 128 then count else Z.of_nat 128). assert (len <= 128) by (unfold len; destruct (count <? Z.of_nat 128) eqn:E; [apply Z.ltb_lt in E|]; lia).
    destruct (len <? 0) eqn:E; [eexists; reflexivity|]. apply Z.ltb_ge in E. rewrite read_ok by (exact L || lia). eexists. reflexivity.
  - discriminate.
  - apply Nat.leb_le in H. cbn [walk show]. rewrite read_ok by (exact L || lia). eexists. reflexivity.
  - apply Nat.leb_le in H. rewrite read_ok by (exact L || lia). eexists. reflexivity.
Qed.

Lemma mapM_total {A B} (f : A -> option B) l : (forall x, In x l -> exists y, f x = Some y) -> exists k, mapM f l = Some k.
Proof.
  induction l as [|x l IH]; intros H; [exists []; reflexivity|]. destruct IH as (k & E); [intros y I; apply H; right; exact I|].
  destruct (H x (or_introl eq_refl)) as (y & Y). exists (y :: k). change (mapM f (x :: l)) with (f x ≫= fun y => mapM f l ≫= fun k => Some (y :: k)).
  rewrite Y. cbn [mbind option_bind]. rewrite E. reflexivity.
Qed.

Lemma source_total p nr fs args src : length args = 640%nat -> src_total fs src = true -> exists bs, value_of p nr args fs src = Some bs.
Proof.
  intros L T. destruct src as [n s|ns]; cbn [src_total value_of] in *.
  - destruct (field_named fs n) as [f|]; [|discriminate]. destruct (field_total args f L T) as (sh & ->). eexists. reflexivity.
  - assert (M : exists ws, mapM (fun n => bytes_shown (match field_named fs n with Some f => member_printed f args | None => None end)) ns = Some ws).
    { rewrite forallb_forall in T. apply mapM_total. intros n I. specialize (T n I).
      destruct (field_named fs n) as [f|] eqn:Fn; [|discriminate]. apply andb_true_iff in T as [T1 T2].
      destruct (field_total args f L) as (sh & M); [rewrite T2; destruct (f_kind f); try discriminate; reflexivity|].
      pose proof (str_member f args sh T1 M) as ->. rewrite M. eexists. reflexivity. }
    destruct M as (ws & ->). eexists. reflexivity.
Qed.

Lemma prints p tty nc c t raw fs : length raw = 640%nat -> decoder (t_syscall t) = Some fs -> decode_fields raw fs = Some (t_argv t) ->
  exists out, cli_output p tty nc c t raw = Some out.
Proof.
  intros L D F. destruct (every_call _ _ D) as (name & shs & K).
  assert (A : exists args, arguments p (t_syscall t) raw (t_argv t) = Some args).
  { unfold arguments. rewrite K, D. apply mapM_total. intros a I. rewrite (arg_value_of p (t_syscall t) raw fs) by (apply decode_fields_forall; exact F).
    pose proof totals as T. rewrite forallb_forall in T. specialize (T _ (call_in _ _ _ K)). cbn [fst snd] in T. rewrite D in T. rewrite forallb_forall in T.
    destruct (source_total p (t_syscall t) _ _ _ L (T a I)) as (bs & ->). eexists. reflexivity. }
  destruct A as (args & A). unfold cli_output. rewrite K, A. eexists. reflexivity.
Qed.

(** * Forged lines *)

(** The memory of a task that keeps a text at address 4096. *)
Definition text_at (bs : list Z) : memory :=
  fun a => if (4096 <=? a) && (a <? 4096 + 128) then Some (nth (Z.to_nat (a - 4096)) bs 0) else None.

Lemma has_line_mid l pre post : 10 ∉ l -> has_line l (pre ++ ([10] ++ l ++ [10]) ++ post).
Proof.
  intros H. split; [exact H|]. exists (pre ++ [10]), post. split; [rewrite <- !app_assoc; reflexivity|right; exists pre; reflexivity].
Qed.
Lemma in_join sep l x : x ∈ l -> exists pre post, join sep l = pre ++ x ++ post.
Proof.
  induction l as [|y l IH]; [intros I; apply elem_of_nil in I; contradiction|]. rewrite elem_of_cons. intros [->|I].
  - destruct l as [|z l]; [exists [], []; cbn [join app]; rewrite app_nil_r; reflexivity|].
    change (join sep (y :: z :: l)) with (y ++ sep ++ join sep (z :: l)). exists [], (sep ++ join sep (z :: l)). reflexivity.
  - destruct (IH I) as (pre & post & E). destruct l as [|z l]; [apply elem_of_nil in I; contradiction|].
    change (join sep (y :: z :: l)) with (y ++ sep ++ join sep (z :: l)). rewrite E. exists (y ++ sep ++ pre), post. rewrite <- !app_assoc. reflexivity.
Qed.
Local Transparent paint.
Lemma paint_mid tty c x : exists pre post, paint tty c x = pre ++ x ++ post.
Proof.
  unfold paint. destruct tty; [|exists [], []; cbn [app]; rewrite app_nil_r; reflexivity].
  exists ([27] ++ txt "[" ++ txt (code c) ++ txt "m"), ([27] ++ txt "[0m"). rewrite <- !app_assoc. reflexivity.
Qed.
Local Opaque paint.

Lemma text_printed p tty nc c t raw args ty label bs out : arguments p (t_syscall t) raw (t_argv t) = Some args -> (ty, label, bs) ∈ args ->
  cli_output p tty nc c t raw = Some out -> exists pre post, out = pre ++ bs ++ post.
Proof.
  intros A I. unfold cli_output. destruct (call _) as [[name shs]|]; [|discriminate]. rewrite A. intros E.
  assert (E' := f_equal (fun o => match o with Some x => x | None => out end) E). cbv beta iota in E'. rewrite <- E'. clear E E'.
  assert (J : one_arg tty (ty, label, bs) ∈ map (one_arg tty) args) by (apply elem_of_list_In, in_map, elem_of_list_In; exact I).
  destruct (in_join (txt ", ") _ _ J) as (a & b & ->). unfold one_arg. destruct (paint_mid tty White bs) as (u & v & ->).
  destruct (paint_mid tty BgBlack (u ++ bs ++ v)) as (u' & v' & ->).
  exists (header p tty nc c t name ++ a ++ txt "(" ++ txt ty ++ txt ")" ++ txt label ++ txt "=" ++ u' ++ u), (v ++ v' ++ b ++ txt ")" ++ [10]).
  rewrite <- !app_assoc. reflexivity.
Qed.

Lemma open_text p regs mem ret old argv s rest : length old = 640%nat -> 0 ∉ s -> load mem (nth 0 regs 0) 128 = Some (s ++ 0 :: rest) ->
  decode_fields (captured_args 2 regs mem ret old) [Field "filename" 0 KStr; Field "flags" 1 KS32; Field "mode" 2 KS32] = Some argv ->
  exists args, arguments p 2 (captured_args 2 regs mem ret old) argv = Some args /\ ("const char *", "pathname", s) ∈ args.
Proof.
  intros L N M F. set (raw := captured_args 2 regs mem ret old) in *.
  assert (D : decoder 2 = Some [Field "filename" 0 KStr; Field "flags" 1 KS32; Field "mode" 2 KS32]) by reflexivity.
  assert (S : member_shown (Field "filename" 0 KStr) raw = Some (ShBytes s)).
  { apply (short_text 2 _ (Field "filename" 0 KStr) 0 regs mem ret old s rest D); try assumption; try reflexivity. left. reflexivity. }
  pose proof (decode_fields_forall _ _ _ F) as F2. inversion F2 as [|f0 v0 fs1 vs1 V0 F3]; subst. inversion F3 as [|f1 v1 fs2 vs2 V1 F4]; subst.
  inversion F4 as [|f2 v2 fs3 vs3 V2 F5]; subst. inversion F5; subst.
  assert (I1 : exists z, v1 = VInt z) by (unfold decode_field in V1; cbn [f_kind] in V1; destruct (c32 _ _); cbn in V1; [injection V1 as <-; eexists; reflexivity|discriminate]).
  assert (I2 : exists z, v2 = VInt z) by (unfold decode_field in V2; cbn [f_kind] in V2; destruct (c32 _ _); cbn in V2; [injection V2 as <-; eexists; reflexivity|discriminate]).
  destruct I1 as (z1 & ->), I2 as (z2 & ->). apply printed_shown in S. unfold member_printed in S. rewrite V0 in S.
  exists [("const char *", "pathname", s); ("int", "flags", write_value p 2 "flags" Other (ShInt z1)); ("int", "mode", write_value p 2 "mode" Num (ShInt z2))].
  split; [|left]. unfold arguments. rewrite D.
  change (call 2) with (Some ("open", [Shown "pathname" "const char *" (One "filename" Raw); Shown "flags" "int" (One "flags" Other); Shown "mode" "int" (One "mode" Num)])).
  cbv iota. change (mapM ?g [?a; ?b; ?d]) with (g a ≫= fun x => (g b ≫= fun y => (g d ≫= fun z => Some [z]) ≫= fun k => Some (y :: k)) ≫= fun k => Some (x :: k)).
  cbv beta. cbn [a_src arg_value combine a_type a_label].
  assert (M0 : member raw [(Field "filename" 0 KStr, v0); (Field "flags" 1 KS32, VInt z1); (Field "mode" 2 KS32, VInt z2)] "filename" = Some (ShBytes s)) by exact S.
  rewrite M0. reflexivity.
Qed.

Lemma nth_load bs : forall n k, (k + n <= 128)%nat -> (k + n <= length bs)%nat -> load (text_at bs) (4096 + Z.of_nat k) n = Some (take n (drop k bs)).
Proof.
  induction n as [|n IH]; intros k H L; [reflexivity|]. cbn [load].
  replace (4096 + Z.of_nat k + 1) with (4096 + Z.of_nat (S k)) by lia. rewrite IH by lia.
  unfold text_at. destruct (_ && _) eqn:E; [|apply andb_false_iff in E as [E|E]; [apply Z.leb_gt in E|apply Z.ltb_ge in E]; lia].
  replace (Z.to_nat (4096 + Z.of_nat k - 4096)) with k by lia. destruct (lookup_lt_is_Some_2 bs k ltac:(lia)) as (x & X).
  rewrite (nth_lookup_Some bs k 0 x X). rewrite (drop_S bs x k X). reflexivity.
Qed.

Lemma forge l : (length l <= 125)%nat -> 0 ∉ l -> 10 ∉ l -> exists mem path,
  forall p tty nc c t regs ret old, nth 0 regs 0 = path -> length old = 640%nat -> t_syscall t = 2 ->
    decode_fields (captured_args 2 regs mem ret old) [Field "filename" 0 KStr; Field "flags" 1 KS32; Field "mode" 2 KS32] = Some (t_argv t) ->
    exists out, cli_output p tty nc c t (captured_args 2 regs mem ret old) = Some out /\ has_line l out.
Proof.
  intros Hl H0 H10. set (s := [10] ++ l ++ [10]). assert (Ls : length s = (length l + 2)%nat) by (unfold s; rewrite !app_length; cbn [length]; lia).
  exists (text_at (s ++ repeat 0 (128 - length s))), 4096. intros p tty nc c t regs ret old R L T F.
  assert (M : load (text_at (s ++ repeat 0 (128 - length s))) (nth 0 regs 0) 128 = Some (s ++ 0 :: repeat 0 (127 - length s))).
  { rewrite R. pose proof (nth_load (s ++ repeat 0 (128 - length s)) 128 0 ltac:(lia) ltac:(rewrite app_length, repeat_length; lia)) as K.
    rewrite Z.add_0_r in K. rewrite K. rewrite drop_0, take_ge by (rewrite app_length, repeat_length; lia).
    replace (128 - length s)%nat with (S (127 - length s)) by lia. reflexivity. }
  assert (N : 0 ∉ s) by (unfold s; rewrite !elem_of_app, !elem_of_list_singleton; intros [?|[?|?]]; [discriminate|contradiction|discriminate]).
  destruct (open_text p regs _ ret old (t_argv t) s _ L N M F) as (args & A & I).
  assert (O : exists out, cli_output p tty nc c t (captured_args 2 regs (text_at (s ++ repeat 0 (128 - length s))) ret old) = Some out).
  { unfold cli_output. rewrite T, A. eexists. reflexivity. }
  destruct O as (out & O). exists out. split; [exact O|].
  assert (A' : arguments p (t_syscall t) (captured_args 2 regs (text_at (s ++ repeat 0 (128 - length s))) ret old) (t_argv t) = Some args) by (rewrite T; exact A).
  destruct (text_printed p tty nc c t _ args _ _ _ out A' I O) as (pre & post & ->). apply has_line_mid, H10.
Qed.

(** * execve, clone, faccessat *)

Lemma execve_words p regs mem ret old argv printed w1 w2 w3 :
  length old = 640%nat ->
  decode_fields (captured_args 59 regs mem ret old)
    [Field "filename" 0 KStr; Field "argv[0]" 1 KStr; Field "argv[1]" 2 KStr; Field "argv[2]" 3 KStr] = Some argv ->
  arguments p 59 (captured_args 59 regs mem ret old) argv = Some printed ->
  expected regs mem (Elem 1 1) = Some (ShBytes w1) -> expected regs mem (Elem 1 2) = Some (ShBytes w2) -> expected regs mem (Elem 1 3) = Some (ShBytes w3) ->
  forall ty text, (ty, "argv[]", text) ∈ printed -> text = w1 ++ [32] ++ w2 ++ [32] ++ w3 ++ [32].
Proof.
  intros L F P E1 E2 E3 ty text I.
  assert (D : decoder 59 = Some [Field "filename" 0 KStr; Field "argv[0]" 1 KStr; Field "argv[1]" 2 KStr; Field "argv[2]" 3 KStr]) by reflexivity.
  destruct (printed_in _ _ _ _ _ _ _ _ _ P D F I) as (c & shs & a & C & A & Lb & _ & V).
  assert (C' : call 59 = Some ("execve", [Shown "filename" "const char *" (One "filename" Raw); Shown "argv[]" "char * const" (Words ["argv[0]"; "argv[1]"; "argv[2]"])])) by reflexivity.
  rewrite C' in C. injection C as <- <-. destruct A as [<-|[<-|[]]]; [cbn [a_label] in Lb; discriminate|]. cbn [a_src value_of] in V.
  assert (S1 : member_shown (Field "argv[0]" 1 KStr) (captured_args 59 regs mem ret old) = Some (ShBytes w1)).
  { eapply (wrong_shown 59 "argv[0]" (Elem 1 1)); try exact D; try assumption; try reflexivity; [|right; left; reflexivity].
    apply elem_of_list_In. unfold wrong_members. cbn [In]. tauto. }
  assert (S2 : member_shown (Field "argv[1]" 2 KStr) (captured_args 59 regs mem ret old) = Some (ShBytes w2)).
  { eapply (wrong_shown 59 "argv[1]" (Elem 1 2)); try exact D; try assumption; try reflexivity; [|right; right; left; reflexivity].
    apply elem_of_list_In. unfold wrong_members. cbn [In]. tauto. }
  assert (S3 : member_shown (Field "argv[2]" 3 KStr) (captured_args 59 regs mem ret old) = Some (ShBytes w3)).
  { eapply (wrong_shown 59 "argv[2]" (Elem 1 3)); try exact D; try assumption; try reflexivity; [|right; right; right; left; reflexivity].
    apply elem_of_list_In. unfold wrong_members. cbn [In]. tauto. }
  set (raw := captured_args 59 regs mem ret old) in *.
  change (mapM ?g ["argv[0]"; "argv[1]"; "argv[2]"]) with (g "argv[0]" ≫= fun x => (g "argv[1]" ≫= fun y => (g "argv[2]" ≫= fun z => Some [z]) ≫= fun k => Some (y :: k)) ≫= fun k => Some (x :: k)) in V.
  cbv beta in V.
  change (field_named _ "argv[0]") with (Some (Field "argv[0]" 1 KStr)) in V. change (field_named _ "argv[1]") with (Some (Field "argv[1]" 2 KStr)) in V.
  change (field_named _ "argv[2]") with (Some (Field "argv[2]" 3 KStr)) in V. cbv iota in V. rewrite (printed_shown _ _ _ S1), (printed_shown _ _ _ S2), (printed_shown _ _ _ S3) in V. cbn [bytes_shown mbind option_bind app join] in V.
  injection V as <-. reflexivity.
Qed.

Lemma clone_shows p regs mem ret old fs argv printed bs :
  length old = 640%nat -> decoder 56 = Some fs ->
  decode_fields (captured_args 56 regs mem ret old) fs = Some argv ->
  arguments p 56 (captured_args 56 regs mem ret old) argv = Some printed ->
  load mem (nth 2 regs 0) 128 = Some bs ->
  forall ty text, ((ty, "fn", text) ∈ printed -> text = hex_text (nth 1 regs 0 mod 2 ^ 64))
    /\ ((ty, "child_stack", text) ∈ printed -> text = hex_text (le (take 8 bs) mod 2 ^ 64)).
Proof.
  intros L D F P M ty text. pose proof D as D0. vm_compute in D0. injection D0 as <-.
  assert (C' : call 56 = Some ("clone", [Shown "fn" "int (*)(void *)" (One "new_stack" Hex); Shown "child_stack" "void *" (One "child_stack" Hex); Shown "flags" "int" (One "flags" Other)])) by reflexivity.
  split; intros I; destruct (printed_in _ _ _ _ _ _ _ _ _ P D F I) as (c & shs & a & C & A & Lb & _ & V);
    rewrite C' in C; injection C as <- <-; destruct A as [<-|[<-|[<-|[]]]]; cbn [a_label] in Lb; try discriminate; cbn [a_src value_of] in V.
  - change (field_named _ "new_stack") with (Some (Field "new_stack" 1 KU64)) in V. cbv iota in V.
    destruct (members_shown 56 _ (Field "new_stack" 1 KU64) D) as (m & Dm & S); [right; left; reflexivity|reflexivity|].
    change (doc 56 (f_name (Field "new_stack" 1 KU64))) with (Some (Arg ULong 1)) in Dm. injection Dm as <-.
    rewrite (printed_shown _ _ _ (S regs mem ret old (ShInt (nth 1 regs 0 mod 2 ^ 64)) L eq_refl)) in V. injection V as <-. reflexivity.
  - change (field_named _ "child_stack") with (Some (Field "child_stack" 2 KU64)) in V. cbv iota in V.
    assert (S : member_shown (Field "child_stack" 2 KU64) (captured_args 56 regs mem ret old) = Some (ShInt (le (take 8 bs) mod 2 ^ 64))).
    { eapply (wrong_shown 56 "child_stack" (DerefLong 2)); try exact D; try assumption; try reflexivity.
      - apply elem_of_list_In. unfold wrong_members. cbn [In]. tauto.
      - right. right. left. reflexivity.
      - cbn [expected]. rewrite M. reflexivity. }
    rewrite (printed_shown _ _ _ S) in V. injection V as <-. reflexivity.
Qed.

(** * Latency *)

Lemma rnd_mono p a b : 1 <= p -> 0 <= a <= b -> rnd p a <= rnd p b.
Proof.
  intros Hp H. destruct (Z.le_gt_cases (rnd p a) (rnd p b)) as [|G]; [assumption|]. exfalso.
  pose proof (rnd_nearest p Hp a (rnd p b) ltac:(lia) (rnd_representable p Hp b ltac:(lia))).
  pose proof (rnd_nearest p Hp b (rnd p a) ltac:(lia) (rnd_representable p Hp a ltac:(lia))).
  assert (a = b) by lia. subst. lia.
Qed.
Lemma f64_pos n : 0 <= n -> f64 n = rnd 53 n.
Proof.
  intros H. unfold f64. rewrite Z.abs_eq by exact H. destruct (Z.eq_dec n 0) as [->|]; [reflexivity|]. rewrite Z.sgn_pos by lia. lia.
Qed.
Lemma f64_mono a b : a <= b -> f64 a <= f64 b.
Proof.
  intros H. destruct (Z.le_gt_cases 0 a) as [A|A].
  - rewrite !f64_pos by lia. apply rnd_mono; lia.
  - pose proof (rnd_nonneg 53 ltac:(lia) (- a) ltac:(lia)). destruct (Z.le_gt_cases 0 b) as [B|B].
    + rewrite (f64_pos b) by lia. pose proof (rnd_nonneg 53 ltac:(lia) b ltac:(lia)). unfold f64. rewrite Z.sgn_neg, Z.abs_neq by lia. lia.
    + unfold f64. rewrite !Z.sgn_neg, !Z.abs_neq by lia. pose proof (rnd_mono 53 (- b) (- a) ltac:(lia) ltac:(lia)). lia.
Qed.
Lemma latency_exact s f : 0 <= s <= f -> f <= 2 ^ 53 -> latency s f = f - s.
Proof. intros H F. unfold latency. rewrite (f64_exact f), (f64_exact s) by lia. apply f64_exact. lia. Qed.
Lemma latency_bound s f : 0 <= s <= f -> f < 2 ^ 63 -> f - s <= 2 ^ 52 -> 2 ^ 53 * Z.abs (latency s f - (f - s)) <= f + s.
Proof.
  intros H F D. unfold latency. rewrite (f64_pos f), (f64_pos s) by lia.
  pose proof (rnd_relative 53 ltac:(lia) f ltac:(lia)). pose proof (rnd_relative 53 ltac:(lia) s ltac:(lia)).
  rewrite f64_exact by lia. lia.
Qed.
Lemma latency_later s f f' : f <= f' -> latency s f <= latency s f'.
Proof. intros H. unfold latency. apply f64_mono. pose proof (f64_mono f f' H). lia. Qed.
Lemma latency_nonneg s f : s <= f -> 0 <= latency s f.
Proof. intros H. change 0 with (f64 0). unfold latency. apply f64_mono. pose proof (f64_mono s f H). lia. Qed.

(** * The form of a line *)
Lemma separated_join sep ls : separated sep ls = join sep ls.
Proof. induction ls as [|l [|l' ls] IH]; [reflexivity|reflexivity|]. cbn [separated join] in *. rewrite IH. reflexivity. Qed.
Local Transparent txt.
Lemma line_form p tty nc c t raw out : cli_output p tty nc c t raw = Some out ->
  exists name shs args, call (t_syscall t) = Some (name, shs) /\ arguments p (t_syscall t) raw (t_argv t) = Some args
    /\ out = printf runes None (if nc then "(%vms) [%15s/%-8v] (%11s) %s(" else "(%vms) %35s: [%9s] (%11s) %s(")
               (let lat := latency_text p tty (latency (t_start t) (t_finish t)) in let errno := error_text tty (t_error t) in let name := paint tty Cyan (text_bytes name) in
                if nc then [lat; t_comm t; text_bytes (pretty (t_pid t)); errno; name] else [lat; paint tty Green (fqdn c); t_comm t; errno; name])
             ++ separated (text_bytes ", ") (map (fun a => printf runes None "(%s)%s=%v" [text_bytes a.1.1; text_bytes a.1.2; paint tty BgBlack (paint tty White a.2)]) args)
             ++ text_bytes ")" ++ [10].
Proof.
  unfold cli_output. destruct (call (t_syscall t)) as [[name shs]|]; [|discriminate]. destruct (arguments _ _ _ _) as [args|]; [|discriminate].
  intros E. apply Some_inj in E. exists name, shs, args. split; [reflexivity|]. split; [reflexivity|]. rewrite <- E. clear E. f_equal.
  - unfold header. rewrite <- (txt_bytes name), <- (txt_bytes (pretty (t_pid t))). destruct nc; cbv zeta; rewrite <- !app_assoc; reflexivity.
  - f_equal. transitivity (separated (text_bytes ", ") (map (one_arg tty) args)); [symmetry; exact (separated_join _ _)|]. f_equal. apply map_ext. intros [[ty label] bs]. cbn [fst snd]. unfold one_arg. rewrite !txt_bytes. rewrite <- (app_nil_r (paint tty BgBlack (paint tty White bs))) at 1. reflexivity.
Qed.
