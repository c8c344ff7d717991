(** Proofs about AgentModel.v. *)
From Coq Require Import ZArith String Ascii Bool Lia.
From stdpp Require Import base list sorting numbers strings gmap.
From Verif Require Import CodecModel JsonModel ClientModel ClientSpec ClientProofs ClientTop AgentModel AgentSpec.
Local Open Scope Z_scope.

(** * Reading comma-separated values *)
Lemma newlines_id s : ~ In cr s -> newlines s = s.
Proof.
  induction s as [|c s IH]; intros H; [done|]. cbn [newlines].
  destruct (Ascii.eqb_spec c cr) as [->|N]; [destruct H; by left|]. rewrite IH; [done|]. intros I. apply H. by right.
Qed.
Lemma skip_empty_id c s : c <> lf -> skip_empty (c :: s) = c :: s.
Proof. intros N. cbn [skip_empty]. by destruct (Ascii.eqb_spec c lf). Qed.
Lemma clean_not c s : clean s -> (c = quote \/ c = comma \/ c = cr \/ c = lf) -> ~ In c s.
Proof.
  intros H Hc I. unfold clean in H. rewrite Forall_forall in H. specialize (H c ltac:(by apply elem_of_list_In)). naive_solver.
Qed.
Lemma eqb_ne (c d : ascii) : c <> d -> Ascii.eqb c d = false.
Proof. intros H. by destruct (Ascii.eqb_spec c d). Qed.
Lemma record_clean s r : forall m cur, clean s -> m = AtStart \/ m = Bare ->
  record m cur (s ++ r)%list = record (match s with [] => m | _ => Bare end) (cur ++ s)%list r.
Proof.
  induction s as [|c s IH]; intros m cur H Hm; [by rewrite app_nil_r|].
  apply Forall_cons in H as [(H1 & H2 & H3 & H4) H]. cbn [app record].
  rewrite (eqb_ne _ _ H1), (eqb_ne _ _ H2), (eqb_ne _ _ H4).
  assert (record Bare (cur ++ [c]) (s ++ r) = record Bare (cur ++ c :: s) r)%list as E.
  { rewrite IH by (try done; by right). rewrite <- app_assoc. cbn [app]. by destruct s. }
  destruct Hm as [-> | ->]; exact E.
Qed.
Lemma record_comma m cur r : m = AtStart \/ m = Bare \/ m = AfterQuote -> record m cur (comma :: r) = field cur (record AtStart [] r).
Proof. intros [-> |[-> | ->]]; done. Qed.
Lemma record_end m cur : m = AtStart \/ m = Bare \/ m = AfterQuote -> record m cur [] = Some [cur].
Proof. intros [-> |[-> | ->]]; done. Qed.
Lemma clean_mode s : (match s with [] => AtStart | _ :: _ => Bare end) = AtStart \/
  (match s : text with [] => AtStart | _ :: _ => Bare end) = Bare \/ (match s : text with [] => AtStart | _ :: _ => Bare end) = AfterQuote.
Proof. destruct s; auto. Qed.
Lemma record_join l : l <> [] -> Forall clean l -> record AtStart [] (join [comma] l) = Some l.
Proof.
  intros N H. induction H as [|a l Ha Hl IH]; [done|]. destruct l as [|b l].
  - cbn [join]. rewrite <- (app_nil_r a) at 1. rewrite record_clean by auto. by rewrite record_end by apply clean_mode.
  - change (join [comma] (a :: b :: l)) with (a ++ comma :: join [comma] (b :: l))%list.
    rewrite record_clean by auto. rewrite record_comma by apply clean_mode. by rewrite IH.
Qed.
Lemma in_join c sep l : In c (join sep l) -> In c sep \/ exists a, In a l /\ In c a.
Proof.
  induction l as [|a l IH]; [done|]. destruct l as [|b l].
  - intros H. right. exists a. split; [by left|done].
  - change (join sep (a :: b :: l)) with (a ++ sep ++ join sep (b :: l))%list. intros H.
    apply in_app_or in H as [H|H]; [right; exists a; split; [by left|done]|].
    apply in_app_or in H as [H|H]; [by left|]. destruct (IH H) as [I|(x & I & J)]; [by left|]. right. exists x. split; [by right|done].
Qed.
Lemma join_not c l : Forall clean l -> (c = quote \/ c = cr \/ c = lf) -> ~ In c (join [comma] l).
Proof.
  intros H Hc I. apply in_join in I as [[E|[]]|(a & I & J)].
  - destruct Hc as [-> |[-> | ->]]; by vm_compute in E.
  - rewrite Forall_forall in H. apply (clean_not c a (H a ltac:(by apply elem_of_list_In))); [tauto|done].
Qed.
Lemma csv_read_join l : Forall clean l -> join [comma] l <> [] -> csv_read (join [comma] l) = Some l.
Proof.
  intros H N. unfold csv_read. rewrite newlines_id by (apply join_not; [done|tauto]).
  pose proof (join_not lf l H ltac:(tauto)) as Hl. assert (record AtStart [] (join [comma] l) = Some l) as E.
  { apply record_join; [|done]. by intros ->. }
  destruct (join [comma] l) as [|c s]; [done|]. rewrite skip_empty_id; [done|]. intros ->. apply Hl. by left.
Qed.
Lemma join_nil l : join [comma] l = [] -> l = [] \/ l = [[]].
Proof. destruct l as [|a [|b l]]; [by left|cbn; intros ->; by right|]. cbn [join]. intros H. apply app_eq_nil in H as [_ H]. done. Qed.
Lemma read_as_csv_join l : clean_list l -> read_as_csv (join [comma] l) = Some l.
Proof.
  intros [H N]. unfold read_as_csv. destruct (join [comma] l) as [|c s] eqn:E.
  - destruct (join_nil l E); congruence.
  - rewrite <- E. apply csv_read_join; [done|]. by rewrite E.
Qed.
Lemma record_quoted_plain s r : forall cur, ~ In quote s -> record Quoted cur (s ++ r)%list = record Quoted (cur ++ s)%list r.
Proof.
  induction s as [|c s IH]; intros cur H; [by rewrite app_nil_r|]. cbn [app record].
  rewrite eqb_ne by (intros ->; apply H; by left). rewrite IH by (intros I; apply H; by right). by rewrite <- app_assoc.
Qed.
(** the controller's quotes make one value of it *)
Lemma read_as_csv_quoted s : ~ In quote s -> ~ In cr s -> read_as_csv ([quote] ++ s ++ [quote])%list = Some [s].
Proof.
  intros H1 H2. change ([quote] ++ s ++ [quote])%list with (quote :: s ++ [quote])%list. cbn [read_as_csv]. unfold csv_read.
  rewrite newlines_id.
  2:{ intros [E|I]; [by vm_compute in E|]. apply in_app_or in I as [I|[E|[]]]; [done|by vm_compute in E]. }
  rewrite skip_empty_id by (by vm_compute). change (record AtStart [] (quote :: s ++ [quote]))%list with (record Quoted [] (s ++ [quote])%list).
  rewrite record_quoted_plain by done. done.
Qed.

(** * Writing and reading again *)
Lemma record_quoted s r : forall cur, record Quoted cur (quoted s ++ quote :: r)%list = record AfterQuote (cur ++ s)%list r.
Proof.
  induction s as [|c s IH]; intros cur; [cbn [quoted flat_map app]; rewrite app_nil_r; done|].
  change (quoted (c :: s)) with ((if Ascii.eqb c quote then [quote; quote] else [c]) ++ quoted s)%list.
  destruct (Ascii.eqb_spec c quote) as [->|N].
  - cbn [app]. change (record Quoted cur (quote :: quote :: quoted s ++ quote :: r))%list with (record Quoted (cur ++ [quote])%list (quoted s ++ quote :: r)%list).
    rewrite IH, <- app_assoc. done.
  - cbn [app record]. rewrite (eqb_ne _ _ N), IH, <- app_assoc. done.
Qed.
Lemma has_not c s : has c s = false -> ~ In c s.
Proof.
  intros H I. unfold has in H. assert (existsb (Ascii.eqb c) s = true) as E by (apply existsb_exists; exists c; split; [done|apply Ascii.eqb_refl]).
  congruence.
Qed.
Lemma no_quotes_clean f : needs_quotes f = false -> clean f.
Proof.
  destruct f as [|c f]; [constructor|]. intros H. apply Forall_forall. intros d Hd. apply elem_of_list_In in Hd. unfold needs_quotes in H.
  repeat apply orb_false_elim in H as [H ?].
  repeat match goal with X : has ?x _ = false |- _ => apply (has_not x) in X end. repeat split; intros ->; tauto.
Qed.
Lemma record_field f r : (r = [] \/ exists r', r = comma :: r') -> exists m, (m = AtStart \/ m = Bare \/ m = AfterQuote) /\
  record AtStart [] (csv_field f ++ r)%list = record m f r.
Proof.
  intros Hr. unfold csv_field. destruct (needs_quotes f) eqn:E.
  - exists AfterQuote. split; [by auto|]. change ([quote] ++ quoted f ++ [quote])%list with (quote :: quoted f ++ [quote])%list.
    rewrite <- app_comm_cons, <- app_assoc. cbn [app].
    change (record AtStart [] (quote :: quoted f ++ quote :: r))%list with (record Quoted [] (quoted f ++ quote :: r)%list).
    apply record_quoted.
  - exists (match f with [] => AtStart | _ => Bare end). split; [destruct f; auto|]. apply (record_clean f r AtStart []); [by apply no_quotes_clean|auto].
Qed.
Lemma record_write l : l <> [] -> record AtStart [] (csv_write l) = Some l.
Proof.
  unfold csv_write. intros N. induction l as [|a l IH]; [done|]. destruct l as [|b l].
  - cbn [map join]. rewrite <- (app_nil_r (csv_field a)). destruct (record_field a []) as (m & Hm & ->); [by left|]. by apply record_end.
  - change (join [comma] (map csv_field (a :: b :: l))) with (csv_field a ++ comma :: join [comma] (map csv_field (b :: l)))%list.
    destruct (record_field a (comma :: join [comma] (map csv_field (b :: l)))) as (m & Hm & ->); [eauto|].
    rewrite record_comma by done. by rewrite IH.
Qed.
Lemma csv_field_in c f : c <> quote -> In c (csv_field f) -> In c f.
Proof.
  intros N. unfold csv_field. destruct (needs_quotes f); [|done]. intros I. apply in_app_or in I as [[E|[]]|I]; [congruence|].
  apply in_app_or in I as [I|[E|[]]]; [|congruence]. unfold quoted in I. apply in_flat_map in I as (d & Hd & I).
  destruct (Ascii.eqb_spec d quote) as [->|Nd]; [destruct I as [E|[E|[]]]; congruence|]. destruct I as [<-|[]]. done.
Qed.
Lemma csv_write_no_cr l : Forall (fun s => ~ In cr s) l -> ~ In cr (csv_write l).
Proof.
  intros H I. apply in_join in I as [[E|[]]|(a & I & J)]; [by vm_compute in E|].
  apply in_map_iff in I as (f & <- & I). apply csv_field_in in J; [|by vm_compute]. rewrite Forall_forall in H.
  apply (H f); [by apply elem_of_list_In|done].
Qed.
Lemma csv_write_first l c s : csv_write l = c :: s -> c <> lf.
Proof.
  destruct l as [|a l]; [done|]. unfold csv_write. intros H ->.
  assert (csv_field a = [] \/ exists r, csv_field a = lf :: r) as [E|[r E]].
  { destruct l as [|b l]; cbn [map join] in H; destruct (csv_field a); [by left|injection H as -> _; eauto|by left|injection H as -> _; eauto]. }
  - destruct l as [|b l]; cbn [map join] in H; [congruence|]. rewrite E in H. by injection H.
  - unfold csv_field in E. destruct (needs_quotes a) eqn:Eq; [by injection E|]. subst a. apply no_quotes_clean in Eq.
    by apply Forall_cons in Eq as [(_ & _ & _ & X) _].
Qed.
Lemma csv_write_nil l : csv_write l = [] -> l = [] \/ l = [[]].
Proof.
  intros H. apply join_nil in H as [H|H]; [left; by destruct l|]. right. destruct l as [|a [|b l]]; try done. cbn in H. injection H as H.
  unfold csv_field in H. destruct (needs_quotes a); [done|by subst].
Qed.
Lemma slice_get_set l : Forall (fun s => ~ In cr s) l -> slice_get (Some l) = Some (if bool_decide (l = [[]]) then [] else l).
Proof.
  intros H. unfold slice_get. change (default [] (Some l)) with l. pose proof (csv_write_no_cr l H) as Hcr.
  destruct (csv_write l) as [|c s] eqn:E.
  - destruct (csv_write_nil l E) as [-> | ->]; [done|]. by rewrite bool_decide_true.
  - assert (l <> []) as N1 by (by intros ->). rewrite bool_decide_false by (by intros ->). change (csv_read (c :: s) = Some l). unfold csv_read.
    rewrite newlines_id by done. rewrite skip_empty_id by (by apply (csv_write_first l c s)). rewrite <- E. by apply record_write.
Qed.
Lemma clean_no_cr l : Forall clean l -> Forall (fun s => ~ In cr s) l.
Proof. intros H. eapply Forall_impl; [exact H|]. intros s Hs. apply clean_not; [done|tauto]. Qed.
(** what a list flag gives when it was set once *)
Lemma flag_list l : clean_list l -> slice_set None (join [comma] l) = Some l /\ slice_get (Some l) = Some l.
Proof.
  intros H. unfold slice_set. rewrite read_as_csv_join by done. split; [done|]. destruct H as [H N].
  rewrite slice_get_set by (by apply clean_no_cr). by rewrite bool_decide_false.
Qed.
Lemma flag_quoted l : Forall clean l ->
  slice_set None ([quote] ++ join [comma] l ++ [quote])%list = Some [join [comma] l] /\
  slice_get (Some [join [comma] l]) = Some (match join [comma] l with [] => [] | s => [s] end).
Proof.
  intros H. unfold slice_set. rewrite read_as_csv_quoted; [|apply join_not; [done|tauto]..]. split; [done|].
  rewrite slice_get_set.
  - destruct (join [comma] l); [done|]. by rewrite bool_decide_false.
  - constructor; [|constructor]. apply join_not; [done|tauto].
Qed.

(** * Selectors *)
Lemma split_join sep l : l <> [] -> Forall (fun a => ~ In sep a) l -> split_on sep [] (join [sep] l) = l.
Proof.
  intros N H. induction H as [|a l Ha Hl IH]; [done|]. destruct l as [|b l].
  - cbn [join]. by rewrite split_on_none.
  - change (join [sep] (a :: b :: l)) with (a ++ sep :: join [sep] (b :: l))%list. rewrite split_on_sep by done. by rewrite IH.
Qed.
Lemma split_join_inv sep s : forall acc, join [sep] (split_on sep acc s) = (acc ++ s)%list /\ Forall (fun a => In sep a -> In sep acc) (split_on sep acc s) /\ split_on sep acc s <> [].
Proof.
  induction s as [|c s IH]; intros acc; cbn [split_on]; [rewrite app_nil_r; split; [done|split; [by constructor|done]]|].
  destruct (Ascii.eqb_spec c sep) as [->|N].
  - destruct (IH []) as (H1 & H2 & H3). split; [|split; [|done]].
    + destruct (split_on sep [] s); [done|]. cbn [join] in *. rewrite H1. done.
    + constructor; [done|]. eapply Forall_impl; [exact H2|]. intros x Hx I. by apply Hx in I.
  - destruct (IH (acc ++ [c])%list) as (H1 & H2 & H3). split; [rewrite H1, <- app_assoc; done|]. split; [|done].
    eapply Forall_impl; [exact H2|]. intros x Hx I. apply Hx in I. apply in_app_or in I as [I|[E|[]]]; [done|]. congruence.
Qed.

(** * Names *)
Lemma edged_spec (e i : ascii -> bool) (E I : ascii -> Prop) s :
  (forall c, e c = true <-> E c) -> (forall c, i c = true <-> I c) -> (forall c, E c -> I c) ->
  edged e i s = true <-> between E I s.
Proof.
  intros He Hi HEI. split.
  - destruct s as [|c s]; [done|]. unfold edged. intros H. apply andb_prop in H as [H H3]. apply andb_prop in H as [H1 H2].
    destruct s as [|d s _] using rev_ind.
    + left. exists c. split; [done|]. by apply He.
    + right. rewrite app_comm_cons, last_snoc in H2. exists c, s, d. split; [done|]. split; [by apply He|]. split; [by apply He|].
      apply Forall_forall. intros x Hx. apply Hi. rewrite forallb_forall in H3. apply H3. right. apply in_or_app. left. by apply elem_of_list_In.
  - intros [(c & -> & Hc)|(c & m & d & -> & Hc & Hd & Hm)].
    + unfold edged. cbn. apply He in Hc as Hc'. rewrite Hc'. apply HEI, Hi in Hc. by rewrite Hc.
    + unfold edged. rewrite app_comm_cons, last_snoc. apply He in Hc as Hc', Hd as Hd'. rewrite Hc', Hd'. cbn [andb].
      apply forallb_forall. intros x Hx. apply Hi. destruct Hx as [<-|Hx]; [by apply HEI|]. apply in_app_or in Hx as [Hx|[<-|[]]].
      * rewrite Forall_forall in Hm. apply Hm. by apply elem_of_list_In.
      * by apply HEI.
Qed.
Lemma alnum_letter c : alnum c = true <-> letter c.
Proof.
  unfold alnum, letter. rewrite !orb_true_iff, !andb_true_iff, !Nat.leb_le. cbn. tauto.
Qed.
Lemma lower_small c : lower c = true <-> small c.
Proof. unfold lower, small. rewrite !orb_true_iff, !andb_true_iff, !Nat.leb_le. tauto. Qed.
Lemma name_char_spec c : name_char c = true <-> letter c \/ c = "-"%char \/ c = "_"%char \/ c = "."%char.
Proof.
  unfold name_char. rewrite orb_true_iff, alnum_letter. cbn [t String.list_ascii_of_string existsb].
  rewrite !orb_true_iff, !Ascii.eqb_eq. split; [intros [H|[H|[H|[H|H]]]]|intros [H|[H|[H|H]]]]; auto 6; discriminate.
Qed.
Lemma label_name_spec s : label_name s = true <-> kube_name s.
Proof.
  unfold label_name, kube_name. rewrite andb_true_iff, Nat.leb_le.
  rewrite (edged_spec alnum name_char letter (fun c => letter c \/ c = "-"%char \/ c = "_"%char \/ c = "."%char)); [done|..].
  - apply alnum_letter.
  - apply name_char_spec.
  - tauto.
Qed.
Lemma label_value_spec s : label_value s = true <-> kube_value s.
Proof.
  unfold kube_value. rewrite <- label_name_spec. unfold label_value, label_name. destruct s as [|c s]; [split; [by left|done]|].
  split; [by right|]. by intros [H|H].
Qed.
Lemma dns_label_chars_spec s : dns_label_chars s = true <-> kube_label s.
Proof.
  unfold dns_label_chars, kube_label. apply edged_spec.
  - apply lower_small.
  - intros c. rewrite orb_true_iff, lower_small, Ascii.eqb_eq. done.
  - tauto.
Qed.
Lemma small_letter c : small c -> letter c.
Proof. unfold small, letter. tauto. Qed.
Lemma letter_not c x : letter c -> ~ ((48 <= code x <= 57)%nat \/ (65 <= code x <= 90)%nat \/ (97 <= code x <= 122)%nat) -> c <> x.
Proof. intros H N ->. by apply N. Qed.
Lemma between_in (E I : ascii -> Prop) s c : (forall c, E c -> I c) -> between E I s -> In c s -> I c.
Proof.
  intros HEI [(d & -> & Hd)|(d & m & e & -> & Hd & He & Hm)] H.
  - destruct H as [<-|[]]. auto.
  - destruct H as [<-|H]; [auto|]. apply in_app_or in H as [H|[<-|[]]]; [|auto]. rewrite Forall_forall in Hm. apply Hm. by apply elem_of_list_In.
Qed.
Definition nameish (c : ascii) : Prop := letter c \/ c = "-"%char \/ c = "_"%char \/ c = "."%char \/ c = slash.
Lemma kube_label_in s c : kube_label s -> In c s -> small c \/ c = "-"%char.
Proof. intros H. apply (between_in small (fun c => small c \/ c = "-"%char) s c); [tauto|done]. Qed.
Lemma kube_name_in s c : kube_name s -> In c s -> nameish c.
Proof. intros [_ H] Hc. apply (between_in letter (fun c => letter c \/ c = "-"%char \/ c = "_"%char \/ c = "."%char) s c ltac:(intros ? ?; cbv beta; by left) H) in Hc. unfold nameish. cbv beta in Hc. tauto. Qed.
Lemma nameish_not c x : nameish c -> ~ nameish x -> c <> x.
Proof. intros H N ->. done. Qed.
Lemma not_nameish x : alnum x = false -> x <> "-"%char -> x <> "_"%char -> x <> "."%char -> x <> slash -> ~ nameish x.
Proof. intros H ???? [L|[L|[L|[L|L]]]]; try done. apply alnum_letter in L. congruence. Qed.
Lemma dns_subdomain_spec s : dns_subdomain s = true <-> kube_domain s.
Proof.
  unfold dns_subdomain, kube_domain. rewrite andb_true_iff, Nat.leb_le. apply and_iff_compat_l.
  destruct (split_join_inv "." s []) as (H1 & H2 & H3). split.
  - intros H. exists (split_on "." [] s). split; [done|]. split; [|done]. apply Forall_forall. intros x Hx. apply dns_label_chars_spec.
    rewrite forallb_forall in H. apply H. by apply elem_of_list_In.
  - intros (parts & N & Hp & ->). rewrite split_join; [|done|].
    + apply forallb_forall. intros x Hx. apply dns_label_chars_spec. rewrite Forall_forall in Hp. apply Hp. by apply elem_of_list_In.
    + eapply Forall_impl; [exact Hp|]. intros x Hx I. destruct (kube_label_in _ _ Hx I) as [L|L]; [|done].
      apply lower_small in L. by vm_compute in L.
Qed.
Lemma kube_domain_in s c : kube_domain s -> In c s -> small c \/ c = "-"%char \/ c = "."%char.
Proof.
  intros (_ & parts & N & Hp & ->) H. apply in_join in H as [[<-|[]]|(a & I & J)]; [tauto|]. rewrite Forall_forall in Hp.
  destruct (kube_label_in a c (Hp a ltac:(by apply elem_of_list_In)) J); tauto.
Qed.
Lemma slash_not_letter : ~ letter slash.
Proof. intros H. apply alnum_letter in H. by vm_compute in H. Qed.
Lemma kube_name_no_slash s : kube_name s -> ~ In slash s.
Proof.
  intros [_ H] I. apply (between_in letter (fun c => letter c \/ c = "-"%char \/ c = "_"%char \/ c = "."%char) s slash ltac:(intros ? ?; cbv beta; by left) H) in I. pose proof slash_not_letter. destruct I as [I|[I|[I|I]]]; done.
Qed.
Lemma kube_domain_no_slash s : kube_domain s -> ~ In slash s.
Proof.
  intros H I. destruct (kube_domain_in _ _ H I) as [L|[L|L]]; [|done|done]. by apply slash_not_letter, small_letter.
Qed.
Lemma kube_domain_nonempty s : kube_domain s -> s <> [].
Proof.
  intros (_ & parts & N & Hp & ->). destruct parts as [|a parts]; [done|]. apply Forall_cons in Hp as [Ha _].
  assert (a <> []) as Na by (destruct Ha as [(c & -> & _)|(c & m & d & -> & _)]; done).
  destruct a; [done|]. by destruct parts.
Qed.
Lemma label_key_spec s : label_key s = true <-> kube_key s.
Proof.
  unfold label_key, kube_key. split.
  - intros H. destruct (split_on slash [] s) as [|a [|b [|c l]]] eqn:E; try done.
    + apply split_one in E as [-> E]. left. by apply label_name_spec.
    + right. apply split_two in E as (r & -> & E1 & -> & E2). apply andb_prop in H as [H H3]. apply andb_prop in H as [H1 H2].
      exists a, b. split; [done|]. split; [by apply dns_subdomain_spec|by apply label_name_spec].
  - intros [H|(p & n & -> & Hp & Hn)].
    + rewrite split_on_none by (by apply kube_name_no_slash). cbn [app]. by apply label_name_spec.
    + rewrite split_on_sep by (by apply kube_domain_no_slash). rewrite split_on_none by (by apply kube_name_no_slash). cbn [app].
      apply label_name_spec in Hn. rewrite Hn. pose proof (kube_domain_nonempty _ Hp) as N. apply dns_subdomain_spec in Hp. rewrite Hp.
      destruct (text_eqb_spec p []); done.
Qed.
Lemma kube_key_in s c : kube_key s -> In c s -> nameish c.
Proof.
  intros [H|(p & n & -> & Hp & Hn)] I; [by apply (kube_name_in s)|]. apply in_app_or in I as [I|[<-|I]].
  - destruct (kube_domain_in _ _ Hp I) as [L|L]; unfold nameish; [apply small_letter in L; tauto|tauto].
  - unfold nameish. tauto.
  - by apply (kube_name_in n).
Qed.
Lemma kube_value_in s c : kube_value s -> In c s -> nameish c.
Proof. intros [-> |H]; [done|]. by apply kube_name_in. Qed.
Lemma trim_id s : (forall c, In c s -> space c = false) -> trim s = s.
Proof.
  intros H. assert (forall l, (forall c, In c l -> space c = false) -> trim_left l = l) as Hl.
  { intros [|c l] Hc; [done|]. cbn [trim_left]. rewrite Hc; [done|by left]. }
  unfold trim. rewrite (Hl s) by done. rewrite Hl by (intros c Hc; apply H; by apply in_rev). apply rev_involutive.
Qed.
Lemma nameish_not_space c : nameish c -> space c = false.
Proof.
  intros [H|[-> |[-> |[-> | ->]]]]; try done. unfold letter in H. unfold space.
  destruct (Nat.eqb_spec (code c) 32); [lia|]. destruct (Nat.leb_spec 9 (code c)); [|done]. destruct (Nat.leb_spec (code c) 13); [lia|done].
Qed.

(** * The selectors of a trace reach the client *)
Lemma pairs_of_spec l m : Forall (fun kv => kube_key kv.1 /\ kube_value kv.2) l ->
  pairs_of (map pair_text l) m = Some (fold_left (fun m kv => <[kv.1 := kv.2]> m) l m).
Proof.
  intros H. revert m. induction H as [|[k v] l [Hk Hv] Hl IH]; intros m; [done|]. cbn [map pairs_of fold_left fst snd].
  assert (forall c, nameish c -> c <> "="%char) as Ne by (intros c Hc; apply (nameish_not c "=" Hc), not_nameish; done).
  change (pair_text (k, v)) with (k ++ "="%char :: v)%list. rewrite split_on_sep, split_on_none.
  2:{ intros I. by apply (Ne "="%char (kube_value_in _ _ Hv I)). }
  2:{ intros I. by apply (Ne "="%char (kube_key_in _ _ Hk I)). }
  cbn [app]. rewrite !trim_id.
  2:{ intros c Hc. by apply nameish_not_space, (kube_value_in v). }
  2:{ intros c Hc. by apply nameish_not_space, (kube_key_in k). }
  apply label_key_spec in Hk. apply label_value_spec in Hv. cbn [fst snd] in *. rewrite Hk, Hv. apply IH.
Qed.
Lemma fold_insert (l : list (text * text)) : forall m : gmap text text, NoDup l.*1 -> (forall k, k ∈ l.*1 -> m !! k = None) ->
  fold_left (fun (m : gmap text text) kv => <[kv.1 := kv.2]> m) l m = list_to_map l ∪ m.
Proof.
  induction l as [|[k v] l IH]; intros m Hn Hm; [symmetry; exact (map_empty_union m)|]. cbn [fold_left fst snd fmap list_fmap] in *.
  apply NoDup_cons in Hn as [Hk Hn]. rewrite IH; [|done|].
  - rewrite list_to_map_cons, <- insert_union_r; [|by apply not_elem_of_list_to_map_1]. by rewrite insert_union_l.
  - intros j Hj. rewrite lookup_insert_ne by (intros <-; done). apply Hm. by right.
Qed.
Lemma set_string_selector m : kube_labels m -> selector_map (set_string m) = Some m.
Proof.
  intros H. unfold set_string. pose proof (merge_sort_Permutation text_le (map pair_text (map_to_list m))) as P.
  destruct (Permutation_map_inv pair_text _ P) as (l & El & Pl). rewrite El.
  assert (Forall (fun kv : text * text => kube_key kv.1 /\ kube_value kv.2) l) as Hl.
  { apply Forall_forall. intros [k v] Hkv. rewrite <- Pl in Hkv. apply elem_of_map_to_list in Hkv. by apply H. }
  assert (forall c, nameish c -> c <> comma) as Nc by (intros c Hc; apply (nameish_not c comma Hc), not_nameish; done).
  destruct l as [|kv l]; [apply Permutation_sym, Permutation_nil in Pl; apply map_to_list_empty_iff in Pl; by subst|].
  assert (exists c r, join [comma] (map pair_text (kv :: l)) = c :: r) as (c & r & Ej).
  { destruct (join [comma] (map pair_text (kv :: l))) as [|c r] eqn:E; [|by eexists _, _]. apply join_nil in E as [E|E]; [done|].
    injection E as E _. unfold pair_text in E. by destruct (kv.1). }
  unfold selector_map. rewrite Ej, <- Ej. rewrite split_join; [|done|].
  - rewrite pairs_of_spec by done. rewrite fold_insert.
    + f_equal. rewrite (map_union_empty (M := gmap text)). rewrite <- (list_to_map_to_list m). apply list_to_map_proper; [|by symmetry].
      rewrite <- Pl. apply NoDup_fst_map_to_list.
    + rewrite <- Pl. apply NoDup_fst_map_to_list.
    + done.
  - apply Forall_forall. intros x Hx I. apply elem_of_list_In, in_map_iff in Hx as ([k v] & <- & Hkv).
    rewrite Forall_forall in Hl. destruct (Hl (k, v) ltac:(by apply elem_of_list_In)) as [Hk Hv]. unfold pair_text in I. cbn [fst snd] in *.
    apply in_app_or in I as [I|I]; [by apply (Nc comma (kube_key_in _ _ Hk I))|].
    apply in_app_or in I as [[E|[]]|I]; [by vm_compute in E|]. by apply (Nc comma (kube_value_in _ _ Hv I)).
Qed.
Lemma selector_spec m : kube_labels m -> exists o, selector (set_string m) = Some o /\ default [] o = map_to_list m /\ (o = None -> map_to_list m = []).
Proof.
  intros H. pose proof (set_string_selector m H) as E. unfold selector. destruct (set_string m) as [|c s].
  - exists None. injection E as <-. done.
  - rewrite E. exists (Some (map_to_list m)). done.
Qed.
