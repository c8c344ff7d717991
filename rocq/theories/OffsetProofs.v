(** Proofs about offset detection. *)
From Coq Require Import ZArith String Ascii Bool Lia.
From stdpp Require Import base list numbers strings gmap.
From Verif Require Import OffsetModel OffsetSpec.

Local Open Scope string_scope.
Local Open Scope Z_scope.

(** * Strings *)

Lemma sapp_nil_r s : s +:+ "" = s.
Proof. induction s as [|c s IH]; [reflexivity|]. change (String c (s +:+ "") = String c s). f_equal. exact IH. Qed.
Lemma sapp_assoc a b c : (a +:+ b) +:+ c = a +:+ b +:+ c.
Proof. induction a as [|x a IH]; [reflexivity|]. change (String x ((a +:+ b) +:+ c) = String x (a +:+ b +:+ c)). f_equal. exact IH. Qed.
Lemma all_app p a b : all_chars p (a +:+ b) = all_chars p a && all_chars p b.
Proof. induction a as [|x a IH]; [reflexivity|]. cbn [all_chars]. change (String x a +:+ b) with (String x (a +:+ b)). cbn [all_chars]. rewrite IH, andb_assoc. reflexivity. Qed.
Lemma length_app a b : String.length (a +:+ b) = (String.length a + String.length b)%nat.
Proof. induction a as [|x a IH]; [reflexivity|]. change (S (String.length (a +:+ b)) = S (String.length a + String.length b)). f_equal. exact IH. Qed.
Lemma snoc_not_empty a c : String.eqb (a +:+ String c "") "" = false.
Proof. destruct a; reflexivity. Qed.

Local Ltac nil_in H := match type of H with context [String.append "" ?x] => change (String.append "" x) with x in H end.
Lemma strip_spec lit s r : strip lit s = Some r <-> s = lit +:+ r.
Proof.
  revert s r. induction lit as [|a lit IH]; intros s r; cbn [strip].
  - change ("" +:+ r) with r. split; [intros [= ->]|intros ->]; reflexivity.
  - change (String a lit +:+ r) with (String a (lit +:+ r)). destruct s as [|b s]; [split; discriminate|]. destruct (Ascii.eqb_spec a b) as [->|N].
    + rewrite IH. split; [intros ->; reflexivity|intros [= ->]; reflexivity].
    + split; [discriminate|]. intros [= -> _]. congruence.
Qed.
Lemma prefix_spec lit s : String.prefix lit s = true <-> exists r, s = lit +:+ r.
Proof.
  revert s. induction lit as [|a lit IH]; intros s; [split; [intros _; exists s; reflexivity|intros _; destruct s; reflexivity]|].
  destruct s as [|b s]; cbn [String.prefix].
  - split; [discriminate|]. intros [r H]. discriminate.
  - destruct (Ascii.ascii_dec a b) as [->|N].
    + rewrite IH. split; intros [r H]; exists r; [rewrite H; reflexivity|]. change (String b lit +:+ r) with (String b (lit +:+ r)) in H. congruence.
    + split; [discriminate|]. intros [r H]. change (String a lit +:+ r) with (String a (lit +:+ r)) in H. congruence.
Qed.
Lemma contains_spec sub s : contains sub s = true <-> mentions sub s.
Proof.
  unfold mentions. induction s as [|c s IH]; cbn [contains]; rewrite orb_true_iff, prefix_spec.
  - split.
    + intros [[r H]|H]; [exists "", r; exact H|discriminate].
    + intros (a & b & H). destruct a; [left; exists b; exact H|discriminate].
  - rewrite IH. split.
    + intros [[r H]|(a & b & H)]; [exists "", r; exact H|]. exists (String c a), b. rewrite H. reflexivity.
    + intros (a & b & H). destruct a as [|x a]; [left; exists b; exact H|]. right. exists a, b.
      change (String x a +:+ sub +:+ b) with (String x (a +:+ sub +:+ b)) in H. congruence.
Qed.

Lemma span_spec p s : forall a b, span p s = (a, b) <-> s = a +:+ b /\ all_chars p a = true /\ (forall c r, b = String c r -> p c = false).
Proof.
  induction s as [|c s IH]; intros a b; cbn [span].
  - split.
    + intros [= <- <-]. split; [reflexivity|]. split; [reflexivity|]. discriminate.
    + intros (H & _ & _). destruct a; [nil_in H; subst b; reflexivity|discriminate].
  - destruct (p c) eqn:P.
    + destruct (span p s) as [a' b'] eqn:S. pose proof (proj1 (IH a' b') eq_refl) as (E & A & B). split.
      * intros [= <- <-]. split; [rewrite E at 1; reflexivity|]. split; [cbn; rewrite P; exact A|exact B].
      * intros (H & A' & B'). destruct a as [|x a].
        { nil_in H. subst b. specialize (B' c s eq_refl). congruence. }
        change (String x a +:+ b) with (String x (a +:+ b)) in H. injection H as <- H. cbn [all_chars] in A'. apply andb_true_iff in A' as [_ A'].
        assert (X : (a', b') = (a, b)) by (apply IH; split; [exact H|split; assumption]). injection X as -> ->. reflexivity.
    + split.
      * intros [= <- <-]. split; [reflexivity|]. split; [reflexivity|]. intros ? ? [= <- _]. exact P.
      * intros (H & A & B). destruct a as [|x a]; [nil_in H; subst b; reflexivity|].
        change (String x a +:+ b) with (String x (a +:+ b)) in H. injection H as <- H. cbn [all_chars] in A. rewrite P in A. discriminate.
Qed.
Lemma many_spec p s a b : many p s = Some (a, b) <-> s = a +:+ b /\ run p a /\ (forall c r, b = String c r -> p c = false).
Proof.
  unfold many. destruct (span p s) as [x y] eqn:S. split.
  - destruct (String.eqb_spec x ""); [discriminate|]. intros [= <- <-]. apply span_spec in S as (H1 & H2 & H3). split; [exact H1|]. split; [split; assumption|exact H3].
  - intros (H1 & [H2 H3] & H4). assert (X : (x, y) = (a, b)) by (rewrite <- S; apply span_spec; split; [exact H1|split; assumption]).
    injection X as -> ->. destruct (String.eqb_spec a ""); [contradiction|reflexivity].
Qed.
Lemma stop_lit p c lit r : p c = false -> forall d t, String c lit +:+ r = String d t -> p d = false.
Proof. intros H d t E. change (String c lit +:+ r) with (String c (lit +:+ r)) in E. injection E as <- _. exact H. Qed.

Lemma re_offset_spec s off : re_offset s = Some off <-> exists w rest, s = "0x" +:+ w +:+ "]" +:+ rest /\ run re_word w /\ off = "0x" +:+ w.
Proof.
  unfold re_offset. split.
  - destruct (strip "0x" s) as [s1|] eqn:E1; [|discriminate]. apply strip_spec in E1.
    destruct (many re_word s1) as [[w s2]|] eqn:E2; [|discriminate]. apply many_spec in E2 as (E2 & R & _).
    destruct (strip "]" s2) as [s3|] eqn:E3; [|discriminate]. apply strip_spec in E3. intros [= <-].
    exists w, s3. subst. split; [reflexivity|]. split; [exact R|reflexivity].
  - intros (w & rest & -> & R & ->). rewrite (proj2 (strip_spec "0x" _ (w +:+ "]" +:+ rest)) eq_refl).
    rewrite (proj2 (many_spec re_word _ w ("]" +:+ rest))); [|split; [reflexivity|split; [exact R|apply stop_lit; reflexivity]]].
    rewrite (proj2 (strip_spec "]" _ rest) eq_refl). reflexivity.
Qed.

Lemma word_not_space c : re_word c = true -> re_space c = false.
Proof. destruct c as [[] [] [] [] [] [] [] []]; vm_compute; congruence. Qed.

Lemma re_mov_spec s off : re_mov s = Some off <-> mov_at s off.
Proof.
  unfold re_mov, mov_at. split.
  - destruct (strip "mov" s) as [s1|] eqn:E1; [|discriminate]. apply strip_spec in E1.
    destruct (many re_space s1) as [[sp s2]|] eqn:E2; [|discriminate]. apply many_spec in E2 as (E2 & R2 & _).
    destruct (many re_word s2) as [[r s3]|] eqn:E3; [|discriminate]. apply many_spec in E3 as (E3 & R3 & _).
    destruct (strip ",QWORD PTR [" s3) as [s4|] eqn:E4; [|discriminate]. apply strip_spec in E4.
    destruct (many re_word s4) as [[b s5]|] eqn:E5; [|discriminate]. apply many_spec in E5 as (E5 & R5 & _).
    destruct (strip "+" s5) as [s6|] eqn:E6; [|discriminate]. apply strip_spec in E6.
    intros H. apply re_offset_spec in H as (w & rest & E7 & R7 & ->).
    exists sp, r, b, w, rest. subst. split; [reflexivity|]. tauto.
  - intros (sp & r & b & w & rest & -> & R2 & R3 & R5 & R7 & ->).
    rewrite (proj2 (strip_spec "mov" _ _) eq_refl).
    rewrite (proj2 (many_spec re_space _ sp (r +:+ ",QWORD PTR [" +:+ b +:+ "+" +:+ "0x" +:+ w +:+ "]" +:+ rest))).
    2: { split; [reflexivity|]. split; [exact R2|]. intros c t E. destruct r as [|x r]; [destruct R3; congruence|]. injection E as <- _.
         destruct R3 as [_ R3]. cbn [all_chars] in R3. apply andb_true_iff in R3 as [R3 _]. exact (word_not_space x R3). }
    rewrite (proj2 (many_spec re_word _ r (",QWORD PTR [" +:+ b +:+ "+" +:+ "0x" +:+ w +:+ "]" +:+ rest))).
    2: { split; [reflexivity|]. split; [exact R3|]. apply stop_lit. reflexivity. }
    rewrite (proj2 (strip_spec ",QWORD PTR [" _ _) eq_refl).
    rewrite (proj2 (many_spec re_word _ b ("+" +:+ "0x" +:+ w +:+ "]" +:+ rest))).
    2: { split; [reflexivity|]. split; [exact R5|]. apply stop_lit. reflexivity. }
    rewrite (proj2 (strip_spec "+" _ _) eq_refl). apply re_offset_spec. exists w, rest. tauto.
Qed.

Lemma re_lea_spec s off : re_lea s = Some off <-> lea_at s off.
Proof.
  unfold re_lea, lea_at. split.
  - destruct (strip "lea" s) as [s1|] eqn:E1; [|discriminate]. apply strip_spec in E1.
    destruct (many re_space s1) as [[sp s2]|] eqn:E2; [|discriminate]. apply many_spec in E2 as (E2 & R2 & _).
    destruct (many re_word s2) as [[r s3]|] eqn:E3; [|discriminate]. apply many_spec in E3 as (E3 & R3 & _).
    destruct (strip ",[" s3) as [s4|] eqn:E4; [|discriminate]. apply strip_spec in E4.
    destruct (many re_word s4) as [[b s5]|] eqn:E5; [|discriminate]. apply many_spec in E5 as (E5 & R5 & _).
    destruct s5 as [|c s6]; [discriminate|]. destruct (Ascii.eqb c "+" || Ascii.eqb c "-") eqn:E6; [|discriminate].
    intros H. apply re_offset_spec in H as (w & rest & E7 & R7 & ->).
    exists sp, r, b, (String c ""), w, rest. subst. split; [reflexivity|].
    split; [apply orb_true_iff in E6 as [E6|E6]; apply Ascii.eqb_eq in E6; subst; tauto|]. tauto.
  - intros (sp & r & b & sign & w & rest & -> & Hs & R2 & R3 & R5 & R7 & ->).
    assert (Hc : exists c, sign = String c "" /\ Ascii.eqb c "+" || Ascii.eqb c "-" = true /\ re_word c = false).
    { destruct Hs as [->| ->]; eexists; (split; [reflexivity|split; reflexivity]). }
    destruct Hc as (c & -> & Hc & Wc).
    rewrite (proj2 (strip_spec "lea" _ _) eq_refl).
    rewrite (proj2 (many_spec re_space _ sp (r +:+ ",[" +:+ b +:+ String c "" +:+ "0x" +:+ w +:+ "]" +:+ rest))).
    2: { split; [reflexivity|]. split; [exact R2|]. intros d t E. destruct r as [|x r]; [destruct R3; congruence|]. injection E as <- _.
         destruct R3 as [_ R3]. cbn [all_chars] in R3. apply andb_true_iff in R3 as [R3 _]. exact (word_not_space x R3). }
    rewrite (proj2 (many_spec re_word _ r (",[" +:+ b +:+ String c "" +:+ "0x" +:+ w +:+ "]" +:+ rest))).
    2: { split; [reflexivity|]. split; [exact R3|]. apply stop_lit. reflexivity. }
    rewrite (proj2 (strip_spec ",[" _ _) eq_refl).
    rewrite (proj2 (many_spec re_word _ b (String c "" +:+ "0x" +:+ w +:+ "]" +:+ rest))).
    2: { split; [reflexivity|]. split; [exact R5|]. apply stop_lit. exact Wc. }
    change (String c "" +:+ "0x" +:+ w +:+ "]" +:+ rest) with (String c ("0x" +:+ w +:+ "]" +:+ rest)). cbv iota beta. rewrite Hc.
    apply re_offset_spec. exists w, rest. tauto.
Qed.

Lemma find_spec (re : string -> option string) (at_start : string -> string -> Prop) : (forall s off, re s = Some off <-> at_start s off) ->
  forall s off, find re s = Some off <-> first_in at_start s off.
Proof.
  intros R. assert (D : forall s o1 o2, at_start s o1 -> at_start s o2 -> o1 = o2).
  { intros s o1 o2 H1 H2. apply R in H1. apply R in H2. congruence. }
  induction s as [|c s IH]; intros off.
  - cbn [find]. destruct (re "") as [r|] eqn:E.
    + apply R in E. split.
      * intros [= <-]. exists "", "". split; [reflexivity|]. split; [exact E|]. intros. cbn. lia.
      * intros (pre & s' & H & A & _). destruct pre; [|discriminate]. nil_in H. subst s'. f_equal. exact (D _ _ _ E A).
    + split; [discriminate|]. intros (pre & s' & H & A & _). destruct pre; [|discriminate]. nil_in H. subst s'. apply R in A. congruence.
  - cbn [find]. destruct (re (String c s)) as [r|] eqn:E.
    + apply R in E. split.
      * intros [= <-]. exists "", (String c s). split; [reflexivity|]. split; [exact E|]. intros. cbn. lia.
      * intros (pre & s' & H & A & M). specialize (M "" (String c s) r eq_refl E). destruct pre; [|cbn in M; lia]. nil_in H. subst s'. f_equal. exact (D _ _ _ E A).
    + rewrite IH. split.
      * intros (pre & s' & -> & A & M). exists (String c pre), s'. split; [reflexivity|]. split; [exact A|].
        intros pre' s'' off' H A'. destruct pre' as [|x pre']; [nil_in H; subst s''; apply R in A'; congruence|].
        injection H as _ H. specialize (M pre' s'' off' H A'). cbn. lia.
      * intros (pre & s' & H & A & M). destruct pre as [|x pre]; [nil_in H; subst s'; apply R in A; congruence|].
        injection H as <- ->. exists pre, s'. split; [reflexivity|]. split; [exact A|].
        intros pre' s'' off' H A'. specialize (M (String c pre') s'' off'). change (String c pre' +:+ s'') with (String c (pre' +:+ s'')) in M. rewrite <- H in M.
        specialize (M eq_refl A'). cbn in M. lia.
Qed.
Definition find_mov := find_spec re_mov mov_at re_mov_spec.
Definition find_lea := find_spec re_lea lea_at re_lea_spec.

(** * Lines and fields *)

Lemma pieces_line l rest : forall acc, one_line l -> pieces acc (l +:+ String newline rest) = (acc +:+ l) :: pieces "" rest.
Proof.
  induction l as [|c l IH]; intros acc H.
  - change ("" +:+ String newline rest) with (String newline rest). cbn [pieces]. rewrite Ascii.eqb_refl, sapp_nil_r. reflexivity.
  - unfold one_line in H. cbn [all_chars] in H. apply andb_true_iff in H as [H1 H2]. apply negb_true_iff in H1.
    change (String c l +:+ String newline rest) with (String c (l +:+ String newline rest)). cbn [pieces]. rewrite H1, IH by exact H2.
    rewrite sapp_assoc. reflexivity.
Qed.
Lemma pieces_unlines ls : Forall one_line ls -> pieces "" (unlines ls) = ls.
Proof.
  induction 1 as [|l ls H _ IH]; [reflexivity|]. cbn [unlines]. rewrite pieces_line by exact H. change ("" +:+ l) with l. f_equal. exact IH.
Qed.
Lemma scan_unlines ls : Forall one_line ls -> Forall fits ls -> scan (unlines ls) = map drop_cr ls.
Proof.
  intros H F. unfold scan. rewrite pieces_unlines by exact H. clear H. induction F as [|l ls H _ IH]; [reflexivity|]. cbn [scan_pieces map].
  unfold fits in H. apply Z.leb_le in H. rewrite H. f_equal. exact IH.
Qed.
Lemma scan_too_long ls l rest : Forall one_line (ls ++ l :: rest)%list -> Forall fits ls -> ~ fits l ->
  scan (unlines (ls ++ l :: rest)%list) = map drop_cr ls.
Proof.
  intros H F N. unfold scan. rewrite pieces_unlines by exact H. clear H. induction F as [|x ls H _ IH].
  - cbn. unfold fits in N. destruct (Z.leb_spec (Z.of_nat (String.length l)) 65535); [contradiction|reflexivity].
  - cbn [app scan_pieces map]. unfold fits in H. apply Z.leb_le in H. rewrite H. f_equal. exact IH.
Qed.

Lemma fields_spaces s : forall acc, all_chars is_space s = true -> fields_from acc s = if String.eqb acc "" then [] else [acc].
Proof.
  induction s as [|c s IH]; intros acc H; [reflexivity|]. cbn [all_chars] in H. apply andb_true_iff in H as [H1 H2]. cbn [fields_from]. rewrite H1.
  rewrite (IH "" H2). destruct (String.eqb acc ""); reflexivity.
Qed.
Lemma fields_skip pre s : all_chars is_space pre = true -> fields_from "" (pre +:+ s) = fields_from "" s.
Proof.
  induction pre as [|c pre IH]; intros H; [reflexivity|]. cbn [all_chars] in H. apply andb_true_iff in H as [H1 H2].
  change (String c pre +:+ s) with (String c (pre +:+ s)). cbn [fields_from]. rewrite H1. exact (IH H2).
Qed.
Lemma fields_word w s : forall acc, all_chars (fun c => negb (is_space c)) w = true -> fields_from acc (w +:+ s) = fields_from (acc +:+ w) s.
Proof.
  induction w as [|c w IH]; intros acc H; [rewrite sapp_nil_r; reflexivity|]. cbn [all_chars] in H. apply andb_true_iff in H as [H1 H2]. apply negb_true_iff in H1.
  change (String c w +:+ s) with (String c (w +:+ s)). cbn [fields_from]. rewrite H1, IH by exact H2. rewrite sapp_assoc. reflexivity.
Qed.
Lemma splits_fields s ws : splits s ws -> fields s = ws.
Proof.
  unfold fields. induction 1 as [s H|pre w rest ws Hp [Hw1 Hw2] Hr _ IH]; [apply fields_spaces, H|].
  rewrite fields_skip by exact Hp. rewrite fields_word by exact Hw2. change ("" +:+ w) with w.
  assert (E : String.eqb w "" = false) by (destruct w; [congruence|reflexivity]).
  destruct Hr as [->|(c & r & -> & Hc)].
  - cbn [fields_from] in *. cbn in IH. rewrite E. subst ws. reflexivity.
  - cbn [fields_from] in *. rewrite Hc in *. rewrite E. change (String.eqb "" "") with true in IH. cbv iota in IH. rewrite IH. reflexivity.
Qed.
Lemma splits_ex s : exists ws, splits s ws.
Proof.
  assert (G : forall n s, (String.length s <= n)%nat -> exists ws, splits s ws); [|exact (G _ s (le_n _))].
  induction n as [|n IH]; intros t Hn.
  - exists []. destruct t; [constructor; reflexivity|cbn in Hn; lia].
  - destruct (span is_space t) as [pre t1] eqn:S1. apply span_spec in S1 as (E1 & A1 & B1).
    destruct (span (fun c => negb (is_space c)) t1) as [w rest] eqn:S2. apply span_spec in S2 as (E2 & A2 & B2).
    destruct w as [|x w].
    + nil_in E2. subst rest. destruct t1 as [|c t1].
      * exists []. constructor. rewrite E1, sapp_nil_r. exact A1.
      * specialize (B1 c t1 eq_refl). specialize (B2 c t1 eq_refl). cbv beta in B2. rewrite B1 in B2. discriminate.
    + destruct (IH rest) as [ws H].
      { rewrite E1, E2, !length_app in Hn. cbn in Hn. lia. }
      exists (String x w :: ws). rewrite E1, E2. constructor; [exact A1|split; [discriminate|exact A2]| |exact H].
      destruct rest as [|c r]; [left; reflexivity|right]. exists c, r. split; [reflexivity|]. specialize (B2 c r eq_refl). cbv beta in B2. apply negb_false_iff in B2. exact B2.
Qed.
Lemma fields_splits s ws : fields s = ws <-> splits s ws.
Proof.
  split; [|apply splits_fields]. intros <-. destruct (splits_ex s) as [ws H]. rewrite (splits_fields _ _ H). exact H.
Qed.
Lemma fields_drop_cr l : fields (drop_cr l) = fields l.
Proof.
  unfold fields. generalize "". induction l as [|c l IH]; intros acc; [reflexivity|]. destruct l as [|d l].
  - cbn [drop_cr]. destruct (Ascii.eqb_spec c return_char) as [->|]; [|reflexivity]. cbn. destruct acc; reflexivity.
  - change (drop_cr (String c (String d l))) with (String c (drop_cr (String d l))). cbn [fields_from]. destruct (is_space c); [|apply IH].
    destruct (String.eqb acc ""); [apply IH|]. f_equal. apply IH.
Qed.

(** * Symbols *)

Lemma sym_line_drop m l : sym_line m (drop_cr l) = sym_line m l.
Proof. unfold sym_line. rewrite fields_drop_cr. reflexivity. Qed.
Lemma sym_lines_drop ls : forall m, sym_lines m (map drop_cr ls) = sym_lines m ls.
Proof. induction ls as [|l ls IH]; intros m; [reflexivity|]. cbn [map sym_lines]. rewrite sym_line_drop. destruct (sym_line m l); [apply IH|reflexivity]. Qed.

Lemma type_test t : (String.eqb t "t" || String.eqb t "T") = true <-> t = "t" \/ t = "T".
Proof. rewrite orb_true_iff, !String.eqb_eq. reflexivity. Qed.

Lemma sym_line_cases m l :
  (malformed l /\ sym_line m l = None)
  \/ (exists a n, text_symbol l a n /\ sym_line m l = Some (<[n := a]> m) /\ ~ malformed l /\ forall a' n', text_symbol l a' n' -> a' = a /\ n' = n)
  \/ (~ malformed l /\ sym_line m l = Some m /\ forall a n, ~ text_symbol l a n).
Proof.
  unfold sym_line, malformed, text_symbol. setoid_rewrite <- fields_splits. destruct (fields l) as [|a [|t [|n rest]]] eqn:F.
  - left. split; [tauto|reflexivity].
  - left. split; [right; left; exists a; reflexivity|reflexivity].
  - destruct (String.eqb t "t" || String.eqb t "T") eqn:T.
    + apply type_test in T. left. split; [right; right; exists a, t; split; [reflexivity|exact T]|reflexivity].
    + right. right. split; [|split; [reflexivity|]].
      * intros [H|[(x & H)|(x & y & H & H')]]; try discriminate. injection H as <- <-. apply type_test in H'. congruence.
      * intros x y (z & r & H & _). discriminate.
  - destruct (String.eqb t "t" || String.eqb t "T") eqn:T.
    + apply type_test in T. right. left. exists a, n. split; [exists t, rest; split; [reflexivity|exact T]|]. split; [reflexivity|]. split.
      * intros [H|[(x & H)|(x & y & H & _)]]; discriminate.
      * intros a' n' (t' & r' & H & _). injection H as <- _ <- _. split; reflexivity.
    + right. right. split; [|split; [reflexivity|]].
      * intros [H|[(x & H)|(x & y & H & _)]]; discriminate.
      * intros x y (z & r & H & H'). injection H as <- <- _ _. apply type_test in H'. congruence.
Qed.

Lemma sym_lines_none ls : forall m, sym_lines m ls = None <-> exists l, In l ls /\ malformed l.
Proof.
  induction ls as [|l ls IH]; intros m; cbn [sym_lines].
  - split; [discriminate|]. intros (l & [] & _).
  - destruct (sym_line_cases m l) as [[M E]|[(a & n & T & E & M & _)|(M & E & _)]]; rewrite E.
    + split; [intros _; exists l; split; [left; reflexivity|exact M]|reflexivity].
    + rewrite IH. split; intros (x & Hx & Mx); exists x; (split; [|exact Mx]); [right; exact Hx|destruct Hx as [->|Hx]; [contradiction|exact Hx]].
    + rewrite IH. split; intros (x & Hx & Mx); exists x; (split; [|exact Mx]); [right; exact Hx|destruct Hx as [->|Hx]; [contradiction|exact Hx]].
Qed.

Lemma last_says_app ls l n a : last_says (ls ++ [l])%list n a <-> text_symbol l a n \/ ((forall a', ~ text_symbol l a' n) /\ last_says ls n a).
Proof.
  split.
  - intros (l1 & x & l2 & E & T & N). destruct l2 as [|y l2] using rev_ind.
    + apply app_inj_tail in E as [_ ->]. left. exact T.
    + clear IHl2. rewrite app_comm_cons, app_assoc in E. apply app_inj_tail in E as [-> ->]. right. split.
      * intros a'. apply N. apply in_app_iff. right. left. reflexivity.
      * exists l1, x, l2. split; [reflexivity|]. split; [exact T|]. intros l' a' H. apply N. apply in_app_iff. left. exact H.
  - intros [T|[N (l1 & x & l2 & -> & T & M)]].
    + exists ls, l, []. split; [reflexivity|]. split; [exact T|]. intros ? ? [].
    + exists l1, x, (l2 ++ [l])%list. split; [rewrite <- app_assoc; reflexivity|]. split; [exact T|]. intros l' a' H. apply in_app_iff in H as [H|[<-|[]]]; [exact (M l' a' H)|apply N].
Qed.
Lemma sym_lines_app ls l m : sym_lines m (ls ++ [l])%list = match sym_lines m ls with Some m' => sym_line m' l | None => None end.
Proof.
  revert m. induction ls as [|x ls IH]; intros m; cbn [app sym_lines]; [destruct (sym_line m l); reflexivity|]. destruct (sym_line m x); [apply IH|reflexivity].
Qed.
Lemma sym_lines_some ls : forall m, sym_lines ∅ ls = Some m -> forall n a, m !! n = Some a <-> last_says ls n a.
Proof.
  induction ls as [|l ls IH] using rev_ind; intros m H n a.
  - injection H as <-. rewrite lookup_empty. split; [discriminate|]. intros (l1 & x & l2 & E & _). destruct l1; discriminate.
  - rewrite sym_lines_app in H. destruct (sym_lines ∅ ls) as [m'|]; [|discriminate]. specialize (IH m' eq_refl). rewrite last_says_app.
    destruct (sym_line_cases m' l) as [[_ E]|[(a' & n' & T & E & _ & U)|(_ & E & N)]]; rewrite E in H; [discriminate| |]; injection H as <-.
    + destruct (decide (n' = n)) as [->|D].
      * rewrite lookup_insert. split; [intros [= ->]; left; exact T|]. intros [T'|[N _]]; [destruct (U _ _ T') as [-> _]; reflexivity|destruct (N a' T)].
      * rewrite lookup_insert_ne by exact D. rewrite IH. split; [intros L; right; split; [|exact L]|].
        -- intros x T'. destruct (U _ _ T') as [_ ->]. contradiction.
        -- intros [T'|[_ L]]; [destruct (U _ _ T') as [_ ->]; contradiction|exact L].
    + rewrite IH. split; [intros L; right; split; [intros x; apply N|exact L]|]. intros [T'|[_ L]]; [destruct (N _ _ T')|exact L].
Qed.

(** * Searches *)

Lemma code_lines_cons l ls : code_lines (l :: ls) = if String.prefix "ffffffff" l then l :: code_lines ls else code_lines ls.
Proof. reflexivity. Qed.
Lemma nsproxy_code lock b ls : nsproxy_lines lock b ls = nsproxy_lines lock b (code_lines ls).
Proof.
  revert b. induction ls as [|l ls IH]; intros b; [reflexivity|]. rewrite code_lines_cons. cbn [nsproxy_lines].
  destruct (String.prefix "ffffffff" l) eqn:P; cbn [negb]; [|apply IH]. cbn [nsproxy_lines]. rewrite P. cbn [negb].
  destruct b; [destruct (find re_mov l); [reflexivity|]|]; apply IH.
Qed.
Lemma mov_not_empty s : find re_mov s <> Some "".
Proof. intros H. apply find_mov in H as (pre & s' & _ & (sp & r & b & w & rest & _ & _ & _ & _ & _ & E) & _). discriminate. Qed.

Lemma nsproxy_locked lock cl off : Forall (fun l => String.prefix "ffffffff" l = true) cl -> off <> "" ->
  (nsproxy_lines lock true cl = off <-> exists l2 mv l3, cl = (l2 ++ mv :: l3)%list /\ (forall l o, In l l2 -> ~ first_in mov_at l o) /\ first_in mov_at mv off).
Proof.
  intros F N. induction F as [|l cl P _ IH]; cbn [nsproxy_lines].
  - split; [congruence|]. intros (l2 & mv & l3 & E & _). destruct l2; discriminate.
  - rewrite P. cbn [negb]. destruct (find re_mov l) as [o|] eqn:E.
    + split.
      * intros ->. exists [], l, cl. split; [reflexivity|]. split; [intros ? ? []|]. apply find_mov, E.
      * intros ([|x l2] & mv & l3 & H & H1 & H2).
        -- injection H as <- <-. apply find_mov in H2. congruence.
        -- injection H as <- _. exfalso. apply (H1 l o (or_introl eq_refl)), find_mov, E.
    + rewrite IH. split.
      * intros (l2 & mv & l3 & -> & H1 & H2). exists (l :: l2), mv, l3. split; [reflexivity|]. split; [|exact H2].
        intros x o [<-|Hx]; [|apply H1, Hx]. intros H. apply find_mov in H. congruence.
      * intros ([|x l2] & mv & l3 & H & H1 & H2).
        -- injection H as <- <-. apply find_mov in H2. congruence.
        -- injection H as <- ->. exists l2, mv, l3. split; [reflexivity|]. split; [|exact H2]. intros y o Hy. apply H1. right. exact Hy.
Qed.
Lemma code_lines_prefix ls : Forall (fun l => String.prefix "ffffffff" l = true) (code_lines ls).
Proof. apply Forall_forall. intros x Hx. unfold code_lines in Hx. apply elem_of_list_In, filter_In in Hx. tauto. Qed.
Lemma nsproxy_unlocked lock cl off : Forall (fun l => String.prefix "ffffffff" l = true) cl -> off <> "" ->
  (nsproxy_lines lock false cl = off <-> exists l1 lk l2 mv l3, cl = (l1 ++ lk :: l2 ++ mv :: l3)%list
    /\ (forall l, In l l1 -> ~ mentions lock l) /\ mentions lock lk
    /\ (forall l o, In l l2 -> ~ first_in mov_at l o) /\ first_in mov_at mv off).
Proof.
  intros F N. induction F as [|l cl P F IH]; cbn [nsproxy_lines].
  - split; [congruence|]. intros (l1 & lk & l2 & mv & l3 & E & _). destruct l1; discriminate.
  - rewrite P. cbn [negb]. destruct (contains lock l) eqn:E.
    + apply contains_spec in E. rewrite (nsproxy_locked lock cl off F N). split.
      * intros (l2 & mv & l3 & -> & H1 & H2). exists [], l, l2, mv, l3. split; [reflexivity|]. split; [intros ? []|]. split; [exact E|]. split; assumption.
      * intros ([|x l1] & lk & l2 & mv & l3 & H & H1 & H2 & H3 & H4).
        -- injection H as <- ->. exists l2, mv, l3. split; [reflexivity|]. split; assumption.
        -- injection H as <- _. destruct (H1 l (or_introl eq_refl) E).
    + assert (E' : ~ mentions lock l) by (intros M; apply contains_spec in M; congruence). rewrite IH. split.
      * intros (l1 & lk & l2 & mv & l3 & -> & H1 & H2). exists (l :: l1), lk, l2, mv, l3. split; [reflexivity|]. split; [|exact H2]. intros x [<-|Hx]; [exact E'|apply H1, Hx].
      * intros ([|x l1] & lk & l2 & mv & l3 & H & H1 & H2 & H3 & H4).
        -- injection H as <- ->. contradiction.
        -- injection H as <- ->. exists l1, lk, l2, mv, l3. split; [reflexivity|]. split; [intros y Hy; apply H1; right; exact Hy|]. split; [exact H2|]. split; assumption.
Qed.
Lemma nsproxy_search_spec code syms off : off <> "" ->
  (nsproxy_search code syms = off <-> load_after_lock (default "" (syms !! "_raw_spin_lock")) (scan code) off).
Proof. intros N. unfold nsproxy_search, load_after_lock. rewrite nsproxy_code. apply nsproxy_unlocked; [apply code_lines_prefix|exact N]. Qed.
Lemma load_not_empty lock ls : ~ load_after_lock lock ls "".
Proof.
  intros (l1 & lk & l2 & mv & l3 & _ & _ & _ & _ & H). apply find_mov in H. exact (mov_not_empty _ H).
Qed.
Lemma pidns_search_in code off : In off (pidns_search code) <-> exists l, In l (scan code) /\ first_in lea_at l off.
Proof.
  unfold pidns_search. rewrite <- elem_of_list_In, elem_of_list_omap. split; intros (l & H1 & H2); exists l; (split; [apply elem_of_list_In; exact H1|apply find_lea; exact H2]).
Qed.
Lemma lea_not_empty s : find re_lea s <> Some "".
Proof. intros H. apply find_lea in H as (pre & s' & _ & (sp & r & b & sg & w & rest & _ & _ & _ & _ & _ & _ & E) & _). discriminate. Qed.

(** * Votes *)

Lemma votes_for_cons o x l : votes_for o (x :: l) = (if String.eqb o x then 1 else 0) + votes_for o l.
Proof. unfold votes_for. cbn [List.filter]. destruct (String.eqb o x); cbn [length]; lia. Qed.
Lemma votes_for_app o l1 l2 : votes_for o (l1 ++ l2)%list = votes_for o l1 + votes_for o l2.
Proof. unfold votes_for. rewrite List.filter_app, app_length. lia. Qed.
Lemma votes_for_pos o l : 0 < votes_for o l <-> In o l.
Proof.
  induction l as [|x l IH]; [split; [intros H; vm_compute in H; discriminate|intros []]|]. rewrite votes_for_cons. cbn [In]. rewrite <- IH.
  assert (P : 0 <= votes_for o l) by (unfold votes_for; lia). destruct (String.eqb_spec o x) as [->|N].
  - split; [left; reflexivity|lia].
  - split; [right; lia|]. intros [E|E]; [congruence|lia].
Qed.
Lemma tally_votes l : forall o, fold_left vote l (∅ : gmap string Z) !! o = if 0 <? votes_for o l then Some (votes_for o l) else None.
Proof.
  induction l as [|x l IH] using rev_ind; intros o; [reflexivity|]. rewrite fold_left_app. cbn [fold_left]. unfold vote at 1.
  rewrite votes_for_app, (votes_for_cons o x []). change (votes_for o []) with 0.
  assert (P : 0 <= votes_for o l) by (unfold votes_for; lia).
  destruct (String.eqb_spec o x) as [->|N].
  - rewrite lookup_insert. rewrite IH. destruct (Z.ltb_spec 0 (votes_for x l)); cbn [default].
    + destruct (Z.ltb_spec 0 (votes_for x l + (1 + 0))); [f_equal; lia|lia].
    + destruct (Z.ltb_spec 0 (votes_for x l + (1 + 0))); [|lia]. f_equal. lia.
  - rewrite lookup_insert_ne by congruence. rewrite IH. rewrite !Z.add_0_r. reflexivity.
Qed.

Lemma max_from_spec l : forall ms mn, let r := max_from ms mn l in
  (forall k v, In (k, v) l -> v <= r.2) /\ mn <= r.2 /\ (r = (ms, mn) \/ In r l).
Proof.
  induction l as [|[k v] l IH]; intros ms mn; cbn [max_from].
  - cbn. split; [intros ? ? []|]. split; [lia|]. left. reflexivity.
  - destruct (Z.ltb_spec mn v) as [H|H].
    + destruct (IH k v) as (H1 & H2 & H3). split; [|split; [lia|]].
      * intros k' v' [E|E]; [injection E as <- <-; exact H2|exact (H1 _ _ E)].
      * right. destruct H3 as [->|H3]; [left; reflexivity|right; exact H3].
    + destruct (IH ms mn) as (H1 & H2 & H3). split; [|split; [exact H2|]].
      * intros k' v' [E|E]; [injection E as <- <-; lia|exact (H1 _ _ E)].
      * destruct H3 as [->|H3]; [left; reflexivity|right; right; exact H3].
Qed.

Lemma winner_spec walk votes : walks_map walk -> (votes = [] -> winner walk votes = "") /\ (votes <> [] -> most_voted votes (winner walk votes)).
Proof.
  intros W. unfold winner, max_candidates. set (m := fold_left vote votes ∅).
  assert (L : forall k v, In (k, v) (walk m) <-> v = votes_for k votes /\ In k votes).
  { intros k v. rewrite <- elem_of_list_In, (W m), elem_of_map_to_list. unfold m. rewrite tally_votes, <- votes_for_pos.
    destruct (Z.ltb_spec 0 (votes_for k votes)); split; [intros [= <-]; split; [reflexivity|assumption]|intros [-> _]; reflexivity|discriminate|intros [_ ?]; lia]. }
  pose proof (max_from_spec (walk m) "" 0) as (H1 & H2 & H3). destruct (max_from "" 0 (walk m)) as [o n]. cbn [fst snd] in *. split.
  - intros ->. destruct H3 as [H3|H3]; [congruence|]. apply L in H3 as [_ []].
  - intros N. destruct votes as [|x votes'] eqn:E; [congruence|]. rewrite <- E in *. assert (Hx : In x votes) by (rewrite E; left; reflexivity).
    assert (Hn : 0 < n). { pose proof (H1 x (votes_for x votes) (proj2 (L _ _) (conj eq_refl Hx))). apply votes_for_pos in Hx. lia. }
    destruct H3 as [H3|H3]; [injection H3 as -> ->; lia|]. apply L in H3 as [-> Ho]. split; [exact Ho|].
    intros o'. destruct (Z.ltb_spec 0 (votes_for o' votes)) as [Hp|Hp]; [|lia]. apply votes_for_pos in Hp. exact (H1 o' _ (proj2 (L _ _) (conj eq_refl Hp))).
Qed.

(** Walks that put one key first. *)
Definition walk_first (o : string) : walker := fun m =>
  match m !! o with Some v => (o, v) :: map_to_list (delete o m) | None => map_to_list m end.
Lemma walk_first_ok o : walks_map (walk_first o).
Proof.
  intros m. unfold walk_first. destruct (m !! o) as [v|] eqn:E; [|reflexivity].
  rewrite <- (insert_delete m o v E) at 2. rewrite map_to_list_insert by apply lookup_delete. reflexivity.
Qed.
Lemma max_from_keeps l : forall ms mn, (forall k v, In (k, v) l -> v <= mn) -> max_from ms mn l = (ms, mn).
Proof.
  induction l as [|[k v] l IH]; intros ms mn H; [reflexivity|]. cbn [max_from]. pose proof (H k v (or_introl eq_refl)).
  destruct (Z.ltb_spec mn v); [lia|]. apply IH. intros k' v' H'. apply (H k' v'). right. exact H'.
Qed.
Lemma any_most_voted_can_win votes o : most_voted votes o -> winner (walk_first o) votes = o.
Proof.
  intros [Ho M]. apply votes_for_pos in Ho as Hp. unfold winner, max_candidates, walk_first. rewrite tally_votes.
  destruct (Z.ltb_spec 0 (votes_for o votes)) as [_|]; [|lia]. cbn [max_from]. destruct (Z.ltb_spec 0 (votes_for o votes)); [|lia].
  rewrite max_from_keeps; [reflexivity|]. intros k v H1. apply elem_of_list_In, elem_of_map_to_list, lookup_delete_Some in H1 as [_ H1].
  rewrite tally_votes in H1. destruct (Z.ltb_spec 0 (votes_for k votes)); [|discriminate]. injection H1 as <-. apply M.
Qed.

(** Where votes come from. *)
Lemma nsproxy_votes_some syms dump fns : forall votes, nsproxy_votes syms dump fns = Some votes ->
  ~ In "" votes /\ (forall fn, In fn fns -> exists addr code, syms !! fn = Some addr /\ dump addr = Some code) /\
  forall off, In off votes <-> exists fn addr code, In fn fns /\ syms !! fn = Some addr /\ dump addr = Some code /\ load_after_lock (default "" (syms !! "_raw_spin_lock")) (scan code) off.
Proof.
  induction fns as [|fn fns IH]; intros votes; cbn [nsproxy_votes].
  - intros [= <-]. split; [intros []|]. split; [intros ? []|]. intros off. split; [intros []|]. intros (? & ? & ? & [] & _).
  - destruct (syms !! fn) as [addr|] eqn:E1; [|discriminate]. destruct (dump addr) as [code|] eqn:E2; [|discriminate].
    destruct (nsproxy_votes syms dump fns) as [l|]; [|discriminate]. specialize (IH l eq_refl) as (N & A & H). cbv zeta. intros [= <-].
    destruct (String.eqb_spec (nsproxy_search code syms) "") as [E|E].
    + split; [exact N|]. split; [intros f [<-|Hf]; [eauto|exact (A f Hf)]|]. intros off. rewrite H. split; intros (f & a & c & H1 & H2 & H3 & H4).
      * exists f, a, c. split; [right; exact H1|]. tauto.
      * exists f, a, c. split; [|tauto]. destruct H1 as [<-|H1]; [|exact H1]. exfalso. rewrite E1 in H2. injection H2 as <-. rewrite E2 in H3. injection H3 as <-.
        assert (off <> "") by (intros ->; exact (load_not_empty _ _ H4)). apply nsproxy_search_spec in H4; [congruence|assumption].
    + split; [intros [H1|H1]; [congruence|exact (N H1)]|]. split; [intros f [<-|Hf]; [eauto|exact (A f Hf)]|]. intros off. cbn [In]. rewrite H. split.
      * intros [<-|(f & a & c & H1 & H2)]; [|exists f, a, c; split; [right; exact H1|exact H2]].
        exists fn, addr, code. split; [left; reflexivity|]. split; [exact E1|]. split; [exact E2|]. apply nsproxy_search_spec; [exact E|reflexivity].
      * intros (f & a & c & [<-|H1] & H2 & H3 & H4); [|right; exists f, a, c; tauto]. left. rewrite E1 in H2. injection H2 as <-. rewrite E2 in H3. injection H3 as <-.
        assert (off <> "") by (intros ->; exact (load_not_empty _ _ H4)). apply nsproxy_search_spec in H4; assumption.
Qed.
Lemma pidns_votes_some syms dump fns : forall votes, pidns_votes syms dump fns = Some votes ->
  ~ In "" votes /\ (forall fn, In fn fns -> exists addr code, syms !! fn = Some addr /\ dump addr = Some code) /\
  forall off, In off votes <-> exists fn addr code l, In fn fns /\ syms !! fn = Some addr /\ dump addr = Some code /\ In l (scan code) /\ first_in lea_at l off.
Proof.
  induction fns as [|fn fns IH]; intros votes; cbn [pidns_votes].
  - intros [= <-]. split; [intros []|]. split; [intros ? []|]. intros off. split; [intros []|]. intros (? & ? & ? & ? & [] & _).
  - destruct (syms !! fn) as [addr|] eqn:E1; [|discriminate]. destruct (dump addr) as [code|] eqn:E2; [|discriminate].
    destruct (pidns_votes syms dump fns) as [l|]; [|discriminate]. specialize (IH l eq_refl) as (N & A & H). intros [= <-].
    split; [|split].
    + intros H1. apply in_app_iff in H1 as [H1|H1]; [|exact (N H1)]. apply pidns_search_in in H1 as (x & _ & H1). apply find_lea in H1. exact (lea_not_empty _ H1).
    + intros f [<-|Hf]; [eauto|exact (A f Hf)].
    + intros off. rewrite in_app_iff, H, pidns_search_in. split.
      * intros [(x & H1 & H2)|(f & a & c & x & H1 & H2)]; [exists fn, addr, code, x|exists f, a, c, x]; cbn [In]; tauto.
      * intros (f & a & c & x & [<-|H1] & H2 & H3 & H4 & H5); [left|right; exists f, a, c, x; tauto].
        rewrite E1 in H2. injection H2 as <-. rewrite E2 in H3. injection H3 as <-. exists x. tauto.
Qed.
Lemma nsproxy_votes_none syms dump fns : nsproxy_votes syms dump fns = None <-> exists fn, In fn fns /\ (syms !! fn = None \/ exists addr, syms !! fn = Some addr /\ dump addr = None).
Proof.
  induction fns as [|fn fns IH]; cbn [nsproxy_votes].
  - split; [discriminate|]. intros (? & [] & _).
  - destruct (syms !! fn) as [addr|] eqn:E1.
    + destruct (dump addr) as [code|] eqn:E2.
      * destruct (nsproxy_votes syms dump fns).
        -- split; [discriminate|]. intros (f & [<-|Hf] & H); [destruct H as [H|(a & H & H')]; congruence|].
           assert (X : Some l = None) by (apply IH; eauto). discriminate.
        -- split; [|reflexivity]. intros _. destruct (proj1 IH eq_refl) as (f & Hf & H). exists f. split; [right; exact Hf|exact H].
      * split; [|reflexivity]. intros _. exists fn. split; [left; reflexivity|]. right. eauto.
    + split; [|reflexivity]. intros _. exists fn. split; [left; reflexivity|]. left. exact E1.
Qed.
Lemma pidns_votes_none syms dump fns : pidns_votes syms dump fns = None <-> exists fn, In fn fns /\ (syms !! fn = None \/ exists addr, syms !! fn = Some addr /\ dump addr = None).
Proof.
  induction fns as [|fn fns IH]; cbn [pidns_votes].
  - split; [discriminate|]. intros (? & [] & _).
  - destruct (syms !! fn) as [addr|] eqn:E1.
    + destruct (dump addr) as [code|] eqn:E2.
      * destruct (pidns_votes syms dump fns).
        -- split; [discriminate|]. intros (f & [<-|Hf] & H); [destruct H as [H|(a & H & H')]; congruence|].
           assert (X : Some l = None) by (apply IH; eauto). discriminate.
        -- split; [|reflexivity]. intros _. destruct (proj1 IH eq_refl) as (f & Hf & H). exists f. split; [right; exact Hf|exact H].
      * split; [|reflexivity]. intros _. exists fn. split; [left; reflexivity|]. right. eauto.
    + split; [|reflexivity]. intros _. exists fn. split; [left; reflexivity|]. left. exact E1.
Qed.

(** * Numbers *)

Lemma hex_from_spec s : forall acc ds, hex_digits s ds -> hex_from acc s = Some (acc * 16 ^ Z.of_nat (length ds) + hex_value ds).
Proof.
  induction s as [|c s IH]; intros acc ds H; unfold hex_digits in H; destruct ds as [|d ds]; try discriminate.
  - cbn. f_equal. lia.
  - cbn [String.list_ascii_of_string map] in H. injection H as H1 H2. cbn [hex_from]. rewrite H1, (IH _ ds H2). f_equal.
    cbn [hex_value length]. rewrite Nat2Z.inj_succ, Z.pow_succ_r by lia. lia.
Qed.
Lemma hex_from_none s : forall acc, hex_from acc s = None <-> ~ exists ds, hex_digits s ds.
Proof.
  induction s as [|c s IH]; intros acc; cbn [hex_from].
  - split; [discriminate|]. intros H. exfalso. apply H. exists []. reflexivity.
  - destruct (hex_digit c) as [d|] eqn:E.
    + rewrite IH. split; intros N (ds & H); apply N; unfold hex_digits in *.
      * destruct ds as [|d' ds]; [discriminate|]. injection H as _ H. exists ds. exact H.
      * exists (d :: ds). cbn [String.list_ascii_of_string map]. rewrite E, H. reflexivity.
    + split; [|reflexivity]. intros _ (ds & H). unfold hex_digits in H. destruct ds as [|d ds]; [discriminate|]. cbn [String.list_ascii_of_string map] in H. rewrite E in H. discriminate.
Qed.
Lemma parse_int_digits s ds : hex_digits s ds -> ds <> [] -> parse_int s = if hex_value ds <? 2 ^ 63 then Some (hex_value ds) else None.
Proof.
  intros H N. destruct s as [|c s]; [destruct ds; [congruence|discriminate]|].
  assert (Hc : Ascii.eqb c "-" = false /\ Ascii.eqb c "+" = false).
  { unfold hex_digits in H. destruct ds as [|d ds]; [discriminate|]. injection H as H _.
    split; apply not_true_is_false; intros E; apply Ascii.eqb_eq in E; subst c; vm_compute in H; discriminate. }
  destruct Hc as [H1 H2]. unfold parse_int. rewrite H1, H2. unfold parse_uint16. change (String.eqb (String c s) "") with false. cbv iota.
  rewrite (hex_from_spec _ 0 ds H). rewrite Z.mul_0_l, Z.add_0_l. reflexivity.
Qed.
Lemma parse_int_word s : all_chars re_word s = true -> (~ exists ds, ds <> [] /\ hex_digits s ds) -> parse_int s = None.
Proof.
  intros W N. destruct s as [|c s]; [reflexivity|]. unfold parse_int. cbn [all_chars] in W. apply andb_true_iff in W as [W _].
  assert (Hc : Ascii.eqb c "-" = false /\ Ascii.eqb c "+" = false).
  { split; apply not_true_is_false; intros E; apply Ascii.eqb_eq in E; subst c; vm_compute in W; discriminate. }
  destruct Hc as [H1 H2]. rewrite H1, H2. unfold parse_uint16. change (String.eqb (String c s) "") with false. cbv iota.
  rewrite (proj2 (hex_from_none (String c s) 0)); [reflexivity|]. intros (ds & H). apply N. exists ds. split; [|exact H]. intros ->. discriminate.
Qed.
Lemma trim_0x w : trim_prefix "0x" ("0x" +:+ w) = w.
Proof. unfold trim_prefix. rewrite (proj2 (strip_spec "0x" _ w) eq_refl). reflexivity. Qed.
