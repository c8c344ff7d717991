From Coq Require Import ZArith String Ascii Bool Lia.
From stdpp Require Import base list sorting numbers strings pretty gmap.
From Verif Require Import CodecModel JsonModel ClientModel ClientSpec AgentModel AgentSpec AgentProofs SelectModel.
Local Open Scope string_scope.
Local Open Scope list_scope.
Local Open Scope Z_scope.

(** ** Texts of terms *)

(** A key, whether it must be equal, and a value. *)
Definition term_text (x : text * bool * text) : text := let '(k, eq, v) := x in k ++ (if eq : bool then t "=" else t "!=") ++ v.
Definition plain (c : ascii) : Prop := c <> nul /\ blank c = false /\ special c = false.
Definition word_term (x : text * bool * text) : Prop := let '(k, _, v) := x in k <> [] /\ Forall plain k /\ Forall plain v.
Definition value_toks (v : text) : list tok := match v with [] => [] | _ => [word_tok v] end.
Definition term_toks (x : text * bool * text) : list tok := let '(k, eq, v) := x in word_tok k :: (if eq : bool then Eq1 else Neq) :: value_toks v.
Fixpoint toks (l : list (text * bool * text)) : list tok :=
  match l with [] => [End] | [x] => term_toks x ++ [End] | x :: l => term_toks x ++ Comma :: toks l end.

Lemma lex_word w r : forall u, Forall plain w -> lex (LWord u) (w ++ r) = lex (LWord (u ++ w)) r.
Proof.
  induction w as [|c w IH]; intros u H; [by rewrite app_nil_r|]. apply Forall_cons in H as [(N & B & S) H].
  change ((c :: w) ++ r) with (c :: (w ++ r)). cbn [lex]. rewrite (eqb_ne _ _ N), B, S. cbn [orb]. rewrite IH by done. by rewrite <- app_assoc.
Qed.
Lemma lex_start m w r : m = LStart \/ m = LAfter -> w <> [] -> Forall plain w -> lex m (w ++ r) = lex (LWord w) r.
Proof.
  intros Hm Hw H. destruct w as [|c w]; [done|]. apply Forall_cons in H as [(N & B & S) H].
  change ((c :: w) ++ r) with (c :: (w ++ r)).
  assert (lex m (c :: (w ++ r)) = lex (LWord [c]) (w ++ r)) as E by (destruct Hm as [-> | ->]; cbn [lex]; by rewrite (eqb_ne _ _ N), B, S).
  rewrite E. exact (lex_word w r [c] H).
Qed.
Lemma plain_not_eq c : plain c -> Ascii.eqb c "=" = false.
Proof. intros (_ & _ & S). destruct (Ascii.eqb c "=") eqn:E; [|done]. apply Ascii.eqb_eq in E as ->. by vm_compute in S. Qed.
Lemma lex_eq w r : (forall d r', r = d :: r' -> Ascii.eqb d "=" = false) -> lex (LWord w) ("="%char :: r) = word_tok w :: Eq1 :: lex LAfter r.
Proof. intros H. destruct r as [|d r]; [reflexivity|]. cbn -[lex]. cbn [lex]. rewrite (H d r eq_refl). reflexivity. Qed.
Lemma lex_neq w r : lex (LWord w) ("!"%char :: "="%char :: r) = word_tok w :: Neq :: lex LAfter r.
Proof. reflexivity. Qed.
Lemma lex_comma_word w r : lex (LWord w) (","%char :: r) = word_tok w :: Comma :: lex LAfter r.
Proof. destruct r as [|d r]; [reflexivity|]. cbn -[lex]. cbn [lex]. rewrite !andb_false_r. reflexivity. Qed.
Lemma lex_comma m r : m = LStart \/ m = LAfter -> lex m (","%char :: r) = Comma :: lex LAfter r.
Proof. intros [-> | ->]; (destruct r as [|d r]; [reflexivity|]; cbn -[lex]; cbn [lex]; rewrite !andb_false_r; reflexivity). Qed.

(** After an operator: the value, then a comma or the end. *)
Lemma lex_value v r (rest : list tok) : Forall plain v ->
  (r = [] /\ rest = [End] \/ exists r', r = ","%char :: r' /\ rest = Comma :: lex LAfter r') ->
  lex LAfter (v ++ r) = value_toks v ++ rest.
Proof.
  intros Hv Hr. destruct v as [|c v].
  - destruct Hr as [[-> ->]|(r' & -> & ->)]; [reflexivity|]. apply lex_comma. by right.
  - rewrite (lex_start LAfter (c :: v) r (or_intror eq_refl) ltac:(discriminate) Hv). destruct Hr as [[-> ->]|(r' & -> & ->)]; [reflexivity|]. apply lex_comma_word.
Qed.
Lemma lex_term m x r (rest : list tok) : m = LStart \/ m = LAfter -> word_term x ->
  (r = [] /\ rest = [End] \/ exists r', r = ","%char :: r' /\ rest = Comma :: lex LAfter r') ->
  lex m (term_text x ++ r) = term_toks x ++ rest.
Proof.
  destruct x as [[k eq] v]. intros Hm (Hk & Pk & Pv) Hr. unfold term_text, term_toks. rewrite <- !app_assoc.
  rewrite (lex_start m k) by done. pose proof (lex_value v r rest Pv Hr) as E.
  destruct eq; cbn [t String.list_ascii_of_string app].
  - rewrite lex_eq; [by rewrite E|]. intros d r' E'. destruct v as [|c v].
    + destruct Hr as [[-> _]|(r0 & -> & _)]; [done|]. cbn in E'. by injection E' as <- _.
    + cbn in E'. injection E' as <- _. apply Forall_cons in Pv as [Pc _]. by apply plain_not_eq.
  - rewrite lex_neq. by rewrite E.
Qed.
Lemma lex_terms l : forall m, m = LStart \/ m = LAfter -> l <> [] -> Forall word_term l -> lex m (join [comma] (map term_text l)) = toks l.
Proof.
  induction l as [|x l IH]; intros m Hm Hl H; [done|]. apply Forall_cons in H as [Hx H]. destruct l as [|y l].
  - cbn [map join toks]. rewrite <- (app_nil_r (term_text x)). apply lex_term; [done..|]. by left.
  - change (join [comma] (map term_text (x :: y :: l))) with (term_text x ++ [comma] ++ join [comma] (map term_text (y :: l))).
    change (toks (x :: y :: l)) with (term_toks x ++ Comma :: toks (y :: l)). apply lex_term; [done..|]. right.
    eexists. split; [reflexivity|]. f_equal. rewrite IH; [done|by right|done|done].
Qed.

(** ** What is made of them *)

Definition term_req (x : text * bool * text) : option req :=
  let '(k, eq, v) := x in if label_key k && label_value v then Some (Req k (if eq : bool then OneOf else NoneOf) [v]) else None.
Lemma word_tok_word w : as_word (word_tok w) = Some w.
Proof. unfold word_tok. by destruct (_ || _). Qed.
Lemma word_tok_not_bang {A} w (a b : list tok -> A) ts : (match word_tok w :: ts with Bang :: r => a r | _ => b (word_tok w :: ts) end) = b (word_tok w :: ts).
Proof. unfold word_tok. by destruct (_ || _). Qed.
Lemma requirement_term x rest : ends_term rest = true -> requirement (term_toks x ++ rest) = match term_req x with Some r => Some (r, rest) | None => None end.
Proof.
  destruct x as [[k eq] v]. intros Hr. unfold requirement, term_toks. cbn [app].
  rewrite (word_tok_not_bang k (fun ts => (true, ts)) (fun ts => (false, ts))). rewrite word_tok_word. unfold term_req.
  destruct (label_key k) eqn:Ek; cbn [negb andb]; [|done].
  assert (exact_value (value_toks v ++ rest) = Some ([v], rest)) as Ev.
  { destruct v as [|c v]; cbn [value_toks app].
    - destruct rest as [|[] rest]; done.
    - unfold exact_value. destruct (word_tok (c :: v)) eqn:Ew; try (unfold word_tok in Ew; by destruct (_ || _)); rewrite <- Ew, word_tok_word; reflexivity. }
  destruct eq; cbn [ends_term]; rewrite Ev; cbn [with_req]; unfold new_req; rewrite Ek; cbn [andb forallb]; rewrite andb_true_r; by destruct (label_value v).
Qed.
Lemma toks_cons x l : toks (x :: l) = term_toks x ++ match l with [] => [End] | _ => Comma :: toks l end.
Proof. by destruct l. Qed.
Lemma toks_starts x l : starts_term (toks (x :: l)) = true.
Proof. rewrite toks_cons. destruct x as [[k eq] v]. cbn. unfold word_tok. by destruct (_ || _). Qed.
Lemma toks_not_end {A} x l (a b : A) : (match toks (x :: l) with End :: _ => a | _ => b end) = b.
Proof. rewrite toks_cons. destruct x as [[k eq] v]. cbn. unfold word_tok. by destruct (_ || _). Qed.
Lemma requirements_terms l : l <> [] -> forall fuel, (length l <= fuel)%nat -> requirements fuel (toks l) = mapM term_req l.
Proof.
  induction l as [|x l IH]; intros Hl fuel Hf; [done|]. destruct fuel as [|fuel]; [cbn in Hf; lia|].
  cbn [requirements]. rewrite toks_not_end. rewrite toks_cons. rewrite requirement_term by (by destruct l). cbn [mapM].
  destruct (term_req x) as [r|]; cbn [mbind option_bind]; [|done]. destruct l as [|y l]; [done|].
  rewrite toks_starts. rewrite IH; [|done|cbn in Hf |- *; lia]. by destruct (mapM term_req (y :: l)).
Qed.
Lemma toks_length l : (length l <= length (toks l))%nat.
Proof.
  induction l as [|x l IH]; [cbn; lia|]. rewrite toks_cons, app_length. destruct x as [[k eq] v]. destruct l as [|y l]; [cbn; lia|].
  cbn [length term_toks] in *. lia.
Qed.
Lemma parse_terms l : Forall word_term l -> parse_labels (join [comma] (map term_text l)) = mapM term_req l.
Proof.
  intros H. destruct l as [|x l]; [reflexivity|]. unfold parse_labels. rewrite lex_terms; [|by left|done..].
  apply requirements_terms; [done|]. pose proof (toks_length (x :: l)). lia.
Qed.

(** ** The texts of maps *)

Definition eq_term (kv : text * text) : text * bool * text := (kv.1, true, kv.2).
Lemma set_string_terms m : exists l, l ≡ₚ map_to_list m /\ set_string m = join [comma] (map term_text (map eq_term l)).
Proof.
  unfold set_string. pose proof (merge_sort_Permutation text_le (map pair_text (map_to_list m))) as P.
  destruct (Permutation_map_inv pair_text _ P) as (l & El & Pl). exists l. split; [by symmetry|]. rewrite El. f_equal. by rewrite map_map.
Qed.
Lemma nameish_plain c : nameish c -> plain c.
Proof.
  intros H. split; [|split].
  - apply (nameish_not c nul H), not_nameish; done.
  - destruct (blank c) eqn:E; [|done]. apply existsb_exists in E as (d & Hd & E). apply Ascii.eqb_eq in E as ->. exfalso. revert H. apply not_nameish;
      (destruct Hd as [<-|[<-|[<-|[<-|[]]]]]; done).
  - destruct (special c) eqn:E; [|done]. apply existsb_exists in E as (d & Hd & E). apply Ascii.eqb_eq in E as ->. exfalso. revert H. apply not_nameish;
      (destruct Hd as [<-|[<-|[<-|[<-|[<-|[<-|[<-|[]]]]]]]]; done).
Qed.
Lemma kube_key_plain k : kube_key k -> Forall plain k.
Proof. intros H. apply Forall_forall. intros c Hc. apply nameish_plain. apply (kube_key_in k c H). by apply elem_of_list_In. Qed.
Lemma kube_value_plain v : kube_value v -> Forall plain v.
Proof. intros H. apply Forall_forall. intros c Hc. apply nameish_plain. apply (kube_value_in v c H). by apply elem_of_list_In. Qed.
Lemma kube_key_nonempty k : kube_key k -> k <> [].
Proof. intros H ->. apply label_key_spec in H. by vm_compute in H. Qed.
Lemma kube_term k eq v : kube_key k -> kube_value v -> word_term (k, eq, v) /\ term_req (k, eq, v) = Some (Req k (if eq then OneOf else NoneOf) [v]).
Proof.
  intros Hk Hv. split; [split; [by apply kube_key_nonempty|split; [by apply kube_key_plain|by apply kube_value_plain]]|].
  unfold term_req. apply label_key_spec in Hk. apply label_value_spec in Hv. by rewrite Hk, Hv.
Qed.
Lemma mapM_all {A B} (f : A -> option B) (g : A -> B) l : (forall x, x ∈ l -> f x = Some (g x)) -> mapM f l = Some (map g l).
Proof.
  induction l as [|x l IH]; intros H; [done|]. cbn [mapM map]. rewrite (H x) by constructor. cbn. rewrite IH; [done|]. intros y Hy. apply H. by right.
Qed.
Lemma mapM_none {A B} (f : A -> option B) l x : x ∈ l -> f x = None -> mapM f l = None.
Proof.
  induction l as [|y l IH]; intros Hx H; [by apply elem_of_nil in Hx|]. cbn [mapM]. apply elem_of_cons in Hx as [<-|Hx]; [by rewrite H|].
  destruct (f y) as [b|]; [|done]. cbn. by rewrite IH.
Qed.

Lemma meets_one m k v : meets m (Req k OneOf [v]) = true <-> m !! k = Some v.
Proof.
  unfold meets. cbn [r_op r_key r_vals]. destruct (m !! k) as [w|]; [|split; intros; done]. cbn [existsb]. rewrite orb_false_r. unfold text_eqb.
  rewrite bool_decide_eq_true. split; [by intros ->|by intros [= ->]].
Qed.
Lemma meets_none m k v : meets m (Req k NoneOf [v]) = true <-> m !! k <> Some v.
Proof.
  unfold meets. cbn [r_op r_key r_vals]. destruct (m !! k) as [w|]; [|split; intros; done]. cbn [existsb]. rewrite orb_false_r. unfold text_eqb.
  rewrite negb_true_iff, bool_decide_eq_false. split; [by intros H [= ->]|by intros H ->].
Qed.

(** The labels of a trace. *)
Lemma parse_set m : kube_labels m -> exists rs, parse_labels (set_string m) = Some rs /\
  forall p, forallb (meets p) rs = true <-> forall k v, m !! k = Some v -> p !! k = Some v.
Proof.
  intros H. destruct (set_string_terms m) as (l & Pl & E).
  assert (forall kv, kv ∈ l -> kube_key kv.1 /\ kube_value kv.2) as Hl.
  { intros [k v] Hkv. rewrite Pl in Hkv. apply elem_of_map_to_list in Hkv. by apply H. }
  exists (map (fun x => Req x.1.1 OneOf [x.2]) (map eq_term l)). split.
  - rewrite E, parse_terms.
    + apply mapM_all. intros x Hx. apply elem_of_list_In, in_map_iff in Hx as (kv & <- & Hkv). apply elem_of_list_In, Hl in Hkv as [Hk Hv]. apply (kube_term kv.1 true kv.2); done.
    + apply Forall_forall. intros x Hx. apply elem_of_list_In, in_map_iff in Hx as (kv & <- & Hkv). apply elem_of_list_In, Hl in Hkv as [Hk Hv]. apply (kube_term kv.1 true kv.2); done.
  - intros p. rewrite forallb_forall. split.
    + intros A k v Hkv. apply meets_one, A. apply in_map_iff. exists (eq_term (k, v)). split; [done|]. apply in_map. apply elem_of_list_In. rewrite Pl. by apply elem_of_map_to_list.
    + intros A r Hr. apply in_map_iff in Hr as (x & <- & Hx). apply in_map_iff in Hx as ([k v] & <- & Hkv). cbn. apply meets_one, A.
      apply elem_of_map_to_list. rewrite <- Pl. by apply elem_of_list_In.
Qed.
(** Words that are no labels. *)
Lemma parse_bad m k v : m !! k = Some v -> (forall k v, m !! k = Some v -> k <> [] /\ Forall plain k /\ Forall plain v) -> ~ (kube_key k /\ kube_value v) -> parse_labels (set_string m) = None.
Proof.
  intros Hkv H B. destruct (set_string_terms m) as (l & Pl & E). rewrite E, parse_terms.
  - apply (mapM_none _ _ (eq_term (k, v))).
    + apply elem_of_list_In, in_map, elem_of_list_In. rewrite Pl. by apply elem_of_map_to_list.
    + unfold eq_term, term_req. cbn. destruct (label_key k) eqn:Ek, (label_value v) eqn:Ev; try done. exfalso. apply B. split; [by apply label_key_spec|by apply label_value_spec].
  - apply Forall_forall. intros x Hx. apply elem_of_list_In, in_map_iff in Hx as ([k' v'] & <- & Hx). apply (H k' v'). apply elem_of_map_to_list. rewrite <- Pl. by apply elem_of_list_In.
Qed.

(** ** Fields *)

Definition no_escape (v : text) : Prop := Forall (fun c => c <> "\"%char /\ c <> ","%char /\ c <> "="%char) v.
Definition field_key (f : text) : Prop := f <> [] /\ Forall (fun c => c <> "\"%char /\ c <> ","%char /\ c <> "="%char /\ c <> "!"%char) f.
Lemma split_terms_plain s : forall cur, ~ In "\"%char s -> split_terms false cur s = split_on comma cur s.
Proof.
  induction s as [|c s IH]; intros cur H; [done|]. cbn [split_terms split_on].
  rewrite (eqb_ne c "\") by (intros ->; apply H; by left). change ","%char with comma. destruct (Ascii.eqb c comma); rewrite IH by (intros I; apply H; by right); done.
Qed.
Lemma split_term_here f v : forall cur, Forall (fun c => c <> "\"%char /\ c <> ","%char /\ c <> "="%char /\ c <> "!"%char) f -> no_escape v ->
  split_term cur (f ++ "="%char :: v) = Some (cur ++ f, true, v).
Proof.
  induction f as [|c f IH]; intros cur Hf Hv.
  - cbn [app split_term]. rewrite app_nil_r. cbn -[Ascii.eqb]. change (Ascii.eqb "=" "=") with true. cbn iota. destruct v as [|d v]; [done|].
    apply Forall_cons in Hv as [(_ & _ & Hd) _]. by rewrite (eqb_ne d "=").
  - apply Forall_cons in Hf as [(H1 & H2 & H3 & H4) Hf]. cbn [app split_term]. rewrite (eqb_ne c "=") by done. rewrite (eqb_ne c "!") by done. cbn [andb].
    destruct (f ++ "="%char :: v) as [|d r] eqn:E; [by destruct f|]. rewrite IH by done. by rewrite <- app_assoc.
Qed.
Lemma unescape_plain v : no_escape v -> unescape_value false v = Some v.
Proof.
  induction v as [|c v IH]; intros H; [done|]. apply Forall_cons in H as [(H1 & H2 & H3) H]. cbn [unescape_value].
  rewrite (eqb_ne c "\") by done. cbn [t String.list_ascii_of_string existsb]. rewrite (eqb_ne c ","), (eqb_ne c "=") by done. cbn [orb]. by rewrite IH.
Qed.
Definition field_term (kv : text * text) : option (text * bool * text) := match field_label kv.1 with Some f => Some (f, true, kv.2) | None => None end.
Lemma field_terms_pairs l : Forall (fun kv => field_key kv.1 /\ no_escape kv.2) l -> field_terms (map pair_text l) = mapM field_term l.
Proof.
  induction l as [|[f v] l IH]; intros H; [done|]. apply Forall_cons in H as [[[Hn Hf] Hv] H]. cbn [map fst snd] in *.
  assert (exists c r, pair_text (f, v) = c :: r) as (c & r & E) by (destruct f as [|c f]; [congruence|]; exists c, (f ++ t "=" ++ v); reflexivity).
  cbn [field_terms]. rewrite E, <- E. unfold pair_text at 1. cbn [fst snd t String.list_ascii_of_string app].
  rewrite (split_term_here f v []) by done. rewrite unescape_plain by done. cbn [app].
  change (mapM field_term ((f, v) :: l)) with (y ← field_term (f, v); k ← mapM field_term l; Some (y :: k)). assert (field_term (f, v) = match field_label f with Some g => Some (g, true, v) | None => None end) as Et by reflexivity. rewrite Et.
  destruct (field_label f) as [g|]; [|reflexivity]. rewrite IH by done. cbn [mbind option_bind]. by destruct (mapM field_term l).
Qed.
Lemma parse_fields_pairs m : (forall f v, m !! f = Some v -> field_key f /\ no_escape v) -> exists l, l ≡ₚ map_to_list m /\ parse_fields (set_string m) = mapM field_term l.
Proof.
  intros H. unfold set_string. pose proof (merge_sort_Permutation text_le (map pair_text (map_to_list m))) as P.
  destruct (Permutation_map_inv pair_text _ P) as (l & El & Pl). exists l. split; [by symmetry|]. rewrite El.
  assert (Forall (fun kv : text * text => field_key kv.1 /\ no_escape kv.2) l) as Hl.
  { apply Forall_forall. intros [k v] Hkv. rewrite <- Pl in Hkv. apply elem_of_map_to_list in Hkv. by apply H. }
  destruct l as [|kv l]; [done|].
  assert (exists c r, join [comma] (map pair_text (kv :: l)) = c :: r) as (c & r & Ej).
  { destruct (join [comma] (map pair_text (kv :: l))) as [|c r] eqn:E; [|by eexists _, _]. apply join_nil in E as [E|E]; [done|].
    injection E as E _. unfold pair_text in E. by destruct (kv.1). }
  assert (forall c kv0, kv0 ∈ kv :: l -> In c (pair_text kv0) -> c <> "\"%char /\ c <> comma) as Hc.
  { intros d [f v] Hkv I. rewrite Forall_forall in Hl. destruct (Hl _ Hkv) as [[_ Hf] Hv]. cbn [fst snd] in *. unfold pair_text in I. cbn [fst snd] in I.
    unfold no_escape in Hv. rewrite Forall_forall in Hf, Hv. apply in_app_or in I as [I|I]; [destruct (Hf d) as (? & ? & _); [by apply elem_of_list_In|done]|].
    apply in_app_or in I as [[<-|[]]|I]; [done|]. destruct (Hv d) as (? & ? & _); [by apply elem_of_list_In|done]. }
  unfold parse_fields. rewrite Ej, <- Ej. rewrite split_terms_plain, split_join.
  - by apply field_terms_pairs.
  - done.
  - apply Forall_forall. intros x Hx I. apply elem_of_list_In, in_map_iff in Hx as (kv0 & <- & Hx). destruct (Hc comma kv0) as [_ N]; [by apply elem_of_list_In|done|done].
  - intros I. apply in_join in I as [[E|[]]|(a & Ha & I)]; [done|]. apply in_map_iff in Ha as (kv0 & <- & Hx). destruct (Hc "\"%char kv0) as [N _]; [by apply elem_of_list_In|done|done].
Qed.
