(** Property C122: label selectors of `swoll top` mean what Kubernetes documents. *)
From Coq Require Import ZArith String Ascii Bool Lia.
From stdpp Require Import base list sorting numbers strings pretty gmap.
From Verif Require Import CodecModel JsonModel HubModel ClientModel ClientSpec AgentModel AgentSpec AgentProofs SelectModel LiveModel SelectSpec SelectProofs SelectTop.
Local Open Scope string_scope.
Local Open Scope list_scope.
Local Open Scope Z_scope.

(** * Specification *)
(** The conditions of "Labels and Selectors", the way they are written and which labels
    meet them. *)
Inductive cond :=
  | There (k : text) | NotThere (k : text)
  | Is (k v : text) | Is2 (k v : text) | IsNot (k v : text)
  | AnyOf (k : text) (vs : list text) | OutOf (k : text) (vs : list text).
Definition cond_text (c : cond) : text :=
  match c with
  | There k => k
  | NotThere k => t "!" ++ k
  | Is k v => k ++ t "=" ++ v
  | Is2 k v => k ++ t "==" ++ v
  | IsNot k v => k ++ t "!=" ++ v
  | AnyOf k vs => k ++ t " in (" ++ join [comma] vs ++ t ")"
  | OutOf k vs => k ++ t " notin (" ++ join [comma] vs ++ t ")"
  end.
Definition holds (m : gmap text text) (c : cond) : Prop :=
  match c with
  | There k => exists v, m !! k = Some v
  | NotThere k => m !! k = None
  | Is k v | Is2 k v => m !! k = Some v
  | IsNot k v => m !! k <> Some v
  | AnyOf k vs => exists v, In v vs /\ m !! k = Some v
  | OutOf k vs => forall v, In v vs -> m !! k <> Some v
  end.
(** Keys and values are Kubernetes'; lists have a value at least and no empty one. *)
Definition lawful (c : cond) : Prop :=
  match c with
  | There k | NotThere k => kube_key k
  | Is k v | Is2 k v | IsNot k v => kube_key k /\ kube_value v
  | AnyOf k vs | OutOf k vs => kube_key k /\ vs <> [] /\ Forall (fun v => v <> [] /\ kube_value v) vs
  end.

(** * Tokens *)
Fixpoint list_toks (vs : list text) : list tok :=
  match vs with [] => [] | [v] => [word_tok v] | v :: vs => word_tok v :: Comma :: list_toks vs end.
Definition cond_toks (c : cond) : list tok :=
  match c with
  | There k => [word_tok k]
  | NotThere k => [Bang; word_tok k]
  | Is k v => word_tok k :: Eq1 :: value_toks v
  | Is2 k v => word_tok k :: Eq2 :: value_toks v
  | IsNot k v => word_tok k :: Neq :: value_toks v
  | AnyOf k vs => word_tok k :: KeyIn (t "in") :: Lpar :: list_toks vs ++ [Rpar]
  | OutOf k vs => word_tok k :: KeyIn (t "notin") :: Lpar :: list_toks vs ++ [Rpar]
  end.
Definition follow (r : text) (rest : list tok) : Prop := r = [] /\ rest = [End] \/ exists r', r = ","%char :: r' /\ rest = Comma :: lex LAfter r'.
Lemma follow_word w r rest : follow r rest -> lex (LWord w) r = word_tok w :: rest.
Proof. intros [[-> ->]|(r' & -> & ->)]; [reflexivity|apply lex_comma_word]. Qed.
Lemma follow_after r rest : follow r rest -> lex LAfter r = rest.
Proof. intros [[-> ->]|(r' & -> & ->)]; [reflexivity|apply lex_comma; by right]. Qed.
Lemma lex_rpar w r : lex (LWord w) (")"%char :: r) = word_tok w :: Rpar :: lex LAfter r.
Proof. destruct r as [|d r]; [reflexivity|]. cbn -[lex]. cbn [lex]. rewrite !andb_false_r. reflexivity. Qed.
Lemma lex_lpar r : lex LStart ("("%char :: r) = Lpar :: lex LAfter r.
Proof. destruct r as [|d r]; [reflexivity|]. cbn -[lex]. cbn [lex]. rewrite !andb_false_r. reflexivity. Qed.
Lemma lex_list vs r : vs <> [] -> Forall (fun v => v <> [] /\ Forall plain v) vs ->
  lex LAfter (join [comma] vs ++ ")"%char :: r) = list_toks vs ++ Rpar :: lex LAfter r.
Proof.
  induction vs as [|v vs IH]; intros N H; [done|]. apply Forall_cons in H as [[Hv Pv] H]. destruct vs as [|w vs].
  - cbn [join list_toks app]. rewrite (lex_start LAfter v) by (try done; by right). apply lex_rpar.
  - change (join [comma] (v :: w :: vs)) with (v ++ ","%char :: join [comma] (w :: vs)). rewrite <- app_assoc. cbn [app].
    rewrite (lex_start LAfter v) by (try done; by right). rewrite lex_comma_word, IH by done. reflexivity.
Qed.
Lemma key_plain k : kube_key k -> k <> [] /\ Forall plain k.
Proof. intros H. split; [|by apply kube_key_plain]. intros ->. apply label_key_spec in H. by vm_compute in H. Qed.
Lemma lex_cond m c r rest : m = LStart \/ m = LAfter -> lawful c -> follow r rest -> lex m (cond_text c ++ r) = cond_toks c ++ rest.
Proof.
  intros Hm Hc Hr. destruct c as [k|k|k v|k v|k v|k vs|k vs]; cbn [cond_text cond_toks lawful] in *.
  - destruct (key_plain k Hc) as [N P]. rewrite (lex_start m k) by done. by apply follow_word.
  - destruct (key_plain k Hc) as [N P]. destruct k as [|d k]; [done|]. cbn [app].
    assert (lex m ("!"%char :: (d :: k) ++ r) = Bang :: lex LAfter ((d :: k) ++ r)) as E.
    { apply Forall_cons in P as [Pd _]. pose proof (plain_not_eq d Pd) as Ed. change ((d :: k) ++ r) with (d :: (k ++ r)).
      destruct Hm as [-> | ->]; cbn -[lex]; cbn [lex]; rewrite Ed; reflexivity. }
    change (t "!" ++ (d :: k)) with ("!"%char :: d :: k). cbn [app] in E |- *. rewrite E. f_equal.
    change (d :: k ++ r) with ((d :: k) ++ r). rewrite (lex_start LAfter (d :: k)) by (try done; by right). by apply follow_word.
  - destruct Hc as [Hk Hv]. destruct (key_plain k Hk) as [N P]. exact (lex_term m (k, true, v) r rest Hm (conj N (conj P (kube_value_plain v Hv))) Hr).
  - destruct Hc as [Hk Hv]. destruct (key_plain k Hk) as [N P]. rewrite <- !app_assoc. rewrite (lex_start m k) by done.
    change (t "==" ++ v ++ r) with ("="%char :: "="%char :: (v ++ r)).
    transitivity (word_tok k :: Eq2 :: lex LAfter (v ++ r)); [reflexivity|]. rewrite (lex_value v r rest (kube_value_plain v Hv) Hr). reflexivity.
  - destruct Hc as [Hk Hv]. destruct (key_plain k Hk) as [N P]. exact (lex_term m (k, false, v) r rest Hm (conj N (conj P (kube_value_plain v Hv))) Hr).
  - destruct Hc as (Hk & Nv & Hv). destruct (key_plain k Hk) as [N P]. rewrite <- !app_assoc. rewrite (lex_start m k) by done.
    change (t " in (" ++ join [comma] vs ++ t ")" ++ r) with (" "%char :: t "in" ++ " "%char :: "("%char :: (join [comma] vs ++ ")"%char :: r)).
    transitivity (word_tok k :: lex LStart (t "in" ++ " "%char :: "("%char :: (join [comma] vs ++ ")"%char :: r))); [reflexivity|].
    transitivity (word_tok k :: KeyIn (t "in") :: lex LStart ("("%char :: (join [comma] vs ++ ")"%char :: r))); [reflexivity|].
    rewrite lex_lpar, lex_list, (follow_after r rest Hr); [cbn [app]; rewrite <- app_assoc; reflexivity|done|].
    eapply Forall_impl; [exact Hv|]. intros v [A B]. split; [done|by apply kube_value_plain].
  - destruct Hc as (Hk & Nv & Hv). destruct (key_plain k Hk) as [N P]. rewrite <- !app_assoc. rewrite (lex_start m k) by done.
    change (t " notin (" ++ join [comma] vs ++ t ")" ++ r) with (" "%char :: t "notin" ++ " "%char :: "("%char :: (join [comma] vs ++ ")"%char :: r)).
    transitivity (word_tok k :: lex LStart (t "notin" ++ " "%char :: "("%char :: (join [comma] vs ++ ")"%char :: r))); [reflexivity|].
    transitivity (word_tok k :: KeyIn (t "notin") :: lex LStart ("("%char :: (join [comma] vs ++ ")"%char :: r))); [reflexivity|].
    rewrite lex_lpar, lex_list, (follow_after r rest Hr); [cbn [app]; rewrite <- app_assoc; reflexivity|done|].
    eapply Forall_impl; [exact Hv|]. intros v [A B]. split; [done|by apply kube_value_plain].
Qed.
Fixpoint all_toks (l : list cond) : list tok :=
  match l with [] => [End] | [x] => cond_toks x ++ [End] | x :: l => cond_toks x ++ Comma :: all_toks l end.
Lemma lex_conds l : forall m, m = LStart \/ m = LAfter -> l <> [] -> Forall lawful l -> lex m (join [comma] (map cond_text l)) = all_toks l.
Proof.
  induction l as [|x l IH]; intros m Hm Hl H; [done|]. apply Forall_cons in H as [Hx H]. destruct l as [|y l].
  - cbn [map join all_toks]. rewrite <- (app_nil_r (cond_text x)). apply lex_cond; [done..|]. by left.
  - change (join [comma] (map cond_text (x :: y :: l))) with (cond_text x ++ [comma] ++ join [comma] (map cond_text (y :: l))).
    change (all_toks (x :: y :: l)) with (cond_toks x ++ Comma :: all_toks (y :: l)). apply lex_cond; [done..|]. right.
    eexists. split; [reflexivity|]. f_equal. rewrite IH; [done|by right|done|done].
Qed.

(** * Requirements *)
Definition cond_req (c : cond) : req :=
  match c with
  | There k => Req k Exists_ [] | NotThere k => Req k Absent []
  | Is k v | Is2 k v => Req k OneOf [v] | IsNot k v => Req k NoneOf [v]
  | AnyOf k vs => Req k OneOf vs | OutOf k vs => Req k NoneOf vs
  end.
Lemma word_tok_cases w : word_tok w = Word w \/ word_tok w = KeyIn w.
Proof. unfold word_tok. destruct (_ || _); auto. Qed.
Lemma idents_list vs rest : vs <> [] -> forall acc, idents acc (list_toks vs ++ Rpar :: rest) = Some (acc ++ vs, Rpar :: rest).
Proof.
  induction vs as [|v vs IH]; intros N acc; [done|]. destruct vs as [|w vs].
  - cbn [list_toks app idents]. rewrite word_tok_word. reflexivity.
  - change (list_toks (v :: w :: vs) ++ Rpar :: rest) with (word_tok v :: Comma :: (list_toks (w :: vs) ++ Rpar :: rest)).
    cbn [idents]. rewrite word_tok_word. cbn [as_word].
    assert (E : match acc ++ [v] with [] => [[]] | _ => acc ++ [v] end = acc ++ [v]) by (by destruct acc). rewrite E.
    specialize (IH ltac:(discriminate) (acc ++ [v])). rewrite <- app_assoc in IH. change ([v] ++ w :: vs) with (v :: w :: vs) in IH.
    destruct (list_toks (w :: vs) ++ Rpar :: rest) as [|x ts] eqn:L; [discriminate IH|].
    assert (x = word_tok w) as -> by (destruct vs; cbn in L; by injection L as <- _).
    destruct (word_tok_cases w) as [Ew|Ew]; rewrite Ew in *; exact IH.
Qed.
Lemma exact_toks v rest : ends_term rest = true -> exact_value (value_toks v ++ rest) = Some ([v], rest).
Proof.
  intros Hr. destruct v as [|c v]; cbn [value_toks app].
  - destruct rest as [|[] rest]; done.
  - unfold exact_value. destruct (word_tok (c :: v)) eqn:Ew; try (unfold word_tok in Ew; by destruct (_ || _)); rewrite <- Ew, word_tok_word; reflexivity.
Qed.
Lemma values_list vs rest : vs <> [] -> values (Lpar :: (list_toks vs ++ [Rpar]) ++ rest) = Some (vs, rest).
Proof.
  intros N. rewrite <- app_assoc. cbn [app]. unfold values. pose proof (idents_list vs rest N []) as E.
  destruct (list_toks vs ++ Rpar :: rest) as [|x ts] eqn:L; [discriminate E|].
  assert (x <> Rpar) by (intros ->; discriminate E). destruct x; try done; rewrite E; reflexivity.
Qed.
Lemma requirement_cond c rest : lawful c -> ends_term rest = true -> requirement (cond_toks c ++ rest) = Some (cond_req c, rest).
Proof.
  intros Hc Hr.
  assert (V : forall vs, Forall (fun v => v <> [] /\ kube_value v) vs -> forallb label_value vs = true).
  { intros vs H. apply forallb_forall. intros v I. apply label_value_spec. rewrite List.Forall_forall in H. by apply H. }
  destruct c as [k|k|k v|k v|k v|k vs|k vs]; cbn [cond_toks cond_req lawful app] in *; unfold requirement;
    try (rewrite (word_tok_not_bang k (fun ts => (true, ts)) (fun ts => (false, ts)))); rewrite word_tok_word.
  - apply label_key_spec in Hc. rewrite Hc. cbn [negb]. rewrite Hr. unfold with_req, new_req. rewrite Hc. reflexivity.
  - apply label_key_spec in Hc. rewrite Hc. cbn [negb]. unfold with_req, new_req. rewrite Hc. reflexivity.
  - destruct Hc as [Hk Hv]. apply label_key_spec in Hk. apply label_value_spec in Hv. rewrite Hk. cbn [negb ends_term]. rewrite exact_toks by exact Hr. unfold with_req, new_req. cbn [forallb]. rewrite Hk, Hv. reflexivity.
  - destruct Hc as [Hk Hv]. apply label_key_spec in Hk. apply label_value_spec in Hv. rewrite Hk. cbn [negb ends_term]. rewrite exact_toks by exact Hr. unfold with_req, new_req. cbn [forallb]. rewrite Hk, Hv. reflexivity.
  - destruct Hc as [Hk Hv]. apply label_key_spec in Hk. apply label_value_spec in Hv. rewrite Hk. cbn [negb ends_term]. rewrite exact_toks by exact Hr. unfold with_req, new_req. cbn [forallb]. rewrite Hk, Hv. reflexivity.
  - destruct Hc as (Hk & N & Hv). apply label_key_spec in Hk. rewrite Hk. cbn [negb ends_term]. rewrite values_list by exact N. unfold with_req, new_req. rewrite Hk, (V vs Hv). destruct vs; [done|reflexivity].
  - destruct Hc as (Hk & N & Hv). apply label_key_spec in Hk. rewrite Hk. cbn [negb ends_term]. rewrite values_list by exact N. unfold with_req, new_req. rewrite Hk, (V vs Hv). destruct vs; [done|reflexivity].
Qed.
Lemma all_toks_cons x l : all_toks (x :: l) = cond_toks x ++ match l with [] => [End] | _ => Comma :: all_toks l end.
Proof. by destruct l. Qed.
Lemma all_toks_starts x l : starts_term (all_toks (x :: l)) = true.
Proof. rewrite all_toks_cons. destruct x as [k|k|k v|k v|k v|k vs|k vs]; cbn [cond_toks app]; try reflexivity; destruct (word_tok_cases k) as [-> | ->]; reflexivity. Qed.
Lemma all_toks_not_end {A} x l (a b : A) : (match all_toks (x :: l) with End :: _ => a | _ => b end) = b.
Proof. rewrite all_toks_cons. destruct x as [k|k|k v|k v|k v|k vs|k vs]; cbn [cond_toks app]; try reflexivity; destruct (word_tok_cases k) as [-> | ->]; reflexivity. Qed.
Lemma requirements_conds l : l <> [] -> Forall lawful l -> forall fuel, (length l <= fuel)%nat -> requirements fuel (all_toks l) = Some (map cond_req l).
Proof.
  induction l as [|x l IH]; intros Hl H fuel Hf; [done|]. apply Forall_cons in H as [Hx H]. destruct fuel as [|fuel]; [cbn in Hf; lia|].
  cbn [requirements]. rewrite all_toks_not_end. rewrite all_toks_cons. rewrite requirement_cond by (try done; by destruct l).
  destruct l as [|y l]; [done|]. rewrite all_toks_starts. rewrite IH; [done|done|done|cbn in Hf |- *; lia].
Qed.
Lemma all_toks_length l : (length l <= length (all_toks l))%nat.
Proof.
  induction l as [|x l IH]; [cbn; lia|]. rewrite all_toks_cons, app_length.
  assert (1 <= length (cond_toks x))%nat by (destruct x; cbn; lia). destruct l as [|y l]; [cbn in *; lia|]. cbn [length] in *. lia.
Qed.
Lemma parse_conds l : Forall lawful l -> parse_labels (join [comma] (map cond_text l)) = Some (map cond_req l).
Proof.
  intros H. destruct l as [|x l]; [reflexivity|]. unfold parse_labels. rewrite lex_conds; [|by left|done..].
  apply requirements_conds; [done|done|]. pose proof (all_toks_length (x :: l)). lia.
Qed.
Lemma one_in v vs : existsb (text_eqb v) vs = true <-> In v vs.
Proof.
  rewrite existsb_exists. split; [intros (w & I & E)|intros I; exists v; split; [done|]].
  - apply text_eqb_eq in E as ->. done.
  - by apply text_eqb_eq.
Qed.
Lemma meets_cond m c : meets m (cond_req c) = true <-> holds m c.
Proof.
  destruct c as [k|k|k v|k v|k v|k vs|k vs]; unfold meets; cbn [cond_req SelectModel.r_key r_op r_vals holds]; destruct (m !! k) as [w|] eqn:E.
  - split; [by exists w|done].
  - split; [done|intros [? ?]; done].
  - split; [done|done].
  - done.
  - rewrite one_in. split; [intros [->|[]]; done|intros [= ->]; by left].
  - done.
  - rewrite one_in. split; [intros [->|[]]; done|intros [= ->]; by left].
  - done.
  - rewrite negb_true_iff, <- not_true_iff_false, one_in. split; [intros N [= ->]; apply N; by left|intros N [->|[]]; done].
  - done.
  - rewrite one_in. split; [intros I; by exists w|intros (v & I & [= ->]); done].
  - split; [done|intros (v & _ & ?); done].
  - rewrite negb_true_iff, <- not_true_iff_false, one_in. split; [intros N v I [= ->]; done|intros N I; by apply (N w I)].
  - done.
Qed.

(** C122: `swoll top` shows the running pods of its namespace that meet every condition of
    its label selector. *)
Theorem C122_selectors_mean_what_is_documented : forall cri cfg ns root l p, Forall lawful l ->
  (observes_pod (top_observer cri cfg ns root (join [comma] (map cond_text l))) p = true <->
   in_namespace ns p /\ (forall c, In c l -> holds (pd_labels p) c) /\ shows p (t "status.phase") (t "Running")).
Proof.
  intros cri cfg ns root l p H. rewrite observes_pod_eq. cbn [top_observer new_kubernetes foldl apply_opt o_ns o_labels o_fields]. rewrite (parse_conds l H).
  assert (parse_fields (t "status.phase=Running") = Some [(t "status.phase", true, t "Running")]) as -> by reflexivity.
  cbn [forallb]. rewrite !andb_true_iff, namespace_iff, shows_iff. assert (field_label (t "status.phase") = Some (t "status.phase")) as -> by reflexivity.
  unfold term_holds. assert (Bool.eqb (text_eqb (field_of p (t "status.phase")) (t "Running")) true = true <-> field_of p (t "status.phase") = t "Running") as ->.
  { rewrite <- text_eqb_eq. destruct (text_eqb _ _); done. }
  assert (forallb (meets (pd_labels p)) (map cond_req l) = true <-> forall c, In c l -> holds (pd_labels p) c) as ->.
  { rewrite forallb_forall. split; intros A.
    - intros c I. apply meets_cond, A, in_map, I.
    - intros r I. apply in_map_iff in I as (c & <- & I). apply meets_cond, A, I. }
  split.
  - intros [[A B] [C _]]. eauto.
  - intros (A & B & g & [= <-] & C). eauto.
Qed.

Definition web_conds : list cond := [Is (t "app") (t "web"); NotThere (t "canary"); AnyOf (t "tier") [t "front"; t "back"]; OutOf (t "in") [t "test"]; There (t "tier")].
Example C122_nonvacuous : Forall lawful web_conds
  /\ join [comma] (map cond_text web_conds) = t "app=web,!canary,tier in (front,back),in notin (test),tier"
  /\ (forall c, In c web_conds -> holds {[t "app" := t "web"; t "tier" := t "back"]} c) /\ ~ holds {[t "app" := t "web"; t "tier" := t "back"; t "canary" := []]} (NotThere (t "canary")).
Proof.
  assert (K : forall k, label_key k = true -> kube_key k) by (intros k; apply label_key_spec). assert (V : forall v, label_value v = true -> kube_value v) by (intros v; apply label_value_spec).
  split_and!.
  - assert (K1 : kube_key (t "app")) by (apply K; vm_compute; reflexivity). assert (K2 : kube_key (t "canary")) by (apply K; vm_compute; reflexivity).
    assert (K3 : kube_key (t "tier")) by (apply K; vm_compute; reflexivity). assert (K4 : kube_key (t "in")) by (apply K; vm_compute; reflexivity).
    assert (V1 : kube_value (t "web")) by (apply V; vm_compute; reflexivity). assert (V2 : kube_value (t "front")) by (apply V; vm_compute; reflexivity).
    assert (V3 : kube_value (t "back")) by (apply V; vm_compute; reflexivity). assert (V4 : kube_value (t "test")) by (apply V; vm_compute; reflexivity).
    unfold web_conds. apply Forall_cons; split; [exact (conj K1 V1)|]. apply Forall_cons; split; [exact K2|].
    apply Forall_cons; split; [exact (conj K3 (conj (fun e => nil_cons (eq_sym e)) (Forall_cons_2 _ _ _ (conj (fun e => nil_cons (eq_sym e)) V2) (Forall_cons_2 _ _ _ (conj (fun e => nil_cons (eq_sym e)) V3) (Forall_nil_2 _)))))|].
    apply Forall_cons; split; [exact (conj K4 (conj (fun e => nil_cons (eq_sym e)) (Forall_cons_2 _ _ _ (conj (fun e => nil_cons (eq_sym e)) V4) (Forall_nil_2 _))))|].
    apply Forall_cons; split; [exact K3|]. apply Forall_nil_2.
  - reflexivity.
  - intros c I. apply meets_cond. revert c I. unfold web_conds. intros c [<-|[<-|[<-|[<-|[<-|[]]]]]]; by vm_compute.
  - cbn [holds]. by vm_compute.
Qed.
Print Assumptions C122_selectors_mean_what_is_documented.
