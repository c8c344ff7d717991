(** Proofs about the hub's locks. *)

From Coq Require Import ZArith Lia List Bool Arith.
From stdpp Require Import base list.
From Verif Require Import LockModel LockSpec.
Import ListNotations.

(** * Where a goroutine is *)
Inductive place := Out | InH | InHR | InR | Pend | InW.

(** strict: publishes and work only inside H *)
Definition go (strict : bool) (l : place) (i : instr) : option place :=
  match l, i with
  | Out, LockH => Some InH
  | Out, RLockP => if strict then None else Some InR
  | Out, WaitP => Some Pend
  | Out, Work _ => if strict then None else Some Out
  | InH, UnlockH => Some Out
  | InH, RLockP => Some InHR
  | InHR, RUnlockP => Some InH
  | InHR, Work _ => Some InHR
  | InR, RUnlockP => Some Out
  | InR, Work _ => Some InR
  | Pend, TakeP => Some InW
  | InW, UnlockP => Some Out
  | _, _ => None
  end.

Fixpoint walk (b : bool) (l : place) (p : list instr) : option place :=
  match p with
  | [] => Some l
  | i :: p' => match go b l i with Some l' => walk b l' p' | None => None end
  end.

Lemma walk_app b l p q :
  walk b l (p ++ q) = match walk b l p with Some l' => walk b l' q | None => None end.
Proof.
  revert l. induction p as [|i p IH]; intros l; cbn; [done|].
  destruct (go b l i); [apply IH|done].
Qed.

Lemma walk_works b l cbs :
  l = InHR ∨ l = InR → forallb is_work cbs = true → walk b l (flat_map code cbs) = Some l.
Proof.
  intros Hl. induction cbs as [|o cbs IH]; cbn; intros H; [done|].
  apply andb_true_iff in H as [H1 H2]. destruct o; try discriminate. cbn.
  destruct Hl as [-> | ->]; cbn; apply IH; auto.
Qed.

Lemma walk_pubs b pubs :
  forallb (forallb is_work) pubs = true →
  walk b InH (flat_map (λ cbs, RLockP :: flat_map code cbs ++ [RUnlockP]) pubs) = Some InH.
Proof.
  induction pubs as [|cbs pubs IH]; cbn; intros H; [done|].
  apply andb_true_iff in H as [H1 H2]. rewrite <- app_assoc, walk_app, walk_works; auto.
Qed.


Lemma walk_quiet b o :
  quiet o = true → (b = true → inside o = true) → walk b Out (code o) = Some Out.
Proof.
  intros Hq Hb. destruct o; cbn in *; try done.
  - destruct b; [discriminate (Hb eq_refl)|done].
  - destruct b; [discriminate (Hb eq_refl)|].
    rewrite walk_app, walk_works; auto.
  - rewrite walk_app, walk_pubs; auto.
Qed.

Lemma walk_program b os :
  forallb quiet os = true → (b = true → forallb inside os = true) → walk b Out (program os) = Some Out.
Proof.
  induction os as [|o os IH]; cbn; intros H Hb; [done|].
  apply andb_true_iff in H as [H1 H2].
  unfold program in *. cbn. rewrite walk_app, walk_quiet; auto.
  - apply IH; auto. intros E. specialize (Hb E). apply andb_true_iff in Hb as [_ ?]. done.
  - intros E. specialize (Hb E). apply andb_true_iff in Hb as [? _]. done.
Qed.

(** * The logs as automata *)
Definition h_note (o : option nat) (n : note) : option (option nat) :=
  match n with
  | NLockH t => match o with None => Some (Some t) | _ => None end
  | NUnlockH t => match o with Some u => if Nat.eqb u t then Some None else None | None => None end
  | _ => Some o
  end.
Definition t_note (s : list nat * option nat) (n : note) : option (list nat * option nat) :=
  let '(rs, w) := s in
  match n with
  | NRead t => match w with None => Some (t :: rs, None) | _ => None end
  | NUnread t => if existsb (Nat.eqb t) rs then Some (leave t rs, w) else None
  | NWrite t => match rs, w with [], None => Some ([], Some t) | _, _ => None end
  | NUnwrite t => match w with Some u => if Nat.eqb u t then Some (rs, None) else None | None => None end
  | _ => Some (rs, w)
  end.
Definition o_note (o : option nat) (n : note) : option (option nat) :=
  match n with
  | NRead t | NWrite t => match o with None => Some (Some t) | _ => None end
  | NUnread t | NUnwrite t => match o with Some u => if Nat.eqb u t then Some None else None | None => None end
  | NWork t _ => match o with Some u => if Nat.eqb u t then Some o else None | None => None end
  | _ => Some o
  end.
Fixpoint feed {A} (f : A → note → option A) (a : A) (l : list note) : option A :=
  match l with [] => Some a | n :: l' => match f a n with Some a' => feed f a' l' | None => None end end.

Lemma feed_snoc {A} (f : A → note → option A) a l n :
  feed f a (l ++ [n]) = match feed f a l with Some a' => f a' n | None => None end.
Proof.
  revert a. induction l as [|m l IH]; intros a; cbn.
  - destruct (f a n); done.
  - destruct (f a m); [apply IH|done].
Qed.

Lemma hub_serial_feed l o x : feed h_note o l = Some x → hub_serial o l = true.
Proof.
  revert o. induction l as [|n l IH]; intros o; cbn; [done|].
  destruct n; cbn; try (apply IH); destruct o as [u|]; try discriminate; try apply IH.
  destruct (Nat.eqb u t); [cbn; apply IH|discriminate].
Qed.

Lemma tree_safe_feed l rs w x : feed t_note (rs, w) l = Some x → tree_safe rs w l = true.
Proof.
  revert rs w. induction l as [|n l IH]; intros rs w; cbn; [done|].
  destruct n; cbn; try (apply IH).
  - destruct w; [discriminate|]. apply IH.
  - destruct (existsb _ rs); [cbn; apply IH|discriminate].
  - destruct rs; [|discriminate]. destruct w; [discriminate|]. apply IH.
  - destruct w as [u|]; [|discriminate]. destruct (Nat.eqb u t); [cbn; apply IH|discriminate].
Qed.

Lemma one_section_feed l o x : feed o_note o l = Some x → one_section o l = true.
Proof.
  revert o. induction l as [|n l IH]; intros o; cbn; [done|].
  destruct n; cbn; try (apply IH); destruct o as [u|]; try discriminate; try apply IH;
    destruct (Nat.eqb u t); try discriminate; cbn; apply IH.
Qed.

(** * The invariant *)
Record inv (b : bool) (s : mach) (pl : nat → place) : Prop := {
  i_walk : ∀ t, walk b (pl t) (m_rest s t) = Some Out;
  i_h : ∀ t, m_h s = Some t ↔ pl t = InH ∨ pl t = InHR;
  i_door : ∀ t, m_door s = Some t ↔ pl t = Pend ∨ pl t = InW;
  i_nodup : NoDup (m_in s);
  i_in : ∀ t, t ∈ m_in s ↔ pl t = InR ∨ pl t = InHR;
  i_w : ∀ t, pl t = InW → m_in s = [];
  i_strict : b = true → ∀ t, pl t ≠ InR;
  i_hlog : feed h_note None (m_log s) = Some (m_h s);
  i_tlog : ∃ w, feed t_note ([], None) (m_log s) = Some (m_in s, w) ∧ ∀ t, w = Some t ↔ pl t = InW;
  i_olog : b = true → ∃ o, feed o_note None (m_log s) = Some o ∧ ∀ t, o = Some t ↔ pl t = InHR ∨ pl t = InW
}.

Definition put (pl : nat → place) (t : nat) (l : place) : nat → place := λ u, if Nat.eqb u t then l else pl u.

Lemma put_eq pl t l : put pl t l t = l.
Proof. unfold put. rewrite Nat.eqb_refl. done. Qed.
Lemma put_ne pl t l u : u ≠ t → put pl t l u = pl u.
Proof. unfold put. intros H. apply Nat.eqb_neq in H. rewrite H. done. Qed.

Lemma set_rest_eq f t p : set_rest f t p t = p.
Proof. unfold set_rest. rewrite Nat.eqb_refl. done. Qed.
Lemma set_rest_ne f t p u : u ≠ t → set_rest f t p u = f u.
Proof. unfold set_rest. intros H. apply Nat.eqb_neq in H. rewrite H. done. Qed.

Lemma is_some_eq_true o t : is_some_eq o t = true ↔ o = Some t.
Proof.
  destruct o as [u|]; cbn; [|split; discriminate]. rewrite Nat.eqb_eq. split; [intros ->; done|congruence].
Qed.

Lemma existsb_in t l : existsb (Nat.eqb t) l = true ↔ t ∈ l.
Proof.
  rewrite existsb_exists, elem_of_list_In. split.
  - intros (x & Hx & E). apply Nat.eqb_eq in E as ->. done.
  - intros H. exists t. rewrite Nat.eqb_refl. done.
Qed.

Lemma leave_sub t l x : x ∈ leave t l → x ∈ l.
Proof.
  induction l as [|u l IH]; cbn; [done|]. destruct (Nat.eqb u t); [intros; by right|].
  rewrite !elem_of_cons. intros [->|H]; auto.
Qed.

Lemma leave_nodup t l : NoDup l → NoDup (leave t l).
Proof.
  induction l as [|u l IH]; cbn; intros H; [done|].
  apply NoDup_cons in H as [H1 H2]. destruct (Nat.eqb u t) eqn:E; [done|].
  apply NoDup_cons. split; [|auto]. intros Hx. apply leave_sub in Hx. done.
Qed.

Lemma leave_in t l u : NoDup l → u ∈ leave t l ↔ u ∈ l ∧ u ≠ t.
Proof.
  induction l as [|v l IH]; cbn; intros H.
  - split; [by intros ?%elem_of_nil|by intros [?%elem_of_nil _]].
  - apply NoDup_cons in H as [H1 H2]. destruct (Nat.eqb v t) eqn:E.
    + apply Nat.eqb_eq in E as ->. rewrite elem_of_cons. split.
      * intros Hu. split; [by right|]. intros ->. done.
      * intros [[->|?] ?]; done.
    + apply Nat.eqb_neq in E. rewrite !elem_of_cons, IH by done. split.
      * intros [->|[? ?]]; auto.
      * intros [[->|?] ?]; auto.
Qed.

(** the other goroutines' places settle what they hold; only t's changes *)
Ltac other u t :=
  destruct (decide (u = t)) as [->|?Hne];
  [rewrite ?put_eq, ?set_rest_eq | rewrite ?put_ne, ?set_rest_ne by done].

Lemma inv_next b s pl t s' :
  inv b s pl → next s t = Some s' → ∃ l, go b (pl t) (hd (Work 0) (m_rest s t)) = Some l ∧ inv b s' (put pl t l).
Proof.
  intros I Hn. unfold next in Hn. pose proof (i_walk _ _ _ I t) as Hw.
  destruct (m_rest s t) as [|i p] eqn:Er; [discriminate|]. cbn [hd]. cbn in Hw.
  destruct (go b (pl t) i) as [l|] eqn:Eg; [|discriminate].
  exists l. split; [done|].
  pose proof (i_h _ _ _ I) as Ih. pose proof (i_door _ _ _ I) as Id. pose proof (i_nodup _ _ _ I) as In.
  pose proof (i_in _ _ _ I) as Ii. pose proof (i_w _ _ _ I) as Iw. pose proof (i_strict _ _ _ I) as Is.
  pose proof (i_hlog _ _ _ I) as Ihl. destruct (i_tlog _ _ _ I) as (w & Itl & Iwt).
  pose proof (i_olog _ _ _ I) as Iol. pose proof (i_walk _ _ _ I) as Iwk.
  assert (∀ u, walk b (put pl t l u) (set_rest (m_rest s) t p u) = Some Out) as Hwalk.
  { intros u. other u t; [done|apply Iwk]. }
  pose proof (Ih t) as Iht. pose proof (Id t) as Idt. pose proof (Ii t) as Iit. pose proof (Iwt t) as Iwtt.
  destruct i.
  - (* LockH *)
    destruct (m_h s) as [o|] eqn:Eh; [discriminate|]. injection Hn as <-.
    destruct (pl t) eqn:Ep; try discriminate Eg. injection Eg as <-.
    constructor; cbn; auto.
    + intros u. other u t; [split; auto|]. split; [congruence|]. intros Hu. apply Ih in Hu. discriminate.
    + intros u. other u t; [|apply Id]. rewrite Idt. split; intros [?|?]; discriminate.
    + intros u. other u t; [|apply Ii]. rewrite Iit. split; intros [?|?]; discriminate.
    + intros u. other u t; [discriminate|apply Iw].
    + intros E u. other u t; [discriminate|apply Is, E].
    + rewrite feed_snoc, Ihl. done.
    + exists w. rewrite feed_snoc, Itl. split; [done|]. intros u. other u t; [|apply Iwt].
      rewrite Iwtt. split; discriminate.
    + intros E. destruct (Iol E) as (o & Eo & Ho). exists o. rewrite feed_snoc, Eo. split; [done|].
      intros u. other u t; [|apply Ho]. rewrite (Ho t), Ep. split; intros [?|?]; discriminate.
  - (* UnlockH *)
    destruct (is_some_eq (m_h s) t) eqn:Eh; [|discriminate]. apply is_some_eq_true in Eh. injection Hn as <-.
    destruct (pl t) eqn:Ep; try discriminate Eg. injection Eg as <-.
    constructor; cbn; auto.
    + intros u. other u t; [split; [discriminate|intros [?|?]; discriminate]|].
      split; [discriminate|]. intros Hu. apply Ih in Hu. congruence.
    + intros u. other u t; [|apply Id]. rewrite Idt. split; intros [?|?]; discriminate.
    + intros u. other u t; [|apply Ii]. rewrite Iit. split; intros [?|?]; discriminate.
    + intros u. other u t; [discriminate|apply Iw].
    + intros E u. other u t; [discriminate|apply Is, E].
    + rewrite feed_snoc, Ihl, Eh. cbn. rewrite Nat.eqb_refl. done.
    + exists w. rewrite feed_snoc, Itl. split; [done|]. intros u. other u t; [|apply Iwt].
      rewrite Iwtt. split; discriminate.
    + intros E. destruct (Iol E) as (o & Eo & Ho). exists o. rewrite feed_snoc, Eo. split; [done|].
      intros u. other u t; [|apply Ho]. rewrite (Ho t), Ep. split; intros [?|?]; discriminate.
  - (* RLockP *)
    destruct (m_door s) as [o|] eqn:Ed; [discriminate|]. injection Hn as <-.
    assert (w = None) as ->.
    { destruct w as [u|]; [|done]. assert (pl u = InW) as Hu by (by apply Iwt).
      assert (None = Some u) by (apply Id; auto). discriminate. }
    assert (pl t = Out ∧ b = false ∧ l = InR ∨ pl t = InH ∧ l = InHR) as Hc.
    { destruct (pl t); try discriminate Eg; cbn in Eg.
      - destruct b; [discriminate|]. injection Eg as <-. auto.
      - injection Eg as <-. auto. }
    assert (t ∉ m_in s) as Hnin.
    { rewrite Iit. destruct Hc as [(-> & _)|(-> & _)]; intros [?|?]; discriminate. }
    constructor; cbn; auto.
    + intros u. other u t; [|apply Ih]. rewrite Iht.
      destruct Hc as [(-> & _ & ->)|(-> & ->)]; split; intros [?|?]; auto; discriminate.
    + intros u. other u t; [|apply Id]. rewrite Idt.
      destruct Hc as [(-> & _ & ->)|(-> & ->)]; split; intros [?|?]; auto; discriminate.
    + apply NoDup_cons. done.
    + intros u. rewrite elem_of_cons. other u t.
      * destruct Hc as [(_ & _ & ->)|(_ & ->)]; split; auto.
      * rewrite Ii. split; [intros [?|?]; [done|auto]|auto].
    + intros u. other u t; [destruct Hc as [(_ & _ & ->)|(_ & ->)]; discriminate|].
      intros Hu. assert (None = Some u) by (apply Id; auto). discriminate.
    + intros E u. other u t; [|apply Is, E]. destruct Hc as [(_ & Eb & _)|(_ & ->)]; [congruence|discriminate].
    + rewrite feed_snoc, Ihl. done.
    + exists None. rewrite feed_snoc, Itl. split; [done|]. intros u. other u t; [|apply Iwt].
      destruct Hc as [(_ & _ & ->)|(_ & ->)]; split; discriminate.
    + intros E. destruct (Iol E) as (o & Eo & Ho). exists (Some t).
      destruct Hc as [(_ & Eb & _)|(Ep & ->)]; [congruence|].
      assert (o = None) as ->.
      { destruct o as [u|]; [|done]. assert (Hu : pl u = InHR ∨ pl u = InW) by (by apply Ho).
        destruct Hu as [Hu|Hu].
        - assert (m_h s = Some u) as E1 by (apply Ih; auto). assert (m_h s = Some t) as E2 by (apply Ih; auto).
          congruence.
        - assert (None = Some u) by (apply Id; auto). discriminate. }
      rewrite feed_snoc, Eo. split; [done|]. intros u. other u t; [split; auto|].
      split; [congruence|]. intros Hu. apply Ho in Hu. discriminate.
  - (* RUnlockP *)
    destruct (existsb (Nat.eqb t) (m_in s)) eqn:Ex; [|discriminate]. injection Hn as <-.
    assert (pl t = InR ∧ l = Out ∨ pl t = InHR ∧ l = InH) as Hc.
    { destruct (pl t); try discriminate Eg; injection Eg as <-; auto. }
    constructor; cbn; auto.
    + intros u. other u t; [|apply Ih]. rewrite Iht.
      destruct Hc as [(-> & ->)|(-> & ->)]; split; intros [?|?]; auto; discriminate.
    + intros u. other u t; [|apply Id]. rewrite Idt.
      destruct Hc as [(-> & ->)|(-> & ->)]; split; intros [?|?]; auto; discriminate.
    + apply leave_nodup, In.
    + intros u. rewrite leave_in by done. other u t.
      * split; [intros [_ ?]; done|]. destruct Hc as [(_ & ->)|(_ & ->)]; intros [?|?]; discriminate.
      * rewrite Ii. split; [intros [? _]|intros ?; split]; done.
    + intros u. other u t; [destruct Hc as [(_ & ->)|(_ & ->)]; discriminate|].
      intros Hu. rewrite (Iw _ Hu). done.
    + intros E u. other u t; [|apply Is, E]. destruct Hc as [(_ & ->)|(_ & ->)]; discriminate.
    + rewrite feed_snoc, Ihl. done.
    + exists w. rewrite feed_snoc, Itl. cbn. rewrite Ex. split; [done|]. intros u. other u t; [|apply Iwt].
      rewrite Iwtt. destruct Hc as [(-> & ->)|(-> & ->)]; split; discriminate.
    + intros E. destruct (Iol E) as (o & Eo & Ho). exists None.
      destruct Hc as [(Ep & _)|(Ep & ->)]; [destruct (Is E t Ep)|].
      assert (o = Some t) as -> by (apply Ho; auto).
      rewrite feed_snoc, Eo. cbn. rewrite Nat.eqb_refl. split; [done|]. intros u. other u t.
      * split; [discriminate|intros [?|?]; discriminate].
      * split; [discriminate|]. intros Hu. apply Ho in Hu. congruence.
  - (* WaitP *)
    destruct (m_door s) as [o|] eqn:Ed; [discriminate|]. injection Hn as <-.
    destruct (pl t) eqn:Ep; try discriminate Eg. injection Eg as <-.
    constructor; cbn; auto.
    + intros u. other u t; [|apply Ih]. rewrite Iht. split; intros [?|?]; discriminate.
    + intros u. other u t; [split; auto|]. split; [congruence|]. intros Hu. apply Id in Hu. discriminate.
    + intros u. other u t; [|apply Ii]. rewrite Iit. split; intros [?|?]; discriminate.
    + intros u. other u t; [discriminate|apply Iw].
    + intros E u. other u t; [discriminate|apply Is, E].
    + exists w. split; [done|]. intros u. other u t; [|apply Iwt]. rewrite Iwtt. split; discriminate.
    + intros E. destruct (Iol E) as (o & Eo & Ho). exists o. split; [done|].
      intros u. other u t; [|apply Ho]. rewrite (Ho t), Ep. split; intros [?|?]; discriminate.
  - (* TakeP *)
    destruct (is_some_eq (m_door s) t) eqn:Ed; [|discriminate]. apply is_some_eq_true in Ed.
    destruct (m_in s) as [|v rs] eqn:Em; [|discriminate]. injection Hn as <-.
    destruct (pl t) eqn:Ep; try discriminate Eg. injection Eg as <-.
    assert (w = None) as ->.
    { destruct w as [u|]; [|done]. assert (pl u = InW) as Hu by (by apply Iwt).
      assert (m_door s = Some u) as E by (apply Id; auto). congruence. }
    constructor; cbn; auto.
    + intros u. other u t; [|apply Ih]. rewrite Iht. split; intros [?|?]; discriminate.
    + intros u. other u t; [|apply Id]. rewrite Idt. split; intros [?|?]; auto; discriminate.
    + intros u. other u t; [|apply Ii]. rewrite Iit. split; intros [?|?]; discriminate.
    + intros E u. other u t; [discriminate|apply Is, E].
    + rewrite feed_snoc, Ihl. done.
    + exists (Some t). rewrite feed_snoc, Itl. split; [done|]. intros u. other u t; [done|].
      split; [congruence|]. intros Hu. apply Iwt in Hu. discriminate.
    + intros E. destruct (Iol E) as (o & Eo & Ho). exists (Some t).
      assert (o = None) as ->.
      { destruct o as [u|]; [|done]. assert (Hu : pl u = InHR ∨ pl u = InW) by (by apply Ho).
        destruct Hu as [Hu|Hu].
        - assert (u ∈ []) as Hx by (apply Ii; auto). apply elem_of_nil in Hx. done.
        - apply Iwt in Hu. discriminate. }
      rewrite feed_snoc, Eo. split; [done|]. intros u. other u t; [split; auto|].
      split; [congruence|]. intros Hu. apply Ho in Hu. discriminate.
  - (* UnlockP *)
    destruct (is_some_eq (m_door s) t) eqn:Ed; [|discriminate]. apply is_some_eq_true in Ed. injection Hn as <-.
    destruct (pl t) eqn:Ep; try discriminate Eg. injection Eg as <-.
    assert (w = Some t) as -> by (by apply Iwt).
    constructor; cbn; auto.
    + intros u. other u t; [|apply Ih]. rewrite Iht. split; intros [?|?]; discriminate.
    + intros u. other u t; [split; [discriminate|intros [?|?]; discriminate]|].
      split; [discriminate|]. intros Hu. apply Id in Hu. congruence.
    + intros u. other u t; [|apply Ii]. rewrite Iit. split; intros [?|?]; discriminate.
    + intros u. other u t; [discriminate|apply Iw].
    + intros E u. other u t; [discriminate|apply Is, E].
    + rewrite feed_snoc, Ihl. done.
    + exists None. rewrite feed_snoc, Itl. cbn. rewrite Nat.eqb_refl. split; [done|]. intros u. other u t.
      * split; discriminate.
      * split; [discriminate|]. intros Hu. apply Iwt in Hu. congruence.
    + intros E. destruct (Iol E) as (o & Eo & Ho). exists None.
      assert (o = Some t) as -> by (apply Ho; auto).
      rewrite feed_snoc, Eo. cbn. rewrite Nat.eqb_refl. split; [done|]. intros u. other u t.
      * split; [discriminate|intros [?|?]; discriminate].
      * split; [discriminate|]. intros Hu. apply Ho in Hu. congruence.
  - (* Work *)
    injection Hn as <-.
    assert (l = pl t ∧ (b = true → pl t = InHR)) as [-> Hb].
    { destruct (pl t) eqn:Ep; try discriminate Eg; cbn in Eg; try (injection Eg as <-); auto.
      - destruct b; [discriminate|]. injection Eg as <-. split; [done|discriminate].
      - split; [done|]. intros E. destruct (Is E t Ep). }
    assert (∀ u, put pl t (pl t) u = pl u) as Hput.
    { intros u. unfold put. destruct (Nat.eqb u t) eqn:E; [|done]. apply Nat.eqb_eq in E as ->. done. }
    constructor; cbn; auto.
    + intros u. rewrite Hput. apply Ih.
    + intros u. rewrite Hput. apply Id.
    + intros u. rewrite Hput. apply Ii.
    + intros u. rewrite Hput. apply Iw.
    + intros E u. rewrite Hput. apply Is, E.
    + rewrite feed_snoc, Ihl. done.
    + exists w. rewrite feed_snoc, Itl. split; [done|]. intros u. rewrite Hput. apply Iwt.
    + intros E. destruct (Iol E) as (o & Eo & Ho). exists (Some t).
      assert (o = Some t) as -> by (apply Ho; auto).
      rewrite feed_snoc, Eo. cbn. rewrite Nat.eqb_refl. split; [done|]. intros u. rewrite Hput. apply Ho.
Qed.

(** * Runs *)
Lemma inv_begin b ts :
  Forall (λ os, forallb quiet os = true) ts →
  (b = true → Forall (λ os, forallb inside os = true) ts) →
  inv b (begin ts) (λ _, Out).
Proof.
  intros Hq Hb. constructor; cbn.
  - intros t. apply walk_program.
    + destruct (ts !! t) as [os|] eqn:E; [|done]. apply (Forall_lookup_1 _ _ _ _ Hq E).
    + intros Eb. destruct (ts !! t) as [os|] eqn:E; [|done]. apply (Forall_lookup_1 _ _ _ _ (Hb Eb) E).
  - intros t. split; [discriminate|intros [?|?]; discriminate].
  - intros t. split; [discriminate|intros [?|?]; discriminate].
  - constructor.
  - intros t. split; [intros Hx; apply elem_of_nil in Hx; done|intros [?|?]; discriminate].
  - discriminate.
  - discriminate.
  - done.
  - exists None. split; [done|]. intros t. split; discriminate.
  - intros _. exists None. split; [done|]. intros t. split; [discriminate|intros [?|?]; discriminate].
Qed.

Lemma inv_turn b s pl t : inv b s pl → ∃ pl', inv b (turn s t) pl'.
Proof.
  intros I. unfold turn. destruct (next s t) as [s'|] eqn:E; cbn; [|eauto].
  destruct (inv_next _ _ _ _ _ I E) as (l & _ & I'). eauto.
Qed.

Lemma inv_turns b s pl sched : inv b s pl → ∃ pl', inv b (turns s sched) pl'.
Proof.
  revert s pl. induction sched as [|t sched IH]; intros s pl I; cbn; [eauto|].
  destruct (inv_turn _ _ _ t I) as (pl' & I'). apply (IH _ _ I').
Qed.

Lemma turns_app s a b : turns s (a ++ b) = turns (turns s a) b.
Proof. apply fold_left_app. Qed.

Lemma quiet_inv ts sched :
  Forall (λ os, forallb quiet os = true) ts → ∃ pl, inv false (turns (begin ts) sched) pl.
Proof. intros H. eapply inv_turns, inv_begin; [done|discriminate]. Qed.

Lemma one_at_a_time ts sched :
  Forall (λ os, forallb quiet os = true) ts → Forall (λ os, forallb inside os = true) ts →
  one_section None (m_log (turns (begin ts) sched)) = true.
Proof.
  intros H1 H2. destruct (inv_turns true (begin ts) (λ _, Out) sched) as (pl & I).
  { apply inv_begin; auto. }
  destruct (i_olog _ _ _ I eq_refl) as (o & E & _). eapply one_section_feed, E.
Qed.

(** * Sections never overlap, whatever the callbacks do *)
Lemma hub_next s t s' :
  feed h_note None (m_log s) = Some (m_h s) → next s t = Some s' → feed h_note None (m_log s') = Some (m_h s').
Proof.
  intros Hl Hn. unfold next in Hn. destruct (m_rest s t) as [|i p]; [discriminate|].
  destruct i.
  - destruct (m_h s) eqn:E; [discriminate|]. injection Hn as <-. cbn. rewrite feed_snoc, Hl. done.
  - destruct (is_some_eq (m_h s) t) eqn:E; [|discriminate]. apply is_some_eq_true in E.
    injection Hn as <-. cbn. rewrite feed_snoc, Hl, E. cbn. rewrite Nat.eqb_refl. done.
  - destruct (m_door s); [discriminate|]. injection Hn as <-. cbn. rewrite feed_snoc, Hl. done.
  - destruct (existsb _ _); [|discriminate]. injection Hn as <-. cbn. rewrite feed_snoc, Hl. done.
  - destruct (m_door s); [discriminate|]. injection Hn as <-. cbn. done.
  - destruct (is_some_eq (m_door s) t); [|discriminate]. destruct (m_in s); [|discriminate].
    injection Hn as <-. cbn. rewrite feed_snoc, Hl. done.
  - destruct (is_some_eq (m_door s) t); [|discriminate].
    injection Hn as <-. cbn. rewrite feed_snoc, Hl. done.
  - injection Hn as <-. cbn. rewrite feed_snoc, Hl. done.
Qed.

Lemma hub_serial_always ts sched : hub_serial None (m_log (turns (begin ts) sched)) = true.
Proof.
  assert (∀ s, feed h_note None (m_log s) = Some (m_h s) →
    feed h_note None (m_log (turns s sched)) = Some (m_h (turns s sched))) as H.
  { induction sched as [|t sched IH]; intros s Hs; cbn; [done|]. apply IH.
    unfold turn. destruct (next s t) as [s'|] eqn:E; cbn; [|done]. eapply hub_next; done. }
  eapply hub_serial_feed, H. done.
Qed.

(** the three steps of a writer come together *)
Inductive desk := DA | DB | DC.
Definition dgo (d : desk) (i : instr) : option desk :=
  match d, i with
  | DA, WaitP => Some DB
  | DB, TakeP => Some DC
  | DC, UnlockP => Some DA
  | DA, (LockH | UnlockH | RLockP | RUnlockP | Work _) => Some DA
  | _, _ => None
  end.
Fixpoint dwalk (d : desk) (p : list instr) : option desk :=
  match p with
  | [] => Some d
  | i :: p' => match dgo d i with Some d' => dwalk d' p' | None => None end
  end.
Lemma dwalk_app d p q :
  dwalk d (p ++ q) = match dwalk d p with Some d' => dwalk d' q | None => None end.
Proof.
  revert d. induction p as [|i p IH]; intros d; cbn; [done|]. destruct (dgo d i); [apply IH|done].
Qed.

Lemma dwalk_flat {A} (f : A → list instr) (l : list A) :
  (∀ x, x ∈ l → dwalk DA (f x) = Some DA) → dwalk DA (flat_map f l) = Some DA.
Proof.
  induction l as [|x l IH]; cbn; intros H; [done|].
  rewrite dwalk_app, H by (by left). apply IH. intros y Hy. apply H. by right.
Qed.

Fixpoint osize (o : op) : nat :=
  match o with
  | OPub cbs => S (list_sum (map osize cbs))
  | OEvent pubs => S (list_sum (map (λ cbs, list_sum (map osize cbs)) pubs))
  | _ => 0
  end.
Lemma sum_elem {A} (f : A → nat) (l : list A) x : x ∈ l → f x ≤ list_sum (map f l).
Proof.
  induction l as [|y l IH]; intros H; [apply elem_of_nil in H; done|].
  change (list_sum (map f (y :: l))) with (f y + list_sum (map f l)).
  apply elem_of_cons in H as [->|H]; [lia|]. specialize (IH H). lia.
Qed.

Lemma dwalk_code o : dwalk DA (code o) = Some DA.
Proof.
  assert (∀ n o, osize o ≤ n → dwalk DA (code o) = Some DA) as H; [|exact (H _ o (le_n _))].
  clear o. induction n as [|n IH]; intros o Ho; destruct o; try done;
    try (change (osize (OPub cbs)) with (S (list_sum (map osize cbs))) in Ho);
    try (change (osize (OEvent pubs)) with (S (list_sum (map (λ cbs, list_sum (map osize cbs)) pubs))) in Ho);
    try lia.
  - cbn [code dwalk dgo]. rewrite dwalk_app, dwalk_flat; [done|]. intros x Hx. apply IH.
    pose proof (sum_elem osize _ _ Hx). lia.
  - cbn [code dwalk dgo]. rewrite dwalk_app, dwalk_flat; [done|]. intros cbs Hc.
    cbn [code dwalk dgo]. rewrite dwalk_app, dwalk_flat; [done|]. intros x Hx. apply IH.
    pose proof (sum_elem osize _ _ Hx). pose proof (sum_elem (λ cbs, list_sum (map osize cbs)) _ _ Hc). cbv beta in *. lia.
Qed.

Record dinv (s : mach) (dl : nat → desk) : Prop := {
  d_walk : ∀ t, dwalk (dl t) (m_rest s t) = Some DA;
  d_door : ∀ t, m_door s = Some t ↔ dl t = DB ∨ dl t = DC;
  d_in : ∀ t, dl t = DC → m_in s = [];
  d_log : ∃ w, feed t_note ([], None) (m_log s) = Some (m_in s, w) ∧ ∀ t, w = Some t ↔ dl t = DC
}.

Definition dput (pl : nat → desk) (t : nat) (l : desk) : nat → desk := λ u, if Nat.eqb u t then l else pl u.
Lemma dput_eq pl t l : dput pl t l t = l.
Proof. unfold dput. rewrite Nat.eqb_refl. done. Qed.
Lemma dput_ne pl t l u : u ≠ t → dput pl t l u = pl u.
Proof. unfold dput. intros H. apply Nat.eqb_neq in H. rewrite H. done. Qed.
Ltac dother u t :=
  destruct (decide (u = t)) as [->|?Hne];
  [rewrite ?dput_eq, ?set_rest_eq | rewrite ?dput_ne, ?set_rest_ne by done].

Lemma dinv_next s dl t s' : dinv s dl → next s t = Some s' → ∃ dl', dinv s' dl'.
Proof.
  intros I Hn. unfold next in Hn. pose proof (d_walk _ _ I) as Iwk. pose proof (Iwk t) as Hw.
  destruct (m_rest s t) as [|i p] eqn:Er; [discriminate|]. cbn in Hw.
  destruct (dgo (dl t) i) as [d|] eqn:Eg; [|discriminate].
  pose proof (d_door _ _ I) as Id. pose proof (d_in _ _ I) as Ii. destruct (d_log _ _ I) as (w & Il & Iw).
  assert (∀ u, dwalk (dput dl t d u) (set_rest (m_rest s) t p u) = Some DA) as Hwalk.
  { intros u. dother u t; [done|apply Iwk]. }
  assert (d = dl t → ∀ u, dput dl t d u = dl u) as Hsame.
  { intros -> u. dother u t; done. }
  exists (dput dl t d).
  assert (match i with WaitP | TakeP | UnlockP => True | _ => d = dl t end) as Hk.
  { destruct (dl t), i; try discriminate Eg; try done; injection Eg as <-; done. }
  destruct i.
  - destruct (m_h s); [discriminate|]. injection Hn as <-. constructor; cbn; auto.
    + intros u. rewrite Hsame by done. apply Id.
    + intros u. rewrite Hsame by done. apply Ii.
    + exists w. rewrite feed_snoc, Il. split; [done|]. intros u. rewrite Hsame by done. apply Iw.
  - destruct (is_some_eq _ _); [|discriminate]. injection Hn as <-. constructor; cbn; auto.
    + intros u. rewrite Hsame by done. apply Id.
    + intros u. rewrite Hsame by done. apply Ii.
    + exists w. rewrite feed_snoc, Il. split; [done|]. intros u. rewrite Hsame by done. apply Iw.
  - destruct (m_door s) eqn:Ed; [discriminate|]. injection Hn as <-.
    assert (w = None) as ->.
    { destruct w as [u|]; [|done]. assert (dl u = DC) as Hu by (by apply Iw).
      assert (None = Some u) by (apply Id; auto). discriminate. }
    constructor; cbn; auto.
    + intros u. rewrite Hsame by done. apply Id.
    + intros u. rewrite Hsame by done. intros Hu. assert (None = Some u) by (apply Id; auto). discriminate.
    + exists None. rewrite feed_snoc, Il. split; [done|]. intros u. rewrite Hsame by done. apply Iw.
  - destruct (existsb _ _) eqn:Ex; [|discriminate]. injection Hn as <-. constructor; cbn; auto.
    + intros u. rewrite Hsame by done. apply Id.
    + intros u. rewrite Hsame by done. intros Hu. rewrite (Ii _ Hu). done.
    + exists w. rewrite feed_snoc, Il. cbn. rewrite Ex. split; [done|]. intros u. rewrite Hsame by done. apply Iw.
  - destruct (m_door s) eqn:Ed; [discriminate|]. injection Hn as <-.
    destruct (dl t) eqn:Et; try discriminate Eg. injection Eg as <-. constructor; cbn; auto.
    + intros u. dother u t; [split; auto|]. split; [congruence|]. intros Hu. apply Id in Hu. discriminate.
    + intros u. dother u t; [discriminate|apply Ii].
    + exists w. split; [done|]. intros u. dother u t; [|apply Iw]. rewrite (Iw t), Et. split; discriminate.
  - destruct (is_some_eq (m_door s) t) eqn:Ed; [|discriminate]. apply is_some_eq_true in Ed.
    destruct (m_in s) as [|v rs] eqn:Em; [|discriminate]. injection Hn as <-.
    destruct (dl t) eqn:Et; try discriminate Eg. injection Eg as <-.
    assert (w = None) as ->.
    { destruct w as [u|]; [|done]. assert (dl u = DC) as Hu by (by apply Iw).
      assert (m_door s = Some u) by (apply Id; auto). congruence. }
    constructor; cbn; auto.
    + intros u. dother u t; [|apply Id]. rewrite (Id t), Et. split; intros [?|?]; auto.
    + exists (Some t). rewrite feed_snoc, Il. split; [done|]. intros u. dother u t; [done|].
      split; [congruence|]. intros Hu. apply Iw in Hu. discriminate.
  - destruct (is_some_eq (m_door s) t) eqn:Ed; [|discriminate]. apply is_some_eq_true in Ed. injection Hn as <-.
    destruct (dl t) eqn:Et; try discriminate Eg. injection Eg as <-.
    assert (w = Some t) as -> by (by apply Iw).
    constructor; cbn; auto.
    + intros u. dother u t; [split; [discriminate|intros [?|?]; discriminate]|].
      split; [discriminate|]. intros Hu. apply Id in Hu. congruence.
    + intros u. dother u t; [discriminate|apply Ii].
    + exists None. rewrite feed_snoc, Il. cbn. rewrite Nat.eqb_refl. split; [done|]. intros u. dother u t.
      * split; discriminate.
      * split; [discriminate|]. intros Hu. apply Iw in Hu. congruence.
  - injection Hn as <-. constructor; cbn; auto.
    + intros u. rewrite Hsame by done. apply Id.
    + intros u. rewrite Hsame by done. apply Ii.
    + exists w. rewrite feed_snoc, Il. split; [done|]. intros u. rewrite Hsame by done. apply Iw.
Qed.

Lemma tree_safe_always ts sched : tree_safe [] None (m_log (turns (begin ts) sched)) = true.
Proof.
  assert (∀ s dl, dinv s dl → ∃ dl', dinv (turns s sched) dl') as H.
  { induction sched as [|t sched IH]; intros s dl Hs; cbn; [eauto|].
    unfold turn at 2. destruct (next s t) as [s'|] eqn:E; cbn; [|eauto].
    destruct (dinv_next _ _ _ _ Hs E) as (dl' & I'). eauto. }
  destruct (H (begin ts) (λ _, DA)) as (dl & I).
  { constructor; cbn.
    - intros t. unfold program. apply dwalk_flat. intros o _. apply dwalk_code.
    - intros t. split; [discriminate|intros [?|?]; discriminate].
    - discriminate.
    - exists None. split; [done|]. intros t. split; discriminate. }
  destruct (d_log _ _ I) as (w & E & _). eapply tree_safe_feed, E.
Qed.

(** * Program order *)

Lemma mine_app t a b : mine t (a ++ b) = mine t a ++ mine t b.
Proof. apply List.filter_app. Qed.

Lemma next_shape s t s' :
  next s t = Some s' → ∃ i p, m_rest s t = i :: p ∧ m_rest s' = set_rest (m_rest s) t p ∧
    m_log s' = m_log s ++ notes t [i].
Proof.
  unfold next. intros Hn. destruct (m_rest s t) as [|i p]; [discriminate|]. exists i, p.
  destruct i; cbn.
  - destruct (m_h s); [discriminate|]. injection Hn as <-. done.
  - destruct (is_some_eq _ _); [|discriminate]. injection Hn as <-. done.
  - destruct (m_door s); [discriminate|]. injection Hn as <-. done.
  - destruct (existsb _ _); [|discriminate]. injection Hn as <-. done.
  - destruct (m_door s); [discriminate|]. injection Hn as <-. cbn. rewrite app_nil_r. done.
  - destruct (is_some_eq _ _); [|discriminate]. destruct (m_in s); [|discriminate]. injection Hn as <-. done.
  - destruct (is_some_eq _ _); [|discriminate]. injection Hn as <-. done.
  - injection Hn as <-. done.
Qed.

Lemma notes_cons t i p : notes t (i :: p) = notes t [i] ++ notes t p.
Proof. unfold notes. cbn. rewrite app_nil_r. done. Qed.

Lemma mine_notes t u i : mine t (notes u [i]) = if Nat.eqb u t then notes u [i] else [].
Proof. destruct i; cbn; destruct (Nat.eqb u t); done. Qed.

Lemma program_order_next s t s' u :
  next s t = Some s' →
  mine u (m_log s') ++ notes u (m_rest s' u) = mine u (m_log s) ++ notes u (m_rest s u).
Proof.
  intros Hn. destruct (next_shape _ _ _ Hn) as (i & p & E & -> & ->).
  rewrite mine_app, mine_notes. destruct (Nat.eqb t u) eqn:Et.
  - apply Nat.eqb_eq in Et as <-. rewrite set_rest_eq, E, (notes_cons t i p), app_assoc. done.
  - apply Nat.eqb_neq in Et. rewrite set_rest_ne, app_nil_r by auto. done.
Qed.

Lemma program_order ts sched u :
  mine u (m_log (turns (begin ts) sched)) ++ notes u (m_rest (turns (begin ts) sched) u) =
  notes u (program (default [] (ts !! u))).
Proof.
  assert (∀ s, mine u (m_log (turns s sched)) ++ notes u (m_rest (turns s sched) u) =
    mine u (m_log s) ++ notes u (m_rest s u)) as H.
  { induction sched as [|t sched IH]; intros s; [done|].
    change (turns s (t :: sched)) with (turns (turn s t) sched). rewrite IH. unfold turn.
    destruct (next s t) as [s'|] eqn:E; cbn; [|done]. apply program_order_next with t, E. }
  rewrite H. done.
Qed.

(** * It ends *)
Lemma progress s pl n :
  inv false s pl → (∀ t, n ≤ t → m_rest s t = []) → all_done n s ∨ ∃ u, u < n ∧ is_Some (next s u).
Proof.
  intros I Hn.
  assert (∀ u, pl u ≠ Out → u < n) as Hlt.
  { intros u Hu. destruct (decide (u < n)); [done|]. pose proof (i_walk _ _ _ I u) as Hw.
    rewrite Hn in Hw by lia. cbn in Hw. congruence. }
  destruct (m_in s) as [|v rs] eqn:Em.
  2:{ right. exists v. assert (v ∈ m_in s) as Hv by (rewrite Em; by left).
      pose proof (proj1 (i_in _ _ _ I v) Hv) as Hp.
      split; [apply Hlt; destruct Hp as [-> | ->]; done|].
      pose proof (i_walk _ _ _ I v) as Hw. unfold next.
      destruct (m_rest s v) as [|i p]; [cbn in Hw; destruct Hp as [Hp|Hp]; congruence|].
      apply existsb_in in Hv. cbn in Hw.
      destruct Hp as [Hp|Hp]; rewrite Hp in Hw; destruct i; try discriminate Hw; try rewrite Hv; eauto. }
  destruct (m_door s) as [v|] eqn:Ed.
  { right. exists v. pose proof (proj1 (i_door _ _ _ I v) Ed) as Hp.
    split; [apply Hlt; destruct Hp as [-> | ->]; done|].
    pose proof (i_walk _ _ _ I v) as Hw. unfold next.
    destruct (m_rest s v) as [|i p]; [cbn in Hw; destruct Hp as [Hp|Hp]; congruence|].
    apply is_some_eq_true in Ed. cbn in Hw.
    destruct Hp as [Hp|Hp]; rewrite Hp in Hw; destruct i; try discriminate Hw; rewrite Ed, ?Em; eauto. }
  destruct (m_h s) as [v|] eqn:Eh.
  { right. exists v. pose proof (proj1 (i_h _ _ _ I v) Eh) as Hp.
    assert (pl v = InH) as Hp'.
    { destruct Hp as [|Hp]; [done|]. assert (v ∈ m_in s) as Hx by (apply (i_in _ _ _ I); auto).
      rewrite Em in Hx. apply elem_of_nil in Hx. done. }
    split; [apply Hlt; rewrite Hp'; done|].
    pose proof (i_walk _ _ _ I v) as Hw. unfold next. rewrite Hp' in Hw.
    destruct (m_rest s v) as [|i p]; [discriminate|]. cbn in Hw.
    apply is_some_eq_true in Eh. destruct i; try discriminate Hw; rewrite ?Eh, ?Ed; eauto. }
  assert (∀ u, pl u = Out) as Hout.
  { intros u. destruct (pl u) eqn:E; [done|..]; exfalso.
    - assert (m_h s = Some u) by (apply (i_h _ _ _ I); auto). congruence.
    - assert (m_h s = Some u) by (apply (i_h _ _ _ I); auto). congruence.
    - assert (u ∈ m_in s) as Hx by (apply (i_in _ _ _ I); auto). rewrite Em in Hx. apply elem_of_nil in Hx. done.
    - assert (m_door s = Some u) by (apply (i_door _ _ _ I); auto). congruence.
    - assert (m_door s = Some u) by (apply (i_door _ _ _ I); auto). congruence. }
  destruct (forallb (λ u, match m_rest s u with [] => true | _ => false end) (seq 0 n)) eqn:Ef.
  { left. intros t Ht. rewrite forallb_forall in Ef. specialize (Ef t (proj2 (in_seq n 0 t) ltac:(lia))).
    destruct (m_rest s t); done. }
  right. assert (∃ u, In u (seq 0 n) ∧ m_rest s u ≠ []) as (u & Hu & Hr).
  { clear - Ef. induction (seq 0 n) as [|x l IH]; [discriminate|]. cbn in Ef.
    destruct (m_rest s x) eqn:Ex; cbn in Ef.
    - destruct (IH Ef) as (u & ? & ?). exists u. split; [by right|done].
    - exists x. split; [by left|]. rewrite Ex. done. }
  exists u. apply in_seq in Hu. split; [lia|].
  pose proof (i_walk _ _ _ I u) as Hw. rewrite Hout in Hw. unfold next.
  destruct (m_rest s u) as [|i p]; [done|]. cbn in Hw.
  destruct i; try discriminate Hw; rewrite ?Eh, ?Ed; eauto.
Qed.

Lemma rest_beyond ts sched t : length ts ≤ t → m_rest (turns (begin ts) sched) t = [].
Proof.
  intros Ht.
  assert (∀ s, m_rest s t = [] → m_rest (turns s sched) t = []) as H.
  { induction sched as [|u sched IH]; intros s Hs; cbn; [done|]. apply IH. unfold turn.
    destruct (next s u) as [s'|] eqn:E; cbn; [|done].
    destruct (next_shape _ _ _ E) as (i & p & Er & -> & _). unfold set_rest.
    destruct (Nat.eqb t u) eqn:Etu; [|done]. apply Nat.eqb_eq in Etu as ->. congruence. }
  apply H. cbn. rewrite lookup_ge_None_2 by done. done.
Qed.

Lemma no_deadlock ts sched :
  Forall (λ os, forallb quiet os = true) ts →
  all_done (length ts) (turns (begin ts) sched) ∨
  ∃ u, u < length ts ∧ is_Some (next (turns (begin ts) sched) u).
Proof.
  intros H. destruct (quiet_inv ts sched H) as (pl & I).
  eapply progress; [done|]. intros t. apply rest_beyond.
Qed.

(** the work that is left *)
Lemma list_sum_cons x l : list_sum (x :: l) = x + list_sum l.
Proof. done. Qed.

Lemma left_over_next s t s' n : t < n → next s t = Some s' → S (left_over n s') = left_over n s.
Proof.
  intros Ht Hn. destruct (next_shape _ _ _ Hn) as (i & p & E & Er & _). unfold left_over. rewrite Er.
  assert (∀ k m, t < k ∨ k + m ≤ t →
    list_sum (map (λ u, length (set_rest (m_rest s) t p u)) (seq k m)) =
    list_sum (map (λ u, length (m_rest s u)) (seq k m))) as Hrest.
  { intros k m. revert k. induction m as [|m IH]; intros k Hk; [done|]. cbn [seq map]. rewrite !list_sum_cons.
    rewrite set_rest_ne by lia. rewrite IH by lia. done. }
  assert (∀ m k, k ≤ t < k + m →
    S (list_sum (map (λ u, length (set_rest (m_rest s) t p u)) (seq k m))) =
    list_sum (map (λ u, length (m_rest s u)) (seq k m))) as H.
  { intros m. induction m as [|m IH]; intros k Hk; [lia|].
    cbn [seq map]. rewrite !list_sum_cons. destruct (decide (k = t)) as [->|].
    - rewrite set_rest_eq, E, Hrest by lia. done.
    - rewrite set_rest_ne by lia. rewrite <- IH by lia. lia. }
  apply H. lia.
Qed.

Lemma turns_left n s sched :
  (∀ t, n ≤ t → m_rest s t = []) →
  left_over n (turns s sched) < left_over n s ∨
  (turns s sched = s ∧ ∀ t, t ∈ sched → next s t = None).
Proof.
  revert s. induction sched as [|t sched IH]; intros s Hs.
  - right. split; [done|]. intros t Ht. apply elem_of_nil in Ht. done.
  - change (turns s (t :: sched)) with (turns (turn s t) sched).
    destruct (next s t) as [s'|] eqn:E.
    + left. assert (t < n) as Ht.
      { destruct (decide (t < n)); [done|]. destruct (next_shape _ _ _ E) as (i & p & Er & _).
        rewrite Hs in Er by lia. discriminate. }
      pose proof (left_over_next _ _ _ n Ht E) as Hl.
      assert (∀ u, n ≤ u → m_rest s' u = []) as Hs'.
      { intros u Hu. destruct (next_shape _ _ _ E) as (i & p & _ & -> & _). rewrite set_rest_ne by lia. auto. }
      replace (turn s t) with s' by (unfold turn; rewrite E; done). destruct (IH s' Hs') as [H|[H _]]; [|rewrite H]; lia.
    + replace (turn s t) with s by (unfold turn; rewrite E; done). destruct (IH s Hs) as [H|[H1 H2]]; [by left|]. right. split; [done|].
      intros u Hu. apply elem_of_cons in Hu as [->|Hu]; auto.
Qed.

Lemma left_over_0 n s : left_over n s = 0 → all_done n s.
Proof.
  unfold left_over. intros H t Ht.
  assert (length (m_rest s t) ≤ list_sum (map (λ t, length (m_rest s t)) (seq 0 n))) as Hle.
  { apply (sum_elem (λ t, length (m_rest s t))). apply elem_of_list_In, in_seq. lia. }
  apply nil_length_inv. lia.
Qed.

Lemma all_done_next n s sched : (∀ t, n ≤ t → m_rest s t = []) → all_done n s → turns s sched = s.
Proof.
  intros Hs Hd. induction sched as [|t sched IH]; [done|]. cbn.
  assert (turn s t = s) as ->; [|done]. unfold turn, next.
  assert (m_rest s t = []) as -> by (destruct (decide (t < n)); [auto|apply Hs; lia]). done.
Qed.

(** fair rounds finish any machine that never gets stuck *)
Lemma rounds_finish n (P : mach → Prop) :
  (∀ s t, P s → P (turn s t)) →
  (∀ s, P s → (∀ t, n ≤ t → m_rest s t = []) ∧ (all_done n s ∨ ∃ u, u < n ∧ is_Some (next s u))) →
  ∀ rounds s, P s → Forall (λ r, ∀ t, t < n → t ∈ r) rounds → left_over n s ≤ length rounds →
  all_done n (turns s (concat rounds)).
Proof.
  intros Hstep Hprog. induction rounds as [|r rounds IH]; intros s Hs Hr Hl.
  - apply left_over_0. cbn in *. lia.
  - apply Forall_cons in Hr as [Hr Hrs]. cbn [concat]. rewrite turns_app.
    assert (P (turns s r)) as Hs'.
    { clear - Hs Hstep. revert s Hs. induction r as [|t r IH]; intros s Hs; [done|]. cbn. apply IH, Hstep, Hs. }
    destruct (Hprog s Hs) as [Hb [Hd|(u & Hu & Hn)]].
    { rewrite (all_done_next n s r), (all_done_next n s); auto. }
    destruct (turns_left n s r Hb) as [H|[_ H]].
    + apply IH; auto. cbn in Hl. lia.
    + rewrite (H u (Hr u Hu)) in Hn. destruct Hn as [? ?]. discriminate.
Qed.

Lemma turn_beyond n s t : (∀ u, n ≤ u → m_rest s u = []) → ∀ u, n ≤ u → m_rest (turn s t) u = [].
Proof.
  intros Hs u Hu. unfold turn. destruct (next s t) as [s'|] eqn:E; cbn; [|auto].
  destruct (next_shape _ _ _ E) as (i & p & Er & -> & _). unfold set_rest.
  destruct (Nat.eqb u t) eqn:Etu; [|auto]. apply Nat.eqb_eq in Etu as ->. rewrite Hs in Er by done. discriminate.
Qed.

Lemma begin_beyond ts t : length ts ≤ t → m_rest (begin ts) t = [].
Proof. intros H. apply (rest_beyond ts [] t H). Qed.

Lemma fair_finish ts rounds :
  Forall (λ os, forallb quiet os = true) ts →
  Forall (λ r, ∀ t, t < length ts → t ∈ r) rounds →
  left_over (length ts) (begin ts) ≤ length rounds →
  all_done (length ts) (turns (begin ts) (concat rounds)).
Proof.
  intros Hq Hr Hl.
  apply (rounds_finish (length ts) (λ s, (∃ pl, inv false s pl) ∧ ∀ t, length ts ≤ t → m_rest s t = [])); auto.
  - intros s t [(pl & I) Hb]. split; [eapply inv_turn, I|]. apply turn_beyond, Hb.
  - intros s [(pl & I) Hb]. split; [done|]. eapply progress; done.
  - split; [exists (λ _, Out); apply inv_begin; [done|discriminate]|]. intros t. apply begin_beyond.
Qed.

(** * A callback that calls back *)
Definition cnt (t : nat) (l : list nat) : nat := length (List.filter (Nat.eqb t) l).

Lemma cnt_in t l : cnt t l ≠ 0 ↔ t ∈ l.
Proof.
  unfold cnt. induction l as [|u l IH]; cbn.
  - split; [done|]. intros H. apply elem_of_nil in H. done.
  - rewrite elem_of_cons. destruct (Nat.eqb t u) eqn:E; cbn.
    + apply Nat.eqb_eq in E as ->. split; [auto|done].
    + apply Nat.eqb_neq in E. rewrite IH. split; [auto|intros [?|?]; done].
Qed.
Lemma cnt_cons_eq t l : cnt t (t :: l) = S (cnt t l).
Proof. unfold cnt. cbn. rewrite Nat.eqb_refl. done. Qed.
Lemma cnt_cons_ne t u l : u ≠ t → cnt t (u :: l) = cnt t l.
Proof. unfold cnt. cbn. intros H. assert (Nat.eqb t u = false) as -> by (apply Nat.eqb_neq; auto). done. Qed.
Lemma cnt_leave_ne t u l : u ≠ t → cnt t (leave u l) = cnt t l.
Proof.
  intros H. induction l as [|v l IH]; [done|]. cbn [leave]. destruct (Nat.eqb v u) eqn:E.
  - apply Nat.eqb_eq in E as ->. rewrite cnt_cons_ne by done. done.
  - unfold cnt in *. cbn. destruct (Nat.eqb t v); cbn; rewrite IH; done.
Qed.
Lemma cnt_leave_eq t l : t ∈ l → S (cnt t (leave t l)) = cnt t l.
Proof.
  induction l as [|v l IH]; intros H; [apply elem_of_nil in H; done|]. cbn [leave].
  destruct (Nat.eqb v t) eqn:E.
  - apply Nat.eqb_eq in E as ->. rewrite cnt_cons_eq. done.
  - apply Nat.eqb_neq in E. rewrite !cnt_cons_ne by done. apply IH.
    apply elem_of_cons in H as [->|H]; done.
Qed.

Arguments cnt : simpl never.

(** the steps of another goroutine while t holds H and reads *)
Lemma other_turn s t u s' :
  u ≠ t → m_h s = Some t → t ∈ m_in s → next s u = Some s' →
  m_h s' = Some t ∧ t ∈ m_in s' ∧ m_rest s' t = m_rest s t ∧
  ∃ l, m_log s' = m_log s ++ l ∧ Forall (λ n, match n with NLockH _ | NWrite _ => False | _ => True end) l.
Proof.
  intros Hne Hh Hi Hn.
  assert (m_rest s' t = m_rest s t) as Hr.
  { destruct (next_shape _ _ _ Hn) as (i & p & _ & -> & _). apply set_rest_ne. auto. }
  unfold next in Hn. destruct (m_rest s u) as [|i p]; [discriminate|]. destruct i.
  - rewrite Hh in Hn. discriminate.
  - destruct (is_some_eq (m_h s) u) eqn:E; [|discriminate]. apply is_some_eq_true in E. congruence.
  - destruct (m_door s); [discriminate|]. injection Hn as <-. cbn in *. repeat split; auto; [by right|].
    eexists. split; [done|]. repeat constructor.
  - destruct (existsb _ _); [|discriminate]. injection Hn as <-. cbn in *. repeat split; auto.
    + apply cnt_in. rewrite cnt_leave_ne by done. apply cnt_in, Hi.
    + eexists. split; [done|]. repeat constructor.
  - destruct (m_door s); [discriminate|]. injection Hn as <-. cbn in *. repeat split; auto.
    exists []. rewrite app_nil_r. split; [done|constructor].
  - destruct (is_some_eq (m_door s) u); [|discriminate]. destruct (m_in s); [|discriminate].
    apply elem_of_nil in Hi. done.
  - destruct (is_some_eq (m_door s) u); [|discriminate]. injection Hn as <-. cbn in *. repeat split; auto.
    eexists. split; [done|]. repeat constructor.
  - injection Hn as <-. cbn in *. repeat split; auto. eexists. split; [done|]. repeat constructor.
Qed.

Definition stuck (s : mach) (t : nat) (q : list instr) : Prop :=
  m_h s = Some t ∧ t ∈ m_in s ∧
  (m_rest s t = LockH :: UnlockH :: q ∨ m_rest s t = WaitP :: TakeP :: q ∨ m_rest s t = TakeP :: q ∨
   ∃ p, m_rest s t = LockH :: p).

Lemma stuck_turn s t q u :
  stuck s t q → stuck (turn s u) t q ∧
  ∃ l, m_log (turn s u) = m_log s ++ l ∧ Forall (λ n, match n with NLockH _ | NWrite _ => False | _ => True end) l.
Proof.
  intros (Hh & Hi & Hr). unfold turn. destruct (next s u) as [s'|] eqn:E; cbn.
  2:{ split; [done|]. exists []. rewrite app_nil_r. split; [done|constructor]. }
  destruct (decide (u = t)) as [->|Hne].
  - unfold next in E. destruct Hr as [Hr|[Hr|[Hr|(p & Hr)]]]; rewrite Hr in E.
    + rewrite Hh in E. discriminate.
    + destruct (m_door s); [discriminate|]. injection E as <-. cbn. split.
      * split; [done|]. split; [done|]. right. right. left. cbn. apply set_rest_eq.
      * exists []. rewrite app_nil_r. split; [done|constructor].
    + destruct (is_some_eq _ _); [|discriminate]. destruct (m_in s); [|discriminate].
      apply elem_of_nil in Hi. done.
    + rewrite Hh in E. discriminate.
  - destruct (other_turn s t u s' Hne Hh Hi E) as (H1 & H2 & H3 & H4). split; [|done].
    split; [done|]. split; [done|]. rewrite H3. done.
Qed.

Lemma stuck_turns s t q sched :
  stuck s t q → stuck (turns s sched) t q ∧
  ∃ l, m_log (turns s sched) = m_log s ++ l ∧ Forall (λ n, match n with NLockH _ | NWrite _ => False | _ => True end) l.
Proof.
  revert s. induction sched as [|u sched IH]; intros s H.
  - split; [done|]. exists []. rewrite app_nil_r. split; [done|constructor].
  - change (turns s (u :: sched)) with (turns (turn s u) sched).
    destruct (stuck_turn s t q u H) as (H1 & l & El & Fl). destruct (IH _ H1) as (H2 & l' & El' & Fl').
    split; [done|]. exists (l ++ l'). rewrite El', El, app_assoc. split; [done|]. apply Forall_app. done.
Qed.

Definition reads (l : place) : nat := match l with InR | InHR => 1 | _ => 0 end.
Definition holds (l : place) : Prop := l = InH ∨ l = InHR.

(** what goroutine t holds on its way to the call *)
Definition onway (s : mach) (t : nat) (rest : list instr) : Prop :=
  ∃ l p, m_rest s t = p ++ rest ∧ walk false l p = Some InHR ∧ (m_h s = Some t ↔ holds l) ∧ cnt t (m_in s) = reads l.

Lemma onway_turn s t rest u :
  onway s t rest → (m_rest s t = rest ∧ delivering s t) ∨ onway (turn s u) t rest.
Proof.
  intros (l & p & Er & Hw & Hh & Hc).
  destruct p as [|i p].
  { left. cbn in *. injection Hw as ->. split; [done|]. split; [apply Hh; by right|].
    apply cnt_in. rewrite Hc. done. }
  right. unfold turn. destruct (next s u) as [s'|] eqn:E; cbn.
  2:{ exists l, (i :: p). done. }
  destruct (decide (u = t)) as [->|Hne].
  - unfold next in E. rewrite Er in E. cbn in E, Hw.
    destruct (go false l i) as [l'|] eqn:Eg; [|discriminate]. exists l', p.
    assert (∀ o d m lg, m_rest (Mach (set_rest (m_rest s) t (p ++ rest)) o d m lg) t = p ++ rest) as Hset.
    { intros. cbn. apply set_rest_eq. }
    destruct i.
    + destruct (m_h s); [discriminate|]. injection E as <-. rewrite Hset. cbn.
      destruct l; try discriminate Eg. injection Eg as <-. unfold holds. repeat split; auto.
    + destruct (is_some_eq _ _); [|discriminate]. injection E as <-. rewrite Hset. cbn.
      destruct l; try discriminate Eg. injection Eg as <-. unfold holds. repeat split; auto; try discriminate.
      intros [?|?]; discriminate.
    + destruct (m_door s); [discriminate|]. injection E as <-. rewrite Hset. cbn. rewrite cnt_cons_eq, Hc.
      unfold holds in *. destruct l; try discriminate Eg; injection Eg as <-; (split; [done|]); (split; [done|]);
        (split; [|done]); rewrite Hh; split; intros [?|?]; auto; discriminate.
    + destruct (existsb (Nat.eqb t) (m_in s)) eqn:Ex; [|discriminate]. apply existsb_in in Ex.
      injection E as <-. rewrite Hset. cbn. pose proof (cnt_leave_eq _ _ Ex) as Hcl. rewrite Hc in Hcl.
      unfold holds in *. destruct l; try discriminate Eg; injection Eg as <-; cbn in Hcl; injection Hcl as ->;
        (split; [done|]); (split; [done|]); (split; [|done]); rewrite Hh; split; intros [?|?]; auto; discriminate.
    + destruct (m_door s); [discriminate|]. injection E as <-. rewrite Hset. cbn.
      unfold holds in *. destruct l; try discriminate Eg; injection Eg as <-; (split; [done|]); (split; [done|]);
        (split; [|done]); rewrite Hh; split; intros [?|?]; auto; discriminate.
    + destruct (is_some_eq _ _); [|discriminate]. destruct (m_in s) eqn:Em; [|discriminate]. injection E as <-.
      rewrite Hset. cbn. unfold holds in *. destruct l; try discriminate Eg; injection Eg as <-; (split; [done|]); (split; [done|]);
        (split; [|done]); rewrite Hh; split; intros [?|?]; auto; discriminate.
    + destruct (is_some_eq _ _); [|discriminate]. injection E as <-.
      rewrite Hset. cbn. unfold holds in *. destruct l; try discriminate Eg; injection Eg as <-; (split; [done|]); (split; [done|]);
        (split; [|done]); rewrite Hh; split; intros [?|?]; auto; discriminate.
    + injection E as <-. rewrite Hset. cbn. assert (l' = l) as -> by (destruct l; cbn in Eg; congruence).
      repeat split; auto; apply Hh.
  - exists l, (i :: p).
    assert (m_rest s' t = m_rest s t) as ->.
    { destruct (next_shape _ _ _ E) as (? & ? & _ & -> & _). apply set_rest_ne. auto. }
    split; [done|]. split; [done|].
    unfold next in E. destruct (m_rest s u) as [|j r]; [discriminate|].
    destruct j.
    + destruct (m_h s) eqn:Ehs; [discriminate|]. injection E as <-. cbn. split; [|done].
      rewrite <- Hh. split; congruence.
    + destruct (is_some_eq (m_h s) u) eqn:Eu; [|discriminate]. apply is_some_eq_true in Eu. injection E as <-. cbn.
      split; [|done]. rewrite <- Hh, Eu. split; congruence.
    + destruct (m_door s); [discriminate|]. injection E as <-. cbn. split; [done|]. rewrite cnt_cons_ne by done. done.
    + destruct (existsb _ _); [|discriminate]. injection E as <-. cbn. split; [done|]. rewrite cnt_leave_ne by done. done.
    + destruct (m_door s); [discriminate|]. injection E as <-. done.
    + destruct (is_some_eq _ _); [|discriminate]. destruct (m_in s) eqn:Em; [|discriminate]. injection E as <-. cbn. done.
    + destruct (is_some_eq _ _); [|discriminate]. injection E as <-. done.
    + injection E as <-. done.
Qed.

Lemma call_stuck s t o q :
  needs_hub o || changes_tree o = true → m_rest s t = code o ++ q → delivering s t → ∃ q', stuck s t q'.
Proof.
  intros Ho Er (Hh & Hi).
  destruct o; try discriminate Ho; cbn in Er.
  - exists (UnlockP :: q). split; [done|]. split; [done|]. auto.
  - exists (UnlockP :: q). split; [done|]. split; [done|]. auto.
  - exists q. split; [done|]. split; [done|]. auto.
  - exists q. split; [done|]. split; [done|]. auto.
  - exists q. split; [done|]. split; [done|]. right. right. right. eauto.
Qed.

(** the goroutine up to the call, and after it *)
Definition upto (before : list op) (pubs1 : list (list op)) (cbs1 : list op) : list instr :=
  program before ++ LockH :: flat_map (λ cbs, RLockP :: flat_map code cbs ++ [RUnlockP]) pubs1 ++
  RLockP :: flat_map code cbs1.

Lemma split_call before pubs1 cbs1 o cbs2 pubs2 after :
  program (before ++ OEvent (pubs1 ++ (cbs1 ++ o :: cbs2) :: pubs2) :: after) =
  upto before pubs1 cbs1 ++ code o ++
  (flat_map code cbs2 ++ RUnlockP :: flat_map (λ cbs, RLockP :: flat_map code cbs ++ [RUnlockP]) pubs2 ++
   UnlockH :: program after).
Proof.
  unfold program, upto. rewrite flat_map_app. cbn [flat_map code]. rewrite flat_map_app. cbn [flat_map].
  rewrite flat_map_app. cbn [flat_map]. repeat (rewrite <- ?app_assoc; cbn [app]). done.
Qed.

Lemma walk_upto before pubs1 cbs1 :
  forallb quiet before = true → forallb (forallb is_work) pubs1 = true → forallb is_work cbs1 = true →
  walk false Out (upto before pubs1 cbs1) = Some InHR.
Proof.
  intros H1 H2 H3. unfold upto. rewrite walk_app, walk_program by done. cbn [walk go].
  rewrite walk_app, walk_pubs by done. cbn [walk go]. apply walk_works; auto.
Qed.

Section calls_back.
  Context (ts : list (list op)) (t : nat) (before : list op) (pubs1 : list (list op)) (cbs1 : list op)
    (o : op) (cbs2 : list op) (pubs2 : list (list op)) (after : list op).
  Context (Hts : ts !! t = Some (before ++ OEvent (pubs1 ++ (cbs1 ++ o :: cbs2) :: pubs2) :: after)).
  Context (H1 : forallb quiet before = true) (H2 : forallb (forallb is_work) pubs1 = true)
    (H3 : forallb is_work cbs1 = true) (Ho : needs_hub o || changes_tree o = true).

  Let tail := flat_map code cbs2 ++ RUnlockP :: flat_map (λ cbs, RLockP :: flat_map code cbs ++ [RUnlockP]) pubs2 ++
    UnlockH :: program after.

  Lemma onway_or_stuck sched :
    onway (turns (begin ts) sched) t (code o ++ tail) ∨ ∃ q, stuck (turns (begin ts) sched) t q.
  Proof.
    assert (∀ s, onway s t (code o ++ tail) ∨ (∃ q, stuck s t q) →
      onway (turns s sched) t (code o ++ tail) ∨ ∃ q, stuck (turns s sched) t q) as H.
    { induction sched as [|u sched IH]; intros s Hs; [done|].
      change (turns s (u :: sched)) with (turns (turn s u) sched). apply IH.
      destruct Hs as [Hs|(q & Hs)].
      - destruct (onway_turn _ _ _ u Hs) as [[Er Hd]|Hs']; [|by left].
        destruct (call_stuck _ _ _ _ Ho Er Hd) as (q & Hq). right. exists q. apply stuck_turn, Hq.
      - right. exists q. apply stuck_turn, Hs. }
    apply H. left. exists Out, (upto before pubs1 cbs1). cbn. rewrite Hts. cbn. rewrite split_call.
    split; [done|]. split; [apply walk_upto; done|]. split; [|done]. unfold holds.
    split; [discriminate|]. intros [?|?]; discriminate.
  Qed.

  Lemma never_finishes sched : m_rest (turns (begin ts) sched) t ≠ [].
  Proof.
    destruct (onway_or_stuck sched) as [(l & p & E & _)|(q & _ & _ & E)].
    - rewrite E. destruct p; [|done]. destruct o; done.
    - destruct E as [E|[E|[E|(p & E)]]]; rewrite E; done.
  Qed.

  Lemma onway_at_call s : m_rest s t = code o ++ tail → onway s t (code o ++ tail) ∨ (∃ q, stuck s t q) →
    ∃ q, stuck s t q.
  Proof.
    intros Er [(l & p & E & Hw & Hh & Hc)|Hs]; [|done].
    rewrite Er in E. assert (p = []) as ->.
    { apply (f_equal length) in E. rewrite (app_length p) in E. destruct p; [done|]. cbn [length] in E. lia. }
    cbn in Hw. injection Hw as ->. apply (call_stuck s t o tail Ho Er).
    split; [apply Hh; by right|]. apply cnt_in. rewrite Hc. done.
  Qed.

  Lemma wedges sched sched' :
    m_rest (turns (begin ts) sched) t = code o ++ tail →
    ∃ l, m_log (turns (begin ts) (sched ++ sched')) = m_log (turns (begin ts) sched) ++ l ∧
         Forall (λ n, match n with NLockH _ | NWrite _ => False | _ => True end) l.
  Proof.
    intros Er. destruct (onway_at_call _ Er (onway_or_stuck sched)) as (q & Hq).
    rewrite turns_app. apply (stuck_turns _ t q sched' Hq).
  Qed.
End calls_back.

(** * A callback that takes its time *)
Lemma delivering_others s t u o q sched :
  delivering s t → t ∉ sched → u ≠ t → needs_hub o || changes_tree o = true → m_rest s u = code o ++ q →
  length q < length (m_rest (turns s sched) u).
Proof.
  intros Hd Hs Hne Ho Er.
  assert (∀ s, delivering s t → (m_rest s u = code o ++ q ∨ m_rest s u = TakeP :: UnlockP :: q) →
    (m_rest (turns s sched) u = code o ++ q ∨ m_rest (turns s sched) u = TakeP :: UnlockP :: q)) as H.
  { clear s Hd Er. induction sched as [|v sched IH]; intros s Hd Hr; [done|].
    change (turns s (v :: sched)) with (turns (turn s v) sched).
    apply not_elem_of_cons in Hs as [Hv Hs]. specialize (IH Hs).
    assert (delivering (turn s v) t) as Hd'.
    { unfold turn. destruct (next s v) as [s'|] eqn:E; cbn; [|done]. destruct Hd as [Hh Hi].
      destruct (other_turn s t v s' ltac:(auto) Hh Hi E) as (? & ? & _). done. }
    apply IH; [done|]. unfold turn. destruct (next s v) as [s'|] eqn:E; cbn; [|done].
    destruct (decide (v = u)) as [->|Hvu].
    2:{ destruct (next_shape _ _ _ E) as (? & ? & _ & -> & _). rewrite set_rest_ne by auto. done. }
    destruct Hd as [Hh Hi]. unfold next in E.
    destruct Hr as [Hr|Hr]; rewrite Hr in E.
    - destruct o; try discriminate Ho; cbn in E; try (rewrite Hh in E; discriminate).
      + destruct (m_door s); [discriminate|]. injection E as <-. cbn. rewrite set_rest_eq. by right.
      + destruct (m_door s); [discriminate|]. injection E as <-. cbn. rewrite set_rest_eq. by right.
    - destruct (is_some_eq _ _); [|discriminate]. destruct (m_in s); [|discriminate].
      apply elem_of_nil in Hi. done. }
  destruct (H s Hd (or_introl Er)) as [E|E]; rewrite E.
  - rewrite app_length. destruct o; try discriminate Ho; cbn; lia.
  - cbn. lia.
Qed.

(** * A callback that publishes *)
Definition go2 (l : bool * nat) (i : instr) : option (bool * nat) :=
  match i, l with
  | LockH, (false, 0) => Some (true, 0)
  | UnlockH, (true, 0) => Some (false, 0)
  | RLockP, (h, r) => Some (h, S r)
  | RUnlockP, (h, S r) => Some (h, r)
  | Work _, _ => Some l
  | _, _ => None
  end.
Fixpoint walk2 (l : bool * nat) (p : list instr) : option (bool * nat) :=
  match p with
  | [] => Some l
  | i :: p' => match go2 l i with Some l' => walk2 l' p' | None => None end
  end.
Lemma walk2_app l p q :
  walk2 l (p ++ q) = match walk2 l p with Some l' => walk2 l' q | None => None end.
Proof.
  revert l. induction p as [|i p IH]; intros l; cbn; [done|]. destruct (go2 l i); [apply IH|done].
Qed.
Lemma walk2_flat {A} (f : A → list instr) (xs : list A) l :
  (∀ x, x ∈ xs → walk2 l (f x) = Some l) → walk2 l (flat_map f xs) = Some l.
Proof.
  induction xs as [|x xs IH]; cbn; intros H; [done|].
  rewrite walk2_app, H by (by left). apply IH. intros y Hy. apply H. by right.
Qed.

Lemma walk2_publishes o h r : publishes_only o = true → walk2 (h, r) (code o) = Some (h, r).
Proof.
  assert (∀ n o h r, osize o ≤ n → publishes_only o = true → walk2 (h, r) (code o) = Some (h, r)) as H;
    [|exact (H _ o h r (le_n _))].
  clear o h r. induction n as [|n IH]; intros o h r Hs Ho; destruct o; try discriminate Ho; try done;
    change (osize (OPub cbs)) with (S (list_sum (map osize cbs))) in Hs; try lia.
  cbn [code walk2 go2]. rewrite walk2_app, walk2_flat; [done|]. intros x Hx. apply IH.
  - pose proof (sum_elem osize _ _ Hx). lia.
  - cbn in Ho. rewrite forallb_forall in Ho. apply Ho, elem_of_list_In, Hx.
Qed.

Lemma walk2_no_writer o : no_writer o = true → walk2 (false, 0) (code o) = Some (false, 0).
Proof.
  intros Ho. destruct o; try discriminate Ho; try done.
  - apply (walk2_publishes (OPub cbs)). done.
  - cbn [code walk2 go2]. rewrite walk2_app, walk2_flat; [done|]. intros c Hc.
    cbn [walk2 go2]. cbn in Ho. rewrite forallb_forall in Ho. specialize (Ho c ltac:(by apply elem_of_list_In)).
    rewrite forallb_forall in Ho. rewrite walk2_app, walk2_flat; [done|].
    intros x Hx. apply walk2_publishes, Ho, elem_of_list_In, Hx.
Qed.

Record inv2 (s : mach) (pl : nat → bool * nat) : Prop := {
  j_walk : ∀ t, walk2 (pl t) (m_rest s t) = Some (false, 0);
  j_h : ∀ t, m_h s = Some t ↔ fst (pl t) = true;
  j_in : ∀ t, cnt t (m_in s) = snd (pl t);
  j_door : m_door s = None
}.

Lemma inv2_turn s pl t : inv2 s pl → ∃ pl', inv2 (turn s t) pl'.
Proof.
  intros I. unfold turn. destruct (next s t) as [s'|] eqn:En; cbn; [|eauto].
  pose proof (j_walk _ _ I) as Iw. pose proof (j_h _ _ I) as Ih. pose proof (j_in _ _ I) as Ii. pose proof (j_door _ _ I) as Id.
  pose proof (Iw t) as Hw. unfold next in En. destruct (m_rest s t) as [|i p] eqn:Er; [discriminate|]. cbn in Hw.
  destruct (go2 (pl t) i) as [l|] eqn:Eg; [|discriminate].
  exists (λ u, if Nat.eqb u t then l else pl u).
  assert (∀ u, walk2 (if Nat.eqb u t then l else pl u) (set_rest (m_rest s) t p u) = Some (false, 0)) as Hwalk.
  { intros u. unfold set_rest. destruct (Nat.eqb u t); [done|apply Iw]. }
  destruct (pl t) as [h r] eqn:Ep.
  pose proof (Ih t) as Iht. rewrite Ep in Iht. pose proof (Ii t) as Iit. rewrite Ep in Iit. cbn in Iht, Iit.
  destruct i.
  - destruct (m_h s) eqn:Eh; [discriminate|]. injection En as <-. destruct h, r; try discriminate Eg. injection Eg as <-.
    constructor; cbn; auto; intros u; destruct (Nat.eqb u t) eqn:E.
    + apply Nat.eqb_eq in E as ->. done.
    + apply Nat.eqb_neq in E. rewrite <- Ih. split; congruence.
    + apply Nat.eqb_eq in E as ->. done.
    + apply Ii.
  - destruct (is_some_eq (m_h s) t) eqn:Eh; [|discriminate]. apply is_some_eq_true in Eh. injection En as <-.
    destruct h, r; try discriminate Eg. injection Eg as <-.
    constructor; cbn; auto; intros u; destruct (Nat.eqb u t) eqn:E.
    + split; discriminate.
    + apply Nat.eqb_neq in E. rewrite <- Ih, Eh. split; congruence.
    + apply Nat.eqb_eq in E as ->. done.
    + apply Ii.
  - rewrite Id in En. injection En as <-. cbn in Eg. injection Eg as <-.
    constructor; cbn; auto; intros u; destruct (Nat.eqb u t) eqn:E.
    + apply Nat.eqb_eq in E as ->. done.
    + apply Ih.
    + apply Nat.eqb_eq in E as ->. rewrite cnt_cons_eq, Iit. done.
    + apply Nat.eqb_neq in E. rewrite cnt_cons_ne by auto. apply Ii.
  - destruct (existsb (Nat.eqb t) (m_in s)) eqn:Ex; [|discriminate]. apply existsb_in in Ex. injection En as <-.
    destruct r; try discriminate Eg. cbn in Eg. injection Eg as <-.
    constructor; cbn; auto; intros u; destruct (Nat.eqb u t) eqn:E.
    + apply Nat.eqb_eq in E as ->. done.
    + apply Ih.
    + apply Nat.eqb_eq in E as ->. pose proof (cnt_leave_eq _ _ Ex). cbn [snd]. lia.
    + apply Nat.eqb_neq in E. rewrite cnt_leave_ne by auto. apply Ii.
  - discriminate Eg.
  - discriminate Eg.
  - discriminate Eg.
  - injection En as <-. cbn in Eg. injection Eg as <-.
    constructor; cbn; auto; intros u; destruct (Nat.eqb u t) eqn:E; auto.
    + apply Nat.eqb_eq in E as ->. done.
    + apply Nat.eqb_eq in E as ->. done.
Qed.

Lemma inv2_begin ts : Forall (λ os, forallb no_writer os = true) ts → inv2 (begin ts) (λ _, (false, 0)).
Proof.
  intros H. constructor; cbn; auto.
  - intros t. unfold program. apply walk2_flat. intros o Hx. apply walk2_no_writer.
    destruct (ts !! t) as [os|] eqn:E; cbn in Hx; [|apply elem_of_nil in Hx; done].
    pose proof (Forall_lookup_1 _ _ _ _ H E) as Hos. cbn in Hos. rewrite forallb_forall in Hos.
    apply Hos, elem_of_list_In, Hx.
  - intros t. split; discriminate.
Qed.

Lemma progress2 s pl n :
  inv2 s pl → (∀ t, n ≤ t → m_rest s t = []) → all_done n s ∨ ∃ u, u < n ∧ is_Some (next s u).
Proof.
  intros I Hn.
  assert (∀ u, m_rest s u ≠ [] → (m_h s = None ∨ m_h s = Some u) → u < n ∧ is_Some (next s u)) as Hgo.
  { intros u Hu Hh. split.
    { destruct (decide (u < n)); [done|]. rewrite Hn in Hu by lia. done. }
    pose proof (j_walk _ _ I u) as Hw. pose proof (j_in _ _ I u) as Hi. pose proof (j_h _ _ I u) as Hhu.
    unfold next. destruct (m_rest s u) as [|i p]; [done|]. cbn in Hw.
    destruct (pl u) as [h r] eqn:Ep. cbn in Hi, Hhu. destruct i; cbn in Hw.
    - destruct h; [discriminate|]. destruct Hh as [-> | Hh]; [eauto|]. apply Hhu in Hh. discriminate.
    - destruct h; [|discriminate]. assert (is_some_eq (m_h s) u = true) as -> by (apply is_some_eq_true, Hhu; done). eauto.
    - rewrite (j_door _ _ I). eauto.
    - destruct r; [discriminate|]. assert (existsb (Nat.eqb u) (m_in s) = true) as -> by (apply existsb_in, cnt_in; lia). eauto.
    - discriminate.
    - discriminate.
    - discriminate.
    - eauto. }
  destruct (m_h s) as [v|] eqn:Eh.
  { right. exists v. apply Hgo; [|auto]. intros Er. pose proof (j_walk _ _ I v) as Hw. rewrite Er in Hw. cbn in Hw.
    apply (j_h _ _ I) in Eh. injection Hw as Hw. rewrite Hw in Eh. discriminate. }
  destruct (forallb (λ u, match m_rest s u with [] => true | _ => false end) (seq 0 n)) eqn:Ef.
  { left. intros t Ht. rewrite forallb_forall in Ef. specialize (Ef t (proj2 (in_seq n 0 t) ltac:(lia))).
    destruct (m_rest s t); done. }
  right. assert (∃ u, m_rest s u ≠ []) as (u & Hu).
  { clear - Ef. induction (seq 0 n) as [|x l IH]; [discriminate|]. cbn in Ef.
    destruct (m_rest s x) eqn:Ex; cbn in Ef; [auto|]. exists x. rewrite Ex. done. }
  exists u. apply Hgo; auto.
Qed.

Lemma fair_finish2 ts rounds :
  Forall (λ os, forallb no_writer os = true) ts →
  Forall (λ r, ∀ t, t < length ts → t ∈ r) rounds →
  left_over (length ts) (begin ts) ≤ length rounds →
  all_done (length ts) (turns (begin ts) (concat rounds)).
Proof.
  intros Hq Hr Hl.
  apply (rounds_finish (length ts) (λ s, (∃ pl, inv2 s pl) ∧ ∀ t, length ts ≤ t → m_rest s t = [])); auto.
  - intros s t [(pl & I) Hb]. split; [eapply inv2_turn, I|]. apply turn_beyond, Hb.
  - intros s [(pl & I) Hb]. split; [done|]. eapply progress2; done.
  - split; [exists (λ _, (false, 0)); apply inv2_begin; done|]. intros t. apply begin_beyond.
Qed.

(** ... while somebody subscribes *)
Definition jam (s : mach) (t u : nat) : Prop :=
  t ≠ u ∧ m_h s = Some t ∧ m_door s = Some u ∧ t ∈ m_in s ∧
  (∃ p, m_rest s t = RLockP :: p) ∧ (∃ p, m_rest s u = TakeP :: p).

Lemma jam_turn s t u v :
  jam s t u → jam (turn s v) t u ∧
  ∃ l, m_log (turn s v) = m_log s ++ l ∧
       Forall (λ n, match n with NLockH _ | NRead _ | NWrite _ => False | _ => True end) l.
Proof.
  intros (Hne & Hh & Hd & Hi & (p & Ht) & (q & Hu)).
  assert (jam s t u) as Hj by (repeat split; eauto).
  unfold turn. destruct (next s v) as [s'|] eqn:E; cbn.
  2:{ split; [done|]. exists []. rewrite app_nil_r. split; [done|constructor]. }
  assert (v ≠ t) as Hvt.
  { intros ->. unfold next in E. rewrite Ht, Hd in E. discriminate. }
  assert (v ≠ u) as Hvu.
  { intros ->. unfold next in E. rewrite Hu in E. destruct (is_some_eq _ _); [|discriminate].
    destruct (m_in s); [|discriminate]. apply elem_of_nil in Hi. done. }
  assert (m_rest s' t = RLockP :: p ∧ m_rest s' u = TakeP :: q) as [Ht' Hu'].
  { destruct (next_shape _ _ _ E) as (? & ? & _ & -> & _). rewrite !set_rest_ne by auto. done. }
  unfold next in E. destruct (m_rest s v) as [|i r]; [discriminate|]. destruct i.
  - rewrite Hh in E. discriminate.
  - rewrite Hh in E. destruct (is_some_eq (Some t) v) eqn:E1; [|discriminate]. apply is_some_eq_true in E1. congruence.
  - rewrite Hd in E. discriminate.
  - destruct (existsb _ _); [|discriminate]. injection E as <-. cbn in *. split.
    + repeat split; eauto. cbn. apply cnt_in. rewrite cnt_leave_ne by done. apply cnt_in, Hi.
    + eexists. split; [done|]. repeat constructor.
  - rewrite Hd in E. discriminate.
  - rewrite Hd in E. destruct (is_some_eq (Some u) v) eqn:E1; [|discriminate]. apply is_some_eq_true in E1. congruence.
  - rewrite Hd in E. destruct (is_some_eq (Some u) v) eqn:E1; [|discriminate]. apply is_some_eq_true in E1. congruence.
  - injection E as <-. cbn in *. split; [repeat split; eauto|]. eexists. split; [done|]. repeat constructor.
Qed.

Lemma jam_turns s t u sched :
  jam s t u → jam (turns s sched) t u ∧
  ∃ l, m_log (turns s sched) = m_log s ++ l ∧
       Forall (λ n, match n with NLockH _ | NRead _ | NWrite _ => False | _ => True end) l.
Proof.
  revert s. induction sched as [|v sched IH]; intros s H.
  - split; [done|]. exists []. rewrite app_nil_r. split; [done|constructor].
  - change (turns s (v :: sched)) with (turns (turn s v) sched).
    destruct (jam_turn s t u v H) as (H1 & l & El & Fl). destruct (IH _ H1) as (H2 & l' & El' & Fl').
    split; [done|]. exists (l ++ l'). rewrite El', El, app_assoc. split; [done|]. apply Forall_app. done.
Qed.

Lemma nested_publish_jams ts t u cbs c2 pubs after o after' :
  t ≠ u → ts !! t = Some (OEvent ((OPub cbs :: c2) :: pubs) :: after) → ts !! u = Some (o :: after') →
  changes_tree o = true →
  ∃ sched, ∀ sched',
    let s := turns (begin ts) (sched ++ sched') in
    m_rest s t ≠ [] ∧ m_rest s u ≠ [] ∧
    ∃ l, m_log s = m_log (turns (begin ts) sched) ++ l ∧
         Forall (λ n, match n with NLockH _ | NRead _ | NWrite _ => False | _ => True end) l.
Proof.
  intros Hne Ht Hu Ho. exists [t; t; u]. intros sched' s. subst s. rewrite turns_app.
  assert (jam (turns (begin ts) [t; t; u]) t u) as Hj.
  2:{ destruct (jam_turns _ _ _ sched' Hj) as ((_ & _ & _ & _ & (p & E1) & (q & E2)) & Hl).
      rewrite E1, E2. done. }
  assert (m_rest (begin ts) t = LockH :: RLockP :: RLockP ::
    (flat_map code cbs ++ [RUnlockP] ++ flat_map code c2 ++ RUnlockP :: flat_map (λ cbs, RLockP :: flat_map code cbs ++ [RUnlockP]) pubs ++ UnlockH :: program after)) as Et.
  { unfold begin. cbn [m_rest]. rewrite Ht. cbn. unfold program. cbn. repeat (rewrite <- ?app_assoc; cbn [app]). done. }
  assert (m_rest (begin ts) u = WaitP :: TakeP :: UnlockP :: program after') as Eu.
  { unfold begin. cbn [m_rest]. rewrite Hu. destruct o; try discriminate Ho; done. }
  set (p := flat_map code cbs ++ _) in Et. clearbody p.
  change (turns (begin ts) [t; t; u]) with (turn (turn (turn (begin ts) t) t) u).
  assert (turn (begin ts) t = Mach (set_rest (m_rest (begin ts)) t (RLockP :: RLockP :: p)) (Some t) None [] [NLockH t]) as ->.
  { unfold turn, next. rewrite Et. done. }
  set (s1 := Mach _ _ _ _ _).
  assert (turn s1 t = Mach (set_rest (m_rest s1) t (RLockP :: p)) (Some t) None [t] (m_log s1 ++ [NRead t])) as ->.
  { unfold turn, next. replace (m_rest s1 t) with (RLockP :: RLockP :: p) by (unfold s1; cbn [m_rest]; rewrite set_rest_eq; done).
    done. }
  set (s2 := Mach _ _ _ _ _).
  assert (m_rest s2 u = WaitP :: TakeP :: UnlockP :: program after') as Eu2.
  { unfold s2, s1. cbn [m_rest]. rewrite !set_rest_ne by auto. done. }
  assert (turn s2 u = Mach (set_rest (m_rest s2) u (TakeP :: UnlockP :: program after')) (Some t) (Some u) [t] (m_log s2)) as ->.
  { unfold turn, next. rewrite Eu2. done. }
  repeat split; cbn; auto.
  - by left.
  - exists p. rewrite set_rest_ne by auto. apply set_rest_eq.
  - exists (UnlockP :: program after'). rewrite set_rest_eq. done.
Qed.
