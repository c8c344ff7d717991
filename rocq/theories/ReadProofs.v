(** Messages are read back. *)
From Coq Require Import ZArith String Ascii Lia.
From stdpp Require Import base list numbers strings pretty gmap.
From Verif Require Import SyscallModel TopoModel RawModel CodecTables CodecModel JsonModel JsonSpec JsonProofs
  RawProofs CodecNames LineModel DecodeModel MsgModel MsgSpec MsgProofs MsgBound MsgRead ReadSpec.

Local Open Scope string_scope.
Local Open Scope list_scope.
Local Open Scope Z_scope.

(** * Texts of values *)

Fixpoint jtext (j : json) : list Z :=
  match j with
  | JsNull => txt "null"
  | JsBool b => txt (if b then "true" else "false")
  | JsNum z => num z
  | JsStr bs => quote bs
  | JsArr l => arr (map jtext l)
  | JsObj l => [123] ++ commas (map (fun '(k, v) => quote k ++ [58] ++ jtext v) l) ++ [125]
  end.

Fixpoint norm (j : json) : json :=
  match j with
  | JsNull => JsNull
  | JsBool b => JsBool b
  | JsNum z => JsNum z
  | JsStr bs => JsStr (json_text bs)
  | JsArr l => JsArr (map norm l)
  | JsObj l => JsObj (map (fun '(k, v) => (json_text k, norm v)) l)
  end.

Fixpoint good (j : json) : Prop :=
  match j with
  | JsNull | JsBool _ | JsNum _ => True
  | JsStr bs => bytes bs
  | JsArr l => fold_right (fun x P => good x /\ P) True l
  | JsObj l => fold_right (fun '(k, v) P => (bytes k /\ good v) /\ P) True l
  end.

Definition member_text' (e : list Z * json) : list Z := quote (fst e) ++ [58] ++ jtext (snd e).
Lemma obj_members l : jtext (JsObj l) = [123] ++ commas (map member_text' l) ++ [125].
Proof. cbn [jtext]. do 2 f_equal. f_equal. apply map_ext. intros [k v]. reflexivity. Qed.
Lemma norm_members l : norm (JsObj l) = JsObj (map (fun e => (json_text (fst e), norm (snd e))) l).
Proof. cbn [norm]. f_equal. apply map_ext. intros [k v]. reflexivity. Qed.
Lemma good_arr l : good (JsArr l) <-> Forall good l.
Proof.
  cbn [good]. induction l as [|x l IH]; cbn [fold_right]; [split; [constructor|tauto]|].
  rewrite IH, Forall_cons. tauto.
Qed.
Lemma good_obj l : good (JsObj l) <-> Forall (fun e => bytes (fst e) /\ good (snd e)) l.
Proof.
  cbn [good]. induction l as [|[k v] l IH]; cbn [fold_right]; [split; [constructor|tauto]|].
  rewrite IH, Forall_cons. cbn [fst snd]. tauto.
Qed.

(** * Numbers *)

Definition stops (k : list Z) : Prop := match k with b :: _ => is_digit b = false | [] => True end.

Lemma digit_is c d : digit c = Some d -> is_digit (Z.of_N (N_of_ascii c)) = true /\ d = Z.of_N (N_of_ascii c) - 48.
Proof.
  unfold digit, is_digit. destruct ((48 <=? Z.of_N (N_of_ascii c)) && (Z.of_N (N_of_ascii c) <=? 57)); [|discriminate].
  intros H. split; [reflexivity|congruence].
Qed.

Lemma read_digits_app s : forall z k acc, digits acc s = Some z -> stops k -> read_digits (txt s ++ k) acc = (z, k).
Proof.
  induction s as [|c s IH]; intros z k acc H Hk.
  - cbn in H. assert (z = acc) as -> by congruence. destruct k as [|b k]; [reflexivity|].
    change (txt "" ++ b :: k) with (b :: k). cbn [read_digits]. rewrite Hk. reflexivity.
  - cbn [digits] in H. destruct (digit c) as [d|] eqn:E; [|discriminate].
    destruct (digit_is c d E) as [E1 ->].
    change (txt (String c s) ++ k) with (Z.of_N (N_of_ascii c) :: (txt s ++ k)). cbn [read_digits].
    rewrite E1. apply IH; assumption.
Qed.

(** The first digit is not 0. *)
Lemma go_first x : forall s, (0 < x)%N -> exists c s', pretty_N_go x s = String c s' /\ exists d, digit c = Some d /\ d <> 0.
Proof.
  induction (N.lt_wf_0 x) as [x _ IH]; intros s Hx.
  rewrite pretty_N_go_step by lia.
  destruct (N.eq_dec (x / 10) 0) as [E|E].
  - rewrite E, pretty_N_go_0. eexists _, _. split; [reflexivity|].
    exists (Z.of_N (x mod 10)). split; [apply digit_char, N.mod_lt; lia|].
    pose proof (N.div_mod x 10 ltac:(lia)). lia.
  - apply IH; [apply N.div_lt; lia|lia].
Qed.

Lemma read_nat_pos p k : stops k -> read_nat (txt (pretty (N.pos p)) ++ k) = Some (Z.pos p, k).
Proof.
  intros Hk. pose proof (digits_pretty (N.pos p)) as Hd. revert Hd.
  destruct (go_first (N.pos p) "" ltac:(lia)) as (c & s & E & d & Ed & Hd0).
  change (pretty (N.pos p)) with (pretty_N_go (N.pos p) ""). rewrite E. intros Hd.
  destruct (digit_is c d Ed) as [E1 E2].
  change (txt (String c s) ++ k) with (Z.of_N (N_of_ascii c) :: (txt s ++ k)). cbn [read_nat].
  destruct (Z.eqb_spec (Z.of_N (N_of_ascii c)) 48); [lia|]. rewrite E1.
  cbn [digits] in Hd. rewrite Ed in Hd. rewrite E2, Z.mul_0_l, Z.add_0_l in Hd.
  rewrite (read_digits_app s (Z.pos p) k _ Hd Hk). reflexivity.
Qed.

Lemma read_num_num z k : stops k -> read_num (num z ++ k) = Some (z, k).
Proof.
  intros Hk. unfold num. destruct z as [|p|p].
  - reflexivity.
  - change (pretty (Z.pos p)) with (pretty (N.pos p)). pose proof (read_nat_pos p k Hk) as H.
    destruct (txt (pretty (N.pos p)) ++ k) as [|b t] eqn:E; [discriminate|].
    cbn [read_num]. destruct (Z.eqb_spec b 45) as [->|]; [cbn in H; discriminate|exact H].
  - change (pretty (Z.neg p)) with ("-" +:+ pretty (N.pos p)).
    change (txt ("-" +:+ pretty (N.pos p)) ++ k) with (45 :: (txt (pretty (N.pos p)) ++ k)).
    cbn [read_num]. change (45 =? 45) with true. cbv iota. rewrite (read_nat_pos p k Hk). reflexivity.
Qed.

(** The first byte of a number. *)
Lemma num_first z : exists b t, num z = b :: t /\ (b = 45 \/ is_digit b = true).
Proof.
  unfold num. destruct z as [|p|p].
  - exists 48, []. split; [reflexivity|right; reflexivity].
  - destruct (go_first (N.pos p) "" ltac:(lia)) as (c & s & E & d & Ed & _).
    change (pretty (Z.pos p)) with (pretty_N_go (N.pos p) ""). rewrite E.
    exists (Z.of_N (N_of_ascii c)), (txt s). split; [reflexivity|right]. exact (proj1 (digit_is c d Ed)).
  - exists 45, (txt (pretty (N.pos p))). split; [reflexivity|left; reflexivity].
Qed.

(** * Strings *)

(** No quote in it ends a string. *)
Definition closed (l : list Z) : Prop := forall k, to_quote (l ++ k)
  = match to_quote k with Some (r, k') => Some (l ++ r, k') | None => None end.

Lemma closed_nil : closed [].
Proof. intros k. cbn. destruct (to_quote k) as [[]|]; reflexivity. Qed.
Lemma closed_app a b : closed a -> closed b -> closed (a ++ b).
Proof.
  intros Ha Hb k. rewrite <- app_assoc, Ha, Hb. destruct (to_quote k) as [[r k']|]; [|reflexivity].
  rewrite app_assoc. reflexivity.
Qed.
Lemma closed_one b : b <> 34 -> b <> 92 -> closed [b].
Proof.
  intros H1 H2 k. cbn [app to_quote]. rewrite (proj2 (Z.eqb_neq b 34) H1), (proj2 (Z.eqb_neq b 92) H2).
  destruct (to_quote k) as [[]|]; reflexivity.
Qed.
Lemma closed_esc e : closed [92; e].
Proof. intros k. cbn. destruct (to_quote k) as [[]|]; reflexivity. Qed.
Lemma closed_cons b l : b <> 34 -> b <> 92 -> closed l -> closed (b :: l).
Proof. intros H1 H2 Hl. exact (closed_app [b] l (closed_one b H1 H2) Hl). Qed.

Lemma hexd_fine d : 0 <= d < 16 -> 48 <= hexd d <= 102 /\ hexd d <> 92.
Proof. intros H. unfold hexd. destruct (Z.ltb_spec d 10); lia. Qed.

Lemma esc_byte_closed b : 0 <= b < 128 -> closed (esc_byte b).
Proof.
  intros Hb. unfold esc_byte.
  destruct (Z.eqb_spec b 34) as [->|H1]; [apply closed_esc|].
  destruct (Z.eqb_spec b 92) as [->|H2]; [apply closed_esc|].
  cbn [orb].
  destruct (Z.eqb_spec b 10) as [->|H3]; [apply closed_esc|].
  destruct (Z.eqb_spec b 13) as [->|H4]; [apply closed_esc|].
  destruct (Z.eqb_spec b 9) as [->|H5]; [apply closed_esc|].
  destruct ((b <? 32) || (b =? 60) || (b =? 62) || (b =? 38)) eqn:E; [|apply closed_one; assumption].
  apply closed_app.
  - change (txt "\u00") with ([92; 117] ++ [48; 48]). apply closed_app; [apply closed_esc|].
    apply closed_cons; [lia|lia|apply closed_one; lia].
  - pose proof (Z.mod_pos_bound b 16 ltac:(lia)).
    pose proof (hexd_fine (b mod 16) ltac:(lia)).
    assert (0 <= b / 16 < 16) by (split; [apply Z.div_pos|apply Z.div_lt_upper_bound]; lia).
    pose proof (hexd_fine (b / 16) ltac:(lia)).
    apply closed_cons; [lia|lia|apply closed_one; lia].
Qed.

Lemma closed_high l r : Forall (fun b => 128 <= b) l -> closed r -> closed (l ++ r).
Proof.
  induction 1 as [|b l Hb Hl IH]; intros Hr; [exact Hr|]. cbn [app]. apply closed_cons; [lia|lia|apply IH, Hr].
Qed.

Lemma fffd_closed : closed (txt "\ufffd").
Proof.
  change (txt "\ufffd") with ([92; 117] ++ [102; 102; 102; 100]). apply closed_app; [apply closed_esc|].
  repeat (apply closed_cons; [lia|lia|]). apply closed_nil.
Qed.

Lemma seq2_high a b : seq2 a b = true -> 128 <= a /\ 128 <= b.
Proof. unfold seq2, cont. rewrite !andb_true_iff, !Z.leb_le. lia. Qed.
Lemma seq3_high a b c : seq3 a b c = true -> 128 <= a /\ 128 <= b /\ 128 <= c.
Proof. unfold seq3, cont. rewrite !andb_true_iff, !orb_true_iff, !andb_true_iff, !Z.leb_le, !Z.eqb_eq. lia. Qed.
Lemma seq4_high a b c d : seq4 a b c d = true -> 128 <= a /\ 128 <= b /\ 128 <= c /\ 128 <= d.
Proof. unfold seq4, cont. rewrite !andb_true_iff, !orb_true_iff, !andb_true_iff, !Z.leb_le, !Z.eqb_eq. lia. Qed.

Lemma esc_closed n : forall bs, (length bs <= n)%nat -> bytes bs -> closed (esc bs).
Proof.
  induction n as [|n IH]; intros bs H Hb; [destruct bs; [apply closed_nil|cbn in H; lia]|].
  destruct bs as [|b0 t]; [apply closed_nil|]. cbn [length] in H.
  inversion Hb as [|? ? Hb0 Hbt]; subst. change (bytes t) in Hbt.
  assert (Hbad : closed (txt "\ufffd" ++ esc t)) by (apply closed_app; [apply fffd_closed|apply IH; [lia|exact Hbt]]).
  cbn [esc].
  destruct (Z.ltb_spec b0 128).
  { apply closed_app; [apply esc_byte_closed; lia|apply IH; [lia|exact Hbt]]. }
  destruct t as [|b1 t1]; [exact Hbad|]. cbn [length] in H. inversion Hbt as [|? ? Hb1 Hbt1]; subst. change (bytes t1) in Hbt1.
  destruct (seq2 b0 b1) eqn:E2.
  { apply (closed_high [b0; b1]); [|apply IH; [lia|exact Hbt1]].
    destruct (seq2_high _ _ E2). repeat constructor; assumption. }
  destruct t1 as [|b2 t2]; [exact Hbad|]. cbn [length] in H. inversion Hbt1 as [|? ? Hb2 Hbt2]; subst. change (bytes t2) in Hbt2.
  destruct (seq3 b0 b1 b2) eqn:E3.
  { apply closed_app; [|apply IH; [lia|exact Hbt2]]. destruct (line_sep b0 b1 b2) eqn:El.
    - apply closed_app.
      + change (txt "\u202") with ([92; 117] ++ [50; 48; 50]). apply closed_app; [apply closed_esc|].
        repeat (apply closed_cons; [lia|lia|]). apply closed_nil.
      + unfold line_sep in El. rewrite !andb_true_iff, orb_true_iff, !Z.eqb_eq in El. apply closed_one; lia.
    - apply (closed_high [b0; b1; b2] []); [|apply closed_nil]. destruct (seq3_high _ _ _ E3) as (? & ? & ?).
      repeat constructor; assumption. }
  destruct t2 as [|b3 t3]; [exact Hbad|]. cbn [length] in H. inversion Hbt2 as [|? ? Hb3 Hbt3]; subst. change (bytes t3) in Hbt3.
  destruct (seq4 b0 b1 b2 b3) eqn:E4; [|exact Hbad].
  apply (closed_high [b0; b1; b2; b3]); [|apply IH; [lia|exact Hbt3]]. destruct (seq4_high _ _ _ _ E4) as (? & ? & ? & ?).
  repeat constructor; assumption.
Qed.

Lemma read_quote bs k : bytes bs -> read_string (esc bs ++ 34 :: k) = Some (json_text bs, k).
Proof.
  intros Hb. unfold read_string. rewrite (esc_closed _ bs (Nat.le_refl _) Hb). cbn [to_quote].
  change (34 =? 34) with true. cbv iota. rewrite app_nil_r, (unesc_esc _ bs (Nat.le_refl _) Hb). reflexivity.
Qed.

(** * Values *)

Lemma quote_app bs k : quote bs ++ k = 34 :: esc bs ++ 34 :: k.
Proof. unfold quote. rewrite <- !app_assoc. reflexivity. Qed.
Lemma skip_first b k : b <> 32 -> b <> 9 -> b <> 10 -> b <> 13 -> skip (b :: k) = b :: k.
Proof.
  intros H1 H2 H3 H4. cbn [skip].
  rewrite (proj2 (Z.eqb_neq _ _) H1), (proj2 (Z.eqb_neq _ _) H2), (proj2 (Z.eqb_neq _ _) H3), (proj2 (Z.eqb_neq _ _) H4).
  reflexivity.
Qed.

Lemma commas_cons x y l : commas (x :: y :: l) = x ++ [44] ++ commas (y :: l).
Proof. reflexivity. Qed.

(** What a value's text starts with. *)
Lemma first_byte j : exists b t, jtext j = b :: t /\ b <> 93 /\ b <> 125 /\ b <> 32 /\ b <> 9 /\ b <> 10 /\ b <> 13.
Proof.
  destruct j as [|[]|z|bs|l|l].
  - exists 110, (txt "ull"). split; [reflexivity|lia].
  - exists 116, (txt "rue"). split; [reflexivity|lia].
  - exists 102, (txt "alse"). split; [reflexivity|lia].
  - destruct (num_first z) as (b & t & E & Hb). exists b, t. split; [exact E|]. unfold is_digit in Hb.
    rewrite andb_true_iff, !Z.leb_le in Hb. lia.
  - exists 34, (esc bs ++ [34]). split; [reflexivity|lia].
  - exists 91, (commas (map jtext l) ++ [93]). split; [reflexivity|lia].
  - exists 123, (commas (map member_text' l) ++ [125]). split; [rewrite obj_members; reflexivity|lia].
Qed.
Lemma text_skip j k : skip (jtext j ++ k) = jtext j ++ k.
Proof. destruct (first_byte j) as (b & t & E & ? & ? & ? & ? & ? & ?). rewrite E. apply skip_first; assumption. Qed.
Lemma text_len j : (1 <= length (jtext j))%nat.
Proof. destruct (first_byte j) as (b & t & E & _). rewrite E. cbn. lia. Qed.

Definition cost (l : list (list Z)) : nat := sum_list_with (fun x => S (length x)) l.
Lemma cost_commas l : l <> [] -> S (length (commas l)) = cost l.
Proof.
  induction l as [|x l IH]; [congruence|]. intros _. destruct l as [|y l]; [cbn; lia|].
  rewrite commas_cons, !app_length. unfold cost in *. cbn [sum_list_with] in *. specialize (IH ltac:(discriminate)).
  cbn [length]. lia.
Qed.

Lemma read_all n :
  (forall j k, good j -> stops k -> (length (jtext j) <= n)%nat -> read_value n (jtext j ++ k) = Some (norm j, k)) /\
  (forall l k, l <> [] -> Forall good l -> (cost (map jtext l) <= n)%nat ->
     read_items n (commas (map jtext l) ++ 93 :: k) = Some (map norm l, k)) /\
  (forall l k, l <> [] -> Forall (fun e => bytes (fst e) /\ good (snd e)) l -> (cost (map member_text' l) <= n)%nat ->
     read_members n (commas (map member_text' l) ++ 125 :: k)
     = Some (map (fun e => (json_text (fst e), norm (snd e))) l, k)).
Proof.
  induction n as [|n (IHv & IHi & IHm)].
  { split; [|split].
    - intros j k _ _ H. pose proof (text_len j). lia.
    - intros [|x l] k Hn _ H; [congruence|]. unfold cost in H. cbn [map sum_list_with] in H. lia.
    - intros [|x l] k Hn _ H; [congruence|]. unfold cost in H. cbn [map sum_list_with] in H. lia. }
  split; [|split].
  - intros j k Hg Hk H. cbn [read_value]. rewrite text_skip. destruct j as [|[]|z|bs|l|l].
    + reflexivity.
    + reflexivity.
    + reflexivity.
    + pose proof (read_num_num z k Hk) as Hr. cbn [jtext norm]. destruct (num_first z) as (b & t & E & Hb).
      rewrite E in *. cbn [app] in *. unfold is_digit in Hb. rewrite andb_true_iff, !Z.leb_le in Hb.
      rewrite (proj2 (Z.eqb_neq b 34)), (proj2 (Z.eqb_neq b 91)), (proj2 (Z.eqb_neq b 123)), (proj2 (Z.eqb_neq b 110)), (proj2 (Z.eqb_neq b 116)), (proj2 (Z.eqb_neq b 102)) by lia.
      rewrite Hr. reflexivity.
    + cbn [jtext norm]. rewrite quote_app. change (34 =? 34) with true. cbv iota.
      rewrite (read_quote bs k Hg). reflexivity.
    + cbn [jtext norm] in *. unfold arr in *. rewrite <- !app_assoc. cbn [app].
      change (91 =? 34) with false. change (91 =? 91) with true. cbv iota.
      destruct l as [|x l]; [reflexivity|].
      destruct (first_byte x) as (b & t & E & ? & ? & ? & ? & ? & ?).
      assert (Hc : exists t', commas (map jtext (x :: l)) ++ 93 :: k = b :: t').
      { destruct l as [|y l]; cbn [map]; [cbn [commas]|rewrite commas_cons]; rewrite E; eexists; reflexivity. }
      assert (Hr : read_items n (commas (map jtext (x :: l)) ++ 93 :: k) = Some (map norm (x :: l), k)).
      { apply IHi; [discriminate|apply good_arr, Hg|]. rewrite <- (cost_commas (map jtext (x :: l))) by discriminate.
        rewrite !app_length in H. cbn [length] in H. lia. }
      destruct Hc as [t' Hc]. rewrite Hr, Hc, skip_first by assumption. cbn [after].
      rewrite (proj2 (Z.eqb_neq b 93)) by assumption. reflexivity.
    + rewrite obj_members, norm_members in *. rewrite <- !app_assoc. cbn [app].
      change (123 =? 34) with false. change (123 =? 91) with false. change (123 =? 123) with true. cbv iota.
      destruct l as [|[x v] l]; [reflexivity|].
      assert (Hc : exists t', commas (map member_text' ((x, v) :: l)) ++ 125 :: k = 34 :: t').
      { destruct l as [|y l]; cbn [map]; [cbn [commas]|rewrite commas_cons]; unfold member_text' at 1; cbn [fst];
          rewrite <- ?app_assoc, quote_app; eexists; reflexivity. }
      assert (Hr : read_members n (commas (map member_text' ((x, v) :: l)) ++ 125 :: k)
                   = Some (map (fun e => (json_text (fst e), norm (snd e))) ((x, v) :: l), k)).
      { apply IHm; [discriminate|apply good_obj, Hg|]. rewrite <- (cost_commas (map member_text' ((x, v) :: l))) by discriminate.
        rewrite !app_length in H. cbn [length] in H. lia. }
      destruct Hc as [t' Hc]. rewrite Hr, Hc, skip_first by lia. reflexivity.
  - intros [|x l] k Hn Hf H; [congruence|]. inversion Hf as [|? ? Hx Hl]; subst.
    unfold cost in H. cbn [map sum_list_with] in H. pose proof (text_len x).
    cbn [read_items]. destruct l as [|y l].
    + cbn [map commas]. rewrite IHv; [|exact Hx|reflexivity|lia]. reflexivity.
    + cbn [map]. rewrite commas_cons, <- !app_assoc. rewrite IHv; [|exact Hx|reflexivity|lia].
      change (more_or_end 93 ([44] ++ commas (jtext y :: map jtext l) ++ 93 :: k))
        with (Some (true, commas (map jtext (y :: l)) ++ 93 :: k)). cbv iota beta.
      rewrite (IHi (y :: l) k); [reflexivity|discriminate|exact Hl|]. unfold cost. cbn [map sum_list_with] in *. lia.
  - intros [|[key v] l] k Hn Hf H; [congruence|]. inversion Hf as [|? ? Hx Hl]; subst. destruct Hx as [Hkey Hv]. cbn [fst snd] in *.
    unfold cost in H. cbn [map sum_list_with] in H.
    assert (Hlen : (length (jtext v) < length (member_text' (key, v)))%nat).
    { unfold member_text'. cbn [fst snd]. rewrite !app_length. cbn [length]. lia. }
    cbn [read_members].
    assert (Hstep : forall rest, after 34 (skip (member_text' (key, v) ++ rest)) = Some (esc key ++ 34 :: 58 :: jtext v ++ rest)).
    { intros rest. unfold member_text'. cbn [fst snd]. rewrite <- !app_assoc, quote_app, skip_first by lia. reflexivity. }
    destruct l as [|y l].
    + cbn [map commas]. rewrite Hstep, (read_quote key _ Hkey).
      change (after 58 (skip (58 :: jtext v ++ 125 :: k))) with (Some (jtext v ++ 125 :: k)). cbv iota.
      rewrite IHv; [reflexivity|exact Hv|reflexivity|lia].
    + cbn [map]. rewrite commas_cons, <- !app_assoc, Hstep, (read_quote key _ Hkey). cbn [app].
      change (after 58 (skip (58 :: jtext v ++ 44 :: commas (member_text' y :: map member_text' l) ++ 125 :: k)))
        with (Some (jtext v ++ 44 :: commas (member_text' y :: map member_text' l) ++ 125 :: k)). cbv iota.
      rewrite IHv; [|exact Hv|reflexivity|lia].
      change (more_or_end 125 (44 :: commas (member_text' y :: map member_text' l) ++ 125 :: k))
        with (Some (true, commas (map member_text' (y :: l)) ++ 125 :: k)). cbv iota beta.
      rewrite (IHm (y :: l) k); [reflexivity|discriminate|exact Hl|]. unfold cost. cbn [map sum_list_with] in *. lia.
Qed.

Lemma read_text j ws : good j -> skip ws = [] -> read_json (jtext j ++ ws) = Some (norm j).
Proof.
  intros Hg Hw. unfold read_json. destruct (read_all (length (jtext j ++ ws))) as (H & _ & _).
  rewrite H; [rewrite Hw; reflexivity|exact Hg| |rewrite app_length; lia].
  destruct ws as [|b ws]; [exact I|]. cbn [skip stops] in *. unfold is_digit.
  destruct ((b =? 32) || (b =? 9) || (b =? 10) || (b =? 13)) eqn:E; [|discriminate].
  rewrite !orb_true_iff, !Z.eqb_eq in E. apply andb_false_iff. rewrite !Z.leb_gt. lia.
Qed.
