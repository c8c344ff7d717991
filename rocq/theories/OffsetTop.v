(** Detection as a whole, and the command line. *)
From Coq Require Import ZArith String Ascii Bool Lia.
From stdpp Require Import base list numbers strings gmap.
From Verif Require Import OffsetModel OffsetSpec OffsetProofs.

Local Open Scope string_scope.
Local Open Scope Z_scope.

(** * Ballots *)

Lemma vote_of_fun (P : string -> Prop) a b : (forall x y, P x -> P y -> x = y) -> vote_of P a -> vote_of P b -> a = b.
Proof.
  intros F [(x & Hx & ->)|[N ->]] [(y & Hy & ->)|[M ->]]; [rewrite (F _ _ Hx Hy); reflexivity|destruct (M _ Hx)|destruct (N _ Hy)|reflexivity].
Qed.
Lemma nsproxy_ballot_iff code syms vs : nsproxy_ballot (lock_of syms) code vs <->
  vs = if String.eqb (nsproxy_search code syms) "" then [] else [nsproxy_search code syms].
Proof.
  set (s := nsproxy_search code syms). assert (D : nsproxy_ballot (lock_of syms) code (if String.eqb s "" then [] else [s])).
  { unfold nsproxy_ballot. destruct (String.eqb_spec s "") as [E|E].
    - right. split; [|reflexivity]. intros off H. assert (off <> "") by (intros ->; exact (load_not_empty _ _ H)).
      apply nsproxy_search_spec in H; [|assumption]. fold s in H. congruence.
    - left. exists s. split; [|reflexivity]. apply nsproxy_search_spec; [exact E|reflexivity]. }
  split; [|intros ->; exact D]. intros H. refine (vote_of_fun _ _ _ _ H D). intros x y Hx Hy.
  assert (x <> "") by (intros ->; exact (load_not_empty _ _ Hx)). assert (y <> "") by (intros ->; exact (load_not_empty _ _ Hy)).
  apply nsproxy_search_spec in Hx; [|assumption]. apply nsproxy_search_spec in Hy; [|assumption]. congruence.
Qed.
Lemma lea_vote_iff l vs : vote_of (first_in lea_at l) vs <-> vs = match find re_lea l with Some o => [o] | None => [] end.
Proof.
  assert (D : vote_of (first_in lea_at l) (match find re_lea l with Some o => [o] | None => [] end)).
  { destruct (find re_lea l) eqn:E; [left; eexists; split; [apply find_lea, E|reflexivity]|right]. split; [|reflexivity]. intros off H. apply find_lea in H. congruence. }
  split; [|intros ->; exact D]. intros H. refine (vote_of_fun _ _ _ _ H D). intros x y Hx Hy. apply find_lea in Hx, Hy. congruence.
Qed.
Lemma pidns_ballot_iff code vs : pidns_ballot code vs <-> vs = pidns_search code.
Proof.
  unfold pidns_ballot, pidns_search. generalize (scan code). intros ls. revert vs. induction ls as [|l ls IH]; intros vs.
  - split; [intros (p & F & ->); inversion F; reflexivity|]. intros ->. exists []. split; [constructor|reflexivity].
  - split.
    + intros (p & F & ->). inversion F as [|? v ? p' H1 H2]; subst. apply lea_vote_iff in H1 as ->. cbn [concat omap list_omap].
      rewrite (proj1 (IH (concat p')) (ex_intro _ p' (conj H2 eq_refl))). destruct (find re_lea l); reflexivity.
    + intros ->. destruct (proj2 (IH (omap (find re_lea) ls)) eq_refl) as (p & F & E).
      exists ((match find re_lea l with Some o => [o] | None => [] end) :: p). split; [constructor; [apply lea_vote_iff; reflexivity|exact F]|].
      cbn [concat omap list_omap]. rewrite <- E. destruct (find re_lea l); reflexivity.
Qed.
Lemma nsproxy_ballots_iff syms dump fns : forall votes, ballots (nsproxy_ballot (lock_of syms)) syms dump fns votes <-> nsproxy_votes syms dump fns = Some votes.
Proof.
  induction fns as [|fn fns IH]; intros votes; cbn [nsproxy_votes].
  - split; [intros H; inversion H; reflexivity|]. intros [= <-]. constructor.
  - split.
    + intros H. inversion H as [|? ? addr code vs rest E1 E2 B R]; subst. rewrite E1, E2. apply IH in R. rewrite R. apply nsproxy_ballot_iff in B as ->. cbv zeta.
      destruct (String.eqb (nsproxy_search code syms) ""); reflexivity.
    + destruct (syms !! fn) as [addr|] eqn:E1; [|discriminate]. destruct (dump addr) as [code|] eqn:E2; [|discriminate].
      destruct (nsproxy_votes syms dump fns) as [l|]; [|discriminate]. cbv zeta. intros [= <-].
      replace (if String.eqb (nsproxy_search code syms) "" then l else nsproxy_search code syms :: l)
        with ((if String.eqb (nsproxy_search code syms) "" then [] else [nsproxy_search code syms]) ++ l)%list by (destruct (String.eqb (nsproxy_search code syms) ""); reflexivity).
      apply ballots_cons with addr code; [exact E1|exact E2|apply nsproxy_ballot_iff; reflexivity|apply IH; reflexivity].
Qed.
Lemma pidns_ballots_iff syms dump fns : forall votes, ballots pidns_ballot syms dump fns votes <-> pidns_votes syms dump fns = Some votes.
Proof.
  induction fns as [|fn fns IH]; intros votes; cbn [pidns_votes].
  - split; [intros H; inversion H; reflexivity|]. intros [= <-]. constructor.
  - split.
    + intros H. inversion H as [|? ? addr code vs rest E1 E2 B R]; subst. rewrite E1, E2. apply IH in R. rewrite R. apply pidns_ballot_iff in B as ->. reflexivity.
    + destruct (syms !! fn) as [addr|] eqn:E1; [|discriminate]. destruct (dump addr) as [code|] eqn:E2; [|discriminate].
      destruct (pidns_votes syms dump fns) as [l|]; [|discriminate]. intros [= <-].
      apply ballots_cons with addr code; [exact E1|exact E2|apply pidns_ballot_iff; reflexivity|apply IH; reflexivity].
Qed.
Lemma ns_no_empty syms dump votes : ballots (nsproxy_ballot (lock_of syms)) syms dump nsproxy_probes votes -> ~ In "" votes.
Proof. intros H. apply nsproxy_ballots_iff in H. apply nsproxy_votes_some in H. tauto. Qed.
Lemma pid_no_empty syms dump votes : ballots pidns_ballot syms dump pidns_probes votes -> ~ In "" votes.
Proof. intros H. apply pidns_ballots_iff in H. apply pidns_votes_some in H. tauto. Qed.

Lemma winner_nonempty walk votes : walks_map walk -> ~ In "" votes -> (String.eqb (winner walk votes) "" = true <-> votes = []).
Proof.
  intros W N. destruct (winner_spec walk votes W) as [A B]. rewrite String.eqb_eq. split.
  - intros E. destruct votes as [|x v]; [reflexivity|]. destruct B as [B _]; [discriminate|]. rewrite E in B. destruct (N B).
  - exact A.
Qed.

(** * Detection *)

Lemma most_voted_not_nil votes o : most_voted votes o -> votes <> [].
Proof. intros [H _] ->. destruct H. Qed.

Lemma number_parse o n : offset_number o n -> n < 2 ^ 63 -> parse_int (trim_prefix "0x" o) = Some n.
Proof.
  intros (w & ds & -> & H & N & ->) L. rewrite trim_0x, (parse_int_digits w ds H N). destruct (Z.ltb_spec (hex_value ds) (2 ^ 63)); [reflexivity|lia].
Qed.
Lemma ns_vote_word syms dump votes o : ballots (nsproxy_ballot (lock_of syms)) syms dump nsproxy_probes votes -> In o votes -> exists w, o = "0x" +:+ w /\ run re_word w.
Proof.
  intros B H. apply nsproxy_ballots_iff, nsproxy_votes_some in B as (_ & _ & B). apply B in H as (fn & a & c & _ & _ & _ & (l1 & lk & l2 & mv & l3 & _ & _ & _ & _ & H)).
  destruct H as (pre & s' & _ & (sp & r & b & w & rest & _ & _ & _ & _ & R & E) & _). exists w. split; assumption.
Qed.
Lemma pid_vote_word syms dump votes o : ballots pidns_ballot syms dump pidns_probes votes -> In o votes -> exists w, o = "0x" +:+ w /\ run re_word w.
Proof.
  intros B H. apply pidns_ballots_iff, pidns_votes_some in B as (_ & _ & B). apply B in H as (fn & a & c & l & _ & _ & _ & _ & H).
  destruct H as (pre & s' & _ & (sp & r & b & sg & w & rest & _ & _ & _ & _ & _ & R & E) & _). exists w. split; assumption.
Qed.
Lemma word_number w n : run re_word w -> parse_int (trim_prefix "0x" ("0x" +:+ w)) = Some n -> offset_number ("0x" +:+ w) n /\ n < 2 ^ 63.
Proof.
  intros [_ R] H. rewrite trim_0x in H. destruct (hex_from 0 w) as [v|] eqn:E.
  - assert (X : exists ds, hex_digits w ds).
    { clear -E. revert v E. generalize 0. induction w as [|c w IH]; intros a v E; [exists []; reflexivity|]. cbn [hex_from] in E. destruct (hex_digit c) as [d|] eqn:D; [|discriminate].
      destruct (IH _ _ E) as (ds & H). exists (d :: ds). unfold hex_digits in *. cbn [String.list_ascii_of_string map]. rewrite D, H. reflexivity. }
    destruct X as (ds & X). destruct (decide (ds = [])) as [->|N].
    + destruct w; [discriminate|]. discriminate.
    + rewrite (parse_int_digits w ds X N) in H. destruct (Z.ltb_spec (hex_value ds) (2 ^ 63)); [|discriminate]. injection H as <-. split; [|assumption]. exists w, ds. tauto.
  - exfalso. rewrite parse_int_word in H; [discriminate|exact R|]. intros (ds & _ & X). apply (proj1 (hex_from_none w 0) E). exists ds. exact X.
Qed.

Lemma set_both refuses cfg n1 n2 : (forall t, refuses t = false) ->
  set_offset refuses cfg (SetString "nsproxy") n1 = (false, <[1 := n1 mod 2 ^ 32]> cfg) /\ set_offset refuses cfg (SetString "pid_ns_common") n2 = (false, <[2 := n2 mod 2 ^ 32]> cfg).
Proof. intros R. unfold set_offset. change (real_type (SetString "nsproxy")) with 1. change (real_type (SetString "pid_ns_common")) with 2. rewrite !R. split; reflexivity. Qed.
Lemma set_ns refuses cfg n : set_offset refuses cfg (SetString "nsproxy") n = if refuses 1 then (true, cfg) else (false, <[1 := n mod 2 ^ 32]> cfg).
Proof. reflexivity. Qed.
Lemma set_pid refuses cfg n : set_offset refuses cfg (SetString "pid_ns_common") n = if refuses 2 then (true, cfg) else (false, <[2 := n mod 2 ^ 32]> cfg).
Proof. reflexivity. Qed.

Lemma set_detected_ok w cfg o1 o2 n1 n2 : can_set w -> offset_number o1 n1 -> n1 < 2 ^ 63 -> offset_number o2 n2 -> n2 < 2 ^ 63 ->
  set_detected w o1 o2 cfg = (ONil, both_set cfg n1 n2).
Proof.
  intros [M R] H1 L1 H2 L2. unfold set_detected. rewrite (number_parse _ _ H1 L1), (number_parse _ _ H2 L2), M. cbn [negb]. rewrite set_ns, R, set_pid, R. reflexivity.
Qed.
Lemma set_detected_cases w cfg o1 o2 r cfg' : set_detected w o1 o2 cfg = (r, cfg') ->
  (exists n1 n2, parse_int (trim_prefix "0x" o1) = Some n1 /\ parse_int (trim_prefix "0x" o2) = Some n2 /\ r = ONil /\ cfg' = both_set cfg n1 n2)
  \/ r = OErr /\ cfg' = cfg \/ r = OErr /\ w_refuses w 2 = true /\ exists n1, parse_int (trim_prefix "0x" o1) = Some n1 /\ cfg' = <[1 := n1 mod 2 ^ 32]> cfg.
Proof.
  unfold set_detected. destruct (parse_int (trim_prefix "0x" o1)) as [n1|]; [|intros [= <- <-]; tauto].
  destruct (parse_int (trim_prefix "0x" o2)) as [n2|]; [|intros [= <- <-]; tauto]. destruct (w_map w); cbn [negb]; [|intros [= <- <-]; tauto].
  rewrite set_ns. destruct (w_refuses w 1); [intros [= <- <-]; tauto|]. rewrite set_pid. destruct (w_refuses w 2) eqn:R.
  - intros [= <- <-]. right. right. split; [reflexivity|]. split; [reflexivity|]. exists n1. split; reflexivity.
  - intros [= <- <-]. left. exists n1, n2. split_and!; reflexivity.
Qed.

(** The model's detection once the election is known. *)
Lemma detect_election k1 k2 w cfg votes1 votes2 : walks_map k1 -> walks_map k2 -> election w votes1 votes2 ->
  detect k1 k2 w cfg = if bool_decide (votes1 = []) then (ONil, cfg) else if bool_decide (votes2 = []) then (ONil, cfg) else set_detected w (winner k1 votes1) (winner k2 votes2) cfg.
Proof.
  intros W1 W2 (text & syms & E1 & E2 & B1 & B2). change nsproxy_users with nsproxy_probes in B1. change pidns_users with pidns_probes in B2. unfold detect. rewrite E1, E2, (proj1 (nsproxy_ballots_iff _ _ _ _) B1). cbv zeta.
  pose proof (winner_nonempty k1 votes1 W1 (ns_no_empty _ _ _ B1)) as X1. pose proof (winner_nonempty k2 votes2 W2 (pid_no_empty _ _ _ B2)) as X2.
  destruct (decide (votes1 = [])) as [->|N1].
  - rewrite (proj2 X1 eq_refl). reflexivity.
  - rewrite (bool_decide_eq_false_2 _ N1). destruct (String.eqb (winner k1 votes1) "") eqn:Q; [destruct (N1 (proj1 X1 eq_refl))|].
    rewrite (proj1 (pidns_ballots_iff _ _ _ _) B2). destruct (decide (votes2 = [])) as [->|N2].
    + rewrite (proj2 X2 eq_refl). reflexivity.
    + rewrite (bool_decide_eq_false_2 _ N2). destruct (String.eqb (winner k2 votes2) "") eqn:Q2; [destruct (N2 (proj1 X2 eq_refl))|]. reflexivity.
Qed.

Lemma detect_sets k1 k2 w cfg votes1 votes2 : walks_map k1 -> walks_map k2 -> election w votes1 votes2 -> votes1 <> [] -> votes2 <> [] ->
  can_set w -> numeric votes1 -> numeric votes2 ->
  exists o1 o2 n1 n2, most_voted votes1 o1 /\ most_voted votes2 o2 /\ offset_number o1 n1 /\ offset_number o2 n2 /\ detect k1 k2 w cfg = (ONil, both_set cfg n1 n2).
Proof.
  intros W1 W2 E N1 N2 C M1 M2. rewrite (detect_election k1 k2 w cfg _ _ W1 W2 E), (bool_decide_eq_false_2 _ N1), (bool_decide_eq_false_2 _ N2).
  destruct (winner_spec k1 votes1 W1) as [_ V1]. destruct (winner_spec k2 votes2 W2) as [_ V2]. specialize (V1 N1). specialize (V2 N2).
  destruct (M1 _ (proj1 V1)) as (n1 & H1 & L1). destruct (M2 _ (proj1 V2)) as (n2 & H2 & L2).
  exists (winner k1 votes1), (winner k2 votes2), n1, n2. split_and!; try assumption. exact (set_detected_ok w cfg _ _ _ _ C H1 L1 H2 L2).
Qed.
Lemma clear_is_most votes o : clear_winner votes o -> most_voted votes o.
Proof. intros [H C]. split; [exact H|]. intros o'. destruct (decide (o' = o)) as [->|N]; [lia|]. pose proof (C o' N). lia. Qed.
Lemma clear_unique votes o o' : clear_winner votes o -> most_voted votes o' -> o' = o.
Proof. intros [_ C] [_ M]. destruct (decide (o' = o)) as [|N]; [assumption|]. pose proof (C o' N). pose proof (M o). lia. Qed.
Lemma detect_clear k1 k2 w cfg votes1 votes2 o1 o2 n1 n2 : walks_map k1 -> walks_map k2 -> election w votes1 votes2 -> can_set w ->
  clear_winner votes1 o1 -> clear_winner votes2 o2 -> offset_number o1 n1 -> n1 < 2 ^ 63 -> offset_number o2 n2 -> n2 < 2 ^ 63 ->
  detect k1 k2 w cfg = (ONil, both_set cfg n1 n2).
Proof.
  intros W1 W2 E C C1 C2 H1 L1 H2 L2. pose proof (most_voted_not_nil _ _ (clear_is_most _ _ C1)) as N1. pose proof (most_voted_not_nil _ _ (clear_is_most _ _ C2)) as N2.
  rewrite (detect_election k1 k2 w cfg _ _ W1 W2 E), (bool_decide_eq_false_2 _ N1), (bool_decide_eq_false_2 _ N2).
  rewrite (clear_unique _ _ _ C1 (proj2 (winner_spec k1 votes1 W1) N1)), (clear_unique _ _ _ C2 (proj2 (winner_spec k2 votes2 W2) N2)).
  exact (set_detected_ok w cfg _ _ _ _ C H1 L1 H2 L2).
Qed.
Lemma detect_any w cfg votes1 votes2 o1 o2 n1 n2 : election w votes1 votes2 -> can_set w ->
  most_voted votes1 o1 -> most_voted votes2 o2 -> offset_number o1 n1 -> n1 < 2 ^ 63 -> offset_number o2 n2 -> n2 < 2 ^ 63 ->
  exists k1 k2, walks_map k1 /\ walks_map k2 /\ detect k1 k2 w cfg = (ONil, both_set cfg n1 n2).
Proof.
  intros E C V1 V2 H1 L1 H2 L2. exists (walk_first o1), (walk_first o2). split; [apply walk_first_ok|]. split; [apply walk_first_ok|].
  rewrite (detect_election _ _ w cfg _ _ (walk_first_ok o1) (walk_first_ok o2) E), (bool_decide_eq_false_2 _ (most_voted_not_nil _ _ V1)), (bool_decide_eq_false_2 _ (most_voted_not_nil _ _ V2)).
  rewrite (any_most_voted_can_win _ _ V1), (any_most_voted_can_win _ _ V2). exact (set_detected_ok w cfg _ _ _ _ C H1 L1 H2 L2).
Qed.
Lemma detect_nothing k1 k2 w cfg votes1 votes2 : walks_map k1 -> walks_map k2 -> election w votes1 votes2 -> votes1 = [] \/ votes2 = [] -> detect k1 k2 w cfg = (ONil, cfg).
Proof.
  intros W1 W2 E H. rewrite (detect_election k1 k2 w cfg _ _ W1 W2 E). destruct (decide (votes1 = [])) as [->|N]; [reflexivity|].
  rewrite (bool_decide_eq_false_2 _ N). destruct H as [H| ->]; [contradiction|]. reflexivity.
Qed.

Lemma detect_cases k1 k2 w cfg r cfg' : walks_map k1 -> walks_map k2 -> detect k1 k2 w cfg = (r, cfg') ->
  cfg' = cfg \/ exists text syms votes1 votes2 o1 n1, w_syms w = Some text /\ parse_kernel_syms text = Some syms
    /\ ballots (nsproxy_ballot (lock_of syms)) syms (w_dump w) nsproxy_probes votes1 /\ ballots pidns_ballot syms (w_dump w) pidns_probes votes2
    /\ most_voted votes1 o1 /\ offset_number o1 n1 /\ n1 < 2 ^ 63
    /\ (r = ONil /\ (exists o2 n2, most_voted votes2 o2 /\ offset_number o2 n2 /\ n2 < 2 ^ 63 /\ cfg' = both_set cfg n1 n2)
        \/ r = OErr /\ w_refuses w 2 = true /\ cfg' = <[1 := n1 mod 2 ^ 32]> cfg).
Proof.
  intros W1 W2. unfold detect. destruct (w_syms w) as [text|]; [|intros [= <- <-]; tauto].
  destruct (parse_kernel_syms text) as [syms|] eqn:E2; [|intros [= <- <-]; tauto].
  destruct (nsproxy_votes syms (w_dump w) nsproxy_probes) as [votes1|] eqn:V1; [|intros [= <- <-]; tauto]. cbv zeta.
  apply nsproxy_ballots_iff in V1. pose proof (winner_nonempty k1 votes1 W1 (ns_no_empty _ _ _ V1)) as X1.
  destruct (String.eqb (winner k1 votes1) "") eqn:Q1; [intros [= <- <-]; tauto|].
  destruct (pidns_votes syms (w_dump w) pidns_probes) as [votes2|] eqn:V2; [|intros [= <- <-]; tauto].
  apply pidns_ballots_iff in V2. pose proof (winner_nonempty k2 votes2 W2 (pid_no_empty _ _ _ V2)) as X2.
  destruct (String.eqb (winner k2 votes2) "") eqn:Q2; [intros [= <- <-]; tauto|]. intros H.
  assert (N1 : votes1 <> []) by (intros N; apply X1 in N; discriminate). assert (N2 : votes2 <> []) by (intros N; apply X2 in N; discriminate).
  pose proof (proj2 (winner_spec k1 votes1 W1) N1) as M1. pose proof (proj2 (winner_spec k2 votes2 W2) N2) as M2.
  destruct (ns_vote_word _ _ _ _ V1 (proj1 M1)) as (w1 & O1 & R1). destruct (pid_vote_word _ _ _ _ V2 (proj1 M2)) as (w2 & O2 & R2).
  apply set_detected_cases in H as [(n1 & n2 & P1 & P2 & -> & ->)|[[-> ->]|(-> & RF & n1 & P1 & ->)]]; [|tauto|].
  - right. rewrite O1 in P1. rewrite O2 in P2. destruct (word_number _ _ R1 P1) as [G1 L1]. destruct (word_number _ _ R2 P2) as [G2 L2].
    exists text, syms, votes1, votes2, (winner k1 votes1), n1. split; [reflexivity|]. split; [exact E2|]. split; [exact V1|]. split; [exact V2|].
    split; [exact M1|]. split; [rewrite O1; exact G1|]. split; [exact L1|]. left. split; [reflexivity|].
    exists (winner k2 votes2), n2. split; [exact M2|]. split; [rewrite O2; exact G2|]. split; [exact L2|]. reflexivity.
  - right. rewrite O1 in P1. destruct (word_number _ _ R1 P1) as [G1 L1].
    exists text, syms, votes1, votes2, (winner k1 votes1), n1. split; [reflexivity|]. split; [exact E2|]. split; [exact V1|]. split; [exact V2|].
    split; [exact M1|]. split; [rewrite O1; exact G1|]. split; [exact L1|]. right. split; [reflexivity|]. split; [exact RF|]. reflexivity.
Qed.

Lemma detect_missing k1 k2 w cfg text syms fn : w_syms w = Some text -> parse_kernel_syms text = Some syms -> In fn nsproxy_probes ->
  (syms !! fn = None \/ exists a, syms !! fn = Some a /\ w_dump w a = None) -> detect k1 k2 w cfg = (OErr, cfg).
Proof.
  intros E1 E2 I H. unfold detect. rewrite E1, E2. rewrite (proj2 (nsproxy_votes_none _ _ _)); [reflexivity|]. exists fn. split; assumption.
Qed.
Lemma detect_missing2 k1 k2 w cfg text syms fn votes1 : walks_map k1 -> w_syms w = Some text -> parse_kernel_syms text = Some syms -> In fn pidns_probes ->
  (syms !! fn = None \/ exists a, syms !! fn = Some a /\ w_dump w a = None) ->
  ballots (nsproxy_ballot (lock_of syms)) syms (w_dump w) nsproxy_probes votes1 -> votes1 <> [] -> detect k1 k2 w cfg = (OErr, cfg).
Proof.
  intros W1 E1 E2 I H B N. unfold detect. rewrite E1, E2. rewrite (proj1 (nsproxy_ballots_iff _ _ _ _) B). cbv zeta.
  destruct (String.eqb (winner k1 votes1) "") eqn:Q; [destruct (N (proj1 (winner_nonempty k1 votes1 W1 (ns_no_empty _ _ _ B)) Q))|].
  rewrite (proj2 (pidns_votes_none _ _ _)); [reflexivity|]. exists fn. split; assumption.
Qed.
Lemma detect_malformed k1 k2 w cfg text : w_syms w = Some text -> parse_kernel_syms text = None -> detect k1 k2 w cfg = (OPanic, cfg).
Proof. intros E1 E2. unfold detect. rewrite E1, E2. reflexivity. Qed.

(** * Without a lock *)

Lemma mentions_empty l : mentions "" l.
Proof. exists "", l. reflexivity. Qed.
Lemma load_without_lock ls off : load_after_lock "" ls off <->
  exists first l2 mv l3, code_lines ls = (first :: l2 ++ mv :: l3)%list /\ (forall l o, In l l2 -> ~ first_in mov_at l o) /\ first_in mov_at mv off.
Proof.
  split.
  - intros ([|x l1] & lk & l2 & mv & l3 & E & H1 & H2 & H3 & H4).
    + exists lk, l2, mv, l3. split; [exact E|]. split; assumption.
    + destruct (H1 x (or_introl eq_refl) (mentions_empty x)).
  - intros (lk & l2 & mv & l3 & E & H3 & H4). exists [], lk, l2, mv, l3. split; [exact E|]. split; [intros ? []|]. split; [apply mentions_empty|]. split; assumption.
Qed.

(** * Signs *)

Lemma lea_first s off : lea_at s off -> first_in lea_at s off.
Proof. intros H. exists "", s. split; [reflexivity|]. split; [exact H|]. intros. apply le_0_n. Qed.

(** * Flags *)

Lemma args_detect k1 k2 w f cfg : fl_nodetect f = false -> offsets_from_args k1 k2 w f cfg = detect k1 k2 w cfg.
Proof. intros E. unfold offsets_from_args. rewrite E. reflexivity. Qed.
Lemma set_flag_ok w name t flag n cfg : can_set w -> (name = "nsproxy" /\ t = 1 \/ name = "pid_ns_common" /\ t = 2) -> flag <> "" -> parse_int (trim_prefix "0x" flag) = Some n ->
  set_flag w name flag cfg = (ONil, <[t := n mod 2 ^ 32]> cfg).
Proof.
  intros [M R] N F P. unfold set_flag. destruct (String.eqb_spec flag ""); [contradiction|]. rewrite P, M. cbn [negb].
  destruct N as [[-> ->]|[-> ->]]; [rewrite set_ns, R|rewrite set_pid, R]; reflexivity.
Qed.
Lemma set_flag_empty w name cfg : set_flag w name "" cfg = (ONil, cfg).
Proof. reflexivity. Qed.
Lemma set_flag_bad w name flag cfg : flag <> "" -> parse_int (trim_prefix "0x" flag) = None -> set_flag w name flag cfg = (OErr, cfg).
Proof. intros F P. unfold set_flag. destruct (String.eqb_spec flag ""); [contradiction|]. rewrite P. reflexivity. Qed.

Lemma hex_digit_range c d : hex_digit c = Some d -> 0 <= d < 16.
Proof.
  unfold hex_digit. cbv zeta. set (n := Z.of_nat (Ascii.nat_of_ascii c)).
  destruct (Z.leb_spec 48 n), (Z.leb_spec n 57), (Z.leb_spec 97 n), (Z.leb_spec n 102), (Z.leb_spec 65 n), (Z.leb_spec n 70); cbn [andb]; intros E; try discriminate; injection E as <-; lia.
Qed.
Lemma hex_value_pos w : forall ds, hex_digits w ds -> 0 <= hex_value ds.
Proof.
  induction w as [|c w IH]; intros [|d ds] H; unfold hex_digits in H; try discriminate. cbn [String.list_ascii_of_string map] in H. injection H as H1 H2.
  apply hex_digit_range in H1. specialize (IH ds H2). cbn [hex_value]. assert (0 <= 16 ^ Z.of_nat (length ds)) by (apply Z.pow_nonneg; lia). nia.
Qed.
Lemma parse_uint16_iff s n : parse_uint16 s = Some n <-> exists ds, hex_digits s ds /\ ds <> [] /\ n = hex_value ds.
Proof.
  unfold parse_uint16. destruct s as [|c s].
  - split; [discriminate|]. intros (ds & H & N & _). destruct ds; [congruence|discriminate].
  - change (String.eqb (String c s) "") with false. cbv iota. split.
    + intros E. assert (X : exists ds, hex_digits (String c s) ds).
      { clear -E. revert n E. generalize 0. generalize (String c s). clear. intros w. induction w as [|c w IH]; intros a v E; [exists []; reflexivity|]. cbn [hex_from] in E. destruct (hex_digit c) as [d|] eqn:D; [|discriminate].
        destruct (IH _ _ E) as (ds & H). exists (d :: ds). unfold hex_digits in *. cbn [String.list_ascii_of_string map]. rewrite D, H. reflexivity. }
      destruct X as (ds & X). rewrite (hex_from_spec _ 0 ds X), Z.mul_0_l, Z.add_0_l in E. injection E as <-. exists ds. split; [exact X|]. split; [|reflexivity]. intros ->. discriminate.
    + intros (ds & H & _ & ->). rewrite (hex_from_spec _ 0 ds H). rewrite Z.mul_0_l, Z.add_0_l. reflexivity.
Qed.
Lemma digit_no_sign c s ds : hex_digits (String c s) ds -> Ascii.eqb c "-" = false /\ Ascii.eqb c "+" = false /\ Ascii.eqb c "x" = false.
Proof.
  intros H. unfold hex_digits in H. destruct ds as [|d ds]; [discriminate|]. injection H as H _.
  split_and!; apply not_true_is_false; intros E; apply Ascii.eqb_eq in E; subst c; vm_compute in H; discriminate.
Qed.
Definition signed (s : string) (n : Z) : Prop := exists sign w ds, s = sign +:+ w /\ hex_digits w ds /\ ds <> []
    /\ (sign = "-" /\ n = - hex_value ds \/ (sign = "" \/ sign = "+") /\ n = hex_value ds) /\ - 2 ^ 63 <= n < 2 ^ 63.
Lemma parse_int_iff s n : parse_int s = Some n <-> signed s n.
Proof.
  destruct s as [|c s].
  - split; [discriminate|]. intros (sg & w & ds & E & H & N & Sg & _). destruct sg; [|discriminate]. change ("" +:+ w) with w in E. subst w. destruct ds; [congruence|discriminate].
  - unfold parse_int. split.
    + destruct (Ascii.eqb_spec c "-") as [->|N1].
      * destruct (parse_uint16 s) as [v|] eqn:E; [|discriminate]. apply parse_uint16_iff in E as (ds & H & N & ->). pose proof (hex_value_pos _ _ H).
        destruct (Z.leb_spec (hex_value ds) (2 ^ 63)); [|discriminate]. intros [= <-]. exists "-", s, ds. split; [reflexivity|]. split; [exact H|]. split; [exact N|]. split; [left; split; reflexivity|lia].
      * destruct (Ascii.eqb_spec c "+") as [->|N2].
        -- destruct (parse_uint16 s) as [v|] eqn:E; [|discriminate]. apply parse_uint16_iff in E as (ds & H & N & ->). pose proof (hex_value_pos _ _ H).
           destruct (Z.ltb_spec (hex_value ds) (2 ^ 63)); [|discriminate]. intros [= <-]. exists "+", s, ds. split; [reflexivity|]. split; [exact H|]. split; [exact N|]. split; [right; split; [right; reflexivity|reflexivity]|lia].
        -- destruct (parse_uint16 (String c s)) as [v|] eqn:E; [|discriminate]. apply parse_uint16_iff in E as (ds & H & N & ->). pose proof (hex_value_pos _ _ H).
           destruct (Z.ltb_spec (hex_value ds) (2 ^ 63)); [|discriminate]. intros [= <-]. exists "", (String c s), ds. split; [reflexivity|]. split; [exact H|]. split; [exact N|]. split; [right; split; [left; reflexivity|reflexivity]|lia].
    + intros (sg & w & ds & E & H & N & Sg & B). pose proof (hex_value_pos _ _ H) as P. destruct Sg as [[-> ->]|[[->| ->] ->]].
      * change ("-" +:+ w) with (String "-" w) in E. injection E as -> ->. change (Ascii.eqb "-" "-") with true. cbv iota.
        rewrite (proj2 (parse_uint16_iff w (hex_value ds))) by eauto. destruct (Z.leb_spec (hex_value ds) (2 ^ 63)); [reflexivity|lia].
      * change ("" +:+ w) with w in E. subst w. destruct (digit_no_sign _ _ _ H) as (-> & -> & _). rewrite (proj2 (parse_uint16_iff _ (hex_value ds))) by eauto.
        destruct (Z.ltb_spec (hex_value ds) (2 ^ 63)); [reflexivity|lia].
      * change ("+" +:+ w) with (String "+" w) in E. injection E as -> ->. change (Ascii.eqb "+" "-") with false. change (Ascii.eqb "+" "+") with true. cbv iota.
        rewrite (proj2 (parse_uint16_iff w (hex_value ds))) by eauto. destruct (Z.ltb_spec (hex_value ds) (2 ^ 63)); [reflexivity|lia].
Qed.
Lemma signed_no_0x s n : signed s n -> strip "0x" s = None.
Proof.
  intros (sg & w & ds & -> & H & N & Sg & _). destruct Sg as [[-> _]|[[->| ->] _]]; [reflexivity| |reflexivity].
  change ("" +:+ w) with w. destruct w as [|c w]; [reflexivity|]. cbn [strip]. destruct (Ascii.eqb_spec "0" c) as [<-|]; [|reflexivity].
  destruct w as [|d w]; [reflexivity|]. assert (H' : exists ds', hex_digits (String d w) ds').
  { unfold hex_digits in H. destruct ds as [|x ds]; [discriminate|]. injection H as _ H. exists ds. exact H. }
  destruct H' as (ds' & H'). apply digit_no_sign in H' as (_ & _ & X). cbn [strip]. rewrite Ascii.eqb_sym, X. reflexivity.
Qed.
Lemma flag_says_iff s n : parse_int (trim_prefix "0x" s) = Some n <-> flag_says s n.
Proof.
  rewrite parse_int_iff. unfold trim_prefix. split.
  - destruct (strip "0x" s) as [r|] eqn:E.
    + apply strip_spec in E. intros (sg & w & ds & -> & R). exists sg, w, ds. split; [right; exact E|exact R].
    + intros (sg & w & ds & -> & R). exists sg, w, ds. split; [left; reflexivity|exact R].
  - intros (sg & w & ds & [->| ->] & R).
    + assert (X : signed (sg +:+ w) n) by (exists sg, w, ds; split; [reflexivity|exact R]). rewrite (signed_no_0x _ _ X). exact X.
    + rewrite (proj2 (strip_spec "0x" _ (sg +:+ w)) eq_refl). exists sg, w, ds. split; [reflexivity|exact R].
Qed.
Lemma flag_says_not_empty s n : flag_says s n -> s <> "".
Proof. intros H ->. apply flag_says_iff in H. discriminate. Qed.

Lemma set_flag_sets w name t s cfg cfg' : can_set w -> (name = "nsproxy" /\ t = 1 \/ name = "pid_ns_common" /\ t = 2) -> flag_sets t s cfg cfg' -> set_flag w name s cfg = (ONil, cfg').
Proof.
  intros C N [[-> ->]|(n & H & ->)]; [reflexivity|]. apply set_flag_ok; [exact C|exact N|exact (flag_says_not_empty _ _ H)|apply flag_says_iff; exact H].
Qed.
Lemma args_set k1 k2 w f cfg cfg1 cfg2 : can_set w -> fl_nodetect f = true -> flag_sets 1 (fl_nsproxy f) cfg cfg1 -> flag_sets 2 (fl_pidns f) cfg1 cfg2 ->
  offsets_from_args k1 k2 w f cfg = (ONil, cfg2).
Proof.
  intros C E H1 H2. unfold offsets_from_args. rewrite E. cbn [negb].
  rewrite (set_flag_sets w "nsproxy" 1 _ _ _ C (or_introl (conj eq_refl eq_refl)) H1). exact (set_flag_sets w "pid_ns_common" 2 _ _ _ C (or_intror (conj eq_refl eq_refl)) H2).
Qed.
Lemma no_number s : (forall n, ~ flag_says s n) -> parse_int (trim_prefix "0x" s) = None.
Proof. intros H. destruct (parse_int (trim_prefix "0x" s)) as [n|] eqn:E; [|reflexivity]. apply flag_says_iff in E. destruct (H n E). Qed.
Lemma args_bad1 k1 k2 w f cfg : fl_nodetect f = true -> fl_nsproxy f <> "" -> (forall n, ~ flag_says (fl_nsproxy f) n) ->
  offsets_from_args k1 k2 w f cfg = (OErr, cfg).
Proof. intros E N H. unfold offsets_from_args. rewrite E. cbn [negb]. rewrite (set_flag_bad _ _ _ _ N (no_number _ H)). reflexivity. Qed.
Lemma args_bad2 k1 k2 w f cfg cfg1 : can_set w -> fl_nodetect f = true -> flag_sets 1 (fl_nsproxy f) cfg cfg1 -> fl_pidns f <> "" -> (forall n, ~ flag_says (fl_pidns f) n) ->
  offsets_from_args k1 k2 w f cfg = (OErr, cfg1).
Proof.
  intros C E H1 N H. unfold offsets_from_args. rewrite E. cbn [negb].
  rewrite (set_flag_sets w "nsproxy" 1 _ _ _ C (or_introl (conj eq_refl eq_refl)) H1). exact (set_flag_bad _ _ _ _ N (no_number _ H)).
Qed.
Lemma set_offset_type refuses cfg a v e cfg' : set_offset refuses cfg a v = (e, cfg') ->
  e = false /\ (real_type a = 1 \/ real_type a = 2) /\ refuses (real_type a) = false /\ cfg' = <[real_type a := v mod 2 ^ 32]> cfg
  \/ e = true /\ cfg' = cfg /\ (real_type a <> 1 /\ real_type a <> 2 \/ refuses (real_type a) = true).
Proof.
  unfold set_offset, valid_type, type_nsproxy, type_pidns. cbv zeta. set (t := real_type a). destruct (Z.eqb_spec t 1), (Z.eqb_spec t 2); cbn [orb]; try lia.
  - destruct (refuses t) eqn:R; intros [= <- <-]; [right|left]; split_and!; auto.
  - destruct (refuses t) eqn:R; intros [= <- <-]; [right|left]; split_and!; auto.
  - intros [= <- <-]. right. split_and!; auto.
Qed.

Lemma about_type a t : about a t <-> (t = 1 \/ t = 2) /\ real_type a = t.
Proof.
  unfold about, real_type, type_nsproxy, type_pidns. split.
  - intros [T H]. split; [exact T|]. destruct H as [->|[->|(n & -> & H)]]; [|reflexivity|exact H]. destruct T as [->| ->]; reflexivity.
  - intros [T H]. split; [exact T|]. destruct a as [s|n|t'|].
    + left. destruct (String.eqb_spec s "nsproxy") as [->|]; [subst t; reflexivity|]. destruct (String.eqb_spec s "pid_ns_common") as [->|]; [subst t; reflexivity|lia].
    + right; right. exists n. split; [reflexivity|exact H].
    + right; left. rewrite H. reflexivity.
    + lia.
Qed.
Lemma set_about refuses cfg a v e cfg' : set_offset refuses cfg a v = (e, cfg') ->
  (exists t, about a t /\ refuses t = false /\ e = false /\ cfg' = <[t := v mod 2 ^ 32]> cfg)
  \/ (e = true /\ cfg' = cfg /\ forall t, about a t -> refuses t = true).
Proof.
  intros H. apply set_offset_type in H as [(-> & T & R & ->)|(-> & -> & H)].
  - left. exists (real_type a). split; [apply about_type; split; [exact T|reflexivity]|]. split; [exact R|]. split; reflexivity.
  - right. split; [reflexivity|]. split; [reflexivity|]. intros t A. apply about_type in A as [T <-]. destruct H as [[N1 N2]|H]; [lia|exact H].
Qed.
Lemma args_refused k1 k2 w f cfg n1 n2 : w_map w = true -> fl_nodetect f = true -> flag_says (fl_nsproxy f) n1 -> flag_says (fl_pidns f) n2 ->
  (w_refuses w 1 = true -> offsets_from_args k1 k2 w f cfg = (OErr, cfg))
  /\ (w_refuses w 1 = false -> w_refuses w 2 = true -> offsets_from_args k1 k2 w f cfg = (OErr, <[1 := n1 mod 2 ^ 32]> cfg)).
Proof.
  intros M E H1 H2. pose proof (flag_says_not_empty _ _ H1) as N1. pose proof (flag_says_not_empty _ _ H2) as N2.
  apply flag_says_iff in H1, H2. unfold offsets_from_args. rewrite E. cbn [negb]. unfold set_flag.
  destruct (String.eqb_spec (fl_nsproxy f) "") as [X|_]; [contradiction|]. destruct (String.eqb_spec (fl_pidns f) "") as [X|_]; [contradiction|].
  rewrite H1, H2, M. cbn [negb]. rewrite set_ns. split; intros R.
  - rewrite R. reflexivity.
  - intros R2. rewrite R. cbv iota beta. rewrite set_pid, R2. reflexivity.
Qed.
