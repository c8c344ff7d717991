(** Properties C53, C54 and C69: the symbol table, offset detection, offsets from flags. *)
From Coq Require Import ZArith String Ascii Bool Lia.
From stdpp Require Import base list numbers strings gmap.
From Verif Require Import OffsetModel OffsetSpec OffsetProofs OffsetTop.

Local Open Scope string_scope.
Local Open Scope Z_scope.

(** * C53: the symbol table *)

(** From a file of lines none of which is too long, the table has for each function the
    address of its last line, and nothing else. *)
Theorem C53_table_is_the_last_text_symbols : forall ls m, Forall one_line ls -> Forall fits ls ->
  parse_kernel_syms (unlines ls) = Some m -> forall n a, m !! n = Some a <-> last_says ls n a.
Proof.
  intros ls m H F E. unfold parse_kernel_syms in E. rewrite (scan_unlines ls H F), sym_lines_drop in E. exact (sym_lines_some ls m E).
Qed.
(** It panics exactly when some line has no type, or is of a function and has no name. *)
Theorem C53_panics_iff_a_line_is_malformed : forall ls, Forall one_line ls -> Forall fits ls ->
  (parse_kernel_syms (unlines ls) = None <-> exists l, In l ls /\ malformed l).
Proof.
  intros ls H F. unfold parse_kernel_syms. rewrite (scan_unlines ls H F), sym_lines_drop. apply sym_lines_none.
Qed.
(** A line of 64 KiB or more ends the table without an error: what follows is not read. *)
Theorem C53_long_line_ends_the_table : forall ls l rest, Forall one_line (ls ++ l :: rest) -> Forall fits ls -> ~ fits l ->
  parse_kernel_syms (unlines (ls ++ l :: rest)) = parse_kernel_syms (unlines ls).
Proof.
  intros ls l rest H F N. unfold parse_kernel_syms. rewrite (scan_too_long ls l rest H F N), (scan_unlines ls); [reflexivity| |exact F].
  apply Forall_app in H. exact (proj1 H).
Qed.
(** So the table is not always all functions of the file. *)
Theorem C53_every_function_is_in_the_table_refuted :
  ~ (forall ls m n a, Forall one_line ls -> parse_kernel_syms (unlines ls) = Some m -> last_says ls n a -> m !! n = Some a).
Proof.
  intros H. set (fill := fix fill (n : nat) := match n with O => "" | S n => String "x" (fill n) end).
  assert (L : forall n, String.length (fill n) = n) by (induction n as [|n IH]; [reflexivity|]; cbn [fill String.length]; rewrite IH; reflexivity).
  assert (O : forall n, one_line (fill n)) by (unfold one_line; induction n as [|n IH]; [reflexivity|]; cbn [fill all_chars]; rewrite IH; reflexivity).
  assert (G : one_line "1 t f") by reflexivity.
  assert (T : text_symbol "1 t f" "1" "f").
  { exists "t", []. split; [|left; reflexivity]. rewrite <- fields_splits. reflexivity. }
  assert (X : exists k, Z.of_nat k = 65536) by (exists (Z.to_nat 65536); apply Z2Nat.id; lia). destruct X as (k & Hk).
  assert (A : Forall one_line [fill k; "1 t f"]) by (constructor; [apply O|constructor; [exact G|constructor]]).
  specialize (H [fill k; "1 t f"] ∅ "f" "1"). rewrite lookup_empty in H.
  assert (E : parse_kernel_syms (unlines [fill k; "1 t f"]) = Some ∅).
  { change [fill k; "1 t f"] with ([] ++ fill k :: ["1 t f"])%list. rewrite C53_long_line_ends_the_table; [reflexivity| |constructor|].
    - exact A.
    - unfold fits. rewrite L, Hk. lia. }
  assert (X : None = Some "1"); [|discriminate]. apply H; [exact A|exact E|].
  exists [fill k], "1 t f", []. split; [reflexivity|]. split; [exact T|]. intros ? ? [].
Qed.

Example C53_nonvacuous : exists ls m, Forall one_line ls /\ Forall fits ls /\ parse_kernel_syms (unlines ls) = Some m
  /\ m !! "pidns_get" = Some "ffffffff81000020" /\ m !! "jiffies" = None /\ m !! "do_exit" = Some "ffffffff81000030".
Proof.
  exists ["ffffffff81000010 t pidns_get"; "ffffffff82000000 D jiffies"; "ffffffff81000030 T do_exit [core]"; "ffffffff81000020 t pidns_get"].
  eexists. split; [repeat constructor|]. split; [repeat constructor; unfold fits; cbn; lia|]. split; [reflexivity|]. split_and!; reflexivity.
Qed.
Example C53_malformed_nonvacuous : exists ls, Forall one_line ls /\ Forall fits ls /\ parse_kernel_syms (unlines ls) = None.
Proof. exists ["ffffffff81000010 t pidns_get"; ""]. split; [repeat constructor|]. split; [repeat constructor; unfold fits; cbn; lia|]. reflexivity. Qed.

(** * C54: detection *)

(** Whatever order the maps are walked in, a detection that can set its results sets, for
    each offset, one that no other has more votes than. *)
Theorem C54_detection_sets_the_most_voted : forall k1 k2 w cfg votes1 votes2,
  walks_map k1 -> walks_map k2 -> election w votes1 votes2 -> votes1 <> [] -> votes2 <> [] -> can_set w -> numeric votes1 -> numeric votes2 ->
  exists o1 o2 n1 n2, most_voted votes1 o1 /\ most_voted votes2 o2 /\ offset_number o1 n1 /\ offset_number o2 n2
    /\ detect k1 k2 w cfg = (ONil, both_set cfg n1 n2).
Proof. exact detect_sets. Qed.
(** If one offset has more votes than any other, the order does not matter, and the probe
    reads it, modulo 2^32. *)
Theorem C54_clear_winner_is_what_the_probe_reads : forall k1 k2 w cfg votes1 votes2 o1 o2 n1 n2 c1 c2,
  walks_map k1 -> walks_map k2 -> election w votes1 votes2 -> can_set w ->
  clear_winner votes1 o1 -> clear_winner votes2 o2 -> offset_number o1 n1 -> n1 < 2 ^ 63 -> offset_number o2 n2 -> n2 < 2 ^ 63 ->
  exists cfg', detect k1 k2 w cfg = (ONil, cfg') /\ kernel_offset cfg' type_nsproxy c1 = n1 mod 2 ^ 32 /\ kernel_offset cfg' type_pidns c2 = n2 mod 2 ^ 32.
Proof.
  intros k1 k2 w cfg votes1 votes2 o1 o2 n1 n2 c1 c2 W1 W2 E C C1 C2 H1 L1 H2 L2. exists (both_set cfg n1 n2).
  split; [exact (detect_clear k1 k2 w cfg votes1 votes2 o1 o2 n1 n2 W1 W2 E C C1 C2 H1 L1 H2 L2)|]. unfold kernel_offset, both_set, type_nsproxy, type_pidns. split.
  - rewrite lookup_insert_ne by lia. rewrite lookup_insert. reflexivity.
  - rewrite lookup_insert. reflexivity.
Qed.
(** If several offsets share the most votes, each of them is the result for some order. *)
Theorem C54_ties_are_broken_by_map_order : forall w cfg votes1 votes2 o1 o2 n1 n2, election w votes1 votes2 -> can_set w ->
  most_voted votes1 o1 -> most_voted votes2 o2 -> offset_number o1 n1 -> n1 < 2 ^ 63 -> offset_number o2 n2 -> n2 < 2 ^ 63 ->
  exists k1 k2, walks_map k1 /\ walks_map k2 /\ detect k1 k2 w cfg = (ONil, both_set cfg n1 n2).
Proof. exact detect_any. Qed.
(** If either election has no vote, nothing is set and no error is reported. *)
Theorem C54_detecting_nothing_is_success : forall k1 k2 w cfg votes1 votes2, walks_map k1 -> walks_map k2 -> election w votes1 votes2 ->
  votes1 = [] \/ votes2 = [] -> detect k1 k2 w cfg = (ONil, cfg).
Proof. exact detect_nothing. Qed.
(** So success does not mean that the offsets were set. *)
Theorem C54_success_means_detected_refuted :
  ~ (forall k1 k2 w cfg cfg', walks_map k1 -> walks_map k2 -> detect k1 k2 w cfg = (ONil, cfg') -> exists n1 n2, cfg' = both_set cfg n1 n2).
Proof.
  intros H. set (text := unlines (map (fun fn => "1 t " +:+ fn) (nsproxy_users ++ pidns_users)%list)).
  destruct (H map_to_list map_to_list (World (Some text) (fun _ => Some "") true (fun _ => false)) ∅ ∅ (fun m => Permutation_refl _) (fun m => Permutation_refl _)) as (n1 & n2 & E).
  - vm_compute. reflexivity.
  - apply (f_equal (lookup 2)) in E. unfold both_set in E. rewrite lookup_insert in E. discriminate.
Qed.
(** What a detection can do to the map: nothing, or both winners and no error, or the first
    winner only, and then there is an error because the kernel refused the second. *)
Theorem C54_what_detection_writes : forall k1 k2 w cfg r cfg', walks_map k1 -> walks_map k2 -> detect k1 k2 w cfg = (r, cfg') ->
  cfg' = cfg \/ exists votes1 votes2 o1 n1, election w votes1 votes2 /\ most_voted votes1 o1 /\ offset_number o1 n1 /\ n1 < 2 ^ 63
    /\ (r = ONil /\ (exists o2 n2, most_voted votes2 o2 /\ offset_number o2 n2 /\ n2 < 2 ^ 63 /\ cfg' = both_set cfg n1 n2)
        \/ r = OErr /\ w_refuses w 2 = true /\ cfg' = <[1 := n1 mod 2 ^ 32]> cfg).
Proof.
  intros k1 k2 w cfg r cfg' W1 W2 H. apply (detect_cases k1 k2 w cfg r cfg' W1 W2) in H as [H|(text & syms & v1 & v2 & o1 & n1 & E1 & E2 & B1 & B2 & R)]; [left; exact H|].
  right. exists v1, v2, o1, n1. split; [exists text, syms; tauto|exact R].
Qed.
(** A function that is missing from the symbols or cannot be disassembled is an error, and
    nothing is set. A function of the second election counts only if the first had votes. *)
Theorem C54_missing_function_is_an_error : forall k1 k2 w cfg text syms fn,
  w_syms w = Some text -> parse_kernel_syms text = Some syms -> In fn nsproxy_users ->
  (syms !! fn = None \/ exists a, syms !! fn = Some a /\ w_dump w a = None) -> detect k1 k2 w cfg = (OErr, cfg).
Proof. exact detect_missing. Qed.
Theorem C54_missing_second_function_is_an_error : forall k1 k2 w cfg text syms fn votes1, walks_map k1 ->
  w_syms w = Some text -> parse_kernel_syms text = Some syms -> In fn pidns_users ->
  (syms !! fn = None \/ exists a, syms !! fn = Some a /\ w_dump w a = None) ->
  ballots (nsproxy_ballot (lock_of syms)) syms (w_dump w) nsproxy_users votes1 -> votes1 <> [] -> detect k1 k2 w cfg = (OErr, cfg).
Proof. exact detect_missing2. Qed.
(** A malformed symbol file makes it panic. *)
Theorem C54_malformed_symbols_panic : forall k1 k2 w cfg ls l, w_syms w = Some (unlines ls) -> Forall one_line ls -> Forall fits ls -> In l ls -> malformed l ->
  detect k1 k2 w cfg = (OPanic, cfg).
Proof.
  intros k1 k2 w cfg ls l E H F I M. apply (detect_malformed k1 k2 w cfg (unlines ls) E). apply (C53_panics_iff_a_line_is_malformed ls H F). exists l. split; assumption.
Qed.
(** Without the symbol of the lock any line counts as the lock: the vote goes to the first
    load after the first line of code. *)
Theorem C54_without_the_lock_symbol : forall syms ls off, syms !! "_raw_spin_lock" = None ->
  (load_after_lock (lock_of syms) ls off <->
   exists first l2 mv l3, code_lines ls = (first :: l2 ++ mv :: l3)%list /\ (forall l o, In l l2 -> ~ first_in mov_at l o) /\ first_in mov_at mv off).
Proof. intros syms ls off E. unfold lock_of. rewrite E. apply load_without_lock. Qed.
(** An address below a register votes like one above it. *)
Theorem C54_sign_of_the_displacement_is_ignored : forall sp r b w rest, run re_space sp -> run re_word r -> run re_word b -> run re_word w ->
  forall sign, sign = "+" \/ sign = "-" ->
  vote_of (first_in lea_at ("lea" +:+ sp +:+ r +:+ ",[" +:+ b +:+ sign +:+ "0x" +:+ w +:+ "]" +:+ rest)) ["0x" +:+ w].
Proof.
  intros sp r b w rest H1 H2 H3 H4 sign Hs. left. exists ("0x" +:+ w). split; [|reflexivity]. apply lea_first. exists sp, r, b, sign, w, rest. split_and!; try assumption; reflexivity.
Qed.

(** A world in which detection finds 0xb60 and 0x30: two functions vote for the first, one
    for 0xb68, four do not vote. *)
Definition demo_text : string := unlines (map (fun fn => "ffffffff81" +:+ fn +:+ " t " +:+ fn) ("_raw_spin_lock" :: nsproxy_users ++ pidns_users)%list).
Definition demo_load (off : string) : string := unlines ["header"; "ffffffff1: mov rax,QWORD PTR [rdi+0x10]"; "ffffffff2: call ffffffff81_raw_spin_lock"; "ffffffff3: nop"; "ffffffff4: mov rax,QWORD PTR [rbx+" +:+ off +:+ "]"].
Definition demo_lea (off : string) : string := unlines ["ffffffff1: push rbp"; "ffffffff5: lea rdi,[rax+" +:+ off +:+ "]"].
Definition demo_dump (a : string) : option string :=
  if String.eqb a "ffffffff81ipcns_get" then Some (demo_load "0xb60") else if String.eqb a "ffffffff81mntns_get" then Some (demo_load "0xb60")
  else if String.eqb a "ffffffff81netns_get" then Some (demo_load "0xb68") else if String.eqb a "ffffffff81pidns_get" then Some (demo_lea "0x30")
  else Some "ffffffff1: ret".
Definition demo_world : world := World (Some demo_text) demo_dump true (fun _ => false).

Lemma demo_election : election demo_world ["0xb60"; "0xb60"; "0xb68"] ["0x30"].
Proof.
  exists demo_text. destruct (parse_kernel_syms demo_text) as [syms|] eqn:E; [|vm_compute in E; discriminate]. exists syms.
  split; [reflexivity|]. split; [reflexivity|]. assert (S : syms = default ∅ (parse_kernel_syms demo_text)) by (rewrite E; reflexivity). subst syms.
  split; [apply nsproxy_ballots_iff; vm_compute; reflexivity|apply pidns_ballots_iff; vm_compute; reflexivity].
Qed.
Example C54_nonvacuous : exists w votes1 votes2, election w votes1 votes2 /\ votes1 <> [] /\ votes2 <> [] /\ can_set w /\ numeric votes1 /\ numeric votes2
  /\ clear_winner votes1 "0xb60" /\ clear_winner votes2 "0x30" /\ offset_number "0xb60" 2912 /\ offset_number "0x30" 48.
Proof.
  assert (A : offset_number "0xb60" 2912) by (exists "b60", [11; 6; 0]; split_and!; [reflexivity|reflexivity|discriminate|reflexivity]).
  assert (B : offset_number "0xb68" 2920) by (exists "b68", [11; 6; 8]; split_and!; [reflexivity|reflexivity|discriminate|reflexivity]).
  assert (C : offset_number "0x30" 48) by (exists "30", [3; 0]; split_and!; [reflexivity|reflexivity|discriminate|reflexivity]).
  exists demo_world, ["0xb60"; "0xb60"; "0xb68"], ["0x30"]. split; [exact demo_election|]. split; [discriminate|]. split; [discriminate|].
  split; [split; [reflexivity|intros; reflexivity]|]. split; [intros o [<-|[<-|[<-|[]]]]; [exists 2912|exists 2912|exists 2920]; (split; [assumption|lia])|].
  split; [intros o [<-|[]]; exists 48; split; [assumption|lia]|]. split_and!; try assumption.
  - split; [left; reflexivity|]. intros o N. rewrite !votes_for_cons. change (votes_for o []) with 0. change (votes_for "0xb60" []) with 0.
    destruct (String.eqb_spec o "0xb60"); [contradiction|]. destruct (String.eqb o "0xb68"); cbn; lia.
  - split; [left; reflexivity|]. intros o N. rewrite !votes_for_cons. change (votes_for o []) with 0. destruct (String.eqb_spec o "0x30"); [contradiction|]. vm_compute. reflexivity.
Qed.
(** Ties exist: with one vote each, both offsets are results. *)
Example C54_tie_nonvacuous : most_voted ["0xb60"; "0xb68"] "0xb60" /\ most_voted ["0xb60"; "0xb68"] "0xb68".
Proof.
  split; (split; [cbn; tauto|]); intros o; rewrite !votes_for_cons; change (votes_for o []) with 0; (destruct (String.eqb_spec o "0xb60") as [->|]; [vm_compute; discriminate|]); destruct (String.eqb o "0xb68"); vm_compute; discriminate.
Qed.
Example C54_nothing_nonvacuous : exists w, election w [] [].
Proof.
  exists (World (Some demo_text) (fun _ => Some "") true (fun _ => false)), demo_text.
  destruct (parse_kernel_syms demo_text) as [syms|] eqn:E; [|vm_compute in E; discriminate]. exists syms.
  split; [reflexivity|]. split; [reflexivity|]. assert (S : syms = default ∅ (parse_kernel_syms demo_text)) by (rewrite E; reflexivity). subst syms.
  split; [apply nsproxy_ballots_iff; vm_compute; reflexivity|apply pidns_ballots_iff; vm_compute; reflexivity].
Qed.

(** * C69: offsets from the command line *)

(** Without --no-detect-offsets the two offset flags make no difference. *)
Theorem C69_flags_are_ignored_with_detection : forall k1 k2 w f cfg, fl_nodetect f = false -> offsets_from_args k1 k2 w f cfg = detect k1 k2 w cfg.
Proof. exact args_detect. Qed.
(** With it, each given flag sets its offset, modulo 2^32, and one that is not given leaves
    the offset as it was. *)
Theorem C69_flags_set_the_offsets : forall k1 k2 w f cfg cfg1 cfg2, can_set w -> fl_nodetect f = true ->
  flag_sets 1 (fl_nsproxy f) cfg cfg1 -> flag_sets 2 (fl_pidns f) cfg1 cfg2 -> offsets_from_args k1 k2 w f cfg = (ONil, cfg2).
Proof. exact args_set. Qed.
(** What the probe then reads. *)
Theorem C69_probe_reads_the_flags : forall k1 k2 w f n1 n2 c1 c2, can_set w -> fl_nodetect f = true -> flag_says (fl_nsproxy f) n1 -> flag_says (fl_pidns f) n2 ->
  forall cfg, exists cfg', offsets_from_args k1 k2 w f cfg = (ONil, cfg') /\ kernel_offset cfg' type_nsproxy c1 = n1 mod 2 ^ 32 /\ kernel_offset cfg' type_pidns c2 = n2 mod 2 ^ 32.
Proof.
  intros k1 k2 w f n1 n2 c1 c2 C E H1 H2 cfg. exists (both_set cfg n1 n2). split.
  - apply (args_set k1 k2 w f cfg (<[1 := n1 mod 2 ^ 32]> cfg)); [exact C|exact E|right; exists n1; split; [exact H1|reflexivity]|right; exists n2; split; [exact H2|reflexivity]].
  - unfold kernel_offset, both_set, type_nsproxy, type_pidns. rewrite lookup_insert, (lookup_insert_ne _ 2 1), lookup_insert by lia. split; reflexivity.
Qed.
(** Neither flag given: the probe keeps the offsets it was compiled with. *)
Theorem C69_no_flags_keep_the_compiled_offsets : forall k1 k2 w f c, fl_nodetect f = true -> fl_nsproxy f = "" -> fl_pidns f = "" ->
  forall t, offsets_from_args k1 k2 w f ∅ = (ONil, ∅) /\ kernel_offset ∅ t c = c.
Proof. intros k1 k2 w f c E F1 F2 t. unfold offsets_from_args. rewrite E, F1, F2. split; reflexivity. Qed.
(** A negative number is not refused: the probe reads it from the top. *)
Theorem C69_negative_offset_wraps : forall k1 k2 w f n1 c1, can_set w -> fl_nodetect f = true -> flag_says (fl_nsproxy f) n1 -> - 2 ^ 32 <= n1 < 0 -> fl_pidns f = "" ->
  forall cfg, exists cfg', offsets_from_args k1 k2 w f cfg = (ONil, cfg') /\ kernel_offset cfg' type_nsproxy c1 = 2 ^ 32 + n1.
Proof.
  intros k1 k2 w f n1 c1 C E H1 B H2 cfg. exists (<[1 := n1 mod 2 ^ 32]> cfg). split.
  - apply (args_set k1 k2 w f cfg (<[1 := n1 mod 2 ^ 32]> cfg)); [exact C|exact E|right; exists n1; split; [exact H1|reflexivity]|left; split; [exact H2|reflexivity]].
  - unfold kernel_offset, type_nsproxy. rewrite lookup_insert. transitivity (n1 mod 2 ^ 32); [reflexivity|]. rewrite <- (Z.mod_add n1 1 (2 ^ 32)) by lia. rewrite Z.mod_small; lia.
Qed.
(** A bad first flag leaves everything. A bad second one leaves the first offset set. *)
Theorem C69_bad_first_flag_sets_nothing : forall k1 k2 w f cfg, fl_nodetect f = true -> fl_nsproxy f <> "" -> (forall n, ~ flag_says (fl_nsproxy f) n) ->
  offsets_from_args k1 k2 w f cfg = (OErr, cfg).
Proof. exact args_bad1. Qed.
Theorem C69_bad_second_flag_leaves_the_first_set : forall k1 k2 w f cfg cfg1, can_set w -> fl_nodetect f = true ->
  flag_sets 1 (fl_nsproxy f) cfg cfg1 -> fl_pidns f <> "" -> (forall n, ~ flag_says (fl_pidns f) n) ->
  offsets_from_args k1 k2 w f cfg = (OErr, cfg1).
Proof. exact args_bad2. Qed.
(** Set takes a type by name or number. It succeeds for two types only, a number counts
    modulo 256, and a failed call changes nothing. *)
Theorem C69_set_writes_one_known_offset : forall refuses cfg a v e cfg', set_offset refuses cfg a v = (e, cfg') ->
  (exists t, about a t /\ refuses t = false /\ e = false /\ cfg' = <[t := v mod 2 ^ 32]> cfg)
  \/ (e = true /\ cfg' = cfg /\ forall t, about a t -> refuses t = true).
Proof. exact set_about. Qed.
(** An offset the kernel refuses is reported, and what was set before stays. *)
Theorem C69_a_refused_offset_is_an_error : forall k1 k2 w f cfg n1 n2, w_map w = true -> fl_nodetect f = true -> flag_says (fl_nsproxy f) n1 -> flag_says (fl_pidns f) n2 ->
  (w_refuses w 1 = true -> offsets_from_args k1 k2 w f cfg = (OErr, cfg))
  /\ (w_refuses w 1 = false -> w_refuses w 2 = true -> offsets_from_args k1 k2 w f cfg = (OErr, <[1 := n1 mod 2 ^ 32]> cfg)).
Proof. exact args_refused. Qed.
Theorem C69_numbers_of_types_wrap : forall refuses cfg n v, set_offset refuses cfg (SetInt n) v = set_offset refuses cfg (SetType (n mod 256)) v.
Proof. reflexivity. Qed.

Example C69_nonvacuous : flag_says "0xb60" 2912 /\ flag_says "-10" (-16) /\ (forall n, ~ flag_says "b6z" n) /\ (forall n, ~ flag_says "0x" n) /\ real_type (SetInt 257) = 1
  /\ offsets_from_args map_to_list map_to_list demo_world (Flags true "b60" "-10") ∅ = (ONil, <[2 := 4294967280]> (<[1 := 2912]> ∅)).
Proof.
  split; [apply flag_says_iff; reflexivity|]. split; [apply flag_says_iff; reflexivity|]. split; [intros n H; apply flag_says_iff in H; vm_compute in H; discriminate|].
  split; [intros n H; apply flag_says_iff in H; vm_compute in H; discriminate|]. split; reflexivity.
Qed.

Print Assumptions C53_table_is_the_last_text_symbols.
Print Assumptions C53_panics_iff_a_line_is_malformed.
Print Assumptions C53_long_line_ends_the_table.
Print Assumptions C53_every_function_is_in_the_table_refuted.
Print Assumptions C54_detection_sets_the_most_voted.
Print Assumptions C54_clear_winner_is_what_the_probe_reads.
Print Assumptions C54_ties_are_broken_by_map_order.
Print Assumptions C54_detecting_nothing_is_success.
Print Assumptions C54_success_means_detected_refuted.
Print Assumptions C54_what_detection_writes.
Print Assumptions C54_missing_function_is_an_error.
Print Assumptions C54_missing_second_function_is_an_error.
Print Assumptions C54_malformed_symbols_panic.
Print Assumptions C54_without_the_lock_symbol.
Print Assumptions C54_sign_of_the_displacement_is_ignored.
Print Assumptions C69_flags_are_ignored_with_detection.
Print Assumptions C69_flags_set_the_offsets.
Print Assumptions C69_probe_reads_the_flags.
Print Assumptions C69_no_flags_keep_the_compiled_offsets.
Print Assumptions C69_negative_offset_wraps.
Print Assumptions C69_bad_first_flag_sets_nothing.
Print Assumptions C69_bad_second_flag_leaves_the_first_set.
Print Assumptions C69_set_writes_one_known_offset.
Print Assumptions C69_numbers_of_types_wrap.
Print Assumptions C69_a_refused_offset_is_an_error.
