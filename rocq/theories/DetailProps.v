(** Details of C63, C86, C90 and C91: what earlier theorems say in the model's words, said
    here in plain ones. *)
From Coq Require Import ZArith String Ascii Lia.
From stdpp Require Import base list numbers strings gmap.
From Verif Require Import DecodeModel JsonModel JsonSpec.
From Verif Require LineModel AgentModel AgentSpec AgentTop.

Local Open Scope Z_scope.
Local Open Scope list_scope.

(** * Addresses on a line of `swoll trace` *)
(** The digits 0-9a-f and the number they stand for. *)
Definition digit_char (d : Z) : Z := if d <? 10 then 48 + d else 97 + (d - 10).
Definition hex_number (ds : list Z) : Z := fold_left (fun a d => a * 16 + d) ds 0.

Fixpoint digs (n : nat) (z : Z) : list Z := match n with O => [] | S n => digs n (z / 16) ++ [z mod 16] end.
Lemma digs_chars n : forall z, LineModel.hex_digits n z = map digit_char (digs n z).
Proof.
  induction n as [|n IH]; intros z; [done|]. cbn [LineModel.hex_digits digs]. rewrite IH, map_app. f_equal. cbn [map]. f_equal. unfold digit_char.
  destruct (z mod 16 <? 10); lia.
Qed.
Lemma digs_value n : forall z, 0 <= z < 16 ^ Z.of_nat n -> hex_number (digs n z) = z.
Proof.
  induction n as [|n IH]; intros z H; [change (16 ^ Z.of_nat 0) with 1 in H; cbn; lia|]. cbn [digs]. unfold hex_number in *. rewrite fold_left_app. cbn [fold_left].
  rewrite IH; [pose proof (Z.div_mod z 16); lia|]. rewrite Nat2Z.inj_succ, Z.pow_succ_r in H by lia.
  split; [apply Z.div_pos; lia|apply Z.div_lt_upper_bound; lia].
Qed.
Lemma digs_range n : forall z, Forall (fun d => 0 <= d < 16) (digs n z).
Proof. induction n as [|n IH]; intros z; [constructor|]. cbn [digs]. apply Forall_app. split; [apply IH|]. constructor; [apply Z.mod_pos_bound; lia|constructor]. Qed.
Lemma digs_length n : forall z, length (digs n z) = n.
Proof. induction n as [|n IH]; intros z; [done|]. cbn [digs]. rewrite app_length, IH. cbn. lia. Qed.
Lemma strip_digits n : forall l, Forall (fun d => 0 <= d < 16) l -> exists k s, (k <= n)%nat /\ l = replicate k 0 ++ s /\ LineModel.strip_zeros n (map digit_char l) = map digit_char s /\
  (k = n \/ s = [] \/ exists d s', s = d :: s' /\ d <> 0).
Proof.
  induction n as [|n IH]; intros l F.
  { exists O, l. split_and!; [lia|done| |by left]. by destruct l. }
  destruct l as [|d l]; [exists O, []; split_and!; [lia|done|done|right; by left]|]. inversion F as [|? ? Hd F']; subst.
  change (map digit_char (d :: l)) with (digit_char d :: map digit_char l). cbn [LineModel.strip_zeros]. destruct (Z.eqb_spec (digit_char d) 48) as [E|E].
  - destruct (IH l F') as (k & s & Hk & -> & Hs & Hc). exists (S k), s. split_and!; [lia| |done|].
    + assert (d = 0) as ->; [|done]. unfold digit_char in E. destruct (Z.ltb_spec d 10); lia.
    + destruct Hc as [->|Hc]; [by left|by right].
  - exists O, (d :: l). split_and!; [lia|done|done|]. right. right. exists d, l. split; [done|]. intros ->. by apply E.
Qed.
Lemma number_zeros k s : hex_number (replicate k 0 ++ s) = hex_number s.
Proof. unfold hex_number. induction k as [|k IH]; [done|]. cbn [replicate app fold_left]. exact IH. Qed.

(** C90: an address is printed as "0x" and its hexadecimal digits, at least eight, more
    only if they are needed. *)
Theorem C90_addresses_are_hexadecimal : forall z, 0 <= z < 2 ^ 64 ->
  exists ds, LineModel.hex_text z = LineModel.txt "0x" ++ map digit_char ds /\ hex_number ds = z /\ Forall (fun d => 0 <= d < 16) ds /\
    (8 <= length ds <= 16)%nat /\ ((8 < length ds)%nat -> exists d ds', ds = d :: ds' /\ d <> 0).
Proof.
  intros z H. unfold LineModel.hex_text. rewrite digs_chars. destruct (strip_digits 8 (digs 16 z) (digs_range 16 z)) as (k & s & Hk & E & -> & Hc).
  pose proof (digs_length 16 z) as L. rewrite E, app_length, replicate_length in L. exists s. split; [done|]. split_and!.
  - rewrite <- (number_zeros k s), <- E. apply digs_value. exact H.
  - pose proof (digs_range 16 z) as F. rewrite E in F. by apply Forall_app in F as [_ F].
  - lia.
  - lia.
  - intros Hl. destruct Hc as [->|[->|Hc]]; [lia|cbn in L; lia|exact Hc].
Qed.
Example C90_address_nonvacuous : LineModel.hex_text 0x7ffe12345678 = LineModel.txt "0x7ffe12345678" /\ LineModel.hex_text 255 = LineModel.txt "0x000000ff".
Proof. split; vm_compute; reflexivity. Qed.

(** * Colours *)
(** A terminal of ECMA-48: the characters it shows, each with the colours of its front and
    its ground. [ESC [ n m] sets them: 0 resets, 30-37 is the front, 40-47 the ground. *)
Definition eight : list string := ["black"; "red"; "green"; "yellow"; "blue"; "magenta"; "cyan"; "white"]%string.
Definition sgr (n : Z) (fg bg : string) : string * string :=
  if n =? 0 then ("default", "default")%string
  else if (30 <=? n) && (n <=? 37) then (nth (Z.to_nat (n - 30)) eight "default"%string, bg)
  else if (40 <=? n) && (n <=? 47) then (fg, nth (Z.to_nat (n - 40)) eight "default"%string) else (fg, bg).
Inductive mode := Chars | Escape | Number (n : Z).
Fixpoint screen (m : mode) (fg bg : string) (bs : list Z) : list (Z * (string * string)) :=
  match bs with
  | [] => []
  | b :: t =>
      match m with
      | Chars => if b =? 27 then screen Escape fg bg t else (b, (fg, bg)) :: screen Chars fg bg t
      | Escape => if b =? 91 then screen (Number 0) fg bg t else screen Chars fg bg t
      | Number n => if (48 <=? b) && (b <=? 57) then screen (Number (n * 10 + (b - 48))) fg bg t
                    else screen Chars (sgr n fg bg).1 (sgr n fg bg).2 t
      end
  end.
(** The colours the program asks for, in words. *)
Definition asked (c : LineModel.colour) (fg bg : string) : string * string :=
  match c with
  | LineModel.Red => ("red", bg) | LineModel.Green => ("green", bg) | LineModel.Yellow => ("yellow", bg)
  | LineModel.Cyan => ("cyan", bg) | LineModel.White => ("white", bg) | LineModel.BgBlack => (fg, "black")
  end%string.
Lemma screen_plain bs rest : forall fg bg, ~ In 27 bs -> screen Chars fg bg (bs ++ rest) = map (fun b => (b, (fg, bg))) bs ++ screen Chars fg bg rest.
Proof.
  induction bs as [|b bs IH]; intros fg bg H; [done|]. cbn [app screen map]. destruct (Z.eqb_spec b 27) as [->|N]; [destruct H; by left|].
  f_equal. apply IH. intros I. apply H. by right.
Qed.
Lemma screen_paint c bs rest fg bg : screen Chars fg bg (LineModel.paint true c bs ++ rest)
  = screen Chars (asked c fg bg).1 (asked c fg bg).2 (bs ++ [27; 91; 48; 109] ++ rest).
Proof. unfold LineModel.paint. rewrite <- !app_assoc. destruct c; reflexivity. Qed.
(** C91: on a terminal, a coloured word is shown in its colour, the arguments white on
    black, nothing else is shown, and what follows has the terminal's own colours. Where
    the output is no terminal, the bytes are those of the word. *)
Theorem C91_colours_on_the_screen : forall c bs rest, ~ In 27 bs ->
  screen Chars "default" "default" (LineModel.paint true c bs ++ rest)
    = map (fun b => (b, asked c "default" "default")) bs ++ screen Chars "default" "default" rest /\
  screen Chars "default" "default" (LineModel.paint true LineModel.BgBlack (LineModel.paint true LineModel.White bs) ++ rest)
    = map (fun b => (b, ("white", "black")%string)) bs ++ screen Chars "default" "default" rest /\
  LineModel.paint false c bs = bs.
Proof.
  intros c bs rest H. split_and!; [| |done].
  - rewrite screen_paint, screen_plain by exact H. destruct (asked c "default" "default"); reflexivity.
  - rewrite !screen_paint, screen_plain by exact H. reflexivity.
Qed.
Example C91_screen_nonvacuous : screen Chars "default" "default" (LineModel.paint true LineModel.Cyan (LineModel.txt "open") ++ LineModel.txt "(")
  = map (fun b => (b, ("cyan", "default")%string)) (LineModel.txt "open") ++ [(40, ("default", "default")%string)].
Proof. vm_compute. reflexivity. Qed.

(** * Flags of the command line *)
Section flags.
Import ClientModel AgentModel AgentSpec AgentTop.
Lemma listed n : In n flag_names -> flag_like n.
Proof.
  intros H. unfold flag_names in H. cbn [map In] in H.
  repeat (destruct H as [<-|H]; [eexists _, _; split; [reflexivity|]; split; [discriminate|]; cbn; intuition discriminate|]). destruct H.
Qed.
(** C86: --use-tls and --oneshot are switches: the argument after them is not theirs. Every
    other flag takes its value from the next argument or from behind an equals sign. *)
Theorem C86_only_switches_take_no_value : forall f rest,
  (forall e s h tls o out ns file j l fl, f = Flags e s h tls o out ns file j l fl ->
     parse_args f (t "--use-tls" :: rest) = parse_args (Flags e s h true o out ns file j l fl) rest /\
     parse_args f (t "--oneshot" :: rest) = parse_args (Flags e s h tls true out ns file j l fl) rest) /\
  (forall n v, In n flag_names -> n <> t "use-tls" -> n <> t "oneshot" ->
     parse_args f ((t "--" ++ n) :: v :: rest) = parse_args f ((t "--" ++ n ++ "="%char :: v) :: rest) /\ parse_args f [t "--" ++ n] = None).
Proof.
  intros f rest. split.
  - intros e s h tls o out ns file j l fl ->. split; reflexivity.
  - intros n v Hn N1 N2. pose proof (listed n Hn) as L. rewrite (long_arg f n (v :: rest) L), (long_arg f n [] L), (long_arg_eq f n v rest L).
    assert (B : is_bool n = false).
    { unfold is_bool. cbn [map existsb]. unfold text_eqb. rewrite !bool_decide_eq_false_2 by assumption. reflexivity. }
    rewrite B. split; reflexivity.
Qed.
Example C86_switches_nonvacuous : exists f, parse_args no_flags [t "--use-tls"; t "--namespace"; t "prod"] = Some f /\ parse_args no_flags [t "--namespace=prod"; t "--use-tls"] = Some f.
Proof. eexists. split; vm_compute; reflexivity. Qed.
End flags.

(** * Socket options *)
(** C63: the name of a socket option is looked up at the level that the call was decoded
    with. *)
Theorem C63_options_have_the_level_of_the_call : forall nr args fs vs i f, nr = 54 \/ nr = 55 -> decoder nr = Some fs ->
  decode_fields args fs = Some vs -> fs !! i = Some f -> f_name f = "level"%string -> vs !! i = Some (VInt (option_level args)).
Proof.
  intros nr args fs vs i f Hnr Hd Hv Hi Hf.
  assert (fs = [Field "fd" 0 KS32; Field "level" 1 KS32; Field "name" 2 KS32; Field "val" 3 (KSlice 4); Field "len" 4 KS32]) as ->.
  { destruct Hnr as [->| ->]; vm_compute in Hd; injection Hd as <-; reflexivity. }
  assert (i = 1%nat) as ->.
  { do 5 (destruct i as [|i]; [cbn in Hi; injection Hi as <-; cbn in Hf; first [discriminate Hf|reflexivity]|]). discriminate Hi. }
  cbn [decode_fields] in Hv. destruct (decode_field args (Field "fd" 0 KS32)); [|discriminate].
  unfold decode_field at 1 in Hv. cbn [f_kind f_slot] in Hv. unfold option_level. destruct (c32 args (slot_start 1)) as [lv|]; [|discriminate Hv]. cbn [vint] in Hv.
  match type of Hv with match match ?x with _ => _ end with _ => _ end = _ => destruct x; [|discriminate Hv] end. injection Hv as <-. reflexivity.
Qed.
Example C63_level_nonvacuous : exists vs, decode_fields (replicate 640 6) [Field "fd" 0 KS32; Field "level" 1 KS32; Field "name" 2 KS32; Field "val" 3 (KSlice 4); Field "len" 4 KS32] = Some vs
  /\ vs !! 1%nat = Some (VInt 0x6060606).
Proof. eexists. split; vm_compute; reflexivity. Qed.

Print Assumptions C90_addresses_are_hexadecimal.
Print Assumptions C91_colours_on_the_screen.
Print Assumptions C86_only_switches_take_no_value.
Print Assumptions C63_options_have_the_level_of_the_call.
