(** C90-C92: what `swoll trace` prints for a call. *)
From Coq Require Import ZArith String Lia.
From stdpp Require Import base list numbers strings pretty.
From Verif Require Import RawModel RawSpec DecodeModel CaptureModel CaptureSpec LineModel LineSpec LineProofs LineTop.
From Verif Require JsonModel JsonSpec JsonProofs.

Local Open Scope string_scope.
Local Open Scope list_scope.
Local Open Scope Z_scope.

(** * C90 *)

(** A printed label names a parameter of the system call, and the value behind it
    is that parameter as the task passed it, unless it is one of the members C35
    lists. *)
Theorem C90_labels_and_values :
  forall p nr regs mem ret old fs argv printed ty label text,
    length old = 640%nat -> decoder nr = Some fs ->
    decode_fields (captured_args nr regs mem ret old) fs = Some argv ->
    arguments p nr (captured_args nr regs mem ret old) argv = Some printed ->
    (ty, label, text) ∈ printed -> (nr, label) ∉ mislabelled ->
    exists i name m,
      names_parameter nr i label /\ doc nr name = Some m /\ about m = Some i
      /\ (is_wrong nr name = false ->
          forall sh, expected regs mem m = Some sh ->
            text = rendering nr label m sh (p_other p nr name sh)).
Proof. exact values_right. Qed.

(** They are in the order of the parameters... *)
Theorem C90_in_order :
  forall p nr args argv printed fs j k ty label bs ty' label' bs' i i',
    nr <> 56 -> arguments p nr args argv = Some printed -> decoder nr = Some fs ->
    decode_fields args fs = Some argv -> (j < k)%nat ->
    printed !! j = Some (ty, label, bs) -> printed !! k = Some (ty', label', bs') ->
    names_parameter nr i label -> names_parameter nr i' label' -> (i < i')%nat.
Proof. exact in_order. Qed.

(** ... which for clone they are not. *)
Theorem C90_in_order_refuted :
  exists p args argv printed fs text text' ty ty',
    decoder 56 = Some fs /\ decode_fields args fs = Some argv
    /\ arguments p 56 args argv = Some printed
    /\ printed !! 1%nat = Some (ty, "child_stack", text) /\ printed !! 2%nat = Some (ty', "flags", text')
    /\ names_parameter 56 1 "child_stack" /\ names_parameter 56 0 "flags".
Proof.
  exists (Printer (fun _ _ _ => []) (fun _ => [])), (repeat 0 640).
  do 7 eexists. split; [vm_compute; reflexivity|]. split; [vm_compute; reflexivity|].
  split; [vm_compute; reflexivity|]. split; [vm_compute; reflexivity|]. split; [vm_compute; reflexivity|].
  split; apply named_here_spec; vm_compute; reflexivity.
Qed.

(** Every parameter has its label, except exactly those of [unprinted]. *)
Theorem C90_every_parameter_but_these :
  forall p nr args argv printed fs name params i,
    arguments p nr args argv = Some printed -> decoder nr = Some fs ->
    decode_fields args fs = Some argv -> prototype nr = Some (name, params) ->
    (i < length params)%nat ->
    ((nr, i) ∈ unprinted
     <-> ~ exists ty label bs, (ty, label, bs) ∈ printed /\ names_parameter nr i label).
Proof. exact coverage. Qed.

(** Clone: "fn" is the stack, and "child_stack" is not the stack but memory at the
    parent_tid argument. *)
Theorem C90_clone_labels :
  forall p regs mem ret old fs argv printed bs,
    length old = 640%nat -> decoder 56 = Some fs ->
    decode_fields (captured_args 56 regs mem ret old) fs = Some argv ->
    arguments p 56 (captured_args 56 regs mem ret old) argv = Some printed ->
    load mem (nth 2 regs 0) 128 = Some bs ->
    forall ty text,
      ((ty, "fn", text) ∈ printed -> text = hex_text (nth 1 regs 0 mod 2 ^ 64))
      /\ ((ty, "child_stack", text) ∈ printed -> text = hex_text (le (take 8 bs) mod 2 ^ 64)).
Proof. exact clone_shows. Qed.

(** Execve: the words behind argv[] are the second, third and fourth; the program
    name is not among them. *)
Theorem C90_execve_words :
  forall p regs mem ret old argv printed w1 w2 w3,
    length old = 640%nat ->
    decode_fields (captured_args 59 regs mem ret old)
      [Field "filename" 0 KStr; Field "argv[0]" 1 KStr; Field "argv[1]" 2 KStr;
       Field "argv[2]" 3 KStr] = Some argv ->
    arguments p 59 (captured_args 59 regs mem ret old) argv = Some printed ->
    expected regs mem (Elem 1 1) = Some (ShBytes w1) ->
    expected regs mem (Elem 1 2) = Some (ShBytes w2) ->
    expected regs mem (Elem 1 3) = Some (ShBytes w3) ->
    forall ty text, (ty, "argv[]", text) ∈ printed ->
      text = w1 ++ [32] ++ w2 ++ [32] ++ w3 ++ [32].
Proof. exact execve_words. Qed.

(** Faccessat: "flags", which the call does not have, is whatever the buffer held
    before: the same call prints 7 or 8. *)
Theorem C90_faccessat_flags_refuted :
  exists p regs mem ret old old' argv argv' printed printed' fs,
    decoder 269 = Some fs /\ length old = 640%nat /\ length old' = 640%nat
    /\ decode_fields (captured_args 269 regs mem ret old) fs = Some argv
    /\ decode_fields (captured_args 269 regs mem ret old') fs = Some argv'
    /\ arguments p 269 (captured_args 269 regs mem ret old) argv = Some printed
    /\ arguments p 269 (captured_args 269 regs mem ret old') argv' = Some printed'
    /\ printed !! 3%nat = Some ("int", "flags", text_bytes "7")
    /\ printed' !! 3%nat = Some ("int", "flags", text_bytes "8").
Proof.
  exists (Printer (fun _ _ _ => []) (fun _ => [])), [3; 0; 4], (fun _ => None), 0.
  exists (repeat 0 384 ++ [7] ++ repeat 0 255), (repeat 0 384 ++ [8] ++ repeat 0 255).
  do 5 eexists. split; [vm_compute; reflexivity|]. split; [reflexivity|]. split; [reflexivity|].
  split; [vm_compute; reflexivity|]. split; [vm_compute; reflexivity|].
  split; [vm_compute; reflexivity|]. split; [vm_compute; reflexivity|].
  split; vm_compute; reflexivity.
Qed.

(** The line carries the name of the system call... *)
Theorem C90_call_name :
  forall p tty nc c t raw out name params,
    t_syscall t <> 166 -> prototype (t_syscall t) = Some (name, params) ->
    cli_output p tty nc c t raw = Some out ->
    exists before after, out = before ++ paint tty Cyan (text_bytes name) ++ text_bytes "(" ++ after.
Proof. exact line_names_call. Qed.

(** ... which for umount2 is that of another system call. *)
Theorem C90_call_name_refuted :
  (exists args, call 166 = Some ("umount", args)) /\ exists params, prototype 166 = Some ("umount2", params).
Proof. split; eexists; reflexivity. Qed.

(** A line is printed for every call that can be decoded, whatever it was given. *)
Theorem C90_a_line_for_every_call :
  forall p tty nc c t raw fs,
    length raw = 640%nat -> decoder (t_syscall t) = Some fs ->
    decode_fields raw fs = Some (t_argv t) ->
    exists out, cli_output p tty nc c t raw = Some out.
Proof. exact prints. Qed.

(** * C91 *)

(** The form of the output for one event: latency, container (or process), name of the
    task, error, call, and the type, label and value of each argument. *)
Theorem C91_form_of_the_output :
  forall p tty nc c t raw out,
    cli_output p tty nc c t raw = Some out ->
    exists name shs args, call (t_syscall t) = Some (name, shs) /\ arguments p (t_syscall t) raw (t_argv t) = Some args
    /\ out = printf runes None (if nc then "(%vms) [%15s/%-8v] (%11s) %s(" else "(%vms) %35s: [%9s] (%11s) %s(")
               (let lat := latency_text p tty (latency (t_start t) (t_finish t)) in let errno := error_text tty (t_error t) in let name := paint tty Cyan (text_bytes name) in
                if nc then [lat; t_comm t; text_bytes (pretty (t_pid t)); errno; name] else [lat; paint tty Green (match c with Some (cn, pod, ns) => cn ++ text_bytes "." ++ pod ++ text_bytes "." ++ ns | None => text_bytes "-.-.-" end); t_comm t; errno; name])
             ++ separated (text_bytes ", ") (map (fun a => printf runes None "(%s)%s=%v" [text_bytes a.1.1; text_bytes a.1.2; paint tty BgBlack (paint tty White a.2)]) args)
             ++ text_bytes ")" ++ [10].
Proof. exact line_form. Qed.
Print Assumptions C91_form_of_the_output.

(** The columns are as wide as the characters of a name, not its bytes. *)
Theorem C91_columns_count_characters :
  forall cs, Forall JsonSpec.scalar cs -> runes (List.concat (List.map JsonSpec.utf8 cs)) = length cs.
Proof.
  induction 1 as [|c cs Hc _ IH]; [reflexivity|]. cbn [List.map List.concat length]. rewrite <- IH. generalize (List.concat (List.map JsonSpec.utf8 cs)). clear -Hc. intros rest.
  unfold JsonSpec.scalar in Hc. unfold JsonSpec.utf8.
  destruct (Z.ltb_spec c 128) as [L1|L1].
  { cbn [app runes]. destruct (Z.ltb_spec c 128); [reflexivity|lia]. }
  assert (c / 64 = 64 * (c / 4096) + c / 64 mod 64) by (change 4096 with (64 * 64); rewrite <- Z.div_div by lia; apply Z.div_mod; lia).
  assert (c / 4096 = 64 * (c / 262144) + c / 4096 mod 64) by (change 262144 with (4096 * 64); rewrite <- Z.div_div by lia; apply Z.div_mod; lia).
  pose proof (Z.div_mod c 64 ltac:(lia)). pose proof (Z.mod_pos_bound c 64 ltac:(lia)). pose proof (Z.mod_pos_bound (c / 64) 64 ltac:(lia)). pose proof (Z.mod_pos_bound (c / 4096) 64 ltac:(lia)).
  destruct (Z.ltb_spec c 2048) as [L2|L2].
  { cbn [app runes]. destruct (Z.ltb_spec (192 + c / 64) 128); [lia|].
    assert (JsonModel.seq2 (192 + c / 64) (128 + c mod 64) = true) as ->; [|reflexivity].
    JsonProofs.bool2prop. lia. }
  destruct (Z.ltb_spec c 65536) as [L3|L3].
  { cbn [app runes]. destruct (Z.ltb_spec (224 + c / 4096) 128); [lia|].
    assert (JsonModel.seq2 (224 + c / 4096) (128 + c / 64 mod 64) = false) as ->.
    { apply not_true_iff_false. JsonProofs.bool2prop. lia. }
    assert (JsonModel.seq3 (224 + c / 4096) (128 + c / 64 mod 64) (128 + c mod 64) = true) as ->; [|reflexivity].
    JsonProofs.bool2prop. lia. }
  cbn [app runes]. destruct (Z.ltb_spec (240 + c / 262144) 128); [lia|].
  assert (JsonModel.seq2 (240 + c / 262144) (128 + c / 4096 mod 64) = false) as ->.
  { apply not_true_iff_false. JsonProofs.bool2prop. lia. }
  assert (JsonModel.seq3 (240 + c / 262144) (128 + c / 4096 mod 64) (128 + c / 64 mod 64) = false) as ->.
  { apply not_true_iff_false. JsonProofs.bool2prop. lia. }
  assert (JsonModel.seq4 (240 + c / 262144) (128 + c / 4096 mod 64) (128 + c / 64 mod 64) (128 + c mod 64) = true)
    as ->; [|reflexivity].
  JsonProofs.bool2prop. lia.
Qed.
Print Assumptions C91_columns_count_characters.

(** If no name, string or path contains a line feed, a call is one line. *)
Theorem C91_one_call_one_line :
  forall p tty nc c t raw fs out,
    (forall nr name sh, 10 ∉ p_other p nr name sh) -> (forall ns, 10 ∉ p_ms p ns) ->
    (forall name pod ns, c = Some (name, pod, ns) -> 10 ∉ name /\ 10 ∉ pod /\ 10 ∉ ns) ->
    10 ∉ t_comm t -> decoder (t_syscall t) = Some fs ->
    decode_fields raw fs = Some (t_argv t) -> Forall is_byte raw ->
    Forall (no_line_feed raw) fs -> cli_output p tty nc c t raw = Some out -> one_line out.
Proof.
  intros p tty nc c t raw fs out P1 P2 C. apply prints_one_line; [exact (conj P1 P2)|].
  destruct c as [[[a b] d]|]; [exact (C a b d eq_refl)|exact I].
Qed.

(** Otherwise a traced task writes lines of its choice: whatever the text, an open
    of a suitable path prints it as a line of its own, on behalf of any container
    and whatever the other arguments. *)
Theorem C91_one_call_one_line_refuted :
  forall l, (length l <= 125)%nat -> 0 ∉ l -> 10 ∉ l ->
    exists mem path,
      forall p tty nc c t regs ret old,
        nth 0 regs 0 = path -> length old = 640%nat -> t_syscall t = 2 ->
        decode_fields (captured_args 2 regs mem ret old)
          [Field "filename" 0 KStr; Field "flags" 1 KS32; Field "mode" 2 KS32] = Some (t_argv t) ->
        exists out, cli_output p tty nc c t (captured_args 2 regs mem ret old) = Some out
          /\ has_line l out.
Proof. exact forge. Qed.

(** An output format other than cli and json prints nothing and is no error. *)
Theorem C91_other_formats_print_nothing :
  forall json p out tty nc c t raw,
    out <> "cli" -> out <> "json" -> show_msg json p out tty nc c t raw = Some [].
Proof.
  intros json p out tty nc c t raw H1 H2. unfold show_msg.
  apply String.eqb_neq in H1, H2. rewrite H1, H2. reflexivity.
Qed.

(** * C92 *)

(** The latency of a call is exact while the machine has been up for less than
    2^53 ns, 104 days... *)
Theorem C92_latency_exact :
  forall start finish, 0 <= start <= finish -> finish <= 2 ^ 53 ->
    latency start finish = finish - start.
Proof. exact latency_exact. Qed.

(** ... after that not: calls of 1 and of 2 ns are shown as 0 and 4. *)
Theorem C92_latency_exact_refuted :
  latency (2 ^ 53) (2 ^ 53 + 1) = 0 /\ latency (2 ^ 53 + 1) (2 ^ 53 + 3) = 4.
Proof. split; vm_compute; reflexivity. Qed.

(** It stays within a few parts in 2^53 of the uptime... *)
Theorem C92_latency_bound :
  forall start finish, 0 <= start <= finish -> finish < 2 ^ 63 -> finish - start <= 2 ^ 52 ->
    2 ^ 53 * Z.abs (latency start finish - (finish - start)) <= finish + start.
Proof. exact latency_bound. Qed.

(** ... is never negative, and never smaller for a call that took longer. *)
Theorem C92_latency_order :
  (forall start finish, start <= finish -> 0 <= latency start finish)
  /\ forall start finish finish', finish <= finish' -> latency start finish <= latency start finish'.
Proof. split; [exact latency_nonneg|intros; apply latency_later; assumption]. Qed.

(** * The hypotheses can be met *)

(** A printer that writes no line feed. *)
Definition plain : printer := Printer (fun _ _ _ => text_bytes "?") (fun ns => text_bytes (pretty ns)).
Definition ev (nr : Z) (argv : list value) : trace_event :=
  TraceEvent nr 7 7 1 0 0 (text_bytes "sh") 0 0 0 0 0 0 1000 3500 argv.

(** close(3): one line, as it looks without a terminal. *)
Example C90_close_line :
  let raw := captured_args 3 [3] (fun _ => None) 0 (repeat 0 640) in
  cli_output plain false false (Some (text_bytes "web", text_bytes "shop", text_bytes "prod"))
    (ev 3 [VInt 3]) raw
  = Some (text_bytes "(2500ms)                       web.shop.prod: [       sh] (         OK) close((int)fd=3)" ++ [10])
  /\ decode_fields raw [Field "fd" 0 KS32] = Some [VInt 3] /\ decoder 3 = Some [Field "fd" 0 KS32].
Proof. vm_compute. split; [reflexivity|split; reflexivity]. Qed.

(** read(0, buf, -1), from the command line without containers. *)
Example C90_negative_count_line :
  let raw := captured_args 0 [0; 4096; -1] (fun _ => None) (-14) (repeat 0 640) in
  decode_fields raw [Field "fd" 0 KS32; Field "buf" 1 (KSliceMin 2); Field "count" 2 KS64] = Some [VInt 0; VSlice 128 (-1); VInt (-1)]
  /\ decoder 0 = Some [Field "fd" 0 KS32; Field "buf" 1 (KSliceMin 2); Field "count" 2 KS64]
  /\ cli_output plain false true None (ev 0 [VInt 0; VSlice 128 (-1); VInt (-1)]) raw
     = Some (text_bytes "(2500ms) [             sh/7       ] (         OK) read((int)fd=0, (void *)buf=[], (ssize_t)count=-1)" ++ [10]).
Proof. vm_compute. split; [reflexivity|split; reflexivity]. Qed.

Example C90_labels_nonvacuous :
  let raw := captured_args 2 [4096; 1; 420] (text_at (text_bytes "/etc/passwd")) 3 (repeat 0 640) in
  arguments plain 2 raw [VStr (text_bytes "/etc/passwd"); VInt 1; VInt 420]
  = Some [("const char *", "pathname", text_bytes "/etc/passwd"); ("int", "flags", text_bytes "?");
          ("int", "mode", text_bytes "420")]
  /\ decode_fields raw [Field "filename" 0 KStr; Field "flags" 1 KS32; Field "mode" 2 KS32]
     = Some [VStr (text_bytes "/etc/passwd"); VInt 1; VInt 420]
  /\ expected [4096; 1; 420] (text_at (text_bytes "/etc/passwd")) (Text 0)
     = Some (ShBytes (text_bytes "/etc/passwd")).
Proof. vm_compute. split; [reflexivity|split; reflexivity]. Qed.

(** clone(0, 0x7000, 0x1000, ...) with 42 at 0x1000. *)
Example C90_clone_nonvacuous :
  let raw := captured_args 56 [0; 28672; 4096; 0; 0] (text_at (42 :: repeat 0 127)) 9 (repeat 0 640) in
  load (text_at (42 :: repeat 0 127)) 4096 128 = Some (42 :: repeat 0 127)
  /\ exists fs argv printed, decoder 56 = Some fs /\ decode_fields raw fs = Some argv
     /\ arguments plain 56 raw argv = Some printed
     /\ printed !! 0%nat = Some ("int (*)(void *)", "fn", text_bytes "0x00007000")
     /\ printed !! 1%nat = Some ("void *", "child_stack", text_bytes "0x0000002a").
Proof.
  split; [vm_compute; reflexivity|]. do 3 eexists. split; [vm_compute; reflexivity|].
  split; [vm_compute; reflexivity|]. split; [vm_compute; reflexivity|]. split; vm_compute; reflexivity.
Qed.

Example C90_execve_nonvacuous :
  let mem := fun a =>
    if (a <? 4096) || (8192 <=? a) then None
    else if a <? 4128 then Some (nth (Z.to_nat (a - 4096)) ([0;20;0;0;0;0;0;0; 2;20;0;0;0;0;0;0; 4;20;0;0;0;0;0;0; 6;20;0;0;0;0;0;0]) 0)
    else if (5120 <=? a) && (a <? 5128) then Some (nth (Z.to_nat (a - 5120)) [97; 0; 98; 0; 99; 0; 100; 0] 0)
    else Some 0 in
  expected [0; 4096] mem (Elem 1 1) = Some (ShBytes [98])
  /\ expected [0; 4096] mem (Elem 1 2) = Some (ShBytes [99])
  /\ expected [0; 4096] mem (Elem 1 3) = Some (ShBytes [100])
  /\ exists argv printed,
       decode_fields (captured_args 59 [0; 4096] mem 0 (repeat 0 640))
         [Field "filename" 0 KStr; Field "argv[0]" 1 KStr; Field "argv[1]" 2 KStr;
          Field "argv[2]" 3 KStr] = Some argv
       /\ arguments plain 59 (captured_args 59 [0; 4096] mem 0 (repeat 0 640)) argv = Some printed
       /\ ("char * const", "argv[]", text_bytes "b c d ") ∈ printed.
Proof.
  split; [vm_compute; reflexivity|]. split; [vm_compute; reflexivity|]. split; [vm_compute; reflexivity|].
  do 2 eexists. split; [vm_compute; reflexivity|]. split; [vm_compute; reflexivity|].
  right. left.
Qed.

Example C91_nonvacuous :
  let raw := captured_args 3 [3] (fun _ => None) 0 (repeat 0 640) in
  (forall nr name sh, 10 ∉ p_other plain nr name sh) /\ (forall ns, 10 ∉ p_ms plain ns)
  /\ (10 ∉ text_bytes "web" /\ 10 ∉ text_bytes "shop" /\ 10 ∉ text_bytes "prod")
  /\ Forall is_byte raw /\ 10 ∉ t_comm (ev 3 [VInt 3]) /\ Forall (no_line_feed raw) [Field "fd" 0 KS32].
Proof.
  split; [intros; apply cleanb_clean; reflexivity|].
  split; [intros ns; cbn [plain p_ms]; rewrite <- txt_bytes; apply pretty_clean|].
  split; [repeat split; apply cleanb_clean; reflexivity|].
  split; [apply Forall_forall; intros b B; apply elem_of_list_In in B;
          assert (F : forallb (fun b => (0 <=? b) && (b <? 256)) (captured_args 3 [3] (fun _ => None) 0 (repeat 0 640)) = true) by (vm_compute; reflexivity);
          rewrite forallb_forall in F; specialize (F b B); apply andb_true_iff in F as [F1 F2];
          apply Z.leb_le in F1; apply Z.ltb_lt in F2; unfold is_byte; lia|]. split; [apply cleanb_clean; reflexivity|].
  constructor; [exact I|constructor].
Qed.

(** A forged line: the line of C90_close_line, which another container's close
    would print, fits. *)
Example C91_forged_nonvacuous :
  let l := text_bytes "(2500ms)                       web.shop.prod: [       sh] (         OK) close((int)fd=3)" in
  (length l <= 125)%nat /\ 0 ∉ l /\ 10 ∉ l.
Proof.
  split; [vm_compute; lia|]. split; [|apply cleanb_clean; reflexivity].
  intros H. apply elem_of_list_In in H.
  assert (F : forallb (fun b => negb (b =? 0)) (text_bytes "(2500ms)                       web.shop.prod: [       sh] (         OK) close((int)fd=3)") = true) by reflexivity.
  rewrite forallb_forall in F. specialize (F 0 H). discriminate.
Qed.

Example C92_nonvacuous : latency 1000 3500 = 2500 /\ latency (2 ^ 62) (2 ^ 62 + 1000000) = 999936 + 512.
Proof. vm_compute. split; reflexivity. Qed.

Print Assumptions C90_labels_and_values.
Print Assumptions C90_in_order.
Print Assumptions C90_in_order_refuted.
Print Assumptions C90_every_parameter_but_these.
Print Assumptions C90_clone_labels.
Print Assumptions C90_execve_words.
Print Assumptions C90_faccessat_flags_refuted.
Print Assumptions C90_call_name.
Print Assumptions C90_call_name_refuted.
Print Assumptions C90_a_line_for_every_call.
Print Assumptions C91_one_call_one_line.
Print Assumptions C91_one_call_one_line_refuted.
Print Assumptions C91_other_formats_print_nothing.
Print Assumptions C92_latency_exact.
Print Assumptions C92_latency_exact_refuted.
Print Assumptions C92_latency_bound.
Print Assumptions C92_latency_order.
