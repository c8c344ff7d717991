(** C101-C103: flag sets, named numbers, modes, structs and the latency in a printed line. *)
From Coq Require Import ZArith String Lia.
From stdpp Require Import base list numbers strings pretty.
From Verif Require Import RawModel RawSpec DecodeModel CaptureModel CaptureSpec LineModel LineSpec LineProofs TextModel TextSpec TextProofs TextTop LineTop.

Local Open Scope string_scope.
Local Open Scope list_scope.
Local Open Scope Z_scope.

(** * C101 *)

(** The name of a flag is printed exactly if the task set the flag; [order] is the order
    the program happens to go through its table in. *)
Theorem C101_flags_shown :
  forall order base nr regs mem ret old label member tbl whole m v text name i,
    (forall l, order l ≡ₚ l) ->
    printed_text order base nr regs mem ret old label text -> flag_param nr label member tbl whole ->
    doc nr member = Some m -> is_wrong nr member = false -> expected regs mem m = Some (ShInt v) ->
    (name, i) ∈ tbl -> (nr, v) <> (254, 4095) -> (nr, name) ∉ unnamed -> (nr, name) ∉ shared ->
    (shows_name text name <-> Z.testbit v i = true).
Proof. exact flags_shown. Qed.
Print Assumptions C101_flags_shown.

(** Nothing else is printed: every word is the name of a flag, or the name of the whole
    value, or for messages, if no flag has a name, the number. *)
Theorem C101_nothing_else :
  forall order base nr regs mem ret old label member tbl whole m v text w,
    (forall l, order l ≡ₚ l) ->
    printed_text order base nr regs mem ret old label text -> flag_param nr label member tbl whole ->
    doc nr member = Some m -> is_wrong nr member = false -> expected regs mem m = Some (ShInt v) ->
    w ∈ words text ->
    (exists name i, w = text_bytes name /\ (name, i) ∈ tbl /\ ((nr, name) ∈ shared \/ Z.testbit v i = true))
    \/ (exists name, w = text_bytes name /\ text = text_bytes name /\ whole = Some (v, name))
    \/ ((nr = 44 \/ nr = 45) /\ text = text_bytes (pretty v)).
Proof. exact flags_only. Qed.
Print Assumptions C101_nothing_else.

(** No flag twice, and whichever the order, the same names. *)
Theorem C101_each_once :
  forall order base nr regs mem ret old label member tbl whole m v text,
    (forall l, order l ≡ₚ l) ->
    printed_text order base nr regs mem ret old label text -> flag_param nr label member tbl whole ->
    doc nr member = Some m -> is_wrong nr member = false -> expected regs mem m = Some (ShInt v) ->
    NoDup (words text).
Proof. exact flags_once. Qed.
Theorem C101_same_names_in_any_order :
  forall order order' base base' nr regs mem ret old ret' old' label member tbl whole m v text text',
    (forall l, order l ≡ₚ l) -> (forall l, order' l ≡ₚ l) ->
    printed_text order base nr regs mem ret old label text -> printed_text order' base' nr regs mem ret' old' label text' ->
    flag_param nr label member tbl whole -> doc nr member = Some m -> is_wrong nr member = false ->
    expected regs mem m = Some (ShInt v) -> words text ≡ₚ words text'.
Proof. exact flags_order. Qed.

(** A value with a name of its own is printed as that name, and one without any is
    nothing, or for messages the number. *)
Theorem C101_whole_value :
  forall order base nr regs mem ret old label member tbl v name m text,
    printed_text order base nr regs mem ret old label text -> flag_param nr label member tbl (Some (v, name)) ->
    doc nr member = Some m -> is_wrong nr member = false -> expected regs mem m = Some (ShInt v) ->
    text = text_bytes name.
Proof. exact flags_whole. Qed.
Theorem C101_no_name :
  forall order base nr regs mem ret old label member tbl whole m v text,
    (forall l, order l ≡ₚ l) ->
    printed_text order base nr regs mem ret old label text -> flag_param nr label member tbl whole ->
    doc nr member = Some m -> is_wrong nr member = false -> expected regs mem m = Some (ShInt v) ->
    (forall name, whole <> Some (v, name)) ->
    (forall name i, (name, i) ∈ tbl -> (nr, name) ∉ unnamed -> Z.testbit v i = false) ->
    (forall name, (nr, name) ∈ shared -> ~ shows_name text name) ->
    text = if (nr =? 44) || (nr =? 45) then text_bytes (pretty v) else [].
Proof. exact flags_none. Qed.

(** Not every flag has a name: those of [unnamed] are never printed... *)
Theorem C101_every_flag_shown_refuted :
  forall order base nr regs mem ret old label member tbl whole m v text name i,
    (forall l, order l ≡ₚ l) ->
    printed_text order base nr regs mem ret old label text -> flag_param nr label member tbl whole ->
    doc nr member = Some m -> is_wrong nr member = false -> expected regs mem m = Some (ShInt v) ->
    (name, i) ∈ tbl -> (nr, name) ∈ unnamed -> ~ shows_name text name.
Proof. exact flags_unnamed. Qed.
(** ... so that O_PATH and O_LARGEFILE both print as nothing. *)
Theorem C101_flags_can_be_recovered_refuted :
  exists regs regs' mem text,
    Z.testbit (s32 (nth 1 regs 0)) 21 = true /\ Z.testbit (s32 (nth 1 regs' 0)) 21 = false
    /\ printed_text (fun l => l) 0 2 regs mem 3 (repeat 0 640) "flags" text
    /\ printed_text (fun l => l) 0 2 regs' mem 3 (repeat 0 640) "flags" text.
Proof.
  exists [0; 2 ^ 21; 0; 0; 0; 0], [0; 2 ^ 15; 0; 0; 0; 0], (fun _ => Some 0), [].
  split; [reflexivity|]. split; [reflexivity|].
  split; do 4 eexists; (split; [reflexivity|]); (split; [reflexivity|]); (split; [vm_compute; reflexivity|]); (split; [vm_compute; reflexivity|]);
  right; left.
Qed.

(** O_SYNC is printed for O_DSYNC too, and MS_NOUSER for any flag above it. *)
Theorem C101_O_SYNC :
  forall order base nr regs mem ret old label text v m,
    (forall l, order l ≡ₚ l) -> nr = 2 \/ nr = 257 ->
    printed_text order base nr regs mem ret old label text -> label = "flags" ->
    doc nr "flags" = Some m -> expected regs mem m = Some (ShInt v) ->
    (shows_name text "O_SYNC" <-> Z.testbit v 12 = true \/ Z.testbit v 20 = true).
Proof. exact open_sync. Qed.
Theorem C101_MS_NOUSER :
  forall order base regs mem ret old text v m,
    (forall l, order l ≡ₚ l) ->
    printed_text order base 165 regs mem ret old "mountflags" text ->
    doc 165 "flags" = Some m -> expected regs mem m = Some (ShInt v) ->
    (shows_name text "MS_NOUSER" <-> ~ 0 <= v < 2 ^ 31).
Proof. exact mount_nouser. Qed.

(** * C102 *)

(** A number that has a name is printed as the name, unless it is one of [nameless]:
    then in decimal. *)
Theorem C102_named_numbers :
  forall order base nr regs mem ret old label member tbl m v text name,
    printed_text order base nr regs mem ret old label text -> number_param nr label member tbl ->
    doc nr member = Some m -> is_wrong nr member = false -> expected regs mem m = Some (ShInt v) ->
    (name, v) ∈ tbl ->
    text = text_bytes (if decide ((nr, name) ∈ nameless) then pretty v else name).
Proof. exact number_named. Qed.
Print Assumptions C102_named_numbers.
(** The text tells the number. *)
Theorem C102_numbers_can_be_recovered :
  forall order base nr regs mem ret old order' base' regs' mem' ret' old' label member tbl m v v' text,
    printed_text order base nr regs mem ret old label text -> printed_text order' base' nr regs' mem' ret' old' label text ->
    number_param nr label member tbl -> doc nr member = Some m -> is_wrong nr member = false ->
    expected regs mem m = Some (ShInt v) -> expected regs' mem' m = Some (ShInt v') -> v = v'.
Proof. exact number_tells. Qed.

(** A socket option is named according to its level. *)
Theorem C102_socket_options :
  forall order base nr regs mem ret old text lv v name,
    nr = 54 \/ nr = 55 -> printed_text order base nr regs mem ret old "optname" text ->
    s32 (nth 1 regs 0) = lv -> s32 (nth 2 regs 0) = v -> (lv, v, name) ∈ options -> text = text_bytes name.
Proof. exact option_named. Qed.
Theorem C102_options_can_be_recovered :
  forall order base nr regs mem ret old order' base' regs' mem' ret' old' text,
    nr = 54 \/ nr = 55 ->
    printed_text order base nr regs mem ret old "optname" text -> printed_text order' base' nr regs' mem' ret' old' "optname" text ->
    s32 (nth 1 regs 0) = s32 (nth 1 regs' 0) -> s32 (nth 2 regs 0) = s32 (nth 2 regs' 0).
Proof. exact option_tells. Qed.

(** A socket type: the type, then its flags. *)
Theorem C102_socket_type :
  forall order base regs mem ret old text name k,
    printed_text order base 41 regs mem ret old "type" text -> (name, k) ∈ socket_types ->
    s32 (nth 1 regs 0) mod 16 = k ->
    text = text_bytes (name +:+ (if Z.testbit (s32 (nth 1 regs 0)) 19 then "|SOCK_CLOEXEC" else "")
                            +:+ (if Z.testbit (s32 (nth 1 regs 0)) 11 then "|SOCK_NONBLOCK" else "")).
Proof. exact type_form. Qed.

(** A mode: a dash and the permissions as ls -l writes them... *)
Theorem C102_modes :
  forall order base nr regs mem ret old m v text,
    nr ∈ mode_calls -> printed_text order base nr regs mem ret old "mode" text ->
    doc nr "mode" = Some m -> expected regs mem m = Some (ShInt v) -> 0 <= v < 2 ^ 19 ->
    text = text_bytes ("-" +:+ permissions v).
Proof. exact mode_form. Qed.
(** ... so set-user-ID, set-group-ID and the sticky bit do not show. *)
Theorem C102_special_mode_bits_refuted :
  forall order base nr regs mem ret old order' base' regs' mem' ret' old' m v v' text text',
    nr ∈ mode_calls -> printed_text order base nr regs mem ret old "mode" text -> printed_text order' base' nr regs' mem' ret' old' "mode" text' ->
    doc nr "mode" = Some m -> expected regs mem m = Some (ShInt v) -> expected regs' mem' m = Some (ShInt v') ->
    0 <= v < 2 ^ 19 -> 0 <= v' < 2 ^ 19 -> v mod 512 = v' mod 512 -> text = text'.
Proof.
  intros order base nr regs mem ret old order' base' regs' mem' ret' old' m v v' text text' N P P' D E E' B B' L.
  rewrite (mode_form _ _ _ _ _ _ _ _ _ _ N P D E B), (mode_form _ _ _ _ _ _ _ _ _ _ N P' D E' B'), (permissions_low v v' L). reflexivity.
Qed.

(** Limits and timers: their members... *)
Theorem C102_limits_and_timers :
  forall order base nr regs mem ret old label member size format members m bs text,
    printed_text order base nr regs mem ret old label text -> struct_param nr label member size format members ->
    doc nr member = Some m -> is_wrong nr member = false -> expected regs mem m = Some (ShBytes bs) ->
    text = formatted format members bs.
Proof. exact struct_expected. Qed.
(** ... and struct stat, of the bytes that were decoded (C35 tells which they are); also
    for statfs, whose struct is another. *)
Theorem C102_stat :
  forall order base nr regs mem ret old label member size format members fs f bs text,
    printed_text order base nr regs mem ret old label text -> struct_param nr label member size format members ->
    decoder nr = Some fs -> field_named fs member = Some f ->
    member_shown f (captured_args nr regs mem ret old) = Some (ShBytes bs) ->
    text = formatted format members bs.
Proof. exact struct_text. Qed.

(** What nanosleep's arguments print as does not depend on them. *)
Theorem C102_nanosleep_refuted :
  forall order order' base regs mem ret old regs' mem' ret' old' label text text',
    label = "req" \/ label = "rem" ->
    printed_text order base 35 regs mem ret old label text -> printed_text order' base 35 regs' mem' ret' old' label text' ->
    text = text'.
Proof. exact nanosleep_text. Qed.

(** * C103 *)

(** The latency is printed as milliseconds with three decimals, to the nearest
    microsecond of the time between the two timestamps, while the machine has been up for
    less than 104 days. *)
Theorem C103_nearest_microsecond :
  forall order base argv start finish, 0 <= start <= finish -> finish < 2 ^ 53 ->
    exists us, p_ms (line_printer order base argv) (latency start finish) = padded runes false 6 (text_bytes (decimal3 us))
      /\ 0 <= us /\ Z.abs (1000 * us - (finish - start)) <= 500.
Proof.
  intros order base argv start finish B F. rewrite latency_exact by lia. exists (thousandths (finish - start)).
  assert (R : 0 <= finish - start < 2 ^ 53) by lia. assert (2 ^ 53 < 2 ^ 64) by reflexivity.
  split; [exact (ms_form (finish - start) ltac:(lia))|]. split; [apply thousandths_pos; lia|]. apply thousandths_near. exact R.
Qed.
Print Assumptions C103_nearest_microsecond.

(** A longer call is never printed with a smaller latency, whenever it is made. *)
Theorem C103_longer_is_not_less :
  forall order base argv ns ns', 0 <= ns <= ns' -> ns' < 2 ^ 64 ->
    exists us us', p_ms (line_printer order base argv) ns = padded runes false 6 (text_bytes (decimal3 us))
      /\ p_ms (line_printer order base argv) ns' = padded runes false 6 (text_bytes (decimal3 us')) /\ us <= us'.
Proof.
  intros order base argv ns ns' B F. exists (thousandths ns), (thousandths ns').
  split; [exact (ms_form ns ltac:(lia))|]. split; [exact (ms_form ns' ltac:(lia))|]. apply thousandths_mono; assumption.
Qed.

(** The line of a call is one line, if no name, string or path has a line feed. *)
Theorem C103_one_call_one_line :
  forall order base tty nc c t raw fs out,
    (forall l, order l ≡ₚ l) ->
    (forall name pod ns, c = Some (name, pod, ns) -> 10 ∉ name /\ 10 ∉ pod /\ 10 ∉ ns) ->
    10 ∉ t_comm t -> decoder (t_syscall t) = Some fs ->
    decode_fields raw fs = Some (t_argv t) -> Forall is_byte raw ->
    Forall (no_line_feed raw) fs -> line_of order base tty nc c t raw = Some out -> one_line out.
Proof. exact one_line_of. Qed.
Print Assumptions C103_one_call_one_line.

(** * The hypotheses can be met *)

Definition zeros : memory := fun _ => Some 0.
Ltac printed := do 4 eexists; (split; [reflexivity|]); (split; [reflexivity|]); (split; [vm_compute; reflexivity|]); (split; [vm_compute; reflexivity|]);
  apply elem_of_list_In; vm_compute; tauto.

(** open(path, O_WRONLY|O_CREAT|O_CLOEXEC) *)
Example C101_met : printed_text (fun l => l) 0 2 [0; 524353; 0] zeros 3 (repeat 0 640) "flags" (text_bytes "O_WRONLY|O_CLOEXEC|O_CREAT")
  /\ expected [0; 524353; 0] zeros (Arg Int 1) = Some (ShInt 524353) /\ doc 2 "flags" = Some (Arg Int 1) /\ is_wrong 2 "flags" = false
  /\ flag_param 2 "flags" "flags" open_flags (Some (0, "O_RDONLY")) /\ ("O_CREAT", 6) ∈ open_flags.
Proof.
  split; [printed|]. split; [reflexivity|]. split; [reflexivity|]. split; [reflexivity|]. split; apply elem_of_list_In; vm_compute; tauto.
Qed.
(** sendto with MSG_MORE, which has no name *)
Example C101_number_met : printed_text (fun l => l) 0 44 [5; 0; 0; 32768; 0; 0] zeros 3 (repeat 0 640) "flags" (text_bytes "32768").
Proof. printed. Qed.
(** setsockopt(fd, SOL_TCP, TCP_NODELAY, ..), socket(AF_INET, SOCK_STREAM|SOCK_CLOEXEC, ..), mkdir(path, 0755) *)
Example C102_met : printed_text (fun l => l) 0 54 [5; 6; 1; 0; 4] zeros 0 (repeat 0 640) "optname" (text_bytes "TCP_NODELAY")
  /\ printed_text (fun l => l) 0 54 [5; 6; 1; 0; 4] zeros 0 (repeat 0 640) "level" (text_bytes "SOL_TCP")
  /\ printed_text (fun l => l) 0 41 [2; 524289; 0] zeros 3 (repeat 0 640) "type" (text_bytes "SOCK_STREAM|SOCK_CLOEXEC")
  /\ printed_text (fun l => l) 0 83 [0; 493] zeros 0 (repeat 0 640) "mode" (text_bytes "-rwxr-xr-x").
Proof. split; [printed|]. split; [printed|]. split; printed. Qed.
(** prlimit64(0, RLIMIT_NOFILE, {1, 1}, {1, 1}) *)
Definition ones : memory := fun a => Some (if a mod 8 =? 0 then 1 else 0).
Example C102_struct_met : printed_text (fun l => l) 0 302 [0; 7; 4096; 8192] ones 0 (repeat 0 640) "new_limit" (text_bytes "{1 1}")
  /\ printed_text (fun l => l) 0 302 [0; 7; 4096; 8192] ones 0 (repeat 0 640) "resource" (text_bytes "RLIMIT_NOFILE").
Proof. split; printed. Qed.
(** 1.5 ms *)
Example C103_met : p_ms (line_printer (fun l => l) 0 []) (latency 1000 1501000) = text_bytes " 1.500".
Proof. vm_compute. reflexivity. Qed.
