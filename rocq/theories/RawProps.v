(** C31, C32, C36, C37, C57: event bytes, command names, C strings, socket
    addresses, and which number is the process id. *)
From stdpp Require Import base list numbers strings pretty.
From Coq Require Import ZArith Lia Ascii.
From Verif Require Import RawModel RawSpec RawProofs.

Local Open Scope Z_scope.

(** ** C31 *)

(** Whatever the scratch buffer held before and whatever follows the record,
    the bytes of an event decode to that event. *)
Theorem C31_kernel_bytes_decode_to_the_event :
  forall k scratch trailing,
    kernel_event_ok k -> length scratch = swoll_event_size ->
    ingest_bytes (kernel_image k scratch ++ trailing) = Some (raw_of k).
Proof. exact ingest_image. Qed.

Theorem C31_exactly_short_buffers_are_rejected :
  forall data, (length data < swoll_event_size)%nat <-> ingest_bytes data = None.
Proof. exact ingest_short. Qed.

(** No byte is ignored: different events have different bytes, and every
    buffer that is long enough is the image of an event. *)
Theorem C31_different_events_have_different_bytes :
  forall k k' scratch scratch',
    kernel_event_ok k -> kernel_event_ok k' ->
    length scratch = swoll_event_size -> length scratch' = swoll_event_size ->
    kernel_image k scratch = kernel_image k' scratch' -> k = k'.
Proof. exact ingest_image_inj. Qed.

Theorem C31_every_long_buffer_is_an_event :
  forall data,
    Forall is_byte data -> (swoll_event_size <= length data)%nat ->
    exists k, kernel_event_ok k /\ ingest_bytes data = Some (raw_of k)
      /\ forall scratch, length scratch = swoll_event_size ->
         kernel_image k scratch = take swoll_event_size data.
Proof. exact every_buffer. Qed.

(** ** C32 *)

Theorem C32_comm_is_the_c_string :
  forall r s, is_cstring (r_comm r) s <-> commstr r = s.
Proof. exact commstr_spec. Qed.

(** ** C36 *)

Theorem C36_c_string_is_the_longest_nul_free_prefix :
  forall mem n s, is_cstring (take n mem) s <-> make_cstring mem n = s.
Proof. exact make_cstring_spec. Qed.

Theorem C36_c_string_never_exceeds_its_bound :
  forall mem n, (length (make_cstring mem n) <= n)%nat.
Proof. exact make_cstring_length. Qed.

Theorem C36_c_string_has_no_nul :
  forall mem n, 0 ∉ make_cstring mem n.
Proof. exact make_cstring_no_nul. Qed.

Theorem C36_nothing_after_the_nul_matters :
  forall s rest n, 0 ∉ s -> (length s < n)%nat -> make_cstring (s ++ 0 :: rest) n = s.
Proof. exact make_cstring_nul. Qed.

Theorem C36_without_a_nul_all_bytes_are_kept :
  forall s rest, 0 ∉ s -> make_cstring (s ++ rest) (length s) = s.
Proof. exact make_cstring_full. Qed.

(** ** C37 *)

Theorem C37_ipv4_address_and_port :
  forall port a b c d rest,
    0 <= port < 65536 ->
    parse_sockaddr (sockaddr_in port a b c d rest)
    = (("ipv4:" ++ dotted a b c d)%string, port).
Proof. exact parse_in. Qed.

Theorem C37_ipv4_text_determines_address_and_port :
  forall port a b c d rest port' a' b' c' d' rest',
    0 <= port < 65536 -> 0 <= port' < 65536 ->
    is_byte a -> is_byte b -> is_byte c -> is_byte d ->
    is_byte a' -> is_byte b' -> is_byte c' -> is_byte d' ->
    sockaddr_string (sockaddr_in port a b c d rest)
    = sockaddr_string (sockaddr_in port' a' b' c' d' rest') ->
    a = a' /\ b = b' /\ c = c' /\ d = d' /\ port = port'.
Proof. exact in_text_inj. Qed.

(** The IPv6 port comes out with its two bytes exchanged ... *)
Theorem C37_ipv6_address_and_swapped_port :
  forall port flow addr rest,
    0 <= port < 65536 -> length flow = 4%nat -> length addr = 16%nat ->
    parse_sockaddr (sockaddr_in6 port flow addr rest)
    = (("ipv6:" ++ join ":" (groups addr))%string, 256 * (port mod 256) + port / 256).
Proof. exact parse_in6. Qed.

(** The two digits of a byte. *)
Theorem C37_bytes_are_two_hex_digits :
  forall b, is_byte b ->
    exists h l, hex2 b = String h (String l EmptyString)
      /\ String.get (Z.to_nat (b / 16)) "0123456789abcdef" = Some h /\ String.get (Z.to_nat (b mod 16)) "0123456789abcdef" = Some l.
Proof.
  intros b [B0 B1]. assert (T : forallb (fun n => match String.get n "0123456789abcdef" with Some c => Ascii.eqb c (hex_digit (Z.of_nat n)) | None => false end) (seq 0 16) = true) by reflexivity.
  rewrite forallb_forall in T.
  assert (D : forall d, 0 <= d < 16 -> String.get (Z.to_nat d) "0123456789abcdef" = Some (hex_digit d)).
  { intros d Hd. specialize (T (Z.to_nat d)). rewrite Z2Nat.id in T by lia. destruct (String.get _ _); [|discriminate T; apply in_seq; lia].
    f_equal. apply Ascii.eqb_eq, T, in_seq. lia. }
  exists (hex_digit (b / 16)), (hex_digit (b mod 16)). split; [reflexivity|].
  split; apply D; [|apply Z.mod_pos_bound; lia]. split; [apply Z.div_pos; lia|apply Z.div_lt_upper_bound; lia].
Qed.

(** ... which is right exactly when the two bytes are the same. *)
Theorem C37_ipv6_port_is_right_only_for_equal_bytes :
  forall port, 0 <= port < 65536 ->
    256 * (port mod 256) + port / 256 = port <-> port / 256 = port mod 256.
Proof. exact port6_right. Qed.

Theorem C37_ipv6_text_determines_the_address :
  forall port flow addr rest port' flow' addr' rest',
    0 <= port < 65536 -> 0 <= port' < 65536 ->
    length flow = 4%nat -> length addr = 16%nat ->
    length flow' = 4%nat -> length addr' = 16%nat ->
    Forall is_byte addr -> Forall is_byte addr' ->
    sockaddr_string (sockaddr_in6 port flow addr rest)
    = sockaddr_string (sockaddr_in6 port' flow' addr' rest') ->
    addr = addr' /\ port = port'.
Proof. exact in6_text_inj. Qed.

Theorem C37_unix_path_up_to_the_nul :
  forall path rest,
    0 ∉ path -> (length path < 108)%nat ->
    parse_sockaddr (sockaddr_un path (0 :: rest))
    = (("unix:" ++ string_of_bytes path)%string, 0).
Proof.
  intros path rest N L. rewrite parse_un. by rewrite make_cstring_nul.
Qed.

(** The bytes of an unspecified address are shown as signed numbers. *)
Lemma join_ints_concat l : join_ints l = String.concat " " (map pretty l).
Proof. induction l as [|x [|y l] IH]; [reflexivity|reflexivity|]. cbn [join_ints map String.concat] in *. rewrite IH. reflexivity. Qed.
Theorem C37_unspecified_shows_signed_bytes :
  forall data rest, length data = 14%nat -> Forall is_byte data ->
    exists shown, Forall2 (fun b x => -128 <= x < 128 /\ x mod 256 = b) data shown
    /\ parse_sockaddr (0 :: 0 :: data ++ rest)%list
       = (("unspec:[" ++ String.concat " " (map pretty shown) ++ "]")%string, 0).
Proof.
  intros data rest L B. exists (map s8 data). split.
  - clear L. induction B as [|b data H B IH]; cbn [map]; constructor; [|exact IH]. unfold is_byte in H. unfold s8. destruct (Z.ltb_spec b 128).
    + split; [lia|apply Z.mod_small; lia].
    + split; [lia|]. replace (b - 256) with (b + (-1) * 256) by lia. rewrite Z.mod_add by lia. apply Z.mod_small. lia.
  - rewrite <- join_ints_concat. replace data with (take 14 (drop 2 (0 :: 0 :: data ++ rest)%list)) at 2.
    + reflexivity.
    + change (take 14 (data ++ rest)%list = data). apply take_app_alt. rewrite L. reflexivity.
Qed.

Theorem C37_other_families_show_their_number :
  forall mem,
    le (take 2 mem) <> 0 -> le (take 2 mem) <> 1 -> le (take 2 mem) <> 2 ->
    le (take 2 mem) <> 10 ->
    parse_sockaddr mem = (pretty (le (take 2 mem)), 0).
Proof. exact parse_other. Qed.

(** ** C57 *)

(** With the kernel's packing, RawEvent.Pid is the thread id and RawEvent.Tid
    is the process id; UID and Gid are what their names say. *)
Theorem C57_pid_is_the_thread_id :
  forall k scratch trailing tgid tid uid gid,
    kernel_event_ok k -> length scratch = swoll_event_size ->
    0 <= tgid < 2 ^ 32 -> 0 <= tid < 2 ^ 32 ->
    0 <= uid < 2 ^ 32 -> 0 <= gid < 2 ^ 32 ->
    k_pid_tid k = pid_tgid tgid tid -> k_uid_gid k = uid_gid uid gid ->
    exists r, ingest_bytes (kernel_image k scratch ++ trailing) = Some r
      /\ r_pid r = tid /\ r_tid r = tgid /\ r_uid r = uid /\ r_gid r = gid.
Proof.
  intros k scratch trailing tgid tid uid gid Hk Hs Ht Hi Hu Hg Ep Eu.
  exists (raw_of k). split; [by apply ingest_image|].
  unfold raw_of. cbn [r_pid r_tid r_uid r_gid]. rewrite Ep, Eu.
  unfold pid_tgid, uid_gid.
  rewrite !(Z.add_comm (_ * 2 ^ 32)), !Z.mod_add, !Z.div_add by lia.
  rewrite !Z.mod_small, !Z.div_small by lia. by rewrite !Z.add_0_l.
Qed.

(** So the claim the names make, that Pid is the process, fails for every
    thread but a process's first. *)
Theorem C57_pid_is_the_process_refuted :
  ~ forall k scratch trailing tgid tid,
      kernel_event_ok k -> length scratch = swoll_event_size ->
      0 <= tgid < 2 ^ 32 -> 0 <= tid < 2 ^ 32 -> k_pid_tid k = pid_tgid tgid tid ->
      exists r, ingest_bytes (kernel_image k scratch ++ trailing) = Some r /\ r_pid r = tgid.
Proof.
  intros H.
  pose (k := KernelEvent (pid_tgid 100 101) 0 0 0 0 0 0 0 0 0 0 0 0 0 0
               (repeat 0 16) (repeat 0 640)).
  assert (K : kernel_event_ok k).
  { constructor; first [reflexivity | cbn; unfold pid_tgid; lia]. }
  assert (L : length (repeat 0 swoll_event_size) = swoll_event_size) by apply repeat_length.
  destruct (H k (repeat 0 swoll_event_size) [] 100 101 K L ltac:(lia) ltac:(lia) eq_refl)
    as (r & E & P).
  rewrite (ingest_image k _ [] K L) in E. apply (inj Some) in E. subst r.
  vm_compute in P. discriminate.
Qed.

(** ** The hypotheses can be met *)

Definition ex_kernel_event : kernel_event :=
  KernelEvent (pid_tgid 4242 4243) (uid_gid 1000 100) 257 7 123456789 123456999 (-1)
    4026531836 4026531838 4026531840 4026531839 4026531835 12 2 4294967294
    ([98; 97; 115; 104] ++ repeat 0 12) (repeat 7 640).

Example ex_kernel_event_ok : kernel_event_ok ex_kernel_event.
Proof. constructor; first [reflexivity | cbn; unfold pid_tgid, uid_gid; lia]. Qed.

Example ex_roundtrip :
  ingest_bytes (kernel_image ex_kernel_event (repeat 255 736) ++ [1; 2; 3])
  = Some (raw_of ex_kernel_event)
  /\ r_tid (raw_of ex_kernel_event) = 4242
  /\ commstr (raw_of ex_kernel_event) = [98; 97; 115; 104].
Proof. vm_compute. done. Qed.

Example ex_sockaddr :
  sockaddr_string (sockaddr_in 8080 10 0 0 1 (repeat 9 120)) = "ipv4:10.0.0.1:8080"
  /\ sockaddr_string (sockaddr_in6 80 (repeat 0 4) (repeat 0 15 ++ [1]) (repeat 9 100))
     = "ipv6:0000:0000:0000:0000:0000:0000:0000:0001:20480"
  /\ sockaddr_string (sockaddr_un [47; 97] (0 :: repeat 9 100)) = "unix:/a:0".
Proof. vm_compute. done. Qed.

Print Assumptions C31_kernel_bytes_decode_to_the_event.
Print Assumptions C31_exactly_short_buffers_are_rejected.
Print Assumptions C31_different_events_have_different_bytes.
Print Assumptions C31_every_long_buffer_is_an_event.
Print Assumptions C32_comm_is_the_c_string.
Print Assumptions C36_c_string_is_the_longest_nul_free_prefix.
Print Assumptions C36_c_string_never_exceeds_its_bound.
Print Assumptions C36_c_string_has_no_nul.
Print Assumptions C36_nothing_after_the_nul_matters.
Print Assumptions C36_without_a_nul_all_bytes_are_kept.
Print Assumptions C37_ipv4_address_and_port.
Print Assumptions C37_ipv4_text_determines_address_and_port.
Print Assumptions C37_ipv6_address_and_swapped_port.
Print Assumptions C37_ipv6_port_is_right_only_for_equal_bytes.
Print Assumptions C37_ipv6_text_determines_the_address.
Print Assumptions C37_bytes_are_two_hex_digits.
Print Assumptions C37_unix_path_up_to_the_nul.
Print Assumptions C37_other_families_show_their_number.
Print Assumptions C57_pid_is_the_thread_id.
Print Assumptions C57_pid_is_the_process_refuted.
Print Assumptions C37_unspecified_shows_signed_bytes.
