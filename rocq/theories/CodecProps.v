(** C38, C39, C40, C60: flags, names and errnos in JSON. *)
From stdpp Require Import base list numbers strings pretty gmap.
From Coq Require Import ZArith String.
From Verif Require Import CodecTables CodecModel CodecSpec CodecProofs CodecNames.

Local Open Scope Z_scope.
Local Open Scope string_scope.

(** * C38: flag sets survive JSON

    [order] is the order in which Go's map iteration meets the flags. *)

(** A value survives exactly when it is a union of known flags. *)
Theorem C38_flag_sets_survive :
  forall c order v,
    In c [accept_codec; msg_codec; umount_codec; timer_codec; inotify_codec; mount_codec] ->
    order ≡ₚ c_masks c ->
    (decode c 0 (encode c order v) = v <-> made_of (map fst (c_masks c)) v).
Proof.
  exact (fun c order v Hc Hp =>
    flags_round_trip c _ order v (flag_type_ok _ _ (plain_types c Hc)) Hp).
Qed.

(** For open flags, O_DSYNC is the exception... *)
Theorem C38_open_flags_survive_without_dsync :
  forall order v,
    order ≡ₚ file_masks ->
    (decode file_codec 0 (encode file_codec order v) = v
     <-> made_of (flags_but ["O_DSYNC"] file_masks) v).
Proof.
  exact (fun order v Hp =>
    flags_round_trip file_codec _ order v (flag_type_ok _ _ file_allowed_in) Hp).
Qed.

(** ... (4096 on amd64): it comes back as O_SYNC (1052672). *)
Theorem C38_dsync_comes_back_as_sync_refuted :
  forall order v,
    order ≡ₚ file_masks -> made_of (flags_but ["O_DSYNC"] file_masks) v ->
    decode file_codec 0 (encode file_codec order (Z.lor v 4096)) = Z.lor v 1052672.
Proof. exact file_dsync. Qed.

(** MS_NOUSER is bit 31, 2147483648, in the kernel; it comes back negative. *)
Theorem C38_mount_nouser_comes_back_negative_refuted :
  forall order v,
    order ≡ₚ mount_masks -> made_of (flags_but ["MS_NOUSER"] mount_masks) v ->
    decode mount_codec 0 (encode mount_codec order (Z.lor v 2147483648)) = Z.lor v (- 2147483648).
Proof. exact mount_nouser. Qed.

Theorem C38_mount_nouser_numbers :
  forall v, made_of (flags_but ["MS_NOUSER"] mount_masks) v ->
    0 <= v < 2147483648 /\ Z.lor v 2147483648 = v + 2147483648
    /\ Z.lor v (- 2147483648) = v - 2147483648.
Proof. exact mount_nouser_values. Qed.

(** Of any value at all, exactly the known bits survive. *)
Theorem C38_unknown_bits_are_dropped :
  forall c order v,
    In c [accept_codec; msg_codec; umount_codec; timer_codec; inotify_codec] ->
    order ≡ₚ c_masks c ->
    decode c 0 (encode c order v) = Z.land v (union (map fst (c_masks c))).
Proof.
  intros c order v Hc Hp. destruct (accumulating_types c Hc) as (_ & _ & Hin & Hs & He).
  exact (single_bits_trip c _ order v (flag_type_ok _ _ Hin) Hs He Hp).
Qed.

(** The names shown are those of the flags that share a bit with the value, except
    where the whole value has a name of its own (no flags, IN_ALL_EVENTS). *)
Theorem C38_names_shown :
  forall c order v n,
    order ≡ₚ c_masks c -> assoc_z (c_exact c) v = None ->
    (In n (encode c order v) <-> exists m, In (m, n) (c_masks c) /\ Z.land v m <> 0).
Proof. exact names_shown. Qed.

(** The bits known to each type. *)
Theorem C38_known_bits :
  union (map fst accept_masks) = Z.lor 0x800 0x80000
  /\ union (map fst msg_masks) = 0x40006163
  /\ union (map fst umount_masks) = 7
  /\ union (map fst timer_masks) = 0x80803
  /\ union (map fst inotify_masks) = 0xa7000fff
  /\ union (flags_but ["MS_NOUSER"] mount_masks) = 0x7ffffcff
  /\ union (map fst file_masks) = 0x1f7fc3.
Proof. vm_compute. repeat split. Qed.

(** O_RDWR|O_CREAT|O_TRUNC, met in the reverse order of the table. *)
Example C38_example :
  made_of (flags_but ["O_DSYNC"] file_masks) (Z.lor 2 (Z.lor 64 512))
  /\ encode file_codec (rev file_masks) 578 = ["O_TRUNC"; "O_CREAT"; "O_RDWR"]
  /\ decode file_codec 0 ["O_TRUNC"; "O_CREAT"; "O_RDWR"] = 578
  /\ made_of (flags_but ["MS_NOUSER"] mount_masks) 1.
Proof.
  split; [|split; [vm_compute; reflexivity|split; [vm_compute; reflexivity|]]].
  - exists [2; 64; 512]. split; [|reflexivity].
    intros m [<-|[<-|[<-|[]]]]; vm_compute; tauto.
  - exists [1]. split; [|reflexivity]. intros m [<-|[]]. vm_compute. tauto.
Qed.

(** * C39: decoding into a used variable *)

(** Whatever the document says, it is or-ed into the variable... *)
Theorem C39_decoding_accumulates :
  forall c start names,
    In c [accept_codec; msg_codec; umount_codec; timer_codec; inotify_codec] ->
    decode c start names = Z.lor start (decode c 0 names).
Proof.
  intros c start names Hc. destruct (accumulating_types c Hc) as (Hcl & Hz & _).
  apply decode_accumulates; [exact Hcl|]. rewrite Hz. intros n _ [].
Qed.

(** ... so decoding two values into one variable yields their union, *)
Theorem C39_second_value_replaces_first_refuted :
  forall c order a b,
    In c [accept_codec; msg_codec; umount_codec; timer_codec; inotify_codec] ->
    order ≡ₚ c_masks c ->
    made_of (map fst (c_masks c)) a -> made_of (map fst (c_masks c)) b ->
    decode c (decode c 0 (encode c order a)) (encode c order b) = Z.lor a b.
Proof. exact decode_twice. Qed.

(** except for open flags, *)
Theorem C39_open_flags_are_replaced :
  forall start names, decode file_codec start names = decode file_codec 0 names.
Proof. exact (fun start names => decode_replaces file_codec start names eq_refl). Qed.

(** and for mount flags if the document says MS_NONE. *)
Theorem C39_mount_flags :
  (forall start names, ~ In "MS_NONE" names ->
     decode mount_codec start names = Z.lor start (decode mount_codec 0 names))
  /\ (forall start names, In "MS_NONE" names ->
     decode mount_codec start names = decode mount_codec 0 names).
Proof.
  split; intros start names H.
  - apply decode_accumulates; [reflexivity|]. intros n Hn [<-|[]]. contradiction.
  - exact (decode_zero mount_codec start names "MS_NONE" (or_introl eq_refl) H).
Qed.

Example C39_example :
  decode umount_codec (decode umount_codec 0 ["MNT_FORCE"]) ["MNT_DETACH"] = 3
  /\ decode file_codec (decode file_codec 0 ["O_RDWR"]) ["O_CREAT"] = 64
  /\ decode mount_codec 5 ["MS_NONE"] = 0.
Proof. vm_compute. repeat split. Qed.

(** * C40: errnos *)

(** Known errnos (the table has -1, "UNK") come back, all others come back as -1,
    in whatever order init met the table. *)
Theorem C40_errno_round_trip :
  forall order e,
    order ≡ₚ errno_names ->
    (In e (map fst errno_names) ->
       string_to_errno (reverse order) (errno_to_string e) = e)
    /\ (~ In e (map fst errno_names) ->
       errno_to_string e = "UNK" /\ string_to_errno (reverse order) (errno_to_string e) = -1).
Proof.
  intros order e Hp. split; intros H.
  - rewrite (errno_trip order e Hp).
    destruct (existsb (Z.eqb e) (map fst errno_names)) eqn:E; [reflexivity|].
    exfalso. apply not_true_iff_false in E. apply E. apply existsb_exists.
    exists e. split; [exact H|apply Z.eqb_refl].
  - split.
    + unfold errno_to_string. apply assoc_z_none in H. rewrite H. reflexivity.
    + rewrite (errno_trip order e Hp).
      destruct (existsb (Z.eqb e) (map fst errno_names)) eqn:E; [|reflexivity].
      exfalso. apply existsb_exists in E. destruct E as (x & Hx & Hxe).
      apply Z.eqb_eq in Hxe. subst x. exact (H Hx).
Qed.

(** No two errnos share a name, so the reverse table is the same for every order. *)
Theorem C40_reverse_table_is_deterministic :
  forall order, order ≡ₚ errno_names -> reverse order = reverse errno_names.
Proof.
  exact (fun order Hp => reverse_perm _ _ (proj1 (names_ok_all _ errno_ok)) Hp).
Qed.

(** A name nobody knows decodes to -1. *)
Theorem C40_unknown_name :
  forall order s, order ≡ₚ errno_names -> ~ In s (map snd errno_names) ->
    string_to_errno (reverse order) s = -1.
Proof.
  intros order s Hp Hs. unfold string_to_errno.
  rewrite (C40_reverse_table_is_deterministic order Hp), (reverse_none _ _ Hs). reflexivity.
Qed.

Example C40_example :
  errno_to_string 2 = "ENOENT" /\ errno_to_string 41 = "UNK" /\ errno_to_string 4294967295 = "UNK".
Proof. vm_compute. repeat split. Qed.

(** * C60: named numbers, socket options and socket types *)

(** Address families, protocols, option levels and resources survive for every
    int, named or not. *)
Theorem C60_named_numbers_survive :
  forall names order v,
    In names [family_names; proto_names; level_names] -> order ≡ₚ names -> int64 v ->
    unrender (reverse order) (render names v) = Some v.
Proof.
  intros names order v Hn. apply unrender_render.
  destruct Hn as [<-|[<-|[<-|[]]]]; [exact family_ok|exact proto_ok|exact level_ok].
Qed.

Theorem C60_resources_survive :
  forall v, int64 v -> unrender_resource (render resource_names v) = Some v.
Proof. exact resource_round_trip. Qed.

(** Socket options with a name survive at the levels SOL_SOCKET, SOL_TCP, SOL_IP. *)
Theorem C60_named_options_survive :
  forall so tcp ip ip6 start lv tp,
    so ≡ₚ so_names -> tcp ≡ₚ tcp_names -> ip ≡ₚ ip_names ->
    (lv = SOL_SOCKET /\ In tp (map fst so_names)
     \/ lv = SOL_TCP /\ In tp (map fst tcp_names)
     \/ lv = SOL_IP /\ In tp (map fst ip_names)) ->
    unrender_option (reverse so) (reverse tcp) (reverse ip) (reverse ip6) start
      (render_option lv tp) = ((lv, tp), true).
Proof.
  intros so tcp ip ip6 start lv tp H1 H2 H3 H.
  assert (Hs : forall l, In tp (map fst l) -> exists n : string, assoc_z l tp = Some n).
  { intros l Hl. destruct (assoc_z l tp) eqn:E; [eauto|]. apply assoc_z_none in E. contradiction. }
  destruct H as [[-> H]|[[-> H]|[-> H]]]; destruct (Hs _ H) as [n Hn].
  - exact (option_so so tcp ip ip6 start H1 tp n Hn).
  - exact (option_tcp so tcp ip ip6 start H1 H2 tp n Hn).
  - exact (option_ip so tcp ip ip6 start H1 H2 H3 tp n Hn).
Qed.

(** Named IPv6 options do not: a client gets an error. *)
Theorem C60_ipv6_options_survive_refuted :
  forall so tcp ip ip6 start tp,
    so ≡ₚ so_names -> tcp ≡ₚ tcp_names -> ip ≡ₚ ip_names -> ip6 ≡ₚ ip6_names ->
    In tp (map fst ip6_names) ->
    snd (unrender_option (reverse so) (reverse tcp) (reverse ip) (reverse ip6) start
      (render_option SOL_IPV6 tp)) = false.
Proof.
  intros so tcp ip ip6 start tp H1 H2 H3 H4 H.
  destruct (assoc_z ip6_names tp) as [n|] eqn:E; [|apply assoc_z_none in E; contradiction].
  exact (f_equal snd (option_ip6 so tcp ip ip6 start H1 H2 H3 H4 tp n E)).
Qed.

(** An option shown as a number keeps the number and gets level 0 (IP). *)
Theorem C60_numeric_options_lose_their_level_refuted :
  forall so tcp ip ip6 start lv tp,
    so ≡ₚ so_names -> tcp ≡ₚ tcp_names -> ip ≡ₚ ip_names -> int64 tp ->
    render_option lv tp = pretty tp ->
    unrender_option (reverse so) (reverse tcp) (reverse ip) (reverse ip6) start
      (render_option lv tp) = ((0, tp), true).
Proof.
  exact (fun so tcp ip ip6 start lv tp H1 H2 H3 =>
    option_number so tcp ip ip6 start H1 H2 H3 lv tp).
Qed.

(** A socket type keeps the types 1-5 and 10 and the two flags, nothing else. *)
Theorem C60_socket_types :
  forall t,
    decode_socktype (encode_socktype t)
    = Z.lor (if existsb (Z.eqb (Z.land t 15)) [1; 2; 3; 4; 5; 10] then Z.land t 15 else 0)
        (Z.lor (Z.land t 524288) (Z.land t 2048)).
Proof.
  intros t. rewrite socktype_trip. f_equal.
  assert (Hr : 0 <= Z.land t 15 < 16).
  { change 15 with (Z.ones 4). rewrite Z.land_ones by lia. apply Z.mod_pos_bound. lia. }
  generalize dependent (Z.land t 15). intros ty Hr.
  assert (ty = 0 \/ ty = 1 \/ ty = 2 \/ ty = 3 \/ ty = 4 \/ ty = 5 \/ ty = 6 \/ ty = 7 \/ ty = 8
      \/ ty = 9 \/ ty = 10 \/ ty = 11 \/ ty = 12 \/ ty = 13 \/ ty = 14 \/ ty = 15) as Ht by lia.
  repeat (destruct Ht as [->|Ht]; [reflexivity|]). subst ty. reflexivity.
Qed.

(** The names may come in any order. *)
Theorem C60_socket_types_any_order :
  forall t names, names ≡ₚ encode_socktype t -> decode_socktype names = decode_socktype (encode_socktype t).
Proof. exact socktype_any_order. Qed.

(** SO_REUSEADDR, IPV6_V6ONLY, option 2 of SOL_RAW (shown again it is IP_TTL), a
    non-blocking stream socket, and type 7, which becomes 0. *)
Example C60_example :
  render_option 1 2 = "SO_REUSEADDR" /\ In 2 (map fst so_names)
  /\ render_option 41 26 = "IPV6_V6ONLY" /\ In 26 (map fst ip6_names)
  /\ render_option 255 2 = pretty 2 /\ render_option 0 2 = "IP_TTL"
  /\ decode_socktype (encode_socktype 2049) = 2049
  /\ decode_socktype (encode_socktype 7) = 0
  /\ render family_names 2 = "AF_INET" /\ render family_names (-3) = "-3".
Proof. vm_compute. repeat split; tauto. Qed.

Print Assumptions C38_flag_sets_survive.
Print Assumptions C38_open_flags_survive_without_dsync.
Print Assumptions C38_dsync_comes_back_as_sync_refuted.
Print Assumptions C38_mount_nouser_comes_back_negative_refuted.
Print Assumptions C38_mount_nouser_numbers.
Print Assumptions C38_unknown_bits_are_dropped.
Print Assumptions C38_names_shown.
Print Assumptions C38_known_bits.
Print Assumptions C39_decoding_accumulates.
Print Assumptions C39_second_value_replaces_first_refuted.
Print Assumptions C39_open_flags_are_replaced.
Print Assumptions C39_mount_flags.
Print Assumptions C40_errno_round_trip.
Print Assumptions C40_reverse_table_is_deterministic.
Print Assumptions C40_unknown_name.
Print Assumptions C60_named_numbers_survive.
Print Assumptions C60_resources_survive.
Print Assumptions C60_named_options_survive.
Print Assumptions C60_ipv6_options_survive_refuted.
Print Assumptions C60_numeric_options_lose_their_level_refuted.
Print Assumptions C60_socket_types.
Print Assumptions C60_socket_types_any_order.
