(** C61, C62, C63: what a client reads back of an event. *)
From Coq Require Import ZArith String Lia.
From stdpp Require Import base list numbers strings pretty gmap.
From Verif Require Import RawModel DecodeModel DecodeProofs CodecTables CodecModel CodecSpec
  JsonModel JsonSpec JsonProofs.

Local Open Scope string_scope.
Local Open Scope Z_scope.

(** * C61: text *)

(** Text (paths, command names) reaches a client unchanged exactly when it is
    well-formed UTF-8... *)
Theorem C61_text_survives_iff_utf8 :
  forall bs, bytes bs -> (json_text bs = bs <-> well_formed bs).
Proof. exact json_text_iff. Qed.

(** ... the client always has well-formed text... *)
Theorem C61_client_text_is_utf8 :
  forall bs, bytes bs -> well_formed (json_text bs).
Proof. exact (fun bs H => json_text_valid (length bs) bs (Nat.le_refl _) H). Qed.

(** ... and text never becomes shorter. *)
Theorem C61_text_never_shrinks :
  forall bs, bytes bs -> (length bs <= length (json_text bs))%nat.
Proof. exact (fun bs H => json_text_len (length bs) bs (Nat.le_refl _) H). Qed.

(** So distinct file names can look the same to a client. *)
Theorem C61_names_stay_distinct_refuted :
  exists a b, bytes a /\ bytes b /\ a <> b /\ json_text a = json_text b.
Proof.
  exists [47; 255], [47; 254]. unfold bytes.
  split; [repeat constructor; lia|]. split; [repeat constructor; lia|].
  split; [discriminate|reflexivity].
Qed.

(** "/é" survives; a lone continuation byte does not. *)
Example C61_example :
  json_text [47; 195; 169] = [47; 195; 169] /\ json_text [47; 169] = [47; 239; 191; 189]
  /\ well_formed [47; 195; 169].
Proof.
  split; [reflexivity|]. split; [reflexivity|].
  exists [47; 233]. split; [|reflexivity]. repeat constructor; lia.
Qed.

(** * C62: socket addresses *)

(** [mem] is the slot the address was captured in; [heap] is the memory behind the
    16 bytes the client allocated.  Addresses that fit are right whatever lies
    behind... *)
Theorem C62_short_addresses_survive :
  forall mem heap,
    (16 <= length mem)%nat -> short_address mem ->
    parse_sockaddr (client_sockaddr mem heap) = parse_sockaddr mem.
Proof. exact client_address_short. Qed.

(** ... for any other address the client's text depends on what lies behind. *)
Theorem C62_long_addresses_read_foreign_memory_refuted :
  forall mem,
    (16 <= length mem)%nat -> ~ short_address mem ->
    exists h1 h2, bytes h1 /\ bytes h2
      /\ parse_sockaddr (client_sockaddr mem h1) <> parse_sockaddr (client_sockaddr mem h2).
Proof. exact client_address_long. Qed.

(** 127.0.0.1:80 fits; so does a unix socket of at most 13 characters. *)
Example C62_example :
  short_address ([2; 0; 0; 80; 127; 0; 0; 1] ++ repeat 0 120)
  /\ parse_sockaddr (client_sockaddr ([2; 0; 0; 80; 127; 0; 0; 1] ++ repeat 0 120) [9])
     = ("ipv4:127.0.0.1", 80)
  /\ short_address ([1; 0] ++ repeat 97 13 ++ repeat 0 113)
  /\ ~ short_address ([1; 0] ++ repeat 97 14 ++ repeat 0 112).
Proof.
  split; [|split; [reflexivity|split]].
  - split; [discriminate|]. intros H. discriminate H.
  - split; [discriminate|]. intros _. vm_compute. tauto.
  - intros [_ H]. specialize (H eq_refl). vm_compute in H. intuition discriminate.
Qed.

(** * C63: whole events *)

(** One member: the client has what the server had, for every map order and every
    heap, exactly when the member is one of those that survive. *)
Theorem C63_member_survives_iff :
  forall nr fs f args v,
    decoder nr = Some fs -> In f fs -> length args = 640%nat -> bytes args ->
    decode_field args f = Some v ->
    ((forall order heap, (forall l, order l ≡ₚ l) -> bytes heap ->
        client_member order heap args nr f v = server_member args nr f v)
     <-> survives args nr f v).
Proof. exact member_survives. Qed.

(** All of an event that was received as [bs]. *)
Theorem C63_event_survives_iff :
  forall bs r t fs ms,
    bytes bs -> ingest_bytes bs = Some r -> ingest (InBytes bs) = Ingested t ->
    decoder (t_syscall t) = Some fs ->
    server_members (r_args r) (t_syscall t) fs (t_argv t) = Some ms ->
    ((forall order heap, (forall l, order l ≡ₚ l) -> bytes heap ->
        client_comm t = t_comm t /\ client_error order t = t_error t
        /\ client_members order heap (r_args r) (t_syscall t) fs (t_argv t) = Some ms)
     <-> well_formed (t_comm t) /\ In (t_error t) (map fst errno_names)
         /\ Forall2 (survives (r_args r) (t_syscall t)) fs (t_argv t)).
Proof. exact whole_event. Qed.

(** A successful connect to 127.0.0.1:80 by "sh": number 42 at byte 16, the
    command at 80, the address in the second slot. *)
Definition connect_event : list Z :=
  (repeat 0 16 ++ [42; 0; 0; 0] ++ repeat 0 60 ++ [115; 104] ++ repeat 0 14
   ++ repeat 0 128 ++ [2; 0; 0; 80; 127; 0; 0; 1] ++ repeat 0 504)%list.

Example C63_example :
  exists r t fs ms,
    bytes connect_event /\ ingest_bytes connect_event = Some r
    /\ ingest (InBytes connect_event) = Ingested t
    /\ decoder (t_syscall t) = Some fs
    /\ server_members (r_args r) (t_syscall t) fs (t_argv t) = Some ms
    /\ In (MSock ("ipv4:127.0.0.1", 80)) ms
    /\ well_formed (t_comm t) /\ t_comm t = [115; 104]
    /\ In (t_error t) (map fst errno_names)
    /\ Forall2 (survives (r_args r) (t_syscall t)) fs (t_argv t).
Proof.
  eexists _, _, _, _.
  split. { unfold bytes. apply Forall_forall. intros x Hx.
           assert (H : forallb (fun b => (0 <=? b) && (b <? 256)) connect_event = true)
             by (vm_compute; reflexivity).
           rewrite forallb_forall in H. apply elem_of_list_In in Hx. specialize (H x Hx).
           apply andb_true_iff in H. lia. }
  split; [vm_compute; reflexivity|].
  split; [vm_compute; reflexivity|].
  split; [vm_compute; reflexivity|].
  split; [vm_compute; reflexivity|].
  split; [vm_compute; tauto|].
  split. { exists [115; 104]. split; [repeat constructor; lia|reflexivity]. }
  split; [reflexivity|].
  split; [vm_compute; tauto|].
  apply List.Forall2_cons; [|apply List.Forall2_cons; [|apply List.Forall2_nil]].
  - unfold survives, int_survives. repeat split; intros H; vm_compute in H; discriminate H.
  - split; [vm_compute; discriminate|vm_compute; discriminate].
Qed.

Print Assumptions C61_text_survives_iff_utf8.
Print Assumptions C61_client_text_is_utf8.
Print Assumptions C61_text_never_shrinks.
Print Assumptions C61_names_stay_distinct_refuted.
Print Assumptions C62_short_addresses_survive.
Print Assumptions C62_long_addresses_read_foreign_memory_refuted.
Print Assumptions C63_member_survives_iff.
Print Assumptions C63_event_survives_iff.
