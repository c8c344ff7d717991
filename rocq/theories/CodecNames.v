(** Proofs about named numbers, socket options, socket types and errnos. *)
From stdpp Require Import base list numbers strings pretty gmap.
From Coq Require Import ZArith String Ascii Lia.
From Verif Require Import CodecTables CodecModel CodecSpec CodecProofs.

Local Open Scope Z_scope.

(** * Decimal numbers *)

Lemma digit_char x : (x < 10)%N -> digit (pretty_N_char x) = Some (Z.of_N x).
Proof.
  intros H.
  assert (x = 0 \/ x = 1 \/ x = 2 \/ x = 3 \/ x = 4 \/ x = 5 \/ x = 6 \/ x = 7 \/ x = 8 \/ x = 9)%N
    as Hx by lia.
  repeat (destruct Hx as [->|Hx]; [reflexivity|]). subst x. reflexivity.
Qed.

Lemma digits_go x s : digits 0 (pretty_N_go x s) = digits (Z.of_N x) s.
Proof.
  revert s. induction (N.lt_wf_0 x) as [x _ IH]; intros s.
  destruct (N.eq_dec x 0) as [->|Hx]; [rewrite pretty_N_go_0; reflexivity|].
  rewrite pretty_N_go_step by lia. rewrite IH by (apply N.div_lt; lia).
  cbn [digits]. rewrite digit_char by (apply N.mod_lt; lia).
  f_equal. rewrite N2Z.inj_div, N2Z.inj_mod.
  pose proof (Z.div_mod (Z.of_N x) 10). lia.
Qed.

Lemma digits_pretty x : digits 0 (pretty x) = Some (Z.of_N x).
Proof.
  unfold pretty, pretty_N. destruct (decide (x = 0%N)) as [->|Hx]; [reflexivity|].
  rewrite digits_go. reflexivity.
Qed.

Lemma pretty_N_nonempty (x : N) : pretty x <> ""%string.
Proof.
  intros H. pose proof (digits_pretty x) as Hd. rewrite H in Hd. cbn in Hd.
  injection Hd as Hx. assert (x = 0%N) as -> by lia. discriminate.
Qed.

Lemma number_digits s n : s <> ""%string -> digits 0 s = Some n -> number s = Some n.
Proof.
  intros Hs Hd. destruct s as [|c s]; [congruence|].
  destruct (ascii_dec c "-") as [->|H1]; [discriminate|].
  destruct (ascii_dec c "+") as [->|H2]; [discriminate|].
  rewrite <- Hd. unfold number.
  destruct c as [[] [] [] [] [] [] [] []]; try reflexivity; exfalso; first [apply H1; reflexivity|apply H2; reflexivity].
Qed.

Lemma number_pretty (z : Z) : number (pretty z) = Some z.
Proof.
  unfold pretty, pretty_Z. destruct z as [|p|p].
  - reflexivity.
  - apply number_digits; [apply pretty_N_nonempty|]. exact (digits_pretty (N.pos p)).
  - pose proof (digits_pretty (N.pos p)) as Hd.
    pose proof (pretty_N_nonempty (N.pos p)) as Hn.
    revert Hd Hn. change (pretty p) with (pretty (N.pos p)).
    generalize (pretty (N.pos p)). intros t Hd Hn.
    destruct t as [|c s]; [congruence|].
    transitivity (match digits 0 (String c s) with Some n => Some (- n) | None => None end);
      [reflexivity|]. rewrite Hd. reflexivity.
Qed.

Lemma atoi_pretty z : int64 z -> atoi (pretty z) = Some z.
Proof.
  intros [H1 H2]. unfold atoi. rewrite number_pretty.
  unfold in_int64. destruct (Z.leb_spec (- 2 ^ 63) z); [|lia].
  destruct (Z.ltb_spec z (2 ^ 63)); [reflexivity|lia].
Qed.

(** * Reverse maps *)

Lemma reverse_snoc l e n :
  reverse (l ++ [e]) !! n = if decide (snd e = n) then Some (fst e) else reverse l !! n.
Proof.
  unfold reverse. rewrite fold_left_app. cbn [fold_left].
  destruct (decide (snd e = n)) as [<-|Hn].
  - apply lookup_insert.
  - apply lookup_insert_ne. exact Hn.
Qed.

Lemma reverse_in l n v : reverse l !! n = Some v -> In (v, n) l.
Proof.
  induction l as [|e l IH] using rev_ind.
  - unfold reverse. cbn. rewrite lookup_empty. discriminate.
  - rewrite reverse_snoc, in_app_iff. destruct (decide (snd e = n)) as [<-|Hn].
    + intros [= <-]. right. left. destruct e; reflexivity.
    + auto.
Qed.

Lemma reverse_none l n : ~ In n (map snd l) -> reverse l !! n = None.
Proof.
  intros H. destruct (reverse l !! n) as [v|] eqn:E; trivial.
  apply reverse_in in E. destruct H. apply in_map_iff. exists (v, n). auto.
Qed.

Lemma reverse_some l n v : NoDup (map snd l) -> In (v, n) l -> reverse l !! n = Some v.
Proof.
  induction l as [|e l IH] using rev_ind; [intros _ []|].
  rewrite map_app. cbn [map]. intros Hnd Hin. rewrite reverse_snoc.
  apply in_app_iff in Hin. apply NoDup_app in Hnd. destruct Hnd as (Hnd & Hdis & _).
  destruct Hin as [Hin|[->|[]]].
  - destruct (decide (snd e = n)) as [He|Hn]; [|auto].
    exfalso. apply (Hdis n).
    + apply elem_of_list_In, in_map_iff. exists (v, n). auto.
    + rewrite He. apply elem_of_list_singleton. reflexivity.
  - cbn. destruct (decide (n = n)); congruence.
Qed.

Lemma reverse_perm l order : NoDup (map snd l) -> order ≡ₚ l -> reverse order = reverse l.
Proof.
  intros Hnd Hp. apply map_eq. intros n.
  assert (NoDup (map snd order)) as Hnd' by (rewrite Hp; exact Hnd).
  destruct (reverse l !! n) as [v|] eqn:E.
  - apply reverse_some; trivial. apply reverse_in in E.
    eapply Permutation_in; [symmetry|]; eauto.
  - apply reverse_none. intros Hin. apply in_map_iff in Hin.
    destruct Hin as ([v n'] & Hn & Hin). cbn in Hn. subst n'.
    assert (reverse l !! n = Some v) as E' by (apply reverse_some; trivial; eapply Permutation_in; eauto).
    congruence.
Qed.

(** What is checked of a name table: distinct names, none of them a number. *)
Definition names_ok (l : list (Z * string)) : bool :=
  bool_decide (NoDup (map snd l)) && forallb (fun e => match atoi (snd e) with None => true | _ => false end) l.

Lemma names_ok_all l : names_ok l = true ->
  NoDup (map snd l) /\ forall e, In e l -> atoi (snd e) = None.
Proof.
  unfold names_ok. rewrite andb_true_iff, bool_decide_eq_true, forallb_forall.
  intros [H1 H2]. split; trivial. intros e He. specialize (H2 e He).
  destruct (atoi (snd e)); congruence.
Qed.

Lemma number_is_no_name l v : names_ok l = true -> int64 v -> ~ In (pretty v) (map snd l).
Proof.
  intros (_ & H)%names_ok_all Hv Hin. apply in_map_iff in Hin.
  destruct Hin as (e & He & Hin). specialize (H e Hin). rewrite He, atoi_pretty in H by exact Hv.
  discriminate.
Qed.

Lemma unrender_render l order v :
  names_ok l = true -> order ≡ₚ l -> int64 v ->
  unrender (reverse order) (render l v) = Some v.
Proof.
  intros Hok Hp Hv. destruct (names_ok_all l Hok) as [Hnd Hnum].
  rewrite (reverse_perm l order Hnd Hp). unfold unrender, render.
  destruct (assoc_z l v) as [n|] eqn:E.
  - apply assoc_z_in in E. rewrite (reverse_some l n v Hnd E). reflexivity.
  - rewrite reverse_none by (apply number_is_no_name; trivial).
    apply atoi_pretty. exact Hv.
Qed.

Lemma family_ok : names_ok family_names = true. Proof. vm_compute. reflexivity. Qed.
Lemma proto_ok : names_ok proto_names = true. Proof. vm_compute. reflexivity. Qed.
Lemma level_ok : names_ok level_names = true. Proof. vm_compute. reflexivity. Qed.
Lemma so_ok : names_ok so_names = true. Proof. vm_compute. reflexivity. Qed.
Lemma tcp_ok : names_ok tcp_names = true. Proof. vm_compute. reflexivity. Qed.
Lemma ip_ok : names_ok ip_names = true. Proof. vm_compute. reflexivity. Qed.
Lemma ip6_ok : names_ok ip6_names = true. Proof. vm_compute. reflexivity. Qed.
Lemma resource_ok : names_ok resource_names = true. Proof. vm_compute. reflexivity. Qed.

(** PRresource's switch agrees with its names. *)
Lemma resource_switch :
  forallb (fun e => match assoc_s resource_keys (snd e) with Some v => v =? fst e | None => false end)
    resource_names = true
  /\ forallb (fun e => existsb (String.eqb (fst e)) (map snd resource_names)) resource_keys = true.
Proof. split; vm_compute; reflexivity. Qed.

Lemma assoc_s_in {A} (l : list (string * A)) k a : assoc_s l k = Some a -> In (k, a) l.
Proof.
  induction l as [|[x b] l IH]; cbn; [discriminate|].
  destruct (String.eqb_spec x k) as [->|Hn]; [intros [= ->]; left; reflexivity|right; auto].
Qed.

Lemma resource_round_trip v : int64 v -> unrender_resource (render resource_names v) = Some v.
Proof.
  intros Hv. destruct resource_switch as [H1 H2]. rewrite forallb_forall in H1, H2.
  unfold unrender_resource, render.
  pose proof (number_is_no_name resource_names v resource_ok Hv) as Hno.
  revert H1 H2 Hno. generalize resource_names resource_keys. intros names keys H1 H2 Hno.
  destruct (assoc_z names v) as [n|] eqn:E.
  - apply assoc_z_in in E. specialize (H1 _ E). cbn [fst snd] in H1.
    destruct (assoc_s keys n); [|discriminate]. apply Z.eqb_eq in H1. congruence.
  - destruct (assoc_s keys (pretty v)) as [w|] eqn:E'; [|apply atoi_pretty; exact Hv].
    exfalso. apply assoc_s_in in E'. specialize (H2 _ E'). cbn [fst] in H2.
    apply existsb_exists in H2. destruct H2 as (n & Hn & He).
    apply String.eqb_eq in He. subst n. exact (Hno Hn).
Qed.

(** * Socket options *)

(** No name occurs in two of the four tables. *)
Definition disjoint_names (a b : list (Z * string)) : bool :=
  forallb (fun e => negb (existsb (String.eqb (snd e)) (map snd b))) a.

Lemma options_disjoint :
  disjoint_names tcp_names so_names = true /\ disjoint_names ip_names so_names = true
  /\ disjoint_names ip_names tcp_names = true /\ disjoint_names ip6_names so_names = true
  /\ disjoint_names ip6_names tcp_names = true /\ disjoint_names ip6_names ip_names = true.
Proof. vm_compute. repeat split. Qed.

Lemma disjoint_not_in a b v n : disjoint_names a b = true -> In (v, n) a -> ~ In n (map snd b).
Proof.
  unfold disjoint_names. rewrite forallb_forall. intros H Hin Hb.
  specialize (H _ Hin). cbn [snd] in H. apply negb_true_iff in H.
  assert (existsb (String.eqb n) (map snd b) = true) as Ht.
  { apply existsb_exists. exists n. split; trivial. apply String.eqb_refl. }
  congruence.
Qed.

(** The outcome for a name or number [s] that is in none of the first three tables. *)
Lemma option_other so tcp ip ip6 start s :
  so !! s = None -> tcp !! s = None -> ip !! s = None ->
  unrender_option so tcp ip ip6 start s
  = match atoi s with
    | Some tp => ((0, tp), true)
    | None => (match ip6 !! s with Some v => (SOL_IPV6, v) | None => start end, false)
    end.
Proof. intros H1 H2 H3. unfold unrender_option. rewrite H1, H2, H3. reflexivity. Qed.

Section options.
Context (so tcp ip ip6 : list (Z * string)) (start : Z * Z).
Context (Hso : so ≡ₚ so_names) (Htcp : tcp ≡ₚ tcp_names) (Hip : ip ≡ₚ ip_names)
  (Hip6 : ip6 ≡ₚ ip6_names).

Definition unopt (s : string) :=
  unrender_option (reverse so) (reverse tcp) (reverse ip) (reverse ip6) start s.

Lemma option_so tp n : assoc_z so_names tp = Some n ->
  unopt (render_option SOL_SOCKET tp) = ((SOL_SOCKET, tp), true).
Proof.
  intros E. destruct (names_ok_all _ so_ok) as [Hnd _]. unfold unopt, render_option, render.
  rewrite E. cbn [Z.eqb SOL_SOCKET Pos.eqb]. unfold unrender_option.
  rewrite (reverse_perm _ _ Hnd Hso), (reverse_some _ n tp Hnd (assoc_z_in _ _ _ E)).
  reflexivity.
Qed.

Lemma reverse_disjoint a b order v n :
  order ≡ₚ b -> disjoint_names a b = true -> In (v, n) a -> reverse order !! n = None.
Proof.
  intros Hp Hd Hin. apply reverse_none. intros Hn. apply (disjoint_not_in a b v n Hd Hin).
  apply in_map_iff in Hn. destruct Hn as (e & <- & He). apply in_map_iff.
  exists e. split; trivial. eapply Permutation_in; eauto.
Qed.

Lemma reverse_number b order v :
  order ≡ₚ b -> names_ok b = true -> int64 v -> reverse order !! (pretty v) = None.
Proof.
  intros Hp Hok Hv. apply reverse_none. intros Hn.
  apply (number_is_no_name b v Hok Hv). apply in_map_iff in Hn.
  destruct Hn as (e & He & Hin). apply in_map_iff. exists e. split; trivial.
  eapply Permutation_in; eauto.
Qed.

Lemma option_tcp tp n : assoc_z tcp_names tp = Some n ->
  unopt (render_option SOL_TCP tp) = ((SOL_TCP, tp), true).
Proof.
  intros E. destruct (names_ok_all _ tcp_ok) as [Hnd _]. unfold unopt, render_option, render.
  rewrite E. cbn [Z.eqb SOL_SOCKET SOL_TCP Pos.eqb]. unfold unrender_option.
  pose proof options_disjoint as (H1 & _).
  rewrite (reverse_disjoint tcp_names so_names so tp n Hso H1 (assoc_z_in _ _ _ E)).
  rewrite (reverse_perm _ _ Hnd Htcp), (reverse_some _ n tp Hnd (assoc_z_in _ _ _ E)).
  reflexivity.
Qed.

Lemma option_ip tp n : assoc_z ip_names tp = Some n ->
  unopt (render_option SOL_IP tp) = ((SOL_IP, tp), true).
Proof.
  intros E. destruct (names_ok_all _ ip_ok) as [Hnd _]. unfold unopt, render_option, render.
  rewrite E. cbn [Z.eqb SOL_SOCKET SOL_TCP SOL_IP Pos.eqb]. unfold unrender_option.
  pose proof options_disjoint as (_ & H1 & H2 & _).
  rewrite (reverse_disjoint ip_names so_names so tp n Hso H1 (assoc_z_in _ _ _ E)).
  rewrite (reverse_disjoint ip_names tcp_names tcp tp n Htcp H2 (assoc_z_in _ _ _ E)).
  rewrite (reverse_perm _ _ Hnd Hip), (reverse_some _ n tp Hnd (assoc_z_in _ _ _ E)).
  reflexivity.
Qed.

Lemma option_ip6 tp n : assoc_z ip6_names tp = Some n ->
  unopt (render_option SOL_IPV6 tp) = ((SOL_IPV6, tp), false).
Proof.
  intros E. destruct (names_ok_all _ ip6_ok) as [Hnd Hnum]. unfold unopt, render_option, render.
  rewrite E. cbn [Z.eqb SOL_SOCKET SOL_TCP SOL_IP SOL_IPV6 Pos.eqb].
  pose proof options_disjoint as (_ & _ & _ & H1 & H2 & H3).
  pose proof (assoc_z_in _ _ _ E) as Hin.
  rewrite option_other.
  - pose proof (Hnum _ Hin) as Hn. cbn [snd] in Hn. rewrite Hn.
    rewrite (reverse_perm _ _ Hnd Hip6), (reverse_some _ n tp Hnd Hin). reflexivity.
  - exact (reverse_disjoint ip6_names so_names so tp n Hso H1 Hin).
  - exact (reverse_disjoint ip6_names tcp_names tcp tp n Htcp H2 Hin).
  - exact (reverse_disjoint ip6_names ip_names ip tp n Hip H3 Hin).
Qed.

Lemma option_number lv tp : int64 tp -> render_option lv tp = pretty tp ->
  unopt (render_option lv tp) = ((0, tp), true).
Proof.
  intros Htp ->. unfold unopt. rewrite option_other.
  - rewrite atoi_pretty by exact Htp. reflexivity.
  - exact (reverse_number so_names so tp Hso so_ok Htp).
  - exact (reverse_number tcp_names tcp tp Htcp tcp_ok Htp).
  - exact (reverse_number ip_names ip tp Hip ip_ok Htp).
Qed.
End options.

(** * Socket types *)

Lemma socktype_trip t :
  decode_socktype (encode_socktype t)
  = Z.lor (match assoc_z socktype_names (Z.land t 15) with Some _ => Z.land t 15 | None => 0 end)
      (Z.lor (Z.land t 524288) (Z.land t 2048)).
Proof.
  unfold encode_socktype.
  assert (Hf : forall k, 0 <= k -> k <> 0 -> k <> 1 -> k <> 2 -> k <> 3 ->
            (0 <? Z.land (Z.land t (Z.lnot 15)) (2 ^ k)) = Z.testbit t k
            /\ Z.land t (2 ^ k) = if Z.testbit t k then 2 ^ k else 0).
  { intros k Hk ? ? ? ?.
    assert (Z.land t (2 ^ k) = if Z.testbit t k then 2 ^ k else 0) as Hl.
    { apply Z.bits_inj. intros i. rewrite Z.land_spec.
      destruct (Z.eq_dec k i) as [<-|Hn].
      - rewrite Z.pow2_bits_true by lia. rewrite andb_true_r.
        destruct (Z.testbit t k) eqn:E; [rewrite Z.pow2_bits_true by lia; reflexivity|].
        rewrite Z.testbit_0_l. reflexivity.
      - rewrite Z.pow2_bits_false by lia. rewrite andb_false_r.
        destruct (Z.testbit t k); [rewrite Z.pow2_bits_false by lia; reflexivity|].
        rewrite Z.testbit_0_l. reflexivity. }
    split; [|exact Hl].
    assert (Z.land (Z.land t (Z.lnot 15)) (2 ^ k) = Z.land t (2 ^ k)) as ->.
    { rewrite <- Z.land_assoc. f_equal. apply Z.bits_inj. intros i. rewrite Z.land_spec.
      destruct (Z.eq_dec k i) as [<-|Hn].
      - rewrite Z.pow2_bits_true by lia. rewrite andb_true_r, Z.lnot_spec by lia.
        change 15 with (Z.ones 4). rewrite Z.ones_spec_high by lia. reflexivity.
      - rewrite Z.pow2_bits_false by lia. apply andb_false_r. }
    rewrite Hl. destruct (Z.testbit t k); [|reflexivity].
    apply Z.ltb_lt. apply Z.pow_pos_nonneg; lia. }
  destruct (Hf 19 ltac:(lia) ltac:(lia) ltac:(lia) ltac:(lia) ltac:(lia)) as [H1 H1'].
  destruct (Hf 11 ltac:(lia) ltac:(lia) ltac:(lia) ltac:(lia) ltac:(lia)) as [H2 H2'].
  change (2 ^ 19) with 524288 in *. change (2 ^ 11) with 2048 in *.
  unfold SOCK_CLOEXEC, SOCK_NONBLOCK. rewrite H1, H2, H1', H2'. clear Hf H1 H1' H2 H2'.
  assert (Hr : 0 <= Z.land t 15 < 16).
  { change 15 with (Z.ones 4). rewrite Z.land_ones by lia. apply Z.mod_pos_bound. lia. }
  generalize dependent (Z.land t 15). intros ty Hr.
  destruct (Z.testbit t 19), (Z.testbit t 11);
    (assert (ty = 0 \/ ty = 1 \/ ty = 2 \/ ty = 3 \/ ty = 4 \/ ty = 5 \/ ty = 6 \/ ty = 7 \/ ty = 8
      \/ ty = 9 \/ ty = 10 \/ ty = 11 \/ ty = 12 \/ ty = 13 \/ ty = 14 \/ ty = 15) as Ht by lia);
    repeat (destruct Ht as [->|Ht]; [vm_compute; reflexivity|]); subst ty; vm_compute; reflexivity.
Qed.

Lemma socktype_comm s m n :
  In m ["SOCK_CLOEXEC"; "SOCK_NONBLOCK"]%string \/ In n ["SOCK_CLOEXEC"; "SOCK_NONBLOCK"]%string ->
  socktype_step (socktype_step s m) n = socktype_step (socktype_step s n) m.
Proof.
  destruct s as [ty fl]. unfold socktype_step. intros H.
  destruct H as [[<-|[<-|[]]]|[<-|[<-|[]]]]; cbn [String.eqb Ascii.eqb Bool.eqb];
    repeat match goal with |- context [String.eqb ?a ?b] => destruct (String.eqb a b) end;
    try reflexivity; f_equal; rewrite <- !Z.lor_assoc; f_equal; apply Z.lor_comm.
Qed.

Definition not_flag (n : string) : bool :=
  negb (String.eqb n "SOCK_CLOEXEC" || String.eqb n "SOCK_NONBLOCK").

Lemma socktype_any_order t names :
  names ≡ₚ encode_socktype t -> decode_socktype names = decode_socktype (encode_socktype t).
Proof.
  intros Hp. unfold decode_socktype.
  assert (H : forall l, (List.length (List.filter not_flag l) <= 1)%nat ->
    forall l', l' ≡ₚ l -> forall s, fold_left socktype_step l' s = fold_left socktype_step l s).
  { intros l Hl l' Hq. induction Hq as [|x a b Hq IH|x y a|a b c H1 IH1 H2 IH2]; intros s.
    - reflexivity.
    - cbn [fold_left]. apply IH. cbn [List.filter] in Hl.
      destruct (not_flag x); cbn [List.length] in Hl; lia.
    - cbn [fold_left]. f_equal. apply socktype_comm. cbn [List.filter] in Hl.
      destruct (String.eqb_spec x "SOCK_CLOEXEC"%string) as [->|]; [right; left; reflexivity|].
      destruct (String.eqb_spec x "SOCK_NONBLOCK"%string) as [->|]; [right; right; left; reflexivity|].
      destruct (String.eqb_spec y "SOCK_CLOEXEC"%string) as [->|]; [left; left; reflexivity|].
      destruct (String.eqb_spec y "SOCK_NONBLOCK"%string) as [->|]; [left; right; left; reflexivity|].
      unfold not_flag in Hl. rewrite (proj2 (String.eqb_neq x _)) in Hl by assumption.
      rewrite (proj2 (String.eqb_neq x _)) in Hl by assumption. rewrite (proj2 (String.eqb_neq y _)) in Hl by assumption.
      rewrite (proj2 (String.eqb_neq y _)) in Hl by assumption. cbn in Hl. lia.
    - rewrite IH1; [apply IH2; exact Hl|].
      enough (E : List.length (List.filter not_flag b)
        = List.length (List.filter not_flag c)) by (rewrite E; exact Hl).
      clear -H2. induction H2 as [|x a b Hq IH|x y a|a b c H1 IH1 H2 IH2]; cbn [List.filter];
        [reflexivity|destruct (not_flag x); cbn [List.length]; congruence
        |destruct (not_flag x), (not_flag y); reflexivity|congruence]. }
  rewrite (H (encode_socktype t)); [reflexivity| |exact Hp].
  unfold encode_socktype.
  assert (Ht : forall n, (List.length (List.filter not_flag [n]) <= 1)%nat).
  { intros n. cbn [List.filter]. destruct (not_flag n); cbn; lia. }
  rewrite !List.filter_app, !app_length.
  assert (forall b, List.length (List.filter not_flag (if b : bool then ["SOCK_CLOEXEC"%string] else [])) = 0%nat) as -> by (intros []; reflexivity).
  assert (forall b, List.length (List.filter not_flag (if b : bool then ["SOCK_NONBLOCK"%string] else [])) = 0%nat) as -> by (intros []; reflexivity).
  rewrite !Nat.add_0_r. destruct (assoc_z _ _); apply Ht.
Qed.

(** * Errnos *)

Lemma errno_ok : names_ok errno_names = true. Proof. vm_compute. reflexivity. Qed.

Lemma errno_unk : assoc_z errno_names (-1) = Some "UNK"%string.
Proof. vm_compute. reflexivity. Qed.

Lemma assoc_z_none {A} (l : list (Z * A)) k : assoc_z l k = None <-> ~ In k (map fst l).
Proof.
  induction l as [|[x a] l IH]; cbn; [tauto|].
  destruct (Z.eqb_spec x k) as [->|Hn].
  - split; [discriminate|]. intros H. destruct H. left. reflexivity.
  - rewrite IH. split; [intros H [?|?]; [congruence|tauto]|tauto].
Qed.

Lemma errno_trip order e : order ≡ₚ errno_names ->
  string_to_errno (reverse order) (errno_to_string e)
  = if existsb (Z.eqb e) (map fst errno_names) then e else -1.
Proof.
  intros Hp. destruct (names_ok_all _ errno_ok) as [Hnd _].
  rewrite (reverse_perm _ _ Hnd Hp). unfold string_to_errno, errno_to_string.
  pose proof errno_unk as Hu. revert Hnd Hu. clear. generalize errno_names. intros l Hnd Hu.
  destruct (assoc_z l e) as [n|] eqn:E.
  - apply assoc_z_in in E. rewrite (reverse_some l n e Hnd E).
    destruct (existsb (Z.eqb e) (map fst l)) eqn:Ex; [reflexivity|].
    assert (existsb (Z.eqb e) (map fst l) = true); [|congruence].
    apply existsb_exists. exists e. split; [|apply Z.eqb_refl].
    apply in_map_iff. exists (e, n). auto.
  - apply assoc_z_none in E. apply assoc_z_in in Hu.
    rewrite (reverse_some l _ _ Hnd Hu).
    destruct (existsb (Z.eqb e) (map fst l)) eqn:Ex; [|reflexivity].
    apply existsb_exists in Ex. destruct Ex as (x & Hx & ->%Z.eqb_eq). contradiction.
Qed.
