(** The value of an event's message. *)
From Coq Require Import ZArith String Ascii Lia.
From stdpp Require Import base list numbers strings pretty gmap.
From Verif Require Import SyscallModel TopoModel RawModel CodecTables CodecModel JsonModel JsonSpec JsonProofs
  RawProofs CodecNames LineModel DecodeModel MsgModel MsgSpec MsgProofs MsgBound MsgRead ReadSpec ReadProofs.

Local Open Scope string_scope.
Local Open Scope list_scope.
Local Open Scope Z_scope.

(** * Trees before reading: strings as they are *)

Definition tobj (l : list (string * json)) : json := JsObj (map (fun e => (txt (fst e), snd e)) l).
Definition tstr (s : string) : json := JsStr (txt s).
Definition tnames (l : list string) : json := JsArr (map tstr l).

Lemma tobj_text l : jtext (tobj l) = obj (map (fun e => (fst e, jtext (snd e))) l).
Proof.
  unfold tobj. rewrite obj_members. unfold obj. do 3 f_equal. rewrite !map_map. apply map_ext.
  intros [k v]. reflexivity.
Qed.
Lemma tnames_text l : jtext (tnames l) = arr (map qs l).
Proof. unfold tnames. cbn [jtext]. rewrite map_map. reflexivity. Qed.

Lemma txt_bytes s : bytes (txt s).
Proof.
  unfold bytes, txt. apply Forall_forall. intros b Hb. apply elem_of_list_In, in_map_iff in Hb.
  destruct Hb as (c & <- & _). pose proof (N_ascii_bounded c). lia.
Qed.

Definition tint (p : jparams) (args : list Z) (nr : Z) (name : string) (z : Z) : json :=
  match jtype_of nr name with
  | JPlain => JsNum z
  | JFlags c => tnames (encode c (j_order p (c_masks c)) z)
  | JNames names => tstr (render names z)
  | JResource => tstr (render resource_names z)
  | JSockType => tnames (encode_socktype z)
  | JOption => tstr (render_option (option_level args) z)
  end.
Definition tsock (mem : list Z) : json :=
  tobj [("Family", JsNum (le (take 2 mem)));
        ("Data", JsArr (map (fun b => JsNum (s8 b)) (take 14 (drop 2 mem))));
        ("decoded", tstr (sockaddr_string mem))].
Definition tvalue (p : jparams) (args : list Z) (nr : Z) (name : string) (v : value) : json :=
  match v with
  | VInt z => tint p args nr name z
  | VStr bs => JsStr bs
  | VSlice off len => JsStr (b64 (take (Z.to_nat len) (drop off args ++ j_heap p)))
  | VSock off => tsock (drop off args ++ j_heap p)
  | VCopy bs => js_struct nr bs
  | VPtr off n => js_struct nr (take n (drop off args))
  | VAddrs slot => js_timespec (JsNum (s64 (j_base p + Z.of_nat (slot_start slot))))
                     (JsNum (s64 (j_base p + Z.of_nat (slot_start (S slot)))))
  end.

(** Base64 is ordinary text. *)
Lemma b64_char_ordinary v : 0 <= v < 64 -> ordinary [b64_char v].
Proof.
  intros H. unfold ordinary. constructor; [|constructor]. unfold b64_char.
  destruct (Z.ltb_spec v 26); [lia|]. destruct (Z.ltb_spec v 52); [lia|]. destruct (Z.ltb_spec v 62); [lia|].
  destruct (Z.eqb_spec v 62); lia.
Qed.
Lemma b64_ordinary n : forall bs, (length bs <= n)%nat -> bytes bs -> ordinary (b64 bs).
Proof.
  assert (H61 : ordinary [61]) by (constructor; [lia|constructor]).
  assert (Hc : forall v l, 0 <= v < 64 -> ordinary l -> ordinary (b64_char v :: l)).
  { intros v l Hv Hl. constructor; [|exact Hl]. exact (Forall_inv (b64_char_ordinary v Hv)). }
  induction n as [|n IH]; intros bs H Hb; [destruct bs; [constructor|cbn in H; lia]|].
  assert (Hq : forall a m k, 0 <= a < 256 -> 0 < m -> m * k = 256 -> 0 <= a / m < k).
  { intros a m k Ha Hm Hmk. split; [apply Z.div_pos; lia|apply Z.div_lt_upper_bound; lia]. }
  destruct bs as [|a [|b [|c t]]].
  - constructor.
  - inversion Hb as [|? ? Ha _]; subst. cbn [b64]. pose proof (Hq a 4 64 Ha ltac:(lia) ltac:(lia)).
    pose proof (Z.mod_pos_bound a 4 ltac:(lia)). apply Hc; [lia|]. apply Hc; [lia|].
    constructor; [lia|exact H61].
  - inversion Hb as [|? ? Ha Hb']; subst. inversion Hb' as [|? ? Hb1 _]; subst. cbn [b64].
    pose proof (Hq a 4 64 Ha ltac:(lia) ltac:(lia)). pose proof (Hq b 16 16 Hb1 ltac:(lia) ltac:(lia)).
    pose proof (Z.mod_pos_bound a 4 ltac:(lia)). pose proof (Z.mod_pos_bound b 16 ltac:(lia)).
    apply Hc; [lia|]. apply Hc; [lia|]. apply Hc; [lia|]. exact H61.
  - inversion Hb as [|? ? Ha Hb']; subst. inversion Hb' as [|? ? Hb1 Hb'']; subst.
    inversion Hb'' as [|? ? Hc1 Ht]; subst. cbn [length] in H. cbn [b64 app].
    pose proof (Hq a 4 64 Ha ltac:(lia) ltac:(lia)). pose proof (Hq b 16 16 Hb1 ltac:(lia) ltac:(lia)).
    pose proof (Hq c 64 4 Hc1 ltac:(lia) ltac:(lia)).
    pose proof (Z.mod_pos_bound a 4 ltac:(lia)). pose proof (Z.mod_pos_bound b 16 ltac:(lia)).
    pose proof (Z.mod_pos_bound c 64 ltac:(lia)).
    apply Hc; [lia|]. apply Hc; [lia|]. apply Hc; [lia|]. apply Hc; [lia|]. apply IH; [lia|exact Ht].
Qed.

Lemma ordinary_text bs : ordinary bs -> json_text bs = bs.
Proof.
  induction 1 as [|b t Hb Ht IH]; [reflexivity|]. cbn [json_text].
  destruct (Z.ltb_spec b 128); [rewrite IH; reflexivity|lia].
Qed.
Lemma ordinary_bytes bs : ordinary bs -> bytes bs.
Proof. intros H. eapply Forall_impl; [exact H|]. cbn. lia. Qed.

Lemma struct_jtext nr bs : jtext (js_struct nr bs) = struct_text nr bs.
Proof.
  unfold js_struct, struct_text. destruct (nr =? 302); [exact (tobj_text _)|].
  destruct (nr =? 286).
  - change js_obj with tobj. rewrite tobj_text. cbn [map fst snd]. unfold itimerspec_text, js_timespec_at, js_timespec.
    change js_obj with tobj. rewrite !tobj_text. reflexivity.
  - change js_obj with tobj. rewrite tobj_text. cbn [map fst snd]. unfold stat_text, js_timespec_at, js_timespec.
    change js_obj with tobj. rewrite !tobj_text. reflexivity.
Qed.

Lemma tvalue_text p args nr name v : bytes args -> bytes (j_heap p) ->
  jtext (tvalue p args nr name v) = member_text p args nr name v.
Proof.
  intros Hb Hh. destruct v as [z|bs|bs|off len|off|off n|slot]; cbn [tvalue member_text].
  - unfold tint, int_text. destruct (jtype_of nr name); try reflexivity; apply tnames_text.
  - reflexivity.
  - apply struct_jtext.
  - cbn [jtext]. unfold quote. rewrite esc_ordinary; [reflexivity|].
    apply (b64_ordinary _ _ (Nat.le_refl _)). apply Forall_take. apply Forall_app. split; [apply bytes_drop, Hb|exact Hh].
  - unfold tsock, sock_text. rewrite tobj_text. cbn [map fst snd jtext]. rewrite map_map. reflexivity.
  - apply struct_jtext.
  - unfold js_timespec. change js_obj with tobj. rewrite tobj_text. reflexivity.
Qed.

(** ** Reading them *)

Lemma good_tobj l : Forall (fun e => good (snd e)) l -> good (tobj l).
Proof.
  intros H. apply good_obj. apply Forall_map. eapply Forall_impl; [exact H|]. intros [k v] Hv. split; [apply txt_bytes|exact Hv].
Qed.
Lemma good_tnames l : good (tnames l).
Proof. apply good_arr. apply Forall_map. apply Forall_forall. intros s _. exact (txt_bytes s). Qed.
Lemma norm_tobj l : Forall (fun e => json_text (txt (fst e)) = txt (fst e)) l ->
  norm (tobj l) = js_obj (map (fun e => (fst e, norm (snd e))) l).
Proof.
  intros H. unfold tobj, js_obj. rewrite norm_members. f_equal. rewrite !map_map.
  induction H as [|[k v] l Hk Hl IH]; [reflexivity|]. cbn [map fst snd] in *. rewrite Hk, IH. reflexivity.
Qed.
Lemma norm_tnames l : norm (tnames l) = js_names l.
Proof. unfold tnames, js_names. cbn [norm]. rewrite map_map. reflexivity. Qed.

Lemma norm_nums (f : Z -> Z) l : map norm (map (fun b => JsNum (f b)) l) = map (fun b => JsNum (f b)) l.
Proof. rewrite map_map. reflexivity. Qed.
Lemma good_nums (f : Z -> Z) l : Forall good (map (fun b => JsNum (f b)) l).
Proof. apply Forall_map. apply Forall_forall. intros x _. exact I. Qed.

Ltac keys := repeat constructor.

Lemma good_struct nr bs : good (js_struct nr bs).
Proof.
  unfold js_struct, js_timespec_at, js_timespec. change js_obj with tobj.
  destruct (nr =? 302); [apply good_tobj; repeat constructor|]. destruct (nr =? 286).
  - apply good_tobj. constructor; [|constructor; [|constructor]]; apply good_tobj; repeat constructor.
  - apply good_tobj. repeat (constructor; [first [exact I|apply good_tobj; repeat constructor|apply good_arr; repeat constructor]|]).
    constructor.
Qed.
Lemma norm_timespec a b : norm (js_timespec (JsNum a) (JsNum b)) = js_timespec (JsNum a) (JsNum b).
Proof. reflexivity. Qed.
Lemma norm_struct nr bs : norm (js_struct nr bs) = js_struct nr bs.
Proof. unfold js_struct. destruct (nr =? 302); [reflexivity|]. destruct (nr =? 286); reflexivity. Qed.

Lemma str_bytes args f bs : bytes args -> decode_field args f = Some (VStr bs) -> bytes bs.
Proof.
  intros Hb Hd. unfold decode_field in Hd.
  destruct (f_kind f) as [| | | | |n|cnt|l| |n|n| |]; try discriminate.
  1-4: unfold vint in Hd; match type of Hd with match ?o with _ => _ end = _ => destruct o as [z|]; discriminate end.
  - destruct (read_bytes args _ arg_len) as [b|] eqn:E; [|discriminate].
    assert (bs = make_cstring b arg_len) as -> by congruence.
    assert (Hbb : bytes b).
    { unfold read_bytes in E. case_match; [|discriminate]. assert (b = take arg_len (drop (slot_start (f_slot f)) args)) as -> by congruence.
      apply bytes_take, bytes_drop, Hb. }
    unfold make_cstring. apply bytes_take, bytes_take, Hbb.
  - destruct (c64 args _); discriminate.
  - destruct (c64 args _); discriminate.
  - destruct (read_bytes args _ _); discriminate.
Qed.

Lemma good_value p args nr f v : bytes args -> bytes (j_heap p) -> decode_field args f = Some v ->
  good (tvalue p args nr (f_name f) v).
Proof.
  intros Hb Hh Hd. destruct v as [z|bs|bs|off len|off|off n|slot]; cbn [tvalue].
  - unfold tint. destruct (jtype_of nr (f_name f)); try exact I; try apply good_tnames; apply txt_bytes.
  - exact (str_bytes args f bs Hb Hd).
  - apply good_struct.
  - apply ordinary_bytes, (b64_ordinary _ _ (Nat.le_refl _)), Forall_take, Forall_app. split; [apply bytes_drop, Hb|exact Hh].
  - apply good_tobj. constructor; [exact I|constructor; [|constructor; [apply txt_bytes|constructor]]].
    apply good_arr, good_nums.
  - apply good_struct.
  - apply good_tobj. repeat constructor.
Qed.

Lemma typed_eq {T} (F : codec -> T) (N : list (Z * string) -> T) (R S O P : T) nr name :
  match jtype_of nr name with
  | JPlain => P | JFlags c => F c | JNames l => N l | JResource => R | JSockType => S | JOption => O
  end =
  if is_among [(2, "flags"); (257, "flags")] nr name then F file_codec
  else if is_among [(288, "flags")] nr name then F accept_codec
  else if is_among [(254, "mask")] nr name then F inotify_codec
  else if is_among [(165, "flags")] nr name then F mount_codec
  else if is_among [(44, "flags"); (45, "flags")] nr name then F msg_codec
  else if is_among [(166, "flags")] nr name then F umount_codec
  else if is_among [(283, "flags"); (286, "flags")] nr name then F timer_codec
  else if is_among [(41, "type")] nr name then S
  else if is_among [(41, "family")] nr name then N family_names
  else if is_among [(41, "protocol")] nr name then N proto_names
  else if is_among [(54, "level"); (55, "level")] nr name then N level_names
  else if is_among [(54, "name"); (55, "name")] nr name then O
  else if is_among [(302, "resource")] nr name then R
  else P.
Proof.
  unfold is_among, jtype_of, jtype_table. cbn [List.find existsb fst snd].
  rewrite !orb_false_r.
  repeat match goal with
  | |- context [?k =? nr] => is_var nr;
      destruct (Z.eqb_spec k nr) as [<-|?];
        [cbn [Z.eqb Pos.eqb andb orb];
         repeat match goal with |- context [String.eqb ?m name] => is_var name;
           destruct (String.eqb_spec m name) as [<-|?];
           repeat match goal with |- context [String.eqb ?a ?b] =>
             let v := eval vm_compute in (String.eqb a b) in
             first [is_var b; fail 1 | change (String.eqb a b) with v]
           end;
           cbn [andb orb snd] end;
         reflexivity|cbn [andb orb]]
  end; reflexivity.
Qed.

Lemma int_json_iff p args nr name z : norm (tint p args nr name z) = int_json p args nr name z.
Proof.
  unfold int_json. etransitivity; [|exact (typed_eq (fun c => js_flags p c z) (fun l => js_text (render l z))
    (js_text (render resource_names z)) (js_names (encode_socktype z))
    (js_text (render_option (option_level args) z)) (JsNum z) nr name)].
  unfold tint. destruct (jtype_of nr name); try reflexivity; apply norm_tnames.
Qed.

Lemma s64_small z : 0 <= z < 2 ^ 63 -> s64 z = z.
Proof. intros H. unfold s64. cbv zeta. rewrite Z.mod_small by lia. destruct (Z.ltb_spec z (2 ^ 63)); lia. Qed.

Lemma addrs_slot args f slot : decode_field args f = Some (VAddrs slot) -> slot = f_slot f.
Proof.
  intros Hd. unfold decode_field in Hd.
  destruct (f_kind f) as [| | | | |n|cnt|l| |n|n| |]; try discriminate.
  1-4: unfold vint in Hd; match type of Hd with match ?o with _ => _ end = _ => destruct o as [z|]; discriminate end.
  - destruct (read_bytes args _ arg_len); discriminate.
  - destruct (c64 args _); discriminate.
  - destruct (c64 args _); discriminate.
  - destruct (read_bytes args _ _); discriminate.
  - congruence.
Qed.

Lemma value_shows p args nr f v : bytes args -> bytes (j_heap p) -> 0 <= j_base p < 2 ^ 47 ->
  decode_field args f = Some v -> (f_slot f <= 4)%nat ->
  shows p args nr (f_name f) v (norm (tvalue p args nr (f_name f) v)).
Proof.
  intros Hb Hh Hp Hd Hs. destruct v as [z|bs|bs|off len|off|off n|slot]; cbn [shows tvalue].
  - apply int_json_iff.
  - reflexivity.
  - apply norm_struct.
  - set (m := take (Z.to_nat len) (drop off args ++ j_heap p)).
    assert (Hm : bytes m) by (apply Forall_take, Forall_app; split; [apply bytes_drop, Hb|exact Hh]).
    exists (b64 m). split; [cbn [norm]; rewrite ordinary_text; [reflexivity|exact (b64_ordinary _ _ (Nat.le_refl _) Hm)]|].
    exact (unb64_b64 _ m (Nat.le_refl _) Hm).
  - unfold tsock. rewrite norm_tobj by keys. cbn [map fst snd norm]. rewrite norm_nums. reflexivity.
  - apply norm_struct.
  - rewrite norm_timespec. apply addrs_slot in Hd. subst slot.
    assert (Hx : forall k, (k <= 5)%nat -> s64 (j_base p + Z.of_nat (slot_start k)) = j_base p + Z.of_nat (slot_start k)).
    { intros k Hk. apply s64_small. unfold slot_start, arg_len. lia. }
    rewrite !Hx by lia. reflexivity.
Qed.

(** * The arguments *)

Definition tfield (p : jparams) (args : list Z) (nr : Z) (fs : list field) (vs : list value) (j : jfield)
  : string * json :=
  let at_ m := match named_value fs vs m with Some v => tvalue p args nr m v | None => JsNull end in
  match j with
  | JOf n m => (n, at_ m)
  | JZero n => (n, JsNum 0)
  | JWords n ms => (n, JsArr (map at_ ms ++ [JsStr []]))
  end.

(** What the tables must say. *)
Definition jname (j : jfield) : string := match j with JOf n _ | JZero n | JWords n _ => n end.
Definition jfind (js : list jfield) (name : string) : option jfield :=
  List.find (fun j => same_key (txt (jname j)) name) js.
Definition word_ok (js : list jfield) (i : nat) (name : string) : bool :=
  match jfind js "argv" with
  | Some (JWords _ ms) => match ms !! i with Some m => String.eqb m name | None => false end
  | _ => false
  end.
Definition arg_ok (js : list jfield) (name : string) : bool :=
  if decide (name = "argv[0]") then word_ok js 0 name
  else if decide (name = "argv[1]") then word_ok js 1 name
  else if decide (name = "argv[2]") then word_ok js 2 name
  else match jfind js name with Some (JOf _ m) => String.eqb m name | _ => false end.
Definition known (fs : list field) (m : string) : bool := existsb (fun f => String.eqb (f_name f) m) fs.
Definition entry_ok (nr : Z) (fs : list field) (j : jfield) : bool :=
  bool_decide (json_text (txt (jname j)) = txt (jname j)) &&
  match j with
  | JOf n m => known fs m && existsb (fun f => same_key (txt n) (f_name f)) fs
  | JZero n => existsb (fun e => (fst e =? nr) && String.eqb (snd e) n) [(45, "o_size"); (49, "Ret"); (2, "ret")]
  | JWords n ms => (nr =? 59) && String.eqb n "argv" && (length ms =? 3)%nat && forallb (known fs) ms
  end.
Definition struct_ok (d : Z * string * list field) : bool :=
  let nr := fst (fst d) in let fs := snd d in
  match List.find (fun e => fst (fst e) =? nr) json_structs with
  | Some (_, nest, js) =>
      bool_decide (nest = if nr =? 55 then Some "sockopt" else None)
      && bool_decide (NoDup (map f_name fs))
      && forallb (fun f => (f_slot f <=? 4)%nat && arg_ok js (f_name f)) fs
      && forallb (entry_ok nr fs) js
  | None => false
  end.
Lemma structs_ok : forallb struct_ok decoders = true.
Proof. vm_compute. reflexivity. Qed.

Lemma zip_named args fs : forall vs f v, decode_fields args fs = Some vs -> NoDup (map f_name fs) ->
  (f, v) ∈ zip fs vs -> named_value fs vs (f_name f) = Some v /\ decode_field args f = Some v /\ f ∈ fs.
Proof.
  induction fs as [|g fs IH]; intros vs f v Hd Hn Hz; [inversion Hz|].
  cbn [decode_fields] in Hd. destruct (decode_field args g) as [w|] eqn:Ew; [|discriminate].
  destruct (decode_fields args fs) as [ws|] eqn:Es; [|discriminate].
  assert (vs = w :: ws) as -> by congruence. cbn [zip zip_with] in Hz. cbn [map] in Hn. inversion Hn as [|? ? Hx Hn']; subst.
  apply elem_of_cons in Hz. cbn [named_value]. destruct Hz as [Hz|Hz].
  - assert (f = g) as -> by congruence. assert (v = w) as -> by congruence. rewrite String.eqb_refl.
    split; [reflexivity|]. split; [exact Ew|left].
  - destruct (IH ws f v eq_refl Hn' Hz) as (H1 & H2 & H3).
    assert (String.eqb (f_name g) (f_name f) = false) as ->.
    { apply String.eqb_neq. intros E. apply Hx. rewrite E. apply elem_of_list_In, in_map, elem_of_list_In, H3. }
    split; [exact H1|]. split; [exact H2|right; exact H3].
Qed.

Lemma known_value args fs m : forall vs, decode_fields args fs = Some vs -> known fs m = true ->
  is_Some (named_value fs vs m).
Proof.
  induction fs as [|g fs IH]; intros vs Hd Hk; [discriminate|].
  cbn [decode_fields] in Hd. destruct (decode_field args g) as [w|] eqn:Ew; [|discriminate].
  destruct (decode_fields args fs) as [ws|] eqn:Es; [|discriminate].
  assert (vs = w :: ws) as -> by congruence. cbn [named_value]. unfold known in Hk. cbn [existsb] in Hk.
  destruct (String.eqb (f_name g) m); [eexists; reflexivity|]. exact (IH ws eq_refl Hk).
Qed.

Lemma member_find p args nr fs vs js name j :
  Forall (fun j => json_text (txt (jname j)) = txt (jname j)) js -> jfind js name = Some j ->
  member_of (map (fun e => (txt (fst e), norm (snd e))) (map (tfield p args nr fs vs) js)) name
  = Some (norm (snd (tfield p args nr fs vs j))).
Proof.
  intros Hk. unfold member_of, jfind. induction Hk as [|x l Hx Hl IH]; [discriminate|]. cbn [map List.find fst snd].
  assert (fst (tfield p args nr fs vs x) = jname x) as -> by (destruct x; reflexivity).
  destruct (same_key (txt (jname x)) name); [|exact IH]. intros E. assert (x = j) as -> by congruence. reflexivity.
Qed.

Lemma args_tree p args nr fs vs a : bytes args -> bytes (j_heap p) -> 0 <= j_base p < 2 ^ 47 ->
  decoder nr = Some fs -> decode_fields args fs = Some vs -> args_text p args nr vs = Some a ->
  exists j, jtext j = a /\ good j /\ shows_args p args nr fs vs (norm j).
Proof.
  intros Hb Hh Hp Hd Hv Ha. unfold args_text in Ha. rewrite Hd in Ha.
  destruct (decoder_in _ _ Hd) as (d & Hin & Hnr & Hfs).
  pose proof structs_ok as Hc. rewrite forallb_forall in Hc. specialize (Hc d Hin). unfold struct_ok in Hc.
  cbv zeta in Hc. rewrite Hnr, Hfs in Hc.
  destruct (List.find (fun e => fst (fst e) =? nr) json_structs) as [[[k nest] js]|]; [|discriminate].
  destruct (negb (forallb (slice_ok p args) vs)); [discriminate|].
  rewrite !andb_true_iff in Hc. destruct Hc as [[[Hnest Hnd] Hargs] Hent].
  apply bool_decide_eq_true in Hnest. apply bool_decide_eq_true in Hnd.
  rewrite forallb_forall in Hargs, Hent.
  assert (Hkeys : Forall (fun j => json_text (txt (jname j)) = txt (jname j)) js).
  { apply Forall_forall. intros j Hj. apply elem_of_list_In in Hj. specialize (Hent j Hj). unfold entry_ok in Hent.
    apply andb_true_iff in Hent. exact (proj1 (bool_decide_eq_true _) (proj1 Hent)). }
  assert (Hname : forall j, fst (tfield p args nr fs vs j) = jname j) by (intros []; reflexivity).
  assert (Hat : forall m, known fs m = true -> exists v f, named_value fs vs m = Some v /\ f_name f = m /\ decode_field args f = Some v).
  { intros m Hm. destruct (known_value args fs m vs Hv Hm) as [v Ev]. exists v.
    destruct (named_of args fs vs m v Hv Ev) as (f & _ & Hf & Hdf & _). exists f. tauto. }
  set (l := map (tfield p args nr fs vs) js).
  assert (Htext : jtext (tobj l) = obj (map (field_text p args nr fs vs) js)).
  { unfold l. rewrite tobj_text, map_map. f_equal. apply map_ext_in. intros j Hj. specialize (Hent j Hj).
    unfold entry_ok in Hent. apply andb_true_iff in Hent. destruct Hent as [_ Hent].
    destruct j as [n m|n|n ms]; cbn [tfield field_text fst snd].
    - apply andb_true_iff in Hent. destruct (Hat m (proj1 Hent)) as (v & f & Ev & _). rewrite Ev.
      rewrite (tvalue_text p args nr m v Hb Hh). reflexivity.
    - reflexivity.
    - rewrite !andb_true_iff in Hent. destruct Hent as [_ Hms]. rewrite forallb_forall in Hms.
      cbn [jtext]. rewrite map_app, map_map. f_equal. f_equal. f_equal. apply map_ext_in. intros m Hm.
      destruct (Hat m (Hms m Hm)) as (v & f & Ev & _). rewrite Ev. apply (tvalue_text p args nr m v Hb Hh). }
  assert (Hgood : good (tobj l)).
  { apply good_tobj. unfold l. apply Forall_map. apply Forall_forall. intros j Hj. apply elem_of_list_In in Hj.
    specialize (Hent j Hj). unfold entry_ok in Hent. apply andb_true_iff in Hent. destruct Hent as [_ Hent].
    destruct j as [n m|n|n ms]; cbn [tfield fst snd].
    - apply andb_true_iff in Hent. destruct (Hat m (proj1 Hent)) as (v & f & Ev & Ef & Edf). rewrite Ev, <- Ef.
      exact (good_value p args nr f v Hb Hh Edf).
    - exact I.
    - rewrite !andb_true_iff in Hent. destruct Hent as [_ Hms]. rewrite forallb_forall in Hms.
      apply good_arr, Forall_app. split; [|constructor; [constructor|constructor]].
      apply Forall_map, Forall_forall. intros m Hm. apply elem_of_list_In in Hm.
      destruct (Hat m (Hms m Hm)) as (v & f & Ev & Ef & Edf). rewrite Ev, <- Ef.
      exact (good_value p args nr f v Hb Hh Edf). }
  set (ms := map (fun e => (txt (fst e), norm (snd e))) l).
  assert (Hnorm : norm (tobj l) = JsObj ms).
  { rewrite norm_tobj; [unfold js_obj, ms; rewrite map_map; reflexivity|].
    unfold l. apply Forall_map. eapply Forall_impl; [exact Hkeys|]. intros j Hj. rewrite Hname. exact Hj. }
  assert (Hfind : forall name j, jfind js name = Some j -> member_of ms name = Some (norm (snd (tfield p args nr fs vs j))))
    by (intros name j; apply member_find, Hkeys).
  assert (Hshow : forall f v, (f, v) ∈ zip fs vs ->
    exists j, argument_of ms (f_name f) = Some j /\ shows p args nr (f_name f) v j).
  { intros f v Hz. destruct (zip_named args fs vs f v Hv Hnd Hz) as (Hnv & Hdf & Hf).
    apply elem_of_list_In in Hf. specialize (Hargs f Hf). apply andb_true_iff in Hargs. destruct Hargs as [Hs Ha'].
    apply Nat.leb_le in Hs. exists (norm (tvalue p args nr (f_name f) v)).
    split; [|exact (value_shows p args nr f v Hb Hh Hp Hdf Hs)].
    assert (Hword : forall i, word_ok js i (f_name f) = true ->
      match member_of ms "argv" with Some (JsArr l) => l !! i | _ => None end = Some (norm (tvalue p args nr (f_name f) v))).
    { intros i Hw. unfold word_ok in Hw. destruct (jfind js "argv") as [[| |n ws]|] eqn:Ej; try discriminate.
      rewrite (Hfind "argv" _ Ej). cbn [tfield snd norm]. destruct (ws !! i) as [m|] eqn:Ei; [|discriminate].
      apply String.eqb_eq in Hw. subst m. rewrite map_app, map_map. apply lookup_app_l_Some.
      rewrite list_lookup_fmap, Ei. cbn [fmap option_fmap option_map]. rewrite Hnv. reflexivity. }
    unfold argument_of, arg_ok in *. cbv zeta.
    destruct (decide (f_name f = "argv[0]")); [exact (Hword _ Ha')|].
    destruct (decide (f_name f = "argv[1]")); [exact (Hword _ Ha')|].
    destruct (decide (f_name f = "argv[2]")); [exact (Hword _ Ha')|].
    destruct (jfind js (f_name f)) as [[nm mm| |]|] eqn:Ej; try discriminate.
    apply String.eqb_eq in Ha'. subst mm. rewrite (Hfind _ _ Ej). cbn [tfield snd]. rewrite Hnv. reflexivity. }
  assert (Hextra : forall k j, (k, j) ∈ ms -> (exists f, f ∈ fs /\ same_key k (f_name f) = true) \/ extra nr k j).
  { intros k0 j Hk. apply elem_of_list_In in Hk. unfold ms, l in Hk. rewrite map_map in Hk. apply in_map_iff in Hk.
    destruct Hk as (x & Ex & Hx). specialize (Hent x Hx). unfold entry_ok in Hent. apply andb_true_iff in Hent.
    destruct Hent as [_ Hent]. apply pair_equal_spec in Ex. destruct Ex as [<- <-]. rewrite Hname.
    destruct x as [n m|n|n ws]; cbn [jname].
    - left. apply andb_true_iff in Hent. destruct Hent as [_ He]. apply existsb_exists in He.
      destruct He as (f & Hf & He). exists f. split; [apply elem_of_list_In, Hf|exact He].
    - right. right. split; [reflexivity|]. apply existsb_exists in Hent. destruct Hent as ([k1 s1] & Hk1 & He).
      cbn [fst snd] in He. apply andb_true_iff in He. destruct He as [He1 He2]. apply Z.eqb_eq in He1.
      apply String.eqb_eq in He2. subst k1 s1.
      change [(45, txt "o_size"); (49, txt "Ret"); (2, txt "ret")]
        with (map (fun e => (fst e, txt (snd e))) [(45, "o_size"); (49, "Ret"); (2, "ret")]).
      apply in_map_iff. exists (nr, n). split; [reflexivity|exact Hk1].
    - right. left. rewrite !andb_true_iff in Hent. destruct Hent as [[[H59 Hn] Hlen] _].
      apply Z.eqb_eq in H59. apply String.eqb_eq in Hn. apply Nat.eqb_eq in Hlen.
      split; [exact H59|]. split; [congruence|]. cbn [tfield snd norm]. eexists. split; [reflexivity|].
      rewrite map_app, app_length, !map_length, Hlen. split; [reflexivity|]. apply last_snoc. }
  subst nest. destruct (nr =? 55) eqn:E55.
  - exists (tobj [("sockopt", tobj l)]).
    assert (a = obj [("sockopt", obj (map (field_text p args nr fs vs) js))]) as -> by congruence.
    split; [rewrite tobj_text; cbn [map fst snd]; rewrite Htext; reflexivity|].
    split; [apply good_tobj; constructor; [exact Hgood|constructor]|].
    exists ms. rewrite E55. rewrite norm_tobj by keys. cbn [map fst snd]. rewrite Hnorm. tauto.
  - exists (tobj l). assert (a = obj (map (field_text p args nr fs vs) js)) as -> by congruence.
    split; [exact Htext|]. split; [exact Hgood|]. exists ms. rewrite E55, Hnorm. tauto.
Qed.

(** * The event *)

Definition tsyscall (sc : option syscall) : json :=
  match sc with
  | Some s => tobj [("nr", JsNum (sc_nr s)); ("name", tstr (sc_name s)); ("class", tstr (sc_class s));
                    ("group", tstr (sc_group s))]
  | None => JsNull
  end.
Lemma syscall_tree sc : jtext (tsyscall sc) = syscall_text sc /\ good (tsyscall sc) /\ norm (tsyscall sc) = syscall_json sc.
Proof.
  destruct sc as [s|]; [|repeat split]. cbn [tsyscall]. split; [rewrite tobj_text; reflexivity|].
  split; [apply good_tobj; repeat (constructor; [first [exact I|apply txt_bytes]|]); constructor|].
  rewrite norm_tobj by keys. reflexivity.
Qed.

Definition tnonempty (n s : string) : list (string * json) := if String.eqb s "" then [] else [(n, tstr s)].
Definition tnonzero (n : string) (z : Z) : list (string * json) := if z =? 0 then [] else [(n, JsNum z)].
Definition tcontainer (c : option (container (list (string * string)))) : json :=
  match c with
  | Some c =>
      tobj (tnonempty "id" (c_id c) ++ tnonempty "pod" (c_pod c)
            ++ tnonempty "sandbox-id" (c_sandbox c) ++ tnonempty "name" (c_name c)
            ++ tnonempty "image" (c_image c) ++ tnonempty "namespace" (c_namespace c)
            ++ (match c_labels c with
                | [] => []
                | ls => [("labels", tobj (map (fun kv => (fst kv, tstr (snd kv))) ls))]
                end)
            ++ tnonzero "pid" (c_pid c) ++ tnonzero "pid-namespace" (c_pidns c))
  | None => JsNull
  end.
Lemma nonempty_tree n s : map (fun e => (fst e, jtext (snd e))) (tnonempty n s) = nonempty n s.
Proof. unfold tnonempty, nonempty. destruct (String.eqb s ""); reflexivity. Qed.
Lemma nonzero_tree n z : map (fun e => (fst e, jtext (snd e))) (tnonzero n z) = nonzero n z.
Proof. unfold tnonzero, nonzero. destruct (z =? 0); reflexivity. Qed.
Lemma nonempty_good n s : Forall (fun e => good (snd e)) (tnonempty n s).
Proof. unfold tnonempty. destruct (String.eqb s ""); repeat constructor. apply txt_bytes. Qed.
Lemma nonzero_good n z : Forall (fun e => good (snd e)) (tnonzero n z).
Proof. unfold tnonzero. destruct (z =? 0); repeat constructor. Qed.

Lemma container_tree c : jtext (tcontainer c) = container_text c /\ good (tcontainer c) /\
  norm (tcontainer c) = container_json c.
Proof.
  destruct c as [c|]; [|repeat split]. cbn [tcontainer]. split; [|split].
  - rewrite tobj_text, !map_app, !nonempty_tree, !nonzero_tree. unfold container_text. f_equal. do 6 f_equal.
    destruct (c_labels c) as [|kv ls]; [reflexivity|]. cbn [map fst snd]. rewrite tobj_text. cbn [map fst snd]. rewrite map_map. reflexivity.
  - apply good_tobj. repeat (apply Forall_app; split); try apply nonempty_good; try apply nonzero_good.
    destruct (c_labels c) as [|kv ls]; [constructor|]. constructor; [|constructor]. apply good_tobj, Forall_map, Forall_forall.
    intros e _. apply txt_bytes.
  - unfold tobj, container_json. rewrite norm_members. f_equal. rewrite !map_app.
    assert (He : forall n s, json_text (txt n) = txt n ->
      map (fun e : list Z * json => (json_text (fst e), norm (snd e)))
        (map (fun e : string * json => (txt (fst e), snd e)) (tnonempty n s)) = unless_empty n s).
    { intros n s Hn. unfold tnonempty, unless_empty. destruct (String.eqb_spec s "") as [->|Hs].
      - destruct (decide _); [reflexivity|congruence].
      - destruct (decide (s = "")); [congruence|]. cbn [map fst snd]. rewrite Hn. reflexivity. }
    assert (Hz : forall n z, json_text (txt n) = txt n ->
      map (fun e : list Z * json => (json_text (fst e), norm (snd e)))
        (map (fun e : string * json => (txt (fst e), snd e)) (tnonzero n z)) = unless_zero n z).
    { intros n z Hn. unfold tnonzero, unless_zero. destruct (Z.eqb_spec z 0) as [->|Hs].
      - destruct (decide _); [reflexivity|congruence].
      - destruct (decide (z = 0)); [congruence|]. cbn [map fst snd]. rewrite Hn. reflexivity. }
    rewrite !He, !Hz by reflexivity. do 6 f_equal. f_equal.
    destruct (c_labels c) as [|kv ls]; [destruct (decide _); [reflexivity|congruence]|].
    destruct (decide (kv :: ls = [])); [discriminate|]. cbn [map fst snd].
    f_equal. f_equal. unfold tobj. rewrite norm_members. cbn [map fst snd]. rewrite !map_map. reflexivity.
Qed.

Definition tevent (sc : option syscall) (c : option (container (list (string * string)))) (t : trace_event) (a : json) : json :=
  tobj [("syscall", tsyscall sc); ("pid", JsNum (t_pid t)); ("tid", JsNum (t_tid t));
        ("container_pid", JsNum (t_cpid t)); ("uid", JsNum (t_uid t)); ("gid", JsNum (t_gid t));
        ("comm", JsStr (t_comm t)); ("session", JsNum (t_sid t));
        ("container", tcontainer c); ("error", tstr (errno_to_string (t_error t)));
        ("return", JsNum (t_return t)); ("pid_ns", JsNum (t_pid_ns t));
        ("uts_ns", JsNum (t_uts_ns t)); ("mount_ns", JsNum (t_mnt_ns t));
        ("start", JsNum (t_start t)); ("finish", JsNum (t_finish t)); ("args", a)].

Lemma comm_bytes bs t : bytes bs -> ingest (InBytes bs) = Ingested t -> bytes (t_comm t).
Proof.
  intros Hb Hi. unfold ingest in Hi.
  destruct (ingest_bytes bs) as [r|] eqn:Er; [|discriminate].
  destruct (decode_syscall (r_syscall r) (r_args r)) as [[argv|]|] eqn:Ed; [|discriminate..].
  assert (t_comm t = commstr r) as -> by (injection Hi as <-; reflexivity).
  unfold commstr. apply bytes_take.
  unfold ingest_bytes in Er. destruct (length bs <? swoll_event_size)%nat eqn:El; [discriminate|].
  unfold take_le in Er. cbv beta iota zeta in Er. apply Some_inj in Er. rewrite <- Er. cbn [r_comm].
  apply bytes_take. repeat apply bytes_drop. exact Hb.
Qed.

Lemma message_reads p sc c bs t r fs msg : reasonable p -> bytes bs -> ingest (InBytes bs) = Ingested t ->
  ingest_bytes bs = Some r -> decoder (t_syscall t) = Some fs -> message p sc c (r_args r) t = Some msg ->
  exists a, read_json msg = Some (event_json sc c t a) /\ shows_args p (r_args r) (t_syscall t) fs (t_argv t) a.
Proof.
  intros Hp Hb Hi Hr Hfs Hm.
  destruct (ingested bs t Hb Hi) as (r' & fs' & Hr' & Hba & H640 & Hd & Hv & _).
  assert (r' = r) as -> by congruence. assert (fs' = fs) as -> by congruence.
  unfold message in Hm. destruct (args_text p (r_args r) (t_syscall t) (t_argv t)) as [a|] eqn:Ea; [|discriminate].
  apply Some_inj in Hm.
  destruct (args_tree p (r_args r) (t_syscall t) fs (t_argv t) a Hba (re_heap p Hp) (re_base p Hp) Hd Hv Ea)
    as (j & Hj & Hg & Hs).
  exists (norm j). split; [|exact Hs].
  destruct (syscall_tree sc) as (S1 & S2 & S3). destruct (container_tree c) as (C1 & C2 & C3).
  assert (E : msg = jtext (tevent sc c t j) ++ [10]).
  { rewrite <- Hm. unfold tevent. rewrite tobj_text. cbn [map fst snd]. rewrite S1, C1, Hj. reflexivity. }
  assert (G : good (tevent sc c t j)).
  { apply good_tobj. repeat (constructor; [first [exact I|exact S2|exact C2|exact Hg|apply txt_bytes|
      exact (comm_bytes bs t Hb Hi)]|]). constructor. }
  rewrite E, (read_text _ _ G) by reflexivity. f_equal. unfold tevent. rewrite norm_tobj by keys.
  cbn [map fst snd]. rewrite S3, C3. reflexivity.
Qed.

Lemma same_event p p' sc sc' c c' bs bs' t t' r r' msg :
  reasonable p -> reasonable p' ->
  bytes bs -> ingest (InBytes bs) = Ingested t -> ingest_bytes bs = Some r ->
  bytes bs' -> ingest (InBytes bs') = Ingested t' -> ingest_bytes bs' = Some r' ->
  message p sc c (r_args r) t = Some msg -> message p' sc' c' (r_args r') t' = Some msg ->
  t_pid t = t_pid t' /\ t_tid t = t_tid t' /\ t_cpid t = t_cpid t' /\ t_uid t = t_uid t' /\ t_gid t = t_gid t'
  /\ t_sid t = t_sid t' /\ t_return t = t_return t' /\ t_pid_ns t = t_pid_ns t' /\ t_uts_ns t = t_uts_ns t'
  /\ t_mnt_ns t = t_mnt_ns t' /\ t_start t = t_start t' /\ t_finish t = t_finish t'
  /\ json_text (t_comm t) = json_text (t_comm t').
Proof.
  intros Hp Hp' Hb Hi Hr Hb' Hi' Hr' Hm Hm'.
  destruct (ingested bs t Hb Hi) as (_ & fs & _ & _ & _ & Hd & _).
  destruct (ingested bs' t' Hb' Hi') as (_ & fs' & _ & _ & _ & Hd' & _).
  destruct (message_reads p sc c bs t r fs msg Hp Hb Hi Hr Hd Hm) as (a & H1 & _).
  destruct (message_reads p' sc' c' bs' t' r' fs' msg Hp' Hb' Hi' Hr' Hd' Hm') as (a' & H2 & _).
  rewrite H1 in H2. apply Some_inj in H2. unfold event_json, js_obj in H2. cbn [map fst snd] in H2.
  assert (H3 : forall l l', JsObj l = JsObj l' -> l = l') by congruence. apply H3 in H2. clear H3.
  assert (Hn : forall x y, JsNum x = JsNum y -> x = y) by congruence.
  assert (Hs : forall x y, JsStr x = JsStr y -> x = y) by congruence.
  assert (Hc : forall (k k' : list Z) (v v' : json) l l', (k, v) :: l = (k', v') :: l' -> v = v' /\ l = l')
    by (intros; split; congruence).
  do 16 (apply Hc in H2; let E := fresh "E" in destruct H2 as [E H2]; try apply Hn in E).
  unfold js_bytes in *. repeat split; try assumption. apply Hs. assumption.
Qed.
