(** The client's log: what the client holds, written and read again. *)
From Coq Require Import ZArith String Ascii Lia.
From stdpp Require Import base list numbers strings pretty gmap.
From Verif Require Import TopModel SyscallTable SyscallModel SyscallSpec SyscallProofs TopoModel RawModel RawSpec RawProofs DecodeModel CodecTables CodecModel CodecSpec CodecNames JsonModel JsonSpec JsonProofs LineModel LineProofs TextModel
  MsgModel MsgSpec MsgProofs MsgBound MsgRead ReadSpec ReadProofs ReadTop PrintModel PrintProofs PrintTop UnmarshalModel UnmarshalSpec UnmarshalProofs UnmarshalTop LogModel LogProofs.

Local Open Scope string_scope.
Local Open Scope list_scope.
Local Open Scope Z_scope.

(** * The tables *)

Definition gfield (at_ : string -> json) (j : jfield) : string * json :=
  match j with
  | JOf n m => (n, at_ m)
  | JZero n => (n, JsNum 0)
  | JWords n ms => (n, JsArr (map at_ ms ++ [JsStr []]))
  end.
Definition members_known (fs : list field) (j : jfield) : Prop :=
  match j with JOf _ m => known fs m = true | JZero _ => True | JWords _ ms => forall m, In m ms -> known fs m = true end.
Lemma gfield_name at_ j : fst (gfield at_ j) = jname j.
Proof. destruct j; reflexivity. Qed.

Lemma struct_entry nr fs : decoder nr = Some fs ->
  exists k nest js, List.find (fun e => fst (fst e) =? nr) json_structs = Some (k, nest, js)
    /\ nest = (if nr =? 55 then Some "sockopt" else None) /\ NoDup (map f_name fs) /\ (forall j, In j js -> members_known fs j)
    /\ forall at_, exists ms, norm (tobj (map (gfield at_) js)) = JsObj ms
       /\ forall f, In f fs -> argument_of ms (f_name f) = Some (norm (at_ (f_name f))).
Proof.
  intros Hd. destruct (decoder_in _ _ Hd) as (d & Hin & Hnr & Hfs).
  pose proof structs_ok as Hc. rewrite forallb_forall in Hc. specialize (Hc d Hin). unfold struct_ok in Hc.
  cbv zeta in Hc. rewrite Hnr, Hfs in Hc.
  destruct (List.find (fun e => fst (fst e) =? nr) json_structs) as [[[k nest] js]|]; [|discriminate].
  rewrite !andb_true_iff in Hc. destruct Hc as [[[Hnest Hnd] Hargs] Hent].
  apply bool_decide_eq_true in Hnest. apply bool_decide_eq_true in Hnd. rewrite forallb_forall in Hargs, Hent.
  assert (Hkeys : Forall (fun j => json_text (txt (jname j)) = txt (jname j)) js).
  { apply Forall_forall. intros j Hj. apply elem_of_list_In in Hj. specialize (Hent j Hj). unfold entry_ok in Hent.
    apply andb_true_iff in Hent. exact (proj1 (bool_decide_eq_true _) (proj1 Hent)). }
  exists k, nest, js. split; [reflexivity|]. split; [exact Hnest|]. split; [exact Hnd|]. split.
  { intros j Hj. specialize (Hent j Hj). unfold entry_ok in Hent. apply andb_true_iff in Hent. destruct Hent as [_ Hent].
    destruct j as [n m|n|n ms]; cbn [members_known].
    - apply andb_true_iff in Hent. exact (proj1 Hent).
    - exact I.
    - rewrite !andb_true_iff in Hent. destruct Hent as [_ Hms]. rewrite forallb_forall in Hms. exact Hms. }
  intros at_. set (l := map (gfield at_) js). set (ms := map (fun e => (txt (fst e), norm (snd e))) l). exists ms.
  split.
  { rewrite norm_tobj; [unfold js_obj, ms; rewrite map_map; reflexivity|].
    unfold l. apply Forall_map. eapply Forall_impl; [exact Hkeys|]. intros j Hj. rewrite gfield_name. exact Hj. }
  assert (Hfind : forall name j, jfind js name = Some j -> member_of ms name = Some (norm (snd (gfield at_ j)))).
  { intros name j. unfold ms, l, member_of, jfind. clear -js. induction js as [|x js' IH]; [discriminate|]. cbn [map List.find fst snd]. rewrite gfield_name.
    destruct (same_key (txt (jname x)) name); [|exact IH]. intros E. assert (x = j) as -> by congruence. reflexivity. }
  intros f Hf. specialize (Hargs f Hf). apply andb_true_iff in Hargs. destruct Hargs as [Hs Ha'].
  assert (Hword : forall i, word_ok js i (f_name f) = true ->
    match member_of ms "argv" with Some (JsArr l) => l !! i | _ => None end = Some (norm (at_ (f_name f)))).
  { intros i Hw. unfold word_ok in Hw. destruct (jfind js "argv") as [[| |n ws]|] eqn:Ej; try discriminate.
    rewrite (Hfind "argv" _ Ej). cbn [gfield snd norm]. destruct (ws !! i) as [m|] eqn:Ei; [|discriminate].
    apply String.eqb_eq in Hw. subst m. rewrite map_app, map_map. apply lookup_app_l_Some.
    rewrite list_lookup_fmap, Ei. reflexivity. }
  unfold argument_of, arg_ok in *. cbv zeta.
  destruct (decide (f_name f = "argv[0]")); [exact (Hword _ Ha')|].
  destruct (decide (f_name f = "argv[1]")); [exact (Hword _ Ha')|].
  destruct (decide (f_name f = "argv[2]")); [exact (Hword _ Ha')|].
  destruct (jfind js (f_name f)) as [[nm mm| |]|] eqn:Ej; try discriminate.
  apply String.eqb_eq in Ha'. subst mm. rewrite (Hfind _ _ Ej). reflexivity.
Qed.

(** * What the client holds *)

Definition fine (v : cvalue) : Prop := match v with HText bs | HBytes bs => bytes bs | _ => True end.
Record well_held (h : held) : Prop := {
  wh_comm : bytes (h_comm h);
  wh_numbers : length (h_numbers h) = length numbers;
  wh_fields : decoder (sc_nr (h_syscall h)) = Some (h_fields h);
  wh_values : Forall2 (fun _ v => fine v) (h_fields h) (h_values h)
}.

Lemma member_good ms k j : Forall (fun e => bytes (fst e) /\ good (snd e)) ms -> member_of ms k = Some j -> good j.
Proof.
  intros G. unfold member_of. induction G as [|[x v] ms [_ Gv] G IH]; [discriminate|]. cbn [List.find fst].
  destruct (same_key x k); [|exact IH]. intros E. apply Some_inj in E. subst j. exact Gv.
Qed.
Lemma argument_good ms n j : Forall (fun e => bytes (fst e) /\ good (snd e)) ms -> argument_of ms n = Some j -> good j.
Proof.
  intros G. unfold argument_of. cbv zeta.
  assert (W : forall i, match member_of ms "argv" with Some (JsArr l) => l !! i | _ => None end = Some j -> good j).
  { intros i E. destruct (member_of ms "argv") as [a|] eqn:M; [|discriminate]. pose proof (member_good _ _ _ G M) as Ga. destruct a; try discriminate.
    apply good_arr in Ga. exact (Forall_lookup_1 _ _ _ _ Ga E). }
  destruct (decide (n = "argv[0]")); [exact (W _)|]. destruct (decide (n = "argv[1]")); [exact (W _)|]. destruct (decide (n = "argv[2]")); [exact (W _)|].
  exact (member_good ms n j G).
Qed.
Lemma held_value_fine order nr f j v : good j -> held_value order nr f j = Some v -> fine v.
Proof.
  intros G. unfold held_value.
  assert (Hi : forall m, held_int m = Some v -> fine v).
  { intros [[z|lv tp| | |]|] E; try discriminate; apply Some_inj in E; subst v; exact I. }
  assert (Hb : forall s, match unb64 s with Some bs => Some (HBytes bs) | None => None end = Some v -> fine v).
  { intros s E. destruct (unb64 s) as [bs|] eqn:U; [|discriminate]. apply Some_inj in E. subst v. exact (unb64_bytes _ s bs (Nat.le_refl _) U). }
  destruct (f_kind f); try exact (Hi _); destruct j as [| | |s| |ms]; try discriminate; try exact (Hb _).
  - intros E. apply Some_inj in E. subst v. exact G.
  - destruct (un_struct _ ms); [|discriminate]. intros E. apply Some_inj in E. subst v. exact I.
  - destruct (un_struct _ ms); [|discriminate]. intros E. apply Some_inj in E. subst v. exact I.
  - destruct (un_struct _ ms); [|discriminate]. intros E. apply Some_inj in E. subst v. exact I.
  - destruct (num_at ms "Sec"); [|discriminate]. destruct (num_at ms "Nsec"); [|discriminate]. intros E. apply Some_inj in E. subst v. exact I.
Qed.
Lemma args_members_good nr a l : good a -> args_members nr a = Some l -> Forall (fun e => bytes (fst e) /\ good (snd e)) l.
Proof.
  intros G E. destruct a as [| | | | |ms]; try discriminate. cbn [args_members] in E. apply good_obj in G. destruct (nr =? 55).
  - destruct (member_of ms "sockopt") as [[| | | | |ms']|] eqn:M; try discriminate. apply Some_inj in E. subst l. apply good_obj. exact (member_good _ _ _ G M).
  - apply Some_inj in E. subst l. exact G.
Qed.
Lemma mapM_forall2 {A B} (f : A -> option B) l : forall l', mapM f l = Some l' -> Forall2 (fun x y => f x = Some y) l l'.
Proof. intros l' E. apply mapM_Some_1, E. Qed.

Lemma held_event_well order j h : good j -> held_event order j = Some h -> well_held h.
Proof.
  intros G E. destruct j as [| | | | |ms]; try discriminate. apply good_obj in G. cbn [held_event] in E.
  destruct (held_syscall ms) as [sc|]; [|discriminate]. destruct (UnmarshalModel.text_at ms "comm") as [comm|] eqn:Ec; [|discriminate].
  destruct (num_at ms "session") as [sid|]; [|discriminate]. destruct (un_error order ms) as [er|]; [|discriminate]. destruct (held_container ms) as [c|]; [|discriminate].
  destruct (mapM (num_at ms) numbers) as [ns|] eqn:En; [|discriminate]. destruct (decoder (sc_nr sc)) as [fs|] eqn:Ed; [|discriminate].
  destruct (member_of ms "args") as [a|] eqn:Ea; [|discriminate]. destruct (args_members (sc_nr sc) a) as [l|] eqn:El; [|discriminate].
  destruct (forallb (present l) fs); [|discriminate]. destruct (mapM _ fs) as [vs|] eqn:Ev; [|discriminate]. apply Some_inj in E. subst h.
  pose proof (args_members_good _ _ _ (member_good _ _ _ G Ea) El) as Gl. constructor; cbn [h_comm h_numbers h_syscall h_fields h_values].
  - unfold UnmarshalModel.text_at in Ec. destruct (member_of ms "comm") as [[| | |s| |]|] eqn:M; try discriminate; apply Some_inj in Ec; subst comm; try constructor.
    exact (member_good _ _ _ G M).
  - symmetry. exact (Forall2_length _ _ _ (mapM_forall2 _ _ _ En)).
  - exact Ed.
  - apply mapM_forall2 in Ev. eapply Forall2_impl; [exact Ev|]. intros f v H. cbv beta in H. destruct (argument_of l (f_name f)) as [j|] eqn:Ej; [|discriminate].
    exact (held_value_fine order _ f j v (argument_good _ _ _ Gl Ej) H).
Qed.

(** * The tree *)

Definition ctree (order : list (Z * string) -> list (Z * string)) (heap : list Z) (nr : Z) (name : string) (v : cvalue) : json :=
  match v with
  | HInt z => tint (JParams order 0 []) [] nr name z
  | HOption lv tp => tstr (render_option lv tp)
  | HText bs => JsStr bs
  | HBytes bs => JsStr (b64 bs)
  | HSock mem => tsock (mem ++ heap)
  | HStruct bs => js_struct nr bs
  | HPair sec nsec => js_timespec (JsNum sec) (JsNum nsec)
  end.
Lemma ctree_text order heap nr name v : fine v -> jtext (ctree order heap nr name v) = cvalue_text order heap nr name v /\ good (ctree order heap nr name v).
Proof.
  intros F. destruct v as [z|lv tp|bs|bs|mem|bs|a b]; cbn [ctree cvalue_text fine] in *.
  - split; unfold tint, int_text; destruct (jtype_of nr name); try reflexivity; try apply tnames_text; try exact I; try apply good_tnames; apply txt_bytes.
  - split; [reflexivity|apply txt_bytes].
  - split; [reflexivity|exact F].
  - pose proof (b64_ordinary _ bs (Nat.le_refl _) F) as O. split; [cbn [jtext]; unfold quote; rewrite (esc_ordinary _ O); reflexivity|]. apply ordinary_bytes, O.
  - split; [unfold tsock, sock_text; rewrite tobj_text; cbn [map fst snd jtext]; rewrite map_map; reflexivity|].
    apply good_tobj. constructor; [exact I|constructor; [|constructor; [apply txt_bytes|constructor]]]. apply good_arr, good_nums.
  - split; [apply struct_jtext|apply good_struct].
  - split; [unfold js_timespec; change js_obj with tobj; rewrite tobj_text; reflexivity|apply good_tobj; repeat constructor].
Qed.
Lemma ctree_some order heap nr name v : norm (ctree order heap nr name v) <> JsNull.
Proof.
  destruct v; cbn [ctree]; try discriminate.
  - unfold tint. destruct (jtype_of nr name); discriminate.
  - rewrite norm_struct. unfold js_struct. destruct (nr =? 302); [|destruct (nr =? 286)]; discriminate.
Qed.

Lemma named_fine fs vs m : Forall2 (fun (_ : field) v => fine v) fs vs -> known fs m = true -> exists v, named_held fs vs m = Some v /\ fine v.
Proof.
  induction 1 as [|f v fs vs Hv F IH]; intros K; [discriminate|]. cbn [named_held]. unfold known in K. cbn [existsb] in K.
  destruct (String.eqb (f_name f) m); [exists v; split; [reflexivity|exact Hv]|exact (IH K)].
Qed.

Section tree.
Variables (order : list (Z * string) -> list (Z * string)) (heap : list Z) (h : held).

Definition at_held (m : string) : json :=
  match named_held (h_fields h) (h_values h) m with Some v => ctree order heap (sc_nr (h_syscall h)) m v | None => JsNull end.
Definition args_json : json :=
  match List.find (fun e => fst (fst e) =? sc_nr (h_syscall h)) json_structs with
  | Some (_, nest, js) =>
      let o := tobj (map (gfield at_held) js) in
      match nest with Some n => tobj [(n, o)] | None => o end
  | None => JsNull
  end.
Definition number_at (key : string) : Z :=
  match List.find (fun e => String.eqb (fst e) key) (combine numbers (h_numbers h)) with Some (_, z) => z | None => 0 end.
Definition held_tree : json :=
  tobj [("syscall", tsyscall (Some (h_syscall h))); ("pid", JsNum (number_at "pid")); ("tid", JsNum (number_at "tid"));
        ("container_pid", JsNum (number_at "container_pid")); ("uid", JsNum (number_at "uid")); ("gid", JsNum (number_at "gid"));
        ("comm", JsStr (h_comm h)); ("session", JsNum (h_sid h));
        ("container", tcontainer (h_container h)); ("error", tstr (errno_to_string (h_error h)));
        ("return", JsNum (number_at "return")); ("pid_ns", JsNum (number_at "pid_ns"));
        ("uts_ns", JsNum (number_at "uts_ns")); ("mount_ns", JsNum (number_at "mount_ns"));
        ("start", JsNum (number_at "start")); ("finish", JsNum (number_at "finish")); ("args", args_json)].

Hypothesis Hw : well_held h.

Lemma at_held_ok m : known (h_fields h) m = true ->
  exists v, named_held (h_fields h) (h_values h) m = Some v /\ jtext (at_held m) = cvalue_text order heap (sc_nr (h_syscall h)) m v /\ good (at_held m).
Proof.
  intros K. destruct (named_fine _ _ _ (wh_values h Hw) K) as (v & E & F). exists v. split; [exact E|].
  unfold at_held. rewrite E. exact (ctree_text order heap _ m v F).
Qed.
Lemma args_json_ok : jtext args_json = held_args order heap h /\ good args_json.
Proof.
  destruct (struct_entry _ _ (wh_fields h Hw)) as (k & nest & js & Es & _ & _ & Hk & _). unfold args_json, held_args. cbv zeta. rewrite Es.
  set (l := map (gfield at_held) js).
  set (tx := fun m => match named_held (h_fields h) (h_values h) m with Some v => cvalue_text order heap (sc_nr (h_syscall h)) m v | None => [] end).
  assert (Hx : forall m, known (h_fields h) m = true -> jtext (at_held m) = tx m /\ good (at_held m)).
  { intros m K. destruct (at_held_ok m K) as (v & E & H1 & H2). unfold tx. rewrite E. split; assumption. }
  assert (Ht : jtext (tobj l) = obj (map (held_field tx) js)).
  { unfold l. rewrite tobj_text, map_map. f_equal. apply map_ext_in. intros j Hj. specialize (Hk j Hj). destruct j as [n m|n|n ws]; cbn [members_known gfield held_field fst snd] in *.
    - rewrite (proj1 (Hx m Hk)). reflexivity.
    - reflexivity.
    - cbn [jtext]. rewrite map_app, map_map. do 3 f_equal. apply map_ext_in. intros m Hm. exact (proj1 (Hx m (Hk m Hm))). }
  assert (Hg : good (tobj l)).
  { apply good_tobj. unfold l. apply Forall_map, Forall_forall. intros j Hj. apply elem_of_list_In in Hj. specialize (Hk j Hj). destruct j as [n m|n|n ws]; cbn [members_known gfield fst snd] in *.
    - exact (proj2 (Hx m Hk)).
    - exact I.
    - apply good_arr, Forall_app. split; [|constructor; [constructor|constructor]]. apply Forall_map, Forall_forall. intros m Hm. apply elem_of_list_In in Hm. exact (proj2 (Hx m (Hk m Hm))). }
  destruct nest as [n|]; [|split; [exact Ht|exact Hg]].
  split; [rewrite tobj_text; cbn [map fst snd]; rewrite Ht; reflexivity|]. apply good_tobj. constructor; [exact Hg|constructor].
Qed.
Lemma number_ok key : In key numbers -> number_of h key = num (number_at key).
Proof.
  intros K. unfold number_of, number_at. destruct (List.find _ _) as [[x z]|] eqn:E; [reflexivity|]. exfalso.
  pose proof (wh_numbers h Hw) as L. revert L K E. generalize (h_numbers h). generalize numbers.
  induction l as [|x l IH]; intros ns L K E; [exact K|]. destruct ns as [|z ns]; [discriminate|]. cbn [combine List.find fst] in E.
  destruct (String.eqb_spec x key) as [->|N]; [discriminate|]. destruct K as [K|K]; [congruence|]. cbn [length] in L. apply (IH ns); [lia|exact K|exact E].
Qed.
Lemma held_tree_ok : jtext held_tree = held_text order heap h /\ good held_tree.
Proof.
  destruct args_json_ok as [A1 A2]. destruct (syscall_tree (Some (h_syscall h))) as (S1 & S2 & _). destruct (container_tree (h_container h)) as (C1 & C2 & _). split.
  - unfold held_tree, held_text. rewrite tobj_text. cbn [map fst snd].
    rewrite S1, C1, A1. rewrite !number_ok by (unfold numbers; cbn [In]; tauto). reflexivity.
  - apply good_tobj. repeat (constructor; [first [exact I|exact S2|exact C2|exact A2|apply txt_bytes|exact (wh_comm h Hw)]|]). constructor.
Qed.

(** What a reader makes of it. *)
Lemma held_tree_read order' heap' base' :
  un_event order' heap' base' (norm held_tree) = Skipped \/ exists e, un_event order' heap' base' (norm held_tree) = UnmarshalModel.Read e.
Proof.
  destruct (syscall_tree (Some (h_syscall h))) as (_ & _ & S3). destruct (container_tree (h_container h)) as (_ & _ & C3).
  unfold held_tree. rewrite norm_tobj by keys. cbn [map fst snd]. rewrite S3, C3. unfold un_event, js_obj. set (ms := map _ _).
  assert (E1 : un_syscall ms = Some (Some (sc_nr (h_syscall h), json_text (txt (sc_name (h_syscall h)))))).
  { unfold un_syscall. change (member_of ms "syscall") with (Some (syscall_json (Some (h_syscall h)))). reflexivity. }
  assert (E2 : text_at ms "comm" = Some (json_text (h_comm h))) by reflexivity.
  assert (E3 : num_at ms "session" = Some (h_sid h)) by reflexivity.
  assert (E4 : exists er, un_error order' ms = Some er).
  { unfold un_error. change (member_of ms "error") with (Some (js_text (errno_to_string (h_error h)))).
    rewrite (js_text_low _ (errno_low _)). cbn [text_of]. eexists. reflexivity. }
  destruct E4 as [er E4].
  assert (E5 : un_container ms = Some (client_container (names_of (h_container h)))) by (apply container_back; reflexivity).
  assert (E6 : forallb (fun k => bool_decide (is_Some (num_at ms k))) numbers = true).
  { unfold numbers. cbn [forallb]. rewrite !andb_true_iff. repeat split; apply bool_decide_eq_true_2; eexists; reflexivity. }
  rewrite E1, E2, E3, E4, E5, E6, (wh_fields h Hw). change (member_of ms "args") with (Some (norm args_json)). cbv iota beta.
  destruct (struct_entry _ _ (wh_fields h Hw)) as (k & nest & js & Es & En & _ & Hk & Ha). destruct (Ha at_held) as (l & El & Hl).
  assert (E7 : args_members (sc_nr (h_syscall h)) (norm args_json) = Some l).
  { unfold args_json. rewrite Es. cbv zeta. rewrite En. unfold args_members. destruct (sc_nr (h_syscall h) =? 55).
    - rewrite norm_tobj by keys. cbn [map fst snd]. rewrite El. reflexivity.
    - rewrite El. reflexivity. }
  rewrite E7.
  assert (HP : forallb (present l) (h_fields h) = true).
  { apply forallb_forall. intros f Hf. unfold present. rewrite (Hl f Hf).
    assert (K : known (h_fields h) (f_name f) = true) by (apply existsb_exists; exists f; split; [exact Hf|apply String.eqb_refl]).
    destruct (named_fine _ _ _ (wh_values h Hw) K) as (v & Ev & _). unfold at_held. rewrite Ev. pose proof (ctree_some order heap (sc_nr (h_syscall h)) (f_name f) v) as N.
    destruct (norm (ctree order heap (sc_nr (h_syscall h)) (f_name f) v)) eqn:En'; [exfalso; apply N; reflexivity|reflexivity..]. }
  rewrite HP. destruct (mapM _ _) as [vs|]; [right; eexists; reflexivity|left; reflexivity].
Qed.
End tree.

(** * The line *)

Definition line_tree (order : list (Z * string) -> list (Z * string)) (heap : list Z) (ep : endpoint) (h : held) : json :=
  tobj [("endpoint", tobj [("hostname", tstr (ep_host ep)); ("port", JsNum (ep_port ep)); ("UseTLS", JsBool (ep_tls ep))]); ("payload", held_tree order heap h)].
Lemma line_tree_ok order heap ep h : well_held h -> log_line order heap ep h = jtext (line_tree order heap ep h) ++ [10] /\ good (line_tree order heap ep h).
Proof.
  intros W. destruct (held_tree_ok order heap h W) as [H1 H2]. split.
  - unfold log_line, line_tree. rewrite !tobj_text. cbn [map fst snd]. rewrite H1. unfold endpoint_text. rewrite tobj_text. cbn [map fst snd]. destruct (ep_tls ep); reflexivity.
  - apply good_tobj. constructor; [|constructor; [exact H2|constructor]]. apply good_tobj. constructor; [apply txt_bytes|]. constructor; [exact I|]. constructor; [exact I|constructor].
Qed.

Lemma one_line order order' heap ep msg h : bytes msg -> holds order msg = Some h ->
  exists body, log_line order' heap ep h = body ++ [10] /\ ~ In 10 body.
Proof.
  intros B H. unfold holds in H. destruct (read_json msg) as [j|] eqn:J; [|discriminate].
  destruct (line_tree_ok order' heap ep h (held_event_well order j h (read_json_good msg j B J) H)) as [H1 H2].
  exists (jtext (line_tree order' heap ep h)). split; [exact H1|]. intros I10. pose proof (jtext_line _ H2) as L. unfold line in L. rewrite Forall_forall in L.
  exact (L 10 (proj2 (elem_of_list_In _ _) I10) eq_refl).
Qed.
