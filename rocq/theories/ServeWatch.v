(** Proofs about `swoll server`: the clients. *)
From Coq Require Import ZArith String Lia.
From stdpp Require Import base list numbers strings pretty gmap.
From Verif Require Import SyscallModel KernelProofs HubModel HubSpec LineModel DecodeModel MsgModel LiveModel LiveSpec LiveProofs ServeModel ServeSpec ServeFrame ServeProofs.
From Verif Require Import PubSubModel PubSubSpec PubSubTop HashModel WatchModel WatchSpec WatchProofs WatchTop.

Local Open Scope string_scope.
Local Open Scope list_scope.
Local Open Scope nat_scope.

(** * One act of the clients *)

Lemma evolves_subscribed s s' w a x x' : evolves s s' w a x x' -> subscribed x' = true -> subscribed x = true.
Proof.
  intros E. destruct E as [_|b _ _|_ _ _ _|_ _ Hw|rf b1 b2 y _ _ _ -> _|rf b1 b2 _ _]; unfold subscribed.
  - done.
  - by rewrite break_writer, break_ask.
  - done.
  - by rewrite Hw.
  - intros H. destruct (w_writer x) eqn:Ew; [done..|]. unfold tick in H. rewrite break_writer, expire_writer, break_writer, Ew in H.
    cbn [fst] in H. by rewrite break_writer, expire_writer, break_writer, break_ask, expire_ask, break_ask, Ew in H.
  - by rewrite break_writer, expire_writer, break_writer, break_ask, expire_ask, break_ask.
Qed.

Definition open_pings (s : sys) : Prop := forall w x, ws s !! w = Some x -> w_open x = true -> w_writer x = Pinging.
Lemma open_pings_step srt s a s' : stall_ok s -> wstep srt s a s' -> open_pings s -> open_pings s'.
Proof.
  intros So St P w x' Hx Ho. destruct (step_back _ _ _ _ _ _ So St Hx) as [(x & Hw & E)|(_ & k & d & _ & -> & _)]; [|done].
  specialize (P w x Hw). destruct E as [_|b _ _|_ _ Hop _|_ _ Hl|rf b1 b2 y _ _ _ Hy _|rf b1 b2 _ _].
  - by apply P.
  - by rewrite break_open in Ho.
  - exact (P Hop).
  - cbn in Ho. rewrite (P Ho) in Hl. done.
  - assert (Hyo : w_open y = true -> w_writer y = Pinging).
    { subst y. rewrite break_writer, expire_writer, break_writer, break_open, expire_open, break_open. intros H. apply andb_prop in H as [H _]. by apply P. }
    clear Hy. unfold tick in *. destruct (w_writer y) eqn:Ey; cbn [fst] in *.
    + destruct (_ <=? _)%Z; [|done]. by destruct (_ && _).
    + by apply Hyo in Ho.
    + by apply Hyo in Ho.
  - rewrite break_writer, expire_writer, break_writer. rewrite break_open, expire_open, break_open in Ho. apply andb_prop in Ho as [Ho _]. by apply P.
Qed.

(** What an act that is neither an event nor a call nor a take leaves as it was. *)
Record silent (s s' : sys) : Prop := {
  si_event : event s' = event s;
  si_todo : exists d, todo s = d ++ todo s';
  si_stall : stall s' = None \/ stall s' = stall s;
  si_gots : forall w, gots w (log s') = gots w (log s);
  si_stream : forall w, stream w (log s') = stream w (log s) }.
Lemma silent_refl s : silent s s.
Proof. split; [done|by exists []|by right|done|done]. Qed.
Lemma silent_settle s0 s : silent s0 s -> silent s0 (settle s).
Proof.
  intros [E [d T] S G M]. unfold settle. destruct (stall s) as [t|] eqn:Es; [|split; [done|by exists d|by rewrite Es|done|done]].
  destruct (todo s) as [|w rest] eqn:Et; [split; [done|exists d; by rewrite Et|by rewrite Es|done|done]|].
  destruct (ws s !! w) as [x|]; [|split; [done|exists d; by rewrite Et|by rewrite Es|done|done]].
  destruct (w_open x); [split; [done|exists d; by rewrite Et|by rewrite Es|done|done]|].
  split; [done| |by left|done|done]. exists (d ++ [w]). cbn [todo]. by rewrite <- app_assoc.
Qed.
Lemma silent_timeout s0 s : silent s0 s -> silent s0 (write_timeout s).
Proof.
  intros [E [d T] S G M]. unfold write_timeout. destruct (stall s) as [t|] eqn:Es; [|split; [done|by exists d|by rewrite Es|done|done]].
  destruct (todo s) as [|w rest] eqn:Et; [split; [done|exists d; by rewrite Et|by rewrite Es|done|done]|].
  destruct (_ <=? _)%Z; [|split; [done|exists d; by rewrite Et|by rewrite Es|done|done]].
  split; [done| |by left|done|done]. exists (d ++ [w]). cbn [todo]. by rewrite <- app_assoc.
Qed.
Lemma silent_fields s0 s c l b o : Forall neutral o -> silent s0 s ->
  silent s0 (Sys c l (ps s) (todo s) (event s) (stall s) b (log s ++ map (pair c) o)).
Proof.
  intros N [E T S G M]. split; cbn [event todo stall log]; [done..| |].
  - intros w. destruct (neutral_log w (log s) c o N) as (_ & _ & -> & _). apply G.
  - intros w. destruct (neutral_log w (log s) c o N) as (-> & _ & _ & _). apply M.
Qed.
Lemma silent_act srt s a : stall_ok s -> (forall e p, a <> WatchModel.Event e p) -> (forall t, a <> Call t) -> a <> Take -> silent s (do_act srt s a).
Proof.
  intros So NE NC NT. destruct a as [a d|v|v|e p|tk| |v|rf]; cbn [do_act].
  - destruct (idle s) eqn:Ei; [|apply silent_refl]. destruct (step _ _ _); [|apply silent_refl..]. apply idle_todo in Ei.
    split; cbn [event todo stall log]; [done|by exists []; rewrite Ei|by left| |]; intros w; unfold note; cbn [map].
    + by rewrite gots_snoc, app_nil_r.
    + rewrite stream_snoc. cbn. by rewrite app_nil_r.
  - apply silent_settle. pose proof (silent_fields s s (clock s) (alter shut v (ws s)) (crashed s) [] (Forall_nil_2 _) (silent_refl s)) as H.
    cbn [map] in H. by rewrite app_nil_r in H.
  - destruct (ws s !! v) as [x|]; [|apply silent_refl]. destruct (w_open x); [|apply silent_refl].
    apply (silent_fields s s (clock s) _ (crashed s) [Ponged v]); [by repeat constructor|apply silent_refl].
  - by destruct (NE e p).
  - by destruct (NC tk).
  - done.
  - destruct (ws s !! v) as [x|]; [|apply silent_refl]. destruct (w_writer x); [apply silent_refl| |apply silent_refl].
    destruct (idle s) eqn:Ei; [|apply silent_refl]. apply idle_todo in Ei.
    destruct (step _ _ _); (split; cbn [event todo stall log]; [done|by exists []; rewrite Ei|by left| |]); try done; intros w; unfold note; cbn [map].
    + by rewrite gots_snoc, app_nil_r.
    + rewrite stream_snoc. cbn. by rewrite app_nil_r.
  - unfold millisecond. cbv zeta.
    set (s0 := Sys (clock s + 1) _ _ _ _ _ _ _).
    assert (H0 : silent s s0). { pose proof (silent_fields s s (clock s + 1)%Z (ws s) (crashed s) [] (Forall_nil_2 _) (silent_refl s)) as H. cbn [map] in H. by rewrite app_nil_r in H. }
    apply silent_timeout in H0. set (s1 := write_timeout s0) in *. clearbody s1. clear s0.
    set (s1' := Sys (clock s1) _ _ _ _ _ _ _).
    assert (H1 : silent s s1'). { pose proof (silent_fields s s1 (clock s1) (map (expire (clock s1)) (ws s1)) (crashed s1) [] (Forall_nil_2 _) H0) as H. cbn [map] in H. by rewrite app_nil_r in H. }
    apply silent_settle in H1. set (s2 := settle s1') in *. clearbody s2. clear s1' H0 s1.
    destruct (clash s2).
    + pose proof (silent_fields s s2 (clock s2) (ws s2) true [] (Forall_nil_2 _) H1) as H. cbn [map] in H. by rewrite app_nil_r in H.
    + pose proof (ticks_neutral (clock s2) rf (ws s2) 0) as N. destruct (ticks _ _ _ _) as [l o]. by apply silent_fields.
Qed.

(** * The clients of a server *)

Section watch.
Context (tbl : syscalls) (describe : HubModel.container -> TopoModel.container (list (string * string)))
  (srt : list PubSubModel.env -> list PubSubModel.env) (J : nat -> job).
Local Notation sstep := (sstep tbl describe srt J).
Local Notation run := (srun tbl describe srt J).
Local Notation text_of := (text_of tbl describe).

Definition retext (b : publishing) (text : list Z) : publishing :=
  Publishing (pb_record b) (pb_event b) (pb_args b) (pb_container b) (pb_paths b) text.
Definition advance (b : publishing) (rest : list (list Z)) : publishing :=
  Publishing (pb_record b) (pb_event b) (pb_args b) (pb_container b) rest (pb_text b).

Definition quiet (r : sout) : Prop := match r with VWrote _ _ _ | VJoined _ => False | _ => True end.

Inductive moves (s : server) (o : sop) (s' : server) (r : sout) : Prop :=
| mv_still : sv_sys s' = sv_sys s -> sv_pub s' = sv_pub s -> quiet r -> (forall k ps, r <> VRead k ps) -> moves s o s' r
| mv_read i k ps : o = SRead i -> r = VRead k ps -> sv_sys s' = sv_sys s -> busy s = false -> moves s o s' r
| mv_publish b path rest : o = SPublish -> r = VNone -> sv_pub s = Some b -> pb_paths b = path :: rest -> idle (sv_sys s) = true ->
    wstep srt (sv_sys s) (WatchModel.Event (pb_record b) path) (sv_sys s') -> sv_pub s' = Some (advance b rest) -> moves s o s' r
| mv_call p takes b w rest x : o = SCall p takes -> sv_pub s = Some b -> stall (sv_sys s) = None -> todo (sv_sys s) = w :: rest ->
    ws (sv_sys s) !! w = Some x -> sv_sys s' = do_act srt (sv_sys s) (Call takes) -> crashed (sv_sys s') = false ->
    (w_broken x = true /\ sv_pub s' = Some b /\ r = VNone \/
     w_broken x = false /\ exists text, text_of p b = Some text /\ sv_pub s' = Some (retext b text) /\
       r = (if w_open x && takes then VWrote w (pb_record b) text else VNone)) -> moves s o s' r
| mv_take b t w rest : o = SClient Take -> sv_pub s = Some b -> stall (sv_sys s) = Some t -> todo (sv_sys s) = w :: rest ->
    sv_sys s' = do_act srt (sv_sys s) Take -> crashed (sv_sys s') = false -> sv_pub s' = sv_pub s -> r = VWrote w (pb_record b) (pb_text b) -> moves s o s' r
| mv_client a : o = SClient a -> (forall e p, a <> WatchModel.Event e p) -> (forall t, a <> Call t) -> a <> Take ->
    sv_sys s' = do_act srt (sv_sys s) a -> crashed (sv_sys s') = false -> sv_pub s' = sv_pub s ->
    r = match a with Join _ _ => if length (ws (sv_sys s)) <? length (ws (sv_sys s')) then VJoined (length (ws (sv_sys s))) else VNone | _ => VNone end -> moves s o s' r.

Lemma still s o s' r (s1 : server) (r1 : sout) : Some (s1, r1) = Some (s', r) -> sv_sys s1 = sv_sys s -> sv_pub s1 = sv_pub s -> quiet r1 -> (forall k ps, r1 <> VRead k ps) -> moves s o s' r.
Proof. intros E. apply Some_inj, pair_equal_spec in E as [-> ->]. apply mv_still. Qed.

Local Ltac same E := match goal with |- moves ?s ?o ?s' ?r => apply (still s o s' r _ _ E); [reflexivity|reflexivity|exact Logic.I|discriminate] end.

(** a take without a blocked write does nothing *)
Lemma take_nothing s : stall s = None -> do_act srt s Take = s.
Proof. cbn [do_act]. intros ->. done. Qed.

Lemma step_moves s o s' r : stall_ok (sv_sys s) -> (sv_pub s = None -> todo (sv_sys s) = []) -> sstep s o (Some (s', r)) -> moves s o s' r.
Proof.
  intros So Pub S. inversion S as [? ? Hp E1 E2 E|? b path rest y Hb Hpa Hi Hw E1 E2 E]; subst.
  2:{ apply (mv_publish _ _ _ _ b path rest); [reflexivity|reflexivity|exact Hb|exact Hpa|exact Hi|exact Hw|reflexivity]. }
  destruct o as [k su sc tr lost|st c|st ns|j st c|id|i| |p takes|a]; cbn [sdo] in E.
  - destruct (task_step _ _ _ _ _ _ _) as [w' [|u| |k' ps' line']]; same E.
  - same E.
  - destruct (meter_step _ _ _ _ _) as [[w' u]|]; [|discriminate]. same E.
  - unfold job_step in E. destruct (_ && _)%bool; [|same E].
    destruct (hstep _ _ _ _) as [[h []]| |]; try discriminate; same E.
  - unfold delete_step in E. destruct (busy s); [same E|].
    destruct (hstep _ _ _ _) as [[h []]| |]; try discriminate; same E.
  - destruct (read_step_cases _ _ _ _ _ _ _ _ S) as [Sy [(-> & -> & _)|(B & k & bs & _ & H)]].
    + apply mv_still; [reflexivity|reflexivity|exact Logic.I|discriminate].
    + destruct H as [(_ & -> & _)|(t & rw & h & ps & _ & _ & _ & _ & -> & _)]; eapply mv_read; (reflexivity || eassumption).
  - same E.
  - unfold call_step in E. destruct (sv_pub s) as [b|] eqn:Eb; [|same E].
    destruct (stall (sv_sys s)) eqn:Es; [same E|].
    destruct (todo (sv_sys s)) as [|w rest] eqn:Et; [same E|].
    destruct (ws (sv_sys s) !! w) as [x|] eqn:Ew; [|same E].
    unfold unless_crashed in E. destruct (w_broken x) eqn:Ex.
    + destruct (crashed (do_act srt (sv_sys s) (Call takes))) eqn:Cr; [discriminate|]. apply Some_inj, pair_equal_spec in E as [<- <-].
      apply (mv_call _ _ _ _ p takes b w rest x); [reflexivity|exact Eb|exact Es|exact Et|exact Ew|reflexivity|exact Cr|]. left. split; [exact Ex|]. split; reflexivity.
    + destruct (text_of p b) as [text|] eqn:Te; [|discriminate].
      destruct (crashed (do_act srt (sv_sys s) (Call takes))) eqn:Cr; [discriminate|]. apply Some_inj, pair_equal_spec in E as [<- <-].
      apply (mv_call _ _ _ _ p takes b w rest x); [reflexivity|exact Eb|exact Es|exact Et|exact Ew|reflexivity|exact Cr|]. right. split; [exact Ex|].
      exists text. split; [exact Te|]. split; reflexivity.
  - unfold client_step, unless_crashed in E.
    destruct a as [a d|v|v|e p|tk| |v|rf].
    4,5: same E.
    4:{ destruct (crashed (do_act srt (sv_sys s) Take)) eqn:Cr; [discriminate|].
        destruct (stall (sv_sys s)) as [t|] eqn:Es.
        - destruct (So t Es) as (w & rest & x & Et & _). rewrite Et in E. destruct (sv_pub s) as [b|] eqn:Eb; [|rewrite (Pub eq_refl) in Et; discriminate].
          apply Some_inj, pair_equal_spec in E as [<- <-].
          apply (mv_take _ _ _ _ b t w rest); [reflexivity|exact Eb|exact Es|exact Et|reflexivity|exact Cr|symmetry; exact Eb|reflexivity].
        - rewrite (take_nothing _ Es) in E. apply (still s _ s' r _ _ E); [reflexivity|reflexivity|destruct (sv_pub s); exact Logic.I|destruct (sv_pub s); discriminate]. }
    all: destruct (crashed (do_act srt (sv_sys s) _)) eqn:Cr in E; [discriminate|]; apply Some_inj, pair_equal_spec in E as [<- <-];
      eapply mv_client; [reflexivity|discriminate|discriminate|discriminate|reflexivity|exact Cr|reflexivity|reflexivity].
Qed.

(** * What the server wrote so far *)

Definition wrote_to (w : nat) (r : sout) : list nat := match r with VWrote w' k _ => if decide (w = w') then [k] else [] | _ => [] end.
Definition wrotes (w : nat) (rs : list sout) : list nat := concat (map (wrote_to w) rs).
Lemma wrotes_snoc w rs r : wrotes w (rs ++ [r]) = wrotes w rs ++ wrote_to w r.
Proof. unfold wrotes. rewrite map_app, concat_app. cbn [map concat]. by rewrite app_nil_r. Qed.
Lemma texts_wrotes w k rs : texts w k rs = times k (wrotes w rs).
Proof.
  unfold texts. induction rs as [|r rs IH]; [done|]. cbn [List.filter]. change (wrotes w (r :: rs)) with (wrote_to w r ++ wrotes w rs).
  unfold times in *. rewrite filter_app, app_length, <- IH. destruct r as [|? |? ?|?|? ?|?|w' k' text]; try done. cbn [written wrote_to].
  destruct (Nat.eqb_spec w w') as [->|Hn]; cbn [andb].
  - rewrite decide_True by done. destruct (Nat.eqb_spec k k') as [->|Hk]; cbn [filter].
    + rewrite filter_cons_True by done. done.
    + rewrite filter_cons_False by done. done.
  - by rewrite decide_False by done.
Qed.

Definition last_read (rs : list sout) (q : nat) : Prop := forall q' k ps, took rs q' k ps -> q' <= q.
(** How many of the paths are below the one asked for. *)
Definition hits (a : list Z) (paths : list (list Z)) : nat := length (filter (fun p => a `prefix_of` p) paths).
Definition pend (s : server) (k : nat) (a : list Z) : nat :=
  match sv_pub s with Some b => if decide (pb_record b = k) then hits a (pb_paths b) else 0 | None => 0 end.

Context (Srt : sort_contract srt) (s0 : server) (F0 : fresh (sv_world s0)) (P0 : sv_pub s0 = None) (Y0 : sv_sys s0 = start).

Definition of_read (l : list sop) (rs : list sout) (q : nat) (b : publishing) (ps : list (option nat * list Z)) : Prop :=
  exists sq i sq', l !! q = Some (SRead i) /\ run s0 (take q l) sq (take q rs) /\ sstep sq (SRead i) (Some (sq', VRead (pb_record b) ps))
    /\ sv_pub sq' = Some (Publishing (pb_record b) (pb_event b) (pb_args b) (pb_container b) (map snd ps) []).

Record publishes (l : list sop) (rs : list sout) (s : server) (b : publishing) (q : nat) (ps : list (option nat * list Z)) : Prop := {
  pu_took : took rs q (pb_record b) ps;
  pu_last : last_read rs q;
  pu_read : of_read l rs q b ps;
  pu_paths : exists d, map snd ps = d ++ pb_paths b;
  pu_event : todo (sv_sys s) <> [] -> event (sv_sys s) = pb_record b;
  pu_todo : forall w, w ∈ todo (sv_sys s) -> exists x path, ws (sv_sys s) !! w = Some x /\ path ∈ map snd ps /\ w_path x `prefix_of` path;
  pu_text : stall (sv_sys s) <> None -> exists p takes, SCall p takes ∈ l /\ text_of p b = Some (pb_text b) }.

Record watching (l : list sop) (rs : list sout) (s : server) : Prop := {
  wa_inv : inv srt (sv_sys s);
  wa_ok : crashed (sv_sys s) = false;
  wa_open : open_pings (sv_sys s);
  wa_gots : forall w, gots w (log (sv_sys s)) = wrotes w rs;
  wa_came : forall w a, (exists i, came l rs i w a) <-> exists x, ws (sv_sys s) !! w = Some x /\ w_ask x = a;
  wa_idle : sv_pub s = None -> todo (sv_sys s) = [];
  wa_pub : forall b, sv_pub s = Some b -> exists q ps, publishes l rs s b q ps;
  wa_known : forall w k, k ∈ stream w (log (sv_sys s)) -> exists q ps, took rs q k ps;
  wa_stream : forall w x i a q k ps, came l rs i w a -> took rs q k ps -> i < q -> ws (sv_sys s) !! w = Some x -> subscribed x = true ->
    times k (stream w (log (sv_sys s))) + pend s k (ask_path a) = hits (ask_path a) (map snd ps) }.

Lemma came_snoc l rs o r i w a : length rs = length l ->
  came (l ++ [o]) (rs ++ [r]) i w a <-> came l rs i w a \/ i = length l /\ (exists d, o = SClient (Join a d)) /\ r = VJoined w.
Proof.
  intros L. unfold came. split.
  - intros (d & H1 & H2). apply lookup_snoc in H1 as [H1|[-> H1]].
    + left. exists d. split; [exact H1|]. apply lookup_snoc in H2 as [H2|[-> _]]; [exact H2|]. apply lookup_lt_Some in H1. lia.
    + right. split; [reflexivity|]. split; [exists d; by rewrite H1|]. apply lookup_snoc in H2 as [H2|[_ H2]]; [|by rewrite H2]. apply lookup_lt_Some in H2. lia.
  - intros [(d & H1 & H2)|(-> & (d & ->) & ->)]; exists d; rewrite !lookup_snoc; [split; left; assumption|].
    split; right; split; try reflexivity. symmetry. exact L.
Qed.
Lemma took_snoc rs r q k ps : took (rs ++ [r]) q k ps <-> took rs q k ps \/ q = length rs /\ r = VRead k ps.
Proof. unfold took. rewrite lookup_snoc. naive_solver. Qed.
Lemma came_lt l rs i w a : came l rs i w a -> i < length l.
Proof. intros (d & H & _). by apply lookup_lt_Some in H. Qed.
Lemma took_lt rs q k ps : took rs q k ps -> q < length rs.
Proof. intros H. by apply lookup_lt_Some in H. Qed.

Lemma of_read_snoc l rs o r q b ps : length rs = length l -> of_read l rs q b ps -> of_read (l ++ [o]) (rs ++ [r]) q b ps.
Proof.
  intros L (sq & i & sq' & Hl & R & S & P). pose proof (lookup_lt_Some _ _ _ Hl) as Lt. exists sq, i, sq'. split; [rewrite lookup_app_l by exact Lt; exact Hl|].
  rewrite !take_app_le by lia. split; [exact R|]. split; [exact S|exact P].
Qed.
Lemma last_snoc rs r q : last_read rs q -> (forall k ps, r <> VRead k ps) -> last_read (rs ++ [r]) q.
Proof. intros L N q' k ps H. apply took_snoc in H as [H|[_ H]]; [exact (L _ _ _ H)|]. destruct (N _ _ H). Qed.
Lemma publishes_snoc l rs s s' o r b b' q ps : length rs = length l -> publishes l rs s b q ps -> (forall k ps, r <> VRead k ps) ->
  pb_record b' = pb_record b -> pb_event b' = pb_event b -> pb_args b' = pb_args b -> pb_container b' = pb_container b -> (exists d, pb_paths b = d ++ pb_paths b') ->
  (todo (sv_sys s') <> [] -> event (sv_sys s') = pb_record b) ->
  (forall w, w ∈ todo (sv_sys s') -> exists x path, ws (sv_sys s') !! w = Some x /\ path ∈ map snd ps /\ w_path x `prefix_of` path) ->
  (stall (sv_sys s') <> None -> exists p takes, SCall p takes ∈ l ++ [o] /\ text_of p b' = Some (pb_text b')) ->
  publishes (l ++ [o]) (rs ++ [r]) s' b' q ps.
Proof.
  intros L [T La Rd [d Pa] Ev To Te] N E1 E2 E3 E4 [d' E5] Ev' To' Te'. split.
  - apply took_snoc. left. by rewrite E1.
  - by apply last_snoc.
  - unfold of_read. rewrite E1, E2, E3, E4. exact (of_read_snoc _ _ _ _ _ _ _ L Rd).
  - exists (d ++ d'). rewrite <- app_assoc, <- E5. exact Pa.
  - by rewrite E1.
  - exact To'.
  - exact Te'.
Qed.

Lemma times_app k a b : times k (a ++ b) = times k a + times k b.
Proof. unfold times. by rewrite filter_app, app_length. Qed.
Lemma times_not k a : k ∉ a -> times k a = 0.
Proof. intros H. pose proof (elem_times k a). destruct (times k a); [done|]. destruct H. apply H0. lia. Qed.

Lemma step_act s o s' r : stall_ok (sv_sys s) -> crashed (sv_sys s) = false -> moves s o s' r ->
  sv_sys s' = sv_sys s \/ exists a, wstep srt (sv_sys s) a (sv_sys s').
Proof.
  intros So Cr M. assert (D : forall a, (forall e p, a <> WatchModel.Event e p) -> sv_sys s' = do_act srt (sv_sys s) a -> wstep srt (sv_sys s) a (sv_sys s')).
  { intros a N ->. pose proof (ws_do srt (sv_sys s) a N) as H. by rewrite Cr in H. }
  destruct M as [E _ _ _|i k ps _ _ E _|b path rest _ _ _ _ _ W _|p takes b w rest x _ _ _ _ _ E _ _|b t w rest _ _ _ _ E _ _ _|a _ N1 N2 N3 E _ _ _].
  - by left.
  - by left.
  - right. by eexists.
  - right. exists (Call takes). apply D; [discriminate|exact E].
  - right. exists Take. apply D; [discriminate|exact E].
  - right. exists a. by apply D.
Qed.

Lemma watching_start : watching [] [] s0.
Proof.
  split; rewrite ?Y0.
  - apply inv_start.
  - done.
  - intros w x H. done.
  - done.
  - intros w a. split; [intros (i & d & H & _); done|intros (x & H & _); done].
  - done.
  - intros b H. rewrite P0 in H. done.
  - intros w k H. by apply elem_of_nil in H.
  - intros w x i a q k ps (d & H & _). done.
Qed.

(** A step that is not a read: what it does not change. *)
Lemma rest_known l rs s r s' : watching l rs s -> (forall w, stream w (log (sv_sys s')) = stream w (log (sv_sys s))) ->
  forall w k, k ∈ stream w (log (sv_sys s')) -> exists q ps, took (rs ++ [r]) q k ps.
Proof. intros W E w k Hk. rewrite E in Hk. destruct (wa_known _ _ _ W w k Hk) as (q & ps & H). exists q, ps. apply took_snoc. by left. Qed.
Lemma rest_stream l rs s o r s' : length rs = length l -> watching l rs s -> moves s o s' r -> (forall k ps, r <> VRead k ps) ->
  (forall w, stream w (log (sv_sys s')) = stream w (log (sv_sys s))) -> (forall k a, pend s' k a = pend s k a) ->
  forall w x i a q k ps, came (l ++ [o]) (rs ++ [r]) i w a -> took (rs ++ [r]) q k ps -> i < q -> ws (sv_sys s') !! w = Some x -> subscribed x = true ->
    times k (stream w (log (sv_sys s'))) + pend s' k (ask_path a) = hits (ask_path a) (map snd ps).
Proof.
  intros L W M N E1 E2 w x i a q k ps C T Lt Hx Su. rewrite E1, E2. apply took_snoc in T as [T|[_ T]]; [|destruct (N _ _ T)]. pose proof (took_lt _ _ _ _ T) as Lq.
  apply came_snoc in C as [C|(-> & _)]; [|lia|exact L].
  destruct (proj1 (wa_came _ _ _ W w a) (ex_intro _ i C)) as (x0 & Hx0 & Ha).
  assert (Su0 : subscribed x0 = true).
  { destruct (step_act _ _ _ _ (i_stall _ _ (wa_inv _ _ _ W)) (wa_ok _ _ _ W) M) as [Es|(ac & St)].
    - rewrite Es, Hx0 in Hx. by injection Hx as ->.
    - destruct (step_evolves _ _ _ _ _ _ (i_stall _ _ (wa_inv _ _ _ W)) St Hx0) as (x1 & Hx1 & Ev). rewrite Hx in Hx1. injection Hx1 as <-. exact (evolves_subscribed _ _ _ _ _ _ Ev Su). }
  exact (wa_stream _ _ _ W w x0 i a q k ps C T Lt Hx0 Su0).
Qed.
Lemma step_asks l rs s o r s' w x : watching l rs s -> moves s o s' r -> ws (sv_sys s) !! w = Some x -> exists x', ws (sv_sys s') !! w = Some x' /\ w_ask x' = w_ask x.
Proof.
  intros W M Hx. destruct (step_act _ _ _ _ (i_stall _ _ (wa_inv _ _ _ W)) (wa_ok _ _ _ W) M) as [->|(ac & St)]; [by exists x|].
  destruct (step_evolves _ _ _ _ _ _ (i_stall _ _ (wa_inv _ _ _ W)) St Hx) as (x1 & Hx1 & Ev). exists x1. split; [exact Hx1|]. exact (evolves_ask _ _ _ _ _ _ Ev).
Qed.
Lemma rest_came l rs s o r s' : length rs = length l -> watching l rs s -> moves s o s' r -> (forall w, r <> VJoined w) -> length (ws (sv_sys s')) <= length (ws (sv_sys s)) ->
  forall w a, (exists i, came (l ++ [o]) (rs ++ [r]) i w a) <-> exists x, ws (sv_sys s') !! w = Some x /\ w_ask x = a.
Proof.
  intros L W M N Le w a.
  assert (X : (exists i, came (l ++ [o]) (rs ++ [r]) i w a) <-> exists i, came l rs i w a).
  { split; intros (i & H); [|exists i; apply came_snoc; [exact L|by left]]. apply came_snoc in H as [H|(_ & _ & H)]; [by exists i|destruct (N _ H)|exact L]. }
  rewrite X, (wa_came _ _ _ W). split.
  - intros (x & Hx & <-). destruct (step_asks _ _ _ _ _ _ _ _ W M Hx) as (x' & Hx' & E). exists x'. by rewrite E.
  - intros (x' & Hx' & <-). pose proof (lookup_lt_Some _ _ _ Hx') as Lt. destruct (lookup_lt_is_Some_2 (ws (sv_sys s)) w) as [x Hx]; [lia|].
    destruct (step_asks _ _ _ _ _ _ _ _ W M Hx) as (x1 & Hx1 & E). rewrite Hx' in Hx1. injection Hx1 as <-. by exists x.
Qed.

Lemma not_busy l rs s : watching l rs s -> busy s = false -> todo (sv_sys s) = [] /\ forall k a, pend s k a = 0.
Proof.
  intros W B. unfold busy in B. unfold pend. destruct (sv_pub s) as [b|] eqn:Eb; [|split; [exact (wa_idle _ _ _ W Eb)|done]].
  apply orb_false_iff in B as [B1 B2]. apply negb_false_iff in B1, B2. apply idle_todo in B1. apply bool_decide_eq_true in B2. split; [exact B1|].
  intros k a. rewrite B2. by destruct (decide _).
Qed.

Lemma watching_read l rs s i k ps s' : run s0 l s rs -> watching l rs s -> sstep s (SRead i) (Some (s', VRead k ps)) ->
  watching (l ++ [SRead i]) (rs ++ [VRead k ps]) s'.
Proof.
  intros R W S. pose proof (srun_length _ _ _ _ _ _ _ _ R) as L.
  assert (M : moves s (SRead i) s' (VRead k ps)) by (apply step_moves; [exact (i_stall _ _ (wa_inv _ _ _ W))|exact (wa_idle _ _ _ W)|exact S]).
  destruct (read_step_cases _ _ _ _ _ _ _ _ S) as [Sy H]. destruct H as [(_ & H & _)|(B & k' & bs & Ring & H)]; [discriminate|].
  destruct (not_busy _ _ _ W B) as [To Pe].
  assert (k' = k) as -> by (destruct H as [(_ & H & _)|(? & ? & ? & ? & _ & _ & _ & _ & H & _)]; by injection H as ->).
  assert (New : forall q ps', ~ took rs q k ps').
  { intros q ps' T. destruct (f_ring_spec tbl (sv_world s0) F0 _ _ _ (srun_framed _ _ _ _ _ _ _ _ R)) as [[_ Rs] _].
    destruct (proj1 (Rs k bs) (elem_of_list_lookup_2 _ _ _ Ring)) as [_ Nt]. apply (Nt q). exists ps', None. apply outcome_read. done. }
  assert (Pub : match sv_pub s' with Some b => exists t args c, b = Publishing k t args c (map snd ps) [] | None => ps = [] end).
  { destruct H as [(_ & H & -> & _)|(t & rw & h & ps1 & _ & _ & _ & O & H & _ & ->)]; injection H as ->; [reflexivity|].
    unfold on_event, event_of in O. cbn [e_container e_ns e_nr] in O. destruct (w_cache (sv_world s) !! DecodeModel.t_pid_ns t) as [c|]; [by eexists _, _, _|]. by injection O as _ <-. }
  assert (St0 : stall (sv_sys s) = None).
  { destruct (stall (sv_sys s)) as [t|] eqn:E; [|done]. destruct (i_stall _ _ (wa_inv _ _ _ W) t E) as (? & ? & ? & E' & _). rewrite To in E'. done. }
  split.
  - rewrite Sy. apply W.
  - rewrite Sy. apply W.
  - rewrite Sy. apply W.
  - intros w. rewrite Sy, wrotes_snoc, app_nil_r. apply W.
  - apply (rest_came _ _ s); [exact L|exact W|exact M|discriminate|rewrite Sy; lia].
  - rewrite Sy. intros _. exact To.
  - intros b Eb. rewrite Eb in Pub. destruct Pub as (t & args & c & Pub). exists (length l), ps. subst b. split; cbn [pb_record pb_event pb_args pb_container pb_paths pb_text].
    + apply took_snoc. right. by rewrite L.
    + intros q k' ps' T. apply took_lt in T. rewrite app_length, L in T. cbn [length] in T. lia.
    + exists s, i, s'. rewrite take_app, (take_app_alt rs _ (length l)) by (symmetry; exact L). split; [apply list_lookup_middle; reflexivity|]. split; [exact R|]. split; [exact S|]. cbn. exact Eb.
    + by exists [].
    + rewrite Sy, To. done.
    + rewrite Sy, To. intros w Hw. by apply elem_of_nil in Hw.
    + rewrite Sy, St0. done.
  - apply (rest_known l rs s); [exact W|]. intros w. by rewrite Sy.
  - intros w x i' a q k' ps' C T Lt Hx Su. rewrite Sy in *. apply took_snoc in T as [T|[-> T]].
    + pose proof (took_lt _ _ _ _ T) as Lq. apply came_snoc in C as [C|(-> & _)]; [|lia|exact L].
      assert (k' <> k) as Nk by (intros ->; exact (New _ _ T)).
      rewrite <- (wa_stream _ _ _ W w x i' a q k' ps' C T Lt Hx Su), Pe. f_equal. unfold pend.
      destruct (sv_pub s') as [b|]; [|done]. destruct Pub as (t & args & c & ->). cbn [pb_record]. by rewrite decide_False by done.
    + injection T as <- <-. rewrite times_not.
      2:{ intros Hk. destruct (wa_known _ _ _ W w k Hk) as (q & ps' & T). exact (New _ _ T). }
      unfold pend. destruct (sv_pub s') as [b|]; [|by rewrite Pub]. destruct Pub as (t & args & c & ->). cbn [pb_record pb_paths]. by rewrite decide_True by done.
Qed.

Lemma watching_publish l rs s b path rest s' : run s0 l s rs -> watching l rs s -> moves s SPublish s' VNone -> sv_pub s = Some b -> pb_paths b = path :: rest -> idle (sv_sys s) = true ->
    wstep srt (sv_sys s) (WatchModel.Event (pb_record b) path) (sv_sys s') -> sv_pub s' = Some (advance b rest) -> watching (l ++ [SPublish]) (rs ++ [VNone]) s'.
Proof.
  intros R W M Eb Ep Hi St Eb'. pose proof (srun_length _ _ _ _ _ _ _ _ R) as L. pose proof (wa_inv _ _ _ W) as I.
  pose proof (inv_step _ _ _ _ Srt I St) as I'. pose proof (open_pings_step _ _ _ _ (i_stall _ _ I) St (wa_open _ _ _ W)) as O'.
  inversion St as [? ? ? h cs Cr _ Pu E1 E2 E3|? ? Ne E1 E2 E3]; [|by destruct (Ne (pb_record b) path)]. subst.
  destruct (publish_watchers _ _ _ _ _ Srt (i_core _ _ I) Pu) as [_ Cs].
  destruct (wa_pub _ _ _ W b Eb) as (q & ps & P). pose proof (pu_paths _ _ _ _ _ _ P) as [d Pa].
  assert (Ws : ws (sv_sys s') = ws (sv_sys s)) by (by rewrite <- E3).
  assert (Lo : log (sv_sys s') = note (sv_sys s) [Published (pb_record b) path]) by (by rewrite <- E3).
  split.
  - exact I'.
  - by rewrite <- E3.
  - rewrite <- E3. exact O'.
  - intros w. rewrite Lo, wrotes_snoc, app_nil_r. unfold note. cbn [map]. rewrite gots_snoc, app_nil_r. apply W.
  - apply (rest_came _ _ s); [exact L|exact W|exact M|discriminate|by rewrite Ws].
  - rewrite Eb'. done.
  - intros b' E'. rewrite Eb' in E'. injection E' as <-. exists q, ps. apply (publishes_snoc _ _ s _ _ _ b); [exact L|exact P|discriminate|reflexivity..| | | |].
    + exists [path]. rewrite Ep. done.
    + intros _. by rewrite <- E3.
    + intros w. rewrite <- E3. cbn [todo ws]. intros Hw. apply Cs in Hw as (x & Hx & _ & Hp). exists x, path. split; [exact Hx|]. split; [|exact Hp].
      rewrite Pa, Ep. set_solver.
    + rewrite <- E3. cbn [stall]. done.
  - intros w k. rewrite Lo. unfold note. cbn [map]. rewrite stream_snoc, elem_of_app. intros [Hk|Hk].
    + destruct (wa_known _ _ _ W w k Hk) as (q' & ps' & H). exists q', ps'. apply took_snoc. by left.
    + cbn [in_topic] in Hk. destruct (topic _ _ _) as [t|]; [|by apply elem_of_nil in Hk]. destruct (decide _); [|by apply elem_of_nil in Hk].
      apply elem_of_list_singleton in Hk as ->. exists q, ps. apply took_snoc. left. exact (pu_took _ _ _ _ _ _ P).
  - intros w x i a q' k ps' C T Lt Hx Su. rewrite Ws in Hx. apply took_snoc in T as [T|[_ T]]; [|discriminate]. pose proof (took_lt _ _ _ _ T) as Lq.
    apply came_snoc in C as [C|(-> & _)]; [|lia|exact L].
    destruct (proj1 (wa_came _ _ _ W w a) (ex_intro _ i C)) as (x0 & Hx0 & Ha). rewrite Hx in Hx0. injection Hx0 as <-.
    rewrite <- (wa_stream _ _ _ W w x i a q' k ps' C T Lt Hx Su), Lo. unfold note. cbn [map]. rewrite stream_snoc, times_app.
    rewrite (c_topic _ _ (i_core _ _ I) w), Hx, Su. cbn [in_topic]. unfold pend. rewrite Eb, Eb', Ep. cbn [pb_record advance pb_paths].
    assert (w_path x = ask_path a) as -> by (unfold w_path; by rewrite Ha).
    destruct (decide (pb_record b = k)) as [<-|Nk].
    + assert (hits (ask_path a) (path :: rest) = times (pb_record b) (if decide (ask_path a `prefix_of` path) then [pb_record b] else []) + hits (ask_path a) rest) as ->; [|lia].
      unfold hits, times. rewrite filter_cons. destruct (decide (ask_path a `prefix_of` path)); [|done]. rewrite filter_cons_True by done. done.
    + rewrite (times_not k (if decide _ then _ else _)); [lia|]. destruct (decide _); [|apply not_elem_of_nil]. by rewrite elem_of_list_singleton.
Qed.

(** The callbacks that have run. *)
Lemma called w b ws0 : forall l t, (forall k, gots w (l ++ [(t, Called ws0 k)]) = gots w l) /\ (forall k, stream w (l ++ [(t, Called ws0 k)]) = stream w l)
  /\ (forall k, gots w (l ++ [(t, Called ws0 k); (t, Got ws0 k)]) = gots w l ++ wrote_to w (VWrote ws0 k b)) /\ (forall k, stream w (l ++ [(t, Called ws0 k); (t, Got ws0 k)]) = stream w l)
  /\ (forall k, gots w (l ++ [(t, Got ws0 k)]) = gots w l ++ wrote_to w (VWrote ws0 k b)) /\ (forall k, stream w (l ++ [(t, Got ws0 k)]) = stream w l).
Proof.
  intros l t. assert (forall k, l ++ [(t, Called ws0 k); (t, Got ws0 k)] = (l ++ [(t, Called ws0 k)]) ++ [(t, Got ws0 k)]) as E by (intros k; by rewrite <- app_assoc).
  repeat split; intros k; rewrite ?E, ?gots_snoc, ?stream_snoc; cbn [got_of in_topic]; rewrite ?app_nil_r; try done; destruct (topic w None _); by rewrite ?app_nil_r.
Qed.

Lemma todo_rest l rs s b q ps : publishes l rs s b q ps -> forall w rest, todo (sv_sys s) = w :: rest -> event (sv_sys s) = pb_record b.
Proof. intros P w rest E. apply (pu_event _ _ _ _ _ _ P). by rewrite E. Qed.

Lemma watching_call l rs s p takes b w rest x s' r : run s0 l s rs -> watching l rs s -> moves s (SCall p takes) s' r ->
  sv_pub s = Some b -> stall (sv_sys s) = None -> todo (sv_sys s) = w :: rest ->
  ws (sv_sys s) !! w = Some x -> sv_sys s' = do_act srt (sv_sys s) (Call takes) -> crashed (sv_sys s') = false ->
  (w_broken x = true /\ sv_pub s' = Some b /\ r = VNone \/
   w_broken x = false /\ exists text, text_of p b = Some text /\ sv_pub s' = Some (retext b text) /\
     r = (if w_open x && takes then VWrote w (pb_record b) text else VNone)) -> watching (l ++ [SCall p takes]) (rs ++ [r]) s'.
Proof.
  intros R W M Eb Es Et Ew E Cr C. pose proof (srun_length _ _ _ _ _ _ _ _ R) as L. pose proof (wa_inv _ _ _ W) as I.
  assert (St : wstep srt (sv_sys s) (Call takes) (sv_sys s')).
  { rewrite E. pose proof (ws_do srt (sv_sys s) (Call takes) ltac:(discriminate)) as H. by rewrite (wa_ok _ _ _ W) in H. }
  destruct (wa_pub _ _ _ W b Eb) as (q & ps & P). pose proof (todo_rest _ _ _ _ _ _ P _ _ Et) as Ev.
  assert (Nr : forall k ps, r <> VRead k ps) by (intros k' ps'; destruct C as [(_ & _ & ->)|(_ & text & _ & _ & ->)]; [discriminate|destruct (_ && _)%bool; discriminate]).
  assert (Nj : forall v, r <> VJoined v) by (intros v; destruct C as [(_ & _ & ->)|(_ & text & _ & _ & ->)]; [discriminate|destruct (_ && _)%bool; discriminate]).
  (* what the act does *)
  assert (F : ws (sv_sys s') = ws (sv_sys s) /\ event (sv_sys s') = event (sv_sys s) /\ (exists d, todo (sv_sys s) = d ++ todo (sv_sys s'))
     /\ (stall (sv_sys s') <> None -> w_broken x = false)
     /\ (forall v, stream v (log (sv_sys s')) = stream v (log (sv_sys s)))
     /\ forall v, gots v (log (sv_sys s')) = gots v (log (sv_sys s)) ++ wrote_to v r).
  { rewrite E. cbn [do_act]. rewrite Es, Et, Ew. destruct (w_broken x) eqn:Ex.
    - destruct C as [(_ & _ & ->)|(? & _)]; [|done]. rewrite andb_false_r. cbn [ws event todo stall log]. repeat (split; [done|]). split; [by exists [w]|]. split; [done|].
      unfold note. cbn [map]. split; intros v; destruct (called v [] w (log (sv_sys s)) (clock (sv_sys s))) as (C1 & C2 & _); [apply C2|rewrite C1; by rewrite app_nil_r].
    - destruct C as [(? & _)|(_ & text & _ & _ & ->)]; [done|]. rewrite Ev. destruct (w_open x); cbn [negb andb]; [destruct takes|]; cbn [ws event todo stall log]; unfold note; cbn [map].
      + split; [done|]. split; [done|]. split; [by exists [w]|]. split; [done|].
        split; intros v; destruct (called v text w (log (sv_sys s)) (clock (sv_sys s))) as (_ & _ & C3 & C4 & _); [apply C4|apply C3].
      + split; [done|]. split; [done|]. split; [by exists []|]. split; [done|].
        split; intros v; destruct (called v text w (log (sv_sys s)) (clock (sv_sys s))) as (C1 & C2 & _); [apply C2|rewrite C1; by rewrite app_nil_r].
      + split; [done|]. split; [done|]. split; [by exists [w]|]. split; [done|].
        split; intros v; destruct (called v text w (log (sv_sys s)) (clock (sv_sys s))) as (C1 & C2 & _); [apply C2|rewrite C1; by rewrite app_nil_r]. }
  destruct F as (Fw & Fe & [d Ft] & Fs & Fst & Fg).
  assert (Pe : forall k a, pend s' k a = pend s k a).
  { intros k a. unfold pend. rewrite Eb. destruct C as [(_ & -> & _)|(_ & text & _ & -> & _)]; done. }
  split.
  - exact (inv_step _ _ _ _ Srt I St).
  - exact Cr.
  - exact (open_pings_step _ _ _ _ (i_stall _ _ I) St (wa_open _ _ _ W)).
  - intros v. rewrite Fg, wrotes_snoc. f_equal. apply W.
  - apply (rest_came _ _ s); [exact L|exact W|exact M|exact Nj|by rewrite Fw].
  - destruct C as [(_ & -> & _)|(_ & text & _ & -> & _)]; done.
  - intros b' Eb'. exists q, ps.
    assert (T' : forall v, v ∈ todo (sv_sys s') -> exists x path, ws (sv_sys s') !! v = Some x /\ path ∈ map snd ps /\ w_path x `prefix_of` path).
    { intros v Hv. rewrite Fw. apply (pu_todo _ _ _ _ _ _ P). rewrite Ft. apply elem_of_app. by right. }
    destruct C as [(Bx & C & _)|(Bx & text & Te & C & _)]; rewrite C in Eb'; injection Eb' as <-.
    + apply (publishes_snoc _ _ s _ _ _ b); [exact L|exact P|exact Nr|reflexivity..|by exists []| |exact T'|].
      * intros _. by rewrite Fe.
      * intros H. apply Fs in H. congruence.
    + apply (publishes_snoc _ _ s _ _ _ b); [exact L|exact P|exact Nr|reflexivity..|by exists []| |exact T'|].
      * intros _. by rewrite Fe.
      * intros _. exists p, takes. split; [apply elem_of_app; right; by apply elem_of_list_singleton|exact Te].
  - by apply (rest_known l rs s).
  - by apply (rest_stream l rs s).
Qed.

Lemma watching_take l rs s b t w rest s' : run s0 l s rs -> watching l rs s -> moves s (SClient Take) s' (VWrote w (pb_record b) (pb_text b)) ->
  sv_pub s = Some b -> stall (sv_sys s) = Some t -> todo (sv_sys s) = w :: rest ->
  sv_sys s' = do_act srt (sv_sys s) Take -> crashed (sv_sys s') = false -> sv_pub s' = sv_pub s -> watching (l ++ [SClient Take]) (rs ++ [VWrote w (pb_record b) (pb_text b)]) s'.
Proof.
  intros R W M Eb Es Et E Cr Pb. pose proof (srun_length _ _ _ _ _ _ _ _ R) as L. pose proof (wa_inv _ _ _ W) as I.
  assert (St : wstep srt (sv_sys s) Take (sv_sys s')).
  { rewrite E. pose proof (ws_do srt (sv_sys s) Take ltac:(discriminate)) as H. by rewrite (wa_ok _ _ _ W) in H. }
  destruct (wa_pub _ _ _ W b Eb) as (q & ps & P). pose proof (todo_rest _ _ _ _ _ _ P _ _ Et) as Ev.
  assert (F : sv_sys s' = Sys (clock (sv_sys s)) (ws (sv_sys s)) (WatchModel.ps (sv_sys s)) rest (event (sv_sys s)) None (crashed (sv_sys s)) (note (sv_sys s) [Got w (event (sv_sys s))])).
  { rewrite E. cbn [do_act]. by rewrite Es, Et. }
  rewrite Ev in F.
  assert (Pe : forall k a, pend s' k a = pend s k a) by (intros k a; unfold pend; by rewrite Pb).
  assert (Fst : forall v, stream v (log (sv_sys s')) = stream v (log (sv_sys s))).
  { intros v. rewrite F. cbn [log]. unfold note. cbn [map]. apply (called v [] w). }
  split.
  - exact (inv_step _ _ _ _ Srt I St).
  - exact Cr.
  - exact (open_pings_step _ _ _ _ (i_stall _ _ I) St (wa_open _ _ _ W)).
  - intros v. rewrite F, wrotes_snoc. cbn [log]. unfold note. cbn [map].
    destruct (called v (pb_text b) w (log (sv_sys s)) (clock (sv_sys s))) as (_ & _ & _ & _ & -> & _). f_equal. apply W.
  - apply (rest_came _ _ s); [exact L|exact W|exact M|discriminate|by rewrite F].
  - rewrite Pb, Eb. done.
  - intros b' Eb'. exists q, ps. rewrite Pb, Eb in Eb'. injection Eb' as <-.
    apply (publishes_snoc _ _ s _ _ _ b); [exact L|exact P|discriminate|reflexivity..|by exists []| | |].
    + intros _. by rewrite F.
    + intros v. rewrite F. cbn [todo ws]. intros Hv. apply (pu_todo _ _ _ _ _ _ P). rewrite Et. by right.
    + rewrite F. done.
  - by apply (rest_known l rs s).
  - by apply (rest_stream l rs s).
Qed.

Lemma watching_client l rs s a s' r : run s0 l s rs -> watching l rs s -> moves s (SClient a) s' r ->
  (forall e p, a <> WatchModel.Event e p) -> (forall t, a <> Call t) -> a <> Take ->
  sv_sys s' = do_act srt (sv_sys s) a -> crashed (sv_sys s') = false -> sv_pub s' = sv_pub s ->
  r = match a with Join _ _ => if length (ws (sv_sys s)) <? length (ws (sv_sys s')) then VJoined (length (ws (sv_sys s))) else VNone | _ => VNone end ->
  watching (l ++ [SClient a]) (rs ++ [r]) s'.
Proof.
  intros R W M N1 N2 N3 E Cr Pb Er. pose proof (srun_length _ _ _ _ _ _ _ _ R) as L. pose proof (wa_inv _ _ _ W) as I.
  assert (St : wstep srt (sv_sys s) a (sv_sys s')).
  { rewrite E. pose proof (ws_do srt (sv_sys s) a N1) as H. by rewrite (wa_ok _ _ _ W) in H. }
  pose proof (silent_act srt (sv_sys s) a (i_stall _ _ I) N1 N2 N3) as [Ie [d It] Is Ig Im]. rewrite <- E in Ie, It, Is, Ig, Im.
  assert (Nr : forall k ps, r <> VRead k ps) by (intros k' ps'; subst r; destruct a; try discriminate; destruct (_ <? _); discriminate).
  assert (Pe : forall k a, pend s' k a = pend s k a) by (intros k a'; unfold pend; by rewrite Pb).
  split.
  - exact (inv_step _ _ _ _ Srt I St).
  - exact Cr.
  - exact (open_pings_step _ _ _ _ (i_stall _ _ I) St (wa_open _ _ _ W)).
  - intros v. rewrite Ig, wrotes_snoc. assert (wrote_to v r = []) as -> by (subst r; destruct a; try done; by destruct (_ <? _)). rewrite app_nil_r. apply W.
  - destruct (decide (length (ws (sv_sys s')) <= length (ws (sv_sys s)))) as [Le|Gt].
    { apply (rest_came _ _ s); [exact L|exact W|exact M| |exact Le].
      intros v. subst r. destruct a; try discriminate. assert ((length (ws (sv_sys s)) <? length (ws (sv_sys s'))) = false) as -> by (by apply Nat.ltb_ge). discriminate. }
    destruct (lookup_lt_is_Some_2 (ws (sv_sys s')) (length (ws (sv_sys s)))) as [xn Hn]; [lia|].
    destruct (step_new _ _ _ _ _ _ St (lookup_ge_None_2 _ _ (Nat.le_refl _)) Hn) as (ak & dr & -> & -> & _ & _ & _).
    assert (r = VJoined (length (ws (sv_sys s)))) as -> by (rewrite Er; assert ((length (ws (sv_sys s)) <? length (ws (sv_sys s'))) = true) as -> by (apply Nat.ltb_lt; lia); done).
    intros w k. split.
    + intros (i & H). apply came_snoc in H as [H|(_ & (dr' & H1) & H2)]; [..|exact L].
      * destruct (proj1 (wa_came _ _ _ W w k) (ex_intro _ i H)) as (x & Hx & <-). destruct (step_asks _ _ _ _ _ _ _ _ W M Hx) as (x' & Hx' & Ha). exists x'. by rewrite Ha.
      * injection H1 as <- _. injection H2 as <-. eexists. split; [exact Hn|done].
    + intros (x' & Hx' & <-). destruct (ws (sv_sys s) !! w) as [x|] eqn:Hx.
      * destruct (step_asks _ _ _ _ _ _ _ _ W M Hx) as (x1 & Hx1 & Ha). rewrite Hx' in Hx1. injection Hx1 as <-.
        destruct (proj2 (wa_came _ _ _ W w (w_ask x'))) as [i H]; [exists x; by rewrite Ha|]. exists i. apply came_snoc; [exact L|by left].
      * destruct (step_new _ _ _ _ _ _ St Hx Hx') as (k1 & d1 & Hj & -> & -> & _ & _). injection Hj as <- <-.
        exists (length l). apply came_snoc; [exact L|]. right. split; [done|]. split; [by exists dr|done].
  - intros Hp. rewrite Pb in Hp. rewrite (wa_idle _ _ _ W Hp) in It. by destruct d, (todo (sv_sys s')).
  - intros b Eb. rewrite Pb in Eb. destruct (wa_pub _ _ _ W b Eb) as (q & ps & P). exists q, ps.
    apply (publishes_snoc _ _ s _ _ _ b); [exact L|exact P|exact Nr|reflexivity..|by exists []| | |].
    + intros H. rewrite Ie. apply (pu_event _ _ _ _ _ _ P). rewrite It. by destruct d.
    + intros v Hv. destruct (pu_todo _ _ _ _ _ _ P v) as (x & path & Hx & Hp & Hpre); [rewrite It; apply elem_of_app; by right|].
      destruct (step_asks _ _ _ _ _ _ _ _ W M Hx) as (x' & Hx' & Ha). exists x', path. split; [exact Hx'|]. split; [exact Hp|]. unfold w_path in *. by rewrite Ha.
    + intros H. destruct Is as [Is|Is]; [by destruct H|]. rewrite Is in H. destruct (pu_text _ _ _ _ _ _ P H) as (p & tk & H1 & H2). exists p, tk. split; [|exact H2].
      apply elem_of_app. by left.
  - by apply (rest_known l rs s).
  - by apply (rest_stream l rs s).
Qed.

Lemma watching_still l rs s o s' r : run s0 l s rs -> watching l rs s -> moves s o s' r -> sv_sys s' = sv_sys s -> sv_pub s' = sv_pub s -> quiet r -> (forall k ps, r <> VRead k ps) ->
  watching (l ++ [o]) (rs ++ [r]) s'.
Proof.
  intros R W M Sy Pb Q Nr. pose proof (srun_length _ _ _ _ _ _ _ _ R) as L.
  assert (Pe : forall k a, pend s' k a = pend s k a) by (intros k a; unfold pend; by rewrite Pb).
  split.
  - rewrite Sy. apply W.
  - rewrite Sy. apply W.
  - rewrite Sy. apply W.
  - intros w. rewrite Sy, wrotes_snoc. assert (wrote_to w r = []) as -> by (by destruct r). rewrite app_nil_r. apply W.
  - apply (rest_came _ _ s); [exact L|exact W|exact M|by intros v ->|by rewrite Sy].
  - rewrite Sy, Pb. apply W.
  - intros b Eb. rewrite Pb in Eb. destruct (wa_pub _ _ _ W b Eb) as (q & ps & P). exists q, ps.
    apply (publishes_snoc _ _ s _ _ _ b); [exact L|exact P|exact Nr|reflexivity..|by exists []| | |]; rewrite Sy.
    + apply P.
    + apply P.
    + intros H. destruct (pu_text _ _ _ _ _ _ P H) as (p & tk & H1 & H2). exists p, tk. split; [|exact H2]. apply elem_of_app. by left.
  - apply (rest_known l rs s); [exact W|by rewrite Sy].
  - apply (rest_stream l rs s); [exact L|exact W|exact M|exact Nr|by rewrite Sy|exact Pe].
Qed.

Lemma watching_step l rs s o s' r : run s0 l s rs -> watching l rs s -> sstep s o (Some (s', r)) -> moves s o s' r /\ watching (l ++ [o]) (rs ++ [r]) s'.
Proof.
  intros R W S. assert (M : moves s o s' r) by (apply step_moves; [exact (i_stall _ _ (wa_inv _ _ _ W))|exact (wa_idle _ _ _ W)|exact S]). split; [exact M|].
  pose proof M as M'. destruct M' as [E1 E2 E3 E4|i k ps -> -> E _|b path rest -> -> E1 E2 E3 E4 E5|p takes b w rest x -> E1 E2 E3 E4 E5 E6 E7|b t w rest -> E1 E2 E3 E4 E5 E6 ->|a -> N1 N2 N3 E1 E2 E3 E4].
  - exact (watching_still _ _ _ _ _ _ R W M E1 E2 E3 E4).
  - exact (watching_read _ _ _ _ _ _ _ R W S).
  - exact (watching_publish _ _ _ _ _ _ _ R W M E1 E2 E3 E4 E5).
  - exact (watching_call _ _ _ _ _ _ _ _ _ _ _ R W M E1 E2 E3 E4 E5 E6 E7).
  - exact (watching_take _ _ _ _ _ _ _ _ R W M E1 E2 E3 E4 E5 E6).
  - exact (watching_client _ _ _ _ _ _ R W M N1 N2 N3 E1 E2 E3 E4).
Qed.
Lemma watching_run l s rs : run s0 l s rs -> watching l rs s.
Proof.
  revert s rs. induction l as [|o l IH] using rev_ind; intros s rs R.
  - apply srun_nil in R as [-> ->]. exact watching_start.
  - apply srun_snoc in R as (s1 & rs1 & r & R & S & ->). exact (proj2 (watching_step _ _ _ _ _ _ R (IH _ _ R) S)).
Qed.

(** * What was written *)

Lemma wrote_facts l s rs q w k text : run s0 l s rs -> wrote rs q w k text ->
  exists a i q0 ps b p takes path, came l rs i w a /\ i < q /\ took rs q0 k ps /\ q0 < q /\ (forall q' k' ps', took rs q' k' ps' -> q' < q -> q' <= q0)
    /\ of_read l rs q0 b ps /\ pb_record b = k /\ path ∈ map snd ps /\ ask_path a `prefix_of` path /\ SCall p takes ∈ l /\ text_of p b = Some text.
Proof.
  intros R H. destruct (srun_out _ _ _ _ _ _ _ _ _ _ R H) as (o & sq & sq' & Ho & Rq & S & _).
  pose proof (watching_run _ _ _ Rq) as W. destruct (watching_step _ _ _ _ _ _ Rq W S) as [M _].
  pose proof (srun_length _ _ _ _ _ _ _ _ R) as L. pose proof (lookup_lt_Some _ _ _ Ho) as Lq.
  assert (X : exists b p takes rest, sv_pub sq = Some b /\ todo (sv_sys sq) = w :: rest /\ pb_record b = k /\ SCall p takes ∈ l /\ text_of p b = Some text).
  { destruct M as [_ _ Q _|? ? ? _ E _ _|? ? ? _ E _ _ _ _ _|p takes b v rest x Eo Eb Es Et Ew _ _ [(_ & _ & E)|(_ & text' & Te & _ & E)]|b t v rest Eo Eb Es Et _ _ _ E|a Eo _ _ _ _ _ _ E].
    - destruct Q.
    - discriminate.
    - discriminate.
    - discriminate.
    - destruct (_ && _)%bool; [|discriminate]. injection E as Ev Ek Ex. subst v text'. exists b, p, takes, rest. split; [exact Eb|]. split; [exact Et|]. split; [by symmetry|]. split; [|exact Te].
      rewrite <- Eo. exact (elem_of_list_lookup_2 _ _ _ Ho).
    - injection E as Ev Ek Ex. subst v. destruct (wa_pub _ _ _ W b Eb) as (q0 & ps & P). destruct (pu_text _ _ _ _ _ _ P) as (p & tk & H1 & H2); [by rewrite Es|].
      exists b, p, tk, rest. split; [exact Eb|]. split; [exact Et|]. split; [by symmetry|]. split; [|by rewrite Ex]. apply elem_of_take in H1 as (j & H1 & _). exact (elem_of_list_lookup_2 _ _ _ H1).
    - destruct a; try discriminate. destruct (_ <? _); discriminate. }
  destruct X as (b & p & takes & rest & Eb & Et & Ek & Hp & Te). destruct (wa_pub _ _ _ W b Eb) as (q0 & ps & P).
  destruct (pu_todo _ _ _ _ _ _ P w) as (x & path & Hx & Hpa & Hpre); [rewrite Et; by left|].
  destruct (proj2 (wa_came _ _ _ W w (w_ask x))) as (i & d & C1 & C2); [by exists x|].
  pose proof (pu_took _ _ _ _ _ _ P) as T. pose proof (took_lt _ _ _ _ T) as Lt. rewrite take_length in Lt.
  assert (i < q) as Li by (apply lookup_lt_Some in C1; rewrite take_length in C1; lia).
  exists (w_ask x), i, q0, ps, b, p, takes, path. rewrite lookup_take in C1 by exact Li. rewrite lookup_take in C2 by exact Li. split; [by exists d|]. split; [exact Li|].
  unfold took in T. rewrite lookup_take in T by lia. rewrite Ek in T. split; [exact T|]. split; [lia|]. split.
  { intros q' k' ps' T' Lt'. apply (pu_last _ _ _ _ _ _ P q' k' ps'). unfold took. by rewrite lookup_take by exact Lt'. }
  split; [|done]. destruct (pu_read _ _ _ _ _ _ P) as (sr & ir & sr' & Hl & Rr & Sr & Pr). exists sr, ir, sr'. rewrite !take_take, !Nat.min_l in Rr by lia. rewrite lookup_take in Hl by lia. done.
Qed.

(** A client that was there before the event was read and is there to the end. *)
Lemma written_count l s rs w i a q k ps : run s0 l s rs -> came l rs i w a -> took rs q k ps -> i < q -> busy s = false -> stays_open s w ->
  texts w k rs = hits (ask_path a) (map snd ps).
Proof.
  intros R C T Lt B (x & Hx & Ho & Hb). pose proof (watching_run _ _ _ R) as W. destruct (not_busy _ _ _ W B) as [To Pe].
  assert (Su : subscribed x = true) by (unfold subscribed; by rewrite (wa_open _ _ _ W w x Hx Ho)).
  rewrite <- (wa_stream _ _ _ W w x i a q k ps C T Lt Hx Su), Pe, Nat.add_0_r, texts_wrotes, <- (wa_gots _ _ _ W).
  pose proof (c_gots _ _ (i_core _ _ (wa_inv _ _ _ W)) w x Hx) as G. rewrite (proj2 (alive_spec x) (conj Ho Hb)) in G.
  rewrite G, To, nil_dec, app_nil_r. done.
Qed.
End watch.
