(** Proofs for C115. *)
From Coq Require Import ZArith String Ascii Bool Lia.
From stdpp Require Import base list numbers strings pretty gmap.
From Verif Require Import CodecModel CodecSpec JsonModel JsonSpec ClientModel ClientSpec ClientProofs ClientTop RouteSpec.

Local Open Scope string_scope.
Local Open Scope list_scope.

(** * Clean paths *)

Lemma split_no_slash s : Forall (fun x => ~ In slash x) (split s).
Proof.
  remember (length s) as n eqn:E. revert s E. induction n as [n IH] using lt_wf_ind. intros s ->.
  destruct (split_cases s) as [[N ->]|(a & r & -> & N & ->)]; constructor; [exact N|constructor|exact N|].
  apply (IH (length r)); [|reflexivity]. rewrite app_length. cbn [length]. lia.
Qed.
Lemma clean_good l : forall stack, Forall (fun x => ~ In slash x) l -> Forall good_name stack -> Forall good_name (clean_segs stack l).
Proof.
  induction l as [|s l IH]; intros stack F G; cbn [clean_segs]; [apply Forall_rev, G|]. inversion F as [|? ? N F']; subst.
  destruct (text_eqb_spec s []) as [E1|E1]; cbn [orb]; [exact (IH _ F' G)|].
  destruct (text_eqb_spec s (t ".")) as [E2|E2]; [exact (IH _ F' G)|].
  destruct (text_eqb_spec s (t "..")) as [E3|E3].
  - apply IH; [exact F'|]. destruct stack; [constructor|]. inversion G; assumption.
  - apply IH; [exact F'|]. constructor; [|exact G]. split_and!; assumption.
Qed.
Definition ending (sl : bool) : text := if sl then [slash] else [].
(** A clean path is its components. *)
Definition tidy (p : text) (g : list text) (sl : bool) : Prop :=
  Forall good_name g /\ ((g = [] /\ p = [slash]) \/ (g <> [] /\ p = show g ++ ending sl)).
Lemma clean_tidy p : exists g sl, tidy (clean_path p) g sl.
Proof.
  unfold clean_path. set (g := clean_segs [] (split (List.tl p))).
  assert (G : Forall good_name g) by (apply clean_good; [apply split_no_slash|constructor]).
  destruct g as [|x g'] eqn:E.
  - exists [], false. split; [constructor|]. left. split; [reflexivity|]. cbn [show]. destruct (text_eqb_spec [slash] [slash]); [|congruence]. rewrite andb_false_r. reflexivity.
  - exists (x :: g'). destruct (Ascii.eqb (List.last p slash) slash && negb (text_eqb (show (x :: g')) [slash])).
    + exists true. split; [exact G|]. right. split; [discriminate|reflexivity].
    + exists false. split; [exact G|]. right. split; [discriminate|]. cbn [ending]. rewrite app_nil_r. reflexivity.
Qed.
Lemma split_slash s : split (s ++ [slash]) = split s ++ [[]].
Proof. change [slash] with (slash :: []). rewrite split_app_sep. reflexivity. Qed.
Lemma tl_app (a b : text) : a <> [] -> List.tl (a ++ b) = List.tl a ++ b.
Proof. destruct a; [congruence|reflexivity]. Qed.
Lemma show_not_nil g : show g <> [].
Proof. destruct g; discriminate. Qed.
Lemma segments_tidy g sl : Forall good_name g -> g <> [] -> segments (show g ++ ending sl) = (g, sl).
Proof.
  intros F N. destruct sl; cbn [ending]; [|rewrite app_nil_r; apply segments_show; assumption].
  unfold segments. rewrite (tl_app _ _ (show_not_nil g)), split_slash, (split_show g F N), last_app_cons.
  destruct (text_eqb_spec [] []); [|congruence]. rewrite removelast_last. reflexivity.
Qed.
Lemma tidy_clean p g sl : tidy p g sl -> clean_path p = p.
Proof.
  intros [F [[-> ->]|[N ->]]]; [vm_compute; reflexivity|]. destruct sl; cbn [ending]; [|rewrite app_nil_r; apply clean_show; assumption].
  unfold clean_path. rewrite (tl_app _ _ (show_not_nil g)), split_slash, (split_show g F N), last_app_cons, Ascii.eqb_refl.
  assert (E : clean_segs [] (g ++ [[]]) = g).
  { assert (H : forall st, clean_segs st (g ++ [[]]) = clean_segs st g); [|rewrite H, (clean_segs_good g [] F); reflexivity].
    clear. induction g as [|s g IH]; intros st; [reflexivity|]. cbn [app clean_segs]. rewrite !IH. reflexivity. }
  rewrite E. destruct (text_eqb_spec (show g) [slash]) as [H|H]; [|reflexivity].
  pose proof (show_last g F N) as L. rewrite H in L. discriminate L.
Qed.
Lemma serve_tidy p g sl m q : tidy p g sl -> serve m q p = find_route routes false m q p.
Proof. intros T. unfold serve. rewrite (tidy_clean _ _ _ T). destruct (text_eqb_spec p p); [reflexivity|congruence]. Qed.
Lemma root_segments : segments [slash] = ([], true).
Proof. vm_compute. reflexivity. Qed.

(** * From the answer to the URL *)

(** The components of a pattern with its variables filled in. *)
Fixpoint fill (pat : list pseg) (vs : list text) : list text :=
  match pat with
  | [] => []
  | L s :: pat' => s :: fill pat' vs
  | V :: pat' => match vs with v :: vs' => v :: fill pat' vs' | [] => [] end
  end.
Fixpoint vars (pat : list pseg) : nat := match pat with [] => 0 | L _ :: pat' => vars pat' | V :: pat' => S (vars pat') end.
Lemma match_fill pat : forall segs vs, match_segs pat segs = Some vs -> segs = fill pat vs /\ length vs = vars pat.
Proof.
  induction pat as [|[s|] pat IH]; intros segs vs M; destruct segs as [|x segs]; cbn [match_segs] in M; try discriminate.
  - injection M as <-. split; reflexivity.
  - destruct (text_eqb_spec s x) as [<-|]; [|discriminate]. destruct (IH _ _ M) as [E A]. split; [cbn [fill]; f_equal; exact E|exact A].
  - destruct (text_eqb x []); [discriminate|]. destruct (match_segs pat segs) as [ws|] eqn:M'; [|discriminate]. injection M as <-.
    destruct (IH _ _ M') as [E A]. split; [cbn [fill]; f_equal; exact E|cbn [length vars]; f_equal; exact A].
Qed.
Lemma serve_real m q p a : serve m q p = a -> real a ->
  exists r vs, In r routes /\ r_do r q vs = a /\ (r_methods r = [] \/ existsb (method_eqb m) (r_methods r) = true)
  /\ length vs = vars (r_pat r) /\ Forall good_name (fill (r_pat r) vs) /\ fill (r_pat r) vs <> []
  /\ p = show (fill (r_pat r) vs) ++ ending (r_slash r).
Proof.
  intros E R. unfold serve in E. destruct (text_eqb_spec (clean_path p) p) as [C|C]; [|subst a; destruct R].
  destruct (clean_tidy p) as (g & sl & T). rewrite C in T. destruct (find_route_real _ _ _ _ _ _ E R) as (r & vs & I & M & D & S & Q).
  apply match_fill in M as [M L]. destruct T as [F [[-> ->]|[N ->]]].
  - exfalso. rewrite root_segments in M. cbn [fst] in M. unfold routes in I. cbn [In] in I. routes_in I; cbn [r_pat fill lit] in M; discriminate M.
  - rewrite (segments_tidy g sl F N) in M, S. cbn [fst snd] in M, S. subst g sl. exists r, vs. split_and!; try assumption. reflexivity.
Qed.
Lemma answer_leads m q p a : serve m q p = a -> real a -> leads q m p a.
Proof.
  intros E R. destruct (serve_real m q p a E R) as (r & vs & I & <- & Q & L & F & _ & ->). clear E R. unfold routes in I. cbn [In] in I.
  Local Ltac only_get Q := destruct Q as [Q|Q]; [discriminate Q|]; match type of Q with existsb (method_eqb ?m) _ = _ => destruct m; try discriminate Q end.
  routes_in I; cbn [r_do r_pat r_slash r_methods vars lit fill] in *;
    repeat (destruct vs as [|? vs]; [try discriminate L|]; cbn [length] in L; try discriminate L); unfold var in *; cbn [nth] in *;
    repeat match goal with F : Forall good_name (_ :: _) |- _ => inversion F; clear F; subst end;
    try only_get Q; unfold show, ending; cbn [flat_map]; rewrite ?app_nil_r.
  all: lazymatch goal with |- leads _ _ ?p _ => idtac end.
  1: exact (to_list q).
  all: try (apply (to_job_page q); assumption).
  all: try (apply (to_delete q); assumption).
  all: try (apply (to_watch q); assumption).
  all: try (apply (to_status q); assumption).
  all: try (apply (to_create q); assumption).
  all: try exact (to_trace_page q).
  all: try exact (to_trace q).
  all: try (apply (to_ns_page q); assumption).
  all: try (apply (to_ns q); assumption).
  all: try (apply (to_pod_page q); assumption).
  all: try (apply (to_pod q); assumption).
  all: try (apply (to_container_page q); assumption).
  all: try (apply (to_container q); assumption).
  all: try exact (to_metrics q _).
  all: try exact (to_charts q).
  all: try exact (to_sankey q).
  all: try exact (to_errno q).
  all: try exact (to_class q).
  all: try exact (to_cloud q).
Qed.

(** * From the URL to the answer *)

Lemma fixed_good s : existsb (Ascii.eqb slash) (t s) = false -> t s <> [] -> t s <> t "." -> t s <> t ".." -> good_name (t s).
Proof.
  intros E A B C. split_and!; try assumption. intros I. assert (existsb (Ascii.eqb slash) (t s) = true); [|congruence].
  apply existsb_exists. exists slash. split; [exact I|apply Ascii.eqb_refl].
Qed.
Local Ltac goods := repeat (constructor; [first [assumption|apply fixed_good; [vm_compute; reflexivity|discriminate|discriminate|discriminate]]|]); constructor.
Local Ltac fixed :=
  repeat match goal with
  | |- context [text_eqb (t ?a) (t ?b)] => let v := eval vm_compute in (text_eqb (t a) (t b)) in change (text_eqb (t a) (t b)) with v
  | H : text_eqb ?x [] = false |- context [text_eqb ?x []] => rewrite H
  end.
Local Ltac walk S :=
  repeat (rewrite find_route_cons, S; cbv beta iota zeta; cbn [r_pat r_methods r_slash r_do match_segs lit];
    fixed; cbv iota; fixed; cbv iota; fixed; cbv iota; fixed; cbv iota; cbn [existsb method_eqb orb Bool.eqb];
    try reflexivity).
Lemma not_nil x : good_name x -> text_eqb x [] = false.
Proof. intros [N _]. destruct (text_eqb_spec x []); [contradiction|reflexivity]. Qed.
Local Ltac at_path g sl :=
  match goal with |- serve ?m ?q ?p = _ =>
    let P := fresh "P" in let T := fresh "T" in let S := fresh "S" in
    assert (P : p = show g ++ ending sl) by (unfold show, ending; cbn [flat_map]; rewrite ?app_nil_r; reflexivity);
    assert (T : tidy p g sl) by (split; [goods|right; split; [discriminate|exact P]]);
    assert (S : segments p = (g, sl)) by (rewrite P; apply segments_tidy; [exact (proj1 T)|discriminate]);
    rewrite (serve_tidy _ _ _ m q T); clear P T; unfold routes;
    repeat match goal with G : good_name ?x |- _ => apply not_nil in G end;
    revert S; generalize p; intros ? S; walk S
  end.
Lemma skip r rs seen m q p : r_methods r <> [] -> existsb (method_eqb m) (r_methods r) = false ->
  exists seen', find_route (r :: rs) seen m q p = find_route rs seen' m q p.
Proof.
  intros N E. rewrite find_route_cons. destruct (segments p) as [segs sl]. cbv beta iota zeta. destruct (match_segs (r_pat r) segs) as [vs|]; [|eauto].
  destruct (r_methods r) as [|m0 ms]; [congruence|]. rewrite E. eauto.
Qed.
Lemma create_answer q ns : good_name ns -> serve POST q (t "/jobs/namespaces/" ++ ns) = ACreate ns q.
Proof.
  intros G. set (g := [t "jobs"; t "namespaces"; ns]).
  assert (P : t "/jobs/namespaces/" ++ ns = show g ++ ending false) by (unfold g, show, ending; cbn [flat_map]; rewrite ?app_nil_r; reflexivity).
  assert (T : tidy (t "/jobs/namespaces/" ++ ns) g false) by (split; [unfold g; goods|right; split; [discriminate|exact P]]).
  rewrite (serve_tidy _ _ _ POST q T), P. clear P. destruct T as [F _].
  pose proof (segments_tidy g false F ltac:(discriminate)) as S. revert S. generalize (show g ++ ending false). intros p S. unfold routes.
  do 5 match goal with |- find_route (?r :: ?rs) ?seen POST q p = _ => let b := fresh in let E := fresh in
    destruct (skip r rs seen POST q p ltac:(discriminate) eq_refl) as (b & E); rewrite E; clear E end.
  rewrite find_route_cons, S. unfold g. cbv beta iota zeta. cbn [r_pat r_methods r_slash r_do match_segs lit]. apply not_nil in G.
  do 4 (fixed; cbv iota). reflexivity.
Qed.
Lemma leads_answer m q p a : leads q m p a -> serve m q p = a.
Proof.
  intros H. destruct H.
  - at_path [t "jobs"] false.
  - at_path [t "jobs"; id] false.
  - at_path [t "jobs"; id] false.
  - at_path [t "jobs"; id; t "ws"] false.
  - at_path [t "jobs"; id; t "status"] false.
  - apply create_answer. assumption.
  - at_path [t "trace"] false.
  - at_path [t "trace"; t "ws"] false.
  - at_path [t "trace"; t "namespaces"; ns] false.
  - at_path [t "trace"; t "namespaces"; ns; t "ws"] false.
  - at_path [t "trace"; t "namespaces"; ns; t "pods"; pod] false.
  - at_path [t "trace"; t "namespaces"; ns; t "pods"; pod; t "ws"] false.
  - at_path [t "trace"; t "namespaces"; ns; t "pods"; pod; t "containers"; c] false.
  - at_path [t "trace"; t "namespaces"; ns; t "pods"; pod; t "containers"; c; t "ws"] false.
  - at_path [t "metrics"] false.
  - at_path [t "metrics"; t "charts"] true.
  - at_path [t "metrics"; t "charts"; t "sankey"] false.
  - at_path [t "metrics"; t "charts"; t "wc"; t "errno"] false.
  - at_path [t "metrics"; t "charts"; t "wc"; t "class"] false.
  - at_path [t "metrics"; t "charts"; t "wc"; t "ns"] false.
Qed.

(** * The answers that turn away *)

Lemma route_slash r g vs : In r routes -> match_segs (r_pat r) g = Some vs -> (r_slash r = true <-> g = [t "metrics"; t "charts"]).
Proof.
  intros I M. apply match_fill in M as [-> L]. unfold routes in I. cbn [In] in I.
  routes_in I; cbn [r_pat r_slash vars lit fill] in *;
    repeat (destruct vs as [|? vs]; [try discriminate L|]; cbn [length] in L; try discriminate L);
    (split; [intros E; first [discriminate E|reflexivity]|intros E; first [reflexivity|discriminate E]]).
Qed.
(** A redirect within the routes is by the last "/". *)
Lemma find_redirect rs m q p : forall seen p', find_route rs seen m q p = ARedirect p' ->
  (exists r q' vs p'', In r rs /\ r_do r q' vs = ARedirect p'')
  \/ exists r vs, In r rs /\ match_segs (r_pat r) (segments p).1 = Some vs /\ (segments p).2 <> r_slash r /\ p' = flip p (segments p).2.
Proof.
  induction rs as [|r rs IH]; intros seen p' E; [cbn in E; destruct seen; discriminate|].
  rewrite find_route_cons in E. destruct (segments p) as [segs sl] eqn:S. cbn [fst snd] in *. cbv beta iota zeta in E.
  assert (X : forall seen', find_route rs seen' m q p = ARedirect p' ->
    (exists r0 q' vs p'', In r0 (r :: rs) /\ r_do r0 q' vs = ARedirect p'')
    \/ exists r0 vs, In r0 (r :: rs) /\ match_segs (r_pat r0) segs = Some vs /\ sl <> r_slash r0 /\ p' = flip p sl).
  { intros seen' E'. destruct (IH _ _ E') as [(r0 & q' & vs & p'' & I & D)|(r0 & vs & I & H)]; [left; exists r0, q', vs, p''; split; [right; exact I|exact D]|].
    right. exists r0, vs. split; [right; exact I|exact H]. }
  destruct (match_segs (r_pat r) segs) as [vs|] eqn:M; [|exact (X _ E)].
  assert (Y : (if Bool.eqb sl (r_slash r) then r_do r q vs else ARedirect (flip p sl)) = ARedirect p' ->
    (exists r0 q' vs0 p'', In r0 (r :: rs) /\ r_do r0 q' vs0 = ARedirect p'')
    \/ exists r0 vs0, In r0 (r :: rs) /\ match_segs (r_pat r0) segs = Some vs0 /\ sl <> r_slash r0 /\ p' = flip p sl).
  { intros E'. destruct (Bool.eqb sl (r_slash r)) eqn:B; [left; exists r, q, vs, p'; split; [left; reflexivity|exact E']|].
    right. exists r, vs. injection E' as <-. split_and!; [left; reflexivity|exact M|apply eqb_false_iff, B|reflexivity]. }
  destruct (r_methods r) as [|m0 ms]; [exact (Y E)|]. destruct (existsb (method_eqb m) (m0 :: ms)); [exact (Y E)|exact (X _ E)].
Qed.
Lemma routes_do r q vs p : In r routes -> r_do r q vs <> ARedirect p.
Proof. intros I. unfold routes in I. cbn [In] in I. routes_in I; cbn [r_do]; discriminate. Qed.
Lemma routes_redirect m q p g sl p' : tidy p g sl -> serve m q p = ARedirect p' ->
  g <> [] /\ tidy p' g (negb sl) /\ p' = show g ++ ending (negb sl) /\ exists r vs, In r routes /\ match_segs (r_pat r) g = Some vs /\ r_slash r = negb sl.
Proof.
  intros T E. rewrite (serve_tidy _ _ _ _ _ T) in E. apply find_redirect in E as [(r & q' & vs & p'' & I & D)|(r & vs & I & M & S & ->)]; [destruct (routes_do _ _ _ _ I D)|].
  destruct T as [F [[-> ->]|[N ->]]].
  - exfalso. rewrite root_segments in M. cbn [fst] in M. apply match_fill in M as [M _]. unfold routes in I. cbn [In] in I. routes_in I; cbn [r_pat fill lit] in M; discriminate M.
  - rewrite (segments_tidy g sl F N) in *. cbn [fst snd] in *.
    assert (P : flip (show g ++ ending sl) sl = show g ++ ending (negb sl)).
    { destruct sl; cbn [flip ending negb]; [rewrite removelast_last, app_nil_r; reflexivity|rewrite app_nil_r; reflexivity]. }
    rewrite P. split_and!; [exact N|split; [exact F|right; split; [exact N|reflexivity]]|reflexivity|]. exists r, vs. split_and!; [exact I|exact M|]. destruct sl, (r_slash r); cbn [negb]; first [reflexivity|destruct (S eq_refl)].
Qed.
Lemma tidy_unique p g sl g' sl' : tidy p g sl -> tidy p g' sl' -> g <> [] -> g' = g /\ sl' = sl.
Proof.
  intros [F [[-> _]|[N ->]]] T Ng; [congruence|]. destruct T as [F' [[-> E]|[N' E]]].
  - exfalso. pose proof (segments_tidy g sl F N) as S. rewrite E, root_segments in S. injection S as <- _. congruence.
  - pose proof (segments_tidy g sl F N) as S. rewrite E, (segments_tidy g' sl' F' N') in S. injection S as -> ->. split; reflexivity.
Qed.
(** At most two redirects: to the clean path, and by the last "/". *)
Lemma second_redirect m q p g sl p1 m' : tidy p g sl -> serve m q p = ARedirect p1 -> forall p2, serve m' q p1 <> ARedirect p2.
Proof.
  intros T E p2 E2. apply (routes_redirect _ _ _ _ _ _ T) in E as (N & T1 & _ & r & vs & I & M & S).
  apply (routes_redirect _ _ _ _ _ _ T1) in E2 as (_ & _ & _ & r' & vs' & I' & M' & S').
  pose proof (route_slash _ _ _ I M) as A. pose proof (route_slash _ _ _ I' M') as B. rewrite S in A. rewrite S', negb_involutive in B. destruct sl; cbn [negb] in *.
  - discriminate (proj2 A (proj1 B eq_refl)).
  - discriminate (proj2 B (proj1 A eq_refl)).
Qed.
Lemma redirects_end m1 m2 m3 q p p1 p2 : serve m1 q p = ARedirect p1 -> serve m2 q p1 = ARedirect p2 -> forall p3, serve m3 q p2 <> ARedirect p3.
Proof.
  intros E1 E2 p3 E3. destruct (clean_tidy p) as (g & sl & T). unfold serve in E1. destruct (text_eqb_spec (clean_path p) p) as [C|C].
  - rewrite C in T. assert (E1' : serve m1 q p = ARedirect p1) by (rewrite (serve_tidy _ _ _ _ _ T); exact E1). exact (second_redirect _ _ _ _ _ _ _ T E1' _ E2).
  - injection E1 as <-. exact (second_redirect _ _ _ _ _ _ _ T E2 _ E3).
Qed.
Lemma find_none rs m q p : forall seen, find_route rs seen m q p = ANotFound -> (forall r q' vs, In r rs -> r_do r q' vs <> ANotFound) ->
  seen = false /\ forall r, In r rs -> match_segs (r_pat r) (segments p).1 = None.
Proof.
  induction rs as [|r rs IH]; intros seen E D; [cbn in E; destruct seen; [discriminate|]; split; [reflexivity|intros ? []]|].
  rewrite find_route_cons in E. destruct (segments p) as [segs sl] eqn:S. cbn [fst snd] in *. cbv beta iota zeta in E.
  assert (D' : forall r0 q' vs, In r0 rs -> r_do r0 q' vs <> ANotFound) by (intros r0 q' vs I; apply D; right; exact I).
  destruct (match_segs (r_pat r) segs) as [vs|] eqn:M.
  - exfalso. assert (Y : (if Bool.eqb sl (r_slash r) then r_do r q vs else ARedirect (flip p sl)) <> ANotFound).
    { destruct (Bool.eqb sl (r_slash r)); [apply D; left; reflexivity|discriminate]. }
    destruct (r_methods r) as [|m0 ms]; [exact (Y E)|]. destruct (existsb (method_eqb m) (m0 :: ms)); [exact (Y E)|]. destruct (IH _ E D') as [X _]. discriminate X.
  - destruct (IH _ E D') as [-> H]. split; [reflexivity|]. intros r0 [<-|I]; [exact M|exact (H _ I)].
Qed.
Lemma find_nothing rs m q p : (forall r, In r rs -> match_segs (r_pat r) (segments p).1 = None) -> find_route rs false m q p = ANotFound.
Proof.
  induction rs as [|r rs IH]; intros H; [reflexivity|]. rewrite find_route_cons. pose proof (H r (or_introl eq_refl)) as M. destruct (segments p) as [segs sl] eqn:S. cbn [fst] in M. rewrite M.
  cbv beta iota zeta. apply IH. intros r0 I. exact (H r0 (or_intror I)).
Qed.
Lemma not_found_any m q p m' q' : serve m q p = ANotFound -> serve m' q' p = ANotFound.
Proof.
  unfold serve. destruct (text_eqb (clean_path p) p); [|discriminate]. intros E. apply find_nothing. apply (find_none _ _ _ _ _ E).
  intros r q0 vs I. unfold routes in I. cbn [In] in I. routes_in I; cbn [r_do]; discriminate.
Qed.
Lemma answered m q p : turned_away (serve m q p) \/ leads q m p (serve m q p).
Proof.
  destruct (serve m q p) eqn:E; try (right; apply answer_leads; [exact E|exact Logic.I]).
  - left. right. right. eauto.
  - left. left. reflexivity.
  - left. right. left. reflexivity.
Qed.
Lemma leads_real q m p a : leads q m p a -> ~ turned_away a.
Proof. intros H [->|[->|[p' ->]]]; inversion H. Qed.
(** The page at a path opens the stream there. *)
Lemma page_stream q p : serve GET q p = APage -> exists a, serve GET q (page_opens p) = a /\ ((exists id, p = t "/jobs/" ++ id /\ a = AWatch id)
  \/ (p = t "/trace" /\ a = ATrace [] [] []) \/ (exists ns, p = t "/trace/namespaces/" ++ ns /\ a = ATrace ns [] [])
  \/ (exists ns pod, p = t "/trace/namespaces/" ++ ns ++ t "/pods/" ++ pod /\ a = ATrace ns pod [])
  \/ exists ns pod c, p = t "/trace/namespaces/" ++ ns ++ t "/pods/" ++ pod ++ t "/containers/" ++ c /\ a = ATrace ns pod c).
Proof.
  intros E. assert (H : leads q GET p APage) by (apply answer_leads; [exact E|exact Logic.I]). inversion H; subst; unfold page_opens; eexists.
  - split; [apply leads_answer; rewrite <- !app_assoc; apply to_watch; assumption|]. left. eauto.
  - split; [apply leads_answer; exact (to_trace q)|]. right. left. split; reflexivity.
  - split; [apply leads_answer; rewrite <- !app_assoc; apply to_ns; assumption|]. right. right. left. eauto.
  - split; [apply leads_answer; rewrite <- !app_assoc; apply to_pod; assumption|]. right. right. right. left. eauto.
  - split; [apply leads_answer; rewrite <- !app_assoc; apply to_container; assumption|]. right. right. right. right. eauto 6.
Qed.

(** * Where redirects lead *)

Lemma split_path l : Forall one_component l -> l <> [] -> split (List.tl (path_of l)) = l.
Proof.
  intros F. induction F as [|s l N F IH]; intros H; [congruence|]. cbn [path_of flat_map List.tl app].
  destruct l as [|s2 l]; [cbn [flat_map]; rewrite app_nil_r; apply split_none, N|].
  specialize (IH ltac:(discriminate)). cbn [path_of flat_map List.tl app] in IH |- *. rewrite split_sep by exact N. rewrite IH. reflexivity.
Qed.
Lemma path_last l : Forall one_component l -> l <> [] -> (Ascii.eqb (List.last (path_of l) slash) slash = true <-> List.last l [] = []).
Proof.
  intros F N. destruct (exists_last N) as (k & x & ->). apply Forall_app in F as [_ F]. inversion F as [|? ? N2 _]; subst. unfold one_component in N2.
  unfold path_of. rewrite flat_map_app. cbn [flat_map]. rewrite app_nil_r. rewrite last_app_cons, last_app2 by discriminate.
  destruct x as [|c x]; [split; [reflexivity|intros _; reflexivity]|]. rewrite last_cons by discriminate. split; [|discriminate].
  intros E. apply Ascii.eqb_eq in E. destruct N2. rewrite <- E. apply last_in. discriminate.
Qed.
Lemma clean_simpler l : forall stack, Forall one_component l -> Forall good_name stack -> rtc simpler (rev stack ++ l) (clean_segs stack l).
Proof.
  induction l as [|s l IH]; intros stack F G; cbn [clean_segs]; [rewrite app_nil_r; apply rtc_refl|]. inversion F as [|? ? N F']; subst.
  destruct (text_eqb_spec s []) as [->|E1]; cbn [orb]; [eapply rtc_l; [apply no_empty|exact (IH _ F' G)]|].
  destruct (text_eqb_spec s (t ".")) as [->|E2]; [eapply rtc_l; [apply no_dot|exact (IH _ F' G)]|].
  destruct (text_eqb_spec s (t "..")) as [->|E3].
  - destruct stack as [|x stack]; cbn [List.tl rev app].
    + eapply rtc_l; [apply no_leading|]. exact (IH [] F' (List.Forall_nil _)).
    + inversion G as [|? ? Gx G']; subst. rewrite <- app_assoc. cbn [app]. eapply rtc_l; [apply no_inner; exact Gx|]. exact (IH _ F' G').
  - assert (H : rev stack ++ s :: l = rev (s :: stack) ++ l) by (cbn [rev]; rewrite <- app_assoc; reflexivity). rewrite H.
    apply IH; [exact F'|]. constructor; [|exact G]. split_and!; assumption.
Qed.
Lemma show_path g : g <> [] -> show g = path_of g.
Proof. destruct g; [congruence|reflexivity]. Qed.
Lemma redirect_leads m q l p' : Forall one_component l -> l <> [] -> serve m q (path_of l) = ARedirect p' ->
  (exists g, rtc simpler l g /\ Forall good_name g /\ ended g (List.last l [] = []) p' /\ p' <> path_of l)
  \/ (p' = path_of l ++ [slash] \/ path_of l = p' ++ [slash]).
Proof.
  intros F N E. destruct (text_eqb_spec (clean_path (path_of l)) (path_of l)) as [C|C].
  - right. destruct (clean_tidy (path_of l)) as (g & sl & T). rewrite C in T. pose proof T as [_ [[-> T2]|[Ng T2]]].
    + exfalso. rewrite T2 in E. destruct (routes_redirect m q [slash] [] sl p' ltac:(split; [constructor|left; split; reflexivity]) E) as (H & _). congruence.
    + destruct (routes_redirect _ _ _ _ _ _ T E) as (_ & _ & -> & _). rewrite T2. destruct sl; cbn [negb ending]; rewrite ?app_nil_r; [right|left]; reflexivity.
  - left. unfold serve in E. destruct (text_eqb_spec (clean_path (path_of l)) (path_of l)); [contradiction|]. injection E as <-.
    exists (clean_segs [] l). split; [exact (clean_simpler l [] F (List.Forall_nil _))|]. split; [apply clean_good; [exact F|constructor]|]. split; [|exact C].
    unfold clean_path. rewrite (split_path l F N). unfold ended.
    destruct (clean_segs [] l) as [|x g] eqn:Eg.
    + left. split; [reflexivity|]. cbn [show]. destruct (text_eqb_spec [slash] [slash]); [|congruence]. rewrite andb_false_r. reflexivity.
    + right. assert (G : Forall good_name (x :: g)) by (rewrite <- Eg; apply clean_good; [exact F|constructor]).
      assert (S : text_eqb (show (x :: g)) [slash] = false).
      { destruct (text_eqb_spec (show (x :: g)) [slash]) as [H|H]; [|reflexivity]. pose proof (show_last (x :: g) G ltac:(discriminate)) as L. rewrite H in L. discriminate L. }
      rewrite S, andb_true_r. pose proof (path_last l F N) as L. destruct (Ascii.eqb (List.last (path_of l) slash) slash).
      * left. split; [discriminate|]. split; [apply L; reflexivity|reflexivity].
      * right. split; [discriminate|]. split; [intros H; apply L in H; discriminate H|reflexivity].
Qed.
Lemma path_components p : exists l, slash :: p = path_of l /\ Forall one_component l /\ l <> [].
Proof.
  exists (split p). split; [|split; [apply split_no_slash|apply split_not_nil]].
  remember (length p) as n eqn:E. revert p E. induction n as [n IH] using lt_wf_ind. intros p ->.
  destruct (split_cases p) as [[N ->]|(a & r & -> & N & ->)]; cbn [path_of flat_map]; [rewrite app_nil_r; reflexivity|].
  assert (H : slash :: r = path_of (split r)) by (apply (IH (length r)); [rewrite app_length; cbn [length]; lia|reflexivity]).
  unfold path_of in H. rewrite <- H. reflexivity.
Qed.
Lemma unclean_redirects m q l : Forall one_component l -> l <> [] -> (forall g, Forall good_name g -> l <> g /\ l <> g ++ [[]]) ->
  exists p', serve m q (path_of l) = ARedirect p'.
Proof.
  intros F N H. unfold serve. destruct (text_eqb_spec (clean_path (path_of l)) (path_of l)) as [C|C]; [|eauto]. exfalso.
  destruct (clean_tidy (path_of l)) as (g & sl & G & T). rewrite C in T. pose proof (split_path l F N) as S. destruct T as [[-> T]|[Ng T]]; rewrite T in S.
  - destruct (H [] G) as [_ A]. apply A. rewrite <- S. vm_compute. reflexivity.
  - rewrite (tl_app _ _ (show_not_nil g)) in S. destruct (H g G) as [A B]. destruct sl; cbn [ending] in S.
    + rewrite split_slash, (split_show g G Ng) in S. apply B. symmetry. exact S.
    + rewrite app_nil_r, (split_show g G Ng) in S. apply A. symmetry. exact S.
Qed.
