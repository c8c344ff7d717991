(** Proofs about requests and endpoints. *)
From Coq Require Import ZArith String Ascii Bool Lia.
From stdpp Require Import base list numbers strings pretty gmap.
From Verif Require Import CodecModel CodecSpec CodecNames JsonModel JsonSpec ClientModel ClientSpec ClientProofs.

Local Open Scope string_scope.
Local Open Scope Z_scope.

(** * What a route found tells *)

Definition real (a : action) : Prop := match a with ARedirect _ | ANotFound | ANotAllowed => False | _ => True end.
Lemma find_route_real rs m q p : forall seen a, find_route rs seen m q p = a -> real a ->
  exists r vs, In r rs /\ match_segs (r_pat r) (segments p).1 = Some vs /\ r_do r q vs = a /\ (segments p).2 = r_slash r
  /\ (r_methods r = [] \/ existsb (method_eqb m) (r_methods r) = true).
Proof.
  induction rs as [|r rs IH]; intros seen a E R.
  - cbn in E. destruct seen; subst a; destruct R.
  - rewrite find_route_cons in E. destruct (segments p) as [segs sl] eqn:S.
    destruct (match_segs (r_pat r) segs) as [vs|] eqn:M.
    + destruct (r_methods r) as [|m0 ms] eqn:Q.
      * destruct (Bool.eqb sl (r_slash r)) eqn:B; [|subst a; destruct R]. apply eqb_prop in B. exists r, vs. split_and!; [left; reflexivity|exact M|exact E|exact B|left; exact Q].
      * destruct (existsb (method_eqb m) (m0 :: ms)) eqn:X.
        -- destruct (Bool.eqb sl (r_slash r)) eqn:B; [|subst a; destruct R]. apply eqb_prop in B. exists r, vs. split_and!; [left; reflexivity|exact M|exact E|exact B|right; rewrite Q; exact X].
        -- destruct (IH true a E R) as (r' & vs' & I & H). exists r', vs'. split; [right; exact I|exact H].
    + destruct (IH seen a E R) as (r' & vs' & I & H). exists r', vs'. split; [right; exact I|exact H].
Qed.
Lemma match_two s segs vs : match_segs [lit s; V] segs = Some vs -> exists x, segs = [t s; x] /\ vs = [x] /\ x <> [].
Proof.
  destruct segs as [|a [|b [|c segs]]]; cbn [match_segs lit]; try discriminate.
  - destruct (text_eqb (t s) a); discriminate.
  - destruct (text_eqb_spec (t s) a) as [<-|]; [|discriminate]. destruct (text_eqb_spec b []); [discriminate|]. intros [= <-]. exists b. auto.
  - destruct (text_eqb (t s) a); [|discriminate]. destruct (text_eqb b []); discriminate.
Qed.
Lemma match_three s s2 segs vs : match_segs [lit s; V; lit s2] segs = Some vs -> exists x, segs = [t s; x; t s2] /\ vs = [x] /\ x <> [].
Proof.
  destruct segs as [|a [|b [|c [|d segs]]]]; cbn [match_segs lit]; try discriminate.
  - destruct (text_eqb (t s) a); discriminate.
  - destruct (text_eqb (t s) a); [|discriminate]. destruct (text_eqb b []); discriminate.
  - destruct (text_eqb_spec (t s) a) as [<-|]; [|discriminate]. destruct (text_eqb_spec b []); [discriminate|]. destruct (text_eqb_spec (t s2) c) as [<-|]; [|discriminate]. intros [= <-]. exists b. auto.
  - destruct (text_eqb (t s) a); [|discriminate]. destruct (text_eqb b []); [discriminate|]. destruct (text_eqb (t s2) c); discriminate.
Qed.
Lemma match_create s s2 segs vs : match_segs [lit s; lit s2; V] segs = Some vs -> exists x, segs = [t s; t s2; x] /\ vs = [x] /\ x <> [].
Proof.
  destruct segs as [|a [|b [|c [|d segs]]]]; cbn [match_segs lit]; try discriminate.
  - destruct (text_eqb (t s) a); discriminate.
  - destruct (text_eqb (t s) a); [|discriminate]. destruct (text_eqb (t s2) b); discriminate.
  - destruct (text_eqb_spec (t s) a) as [<-|]; [|discriminate]. destruct (text_eqb_spec (t s2) b) as [<-|]; [|discriminate]. destruct (text_eqb_spec c []); [discriminate|]. intros [= <-]. exists c. auto.
  - destruct (text_eqb (t s) a); [|discriminate]. destruct (text_eqb (t s2) b); [|discriminate]. destruct (text_eqb c []); discriminate.
Qed.
Ltac routes_in I := repeat (destruct I as [I|I]; [subst|]); try destruct I.

Lemma find_delete m q p id : find_route routes false m q p = ADelete id -> m = DELETE /\ segments p = ([t "jobs"; id], false) /\ id <> [].
Proof.
  intros E. destruct (find_route_real _ _ _ _ _ _ E Logic.I) as (r & vs & I & M & D & S & Q). unfold routes in I. cbn [In] in I.
  routes_in I; cbn [r_do r_pat r_slash r_methods] in *; try discriminate.
  apply match_two in M as (x & Ms & -> & Nx). cbn [var nth] in D. injection D as <-.
  split_and!; [destruct Q as [Q|Q]; [discriminate|destruct m; [discriminate|discriminate|reflexivity]]| |exact Nx].
  destruct (segments p) as [a b]. cbn [fst snd] in *. subst. reflexivity.
Qed.
Lemma find_watch m q p id : find_route routes false m q p = AWatch id -> (segments p = ([t "jobs"; id; t "ws"], false) \/ segments p = ([t "jobs"; id; t "status"], false)) /\ id <> [].
Proof.
  intros E. destruct (find_route_real _ _ _ _ _ _ E Logic.I) as (r & vs & I & M & D & S & Q). unfold routes in I. cbn [In] in I.
  routes_in I; cbn [r_do r_pat r_slash r_methods] in *; try discriminate.
  - apply match_three in M as (x & Ms & -> & Nx). cbn [var nth] in D. injection D as <-. split; [left|exact Nx]. destruct (segments p) as [a b]. cbn [fst snd] in *. subst. reflexivity.
  - apply match_three in M as (x & Ms & -> & Nx). cbn [var nth] in D. injection D as <-. split; [right|exact Nx]. destruct (segments p) as [a b]. cbn [fst snd] in *. subst. reflexivity.
Qed.
Lemma find_create m q p ns id : find_route routes false m q p = ACreate ns id -> m = POST /\ id = q /\ segments p = ([t "jobs"; t "namespaces"; ns], false) /\ ns <> [].
Proof.
  intros E. destruct (find_route_real _ _ _ _ _ _ E Logic.I) as (r & vs & I & M & D & S & Q). unfold routes in I. cbn [In] in I.
  routes_in I; cbn [r_do r_pat r_slash r_methods] in *; try discriminate.
  apply match_create in M as (x & Ms & -> & Nx). cbn [var nth] in D. injection D as <- <-.
  split_and!; [destruct Q as [Q|Q]; [discriminate|destruct m; [discriminate|reflexivity|discriminate]]|reflexivity| |exact Nx].
  destruct (segments p) as [a b]. cbn [fst snd] in *. subst. reflexivity.
Qed.
Lemma segments_no p l : segments p = (l, false) -> split (List.tl p) = l.
Proof. unfold segments. destruct (text_eqb (List.last (split (List.tl p)) []) []); [discriminate|]. intros [= ->]. reflexivity. Qed.

(** What arrives is the path that was meant. *)
Lemma serve_delete m q p id : serve m q p = ADelete id -> m = DELETE /\ clean_path p = p /\ segments p = ([t "jobs"; id], false) /\ id <> [].
Proof.
  unfold serve. destruct (text_eqb_spec (clean_path p) p) as [C|]; [|discriminate]. intros E. apply find_delete in E as (A & B & D). auto.
Qed.
Lemma jobs_split id : split (List.tl (delete_path id)) = t "jobs" :: split id.
Proof. change (List.tl (delete_path id)) with (t "jobs" ++ slash :: id)%list. apply split_sep. apply good_jobs. Qed.
Lemma split_app_sep a b : split (a ++ slash :: b)%list = (split a ++ split b)%list.
Proof.
  assert (H : forall acc, split_on slash acc (a ++ slash :: b)%list = (split_on slash acc a ++ split b)%list).
  { induction a as [|c a IH]; intros acc; cbn [app split_on]; [rewrite Ascii.eqb_refl; reflexivity|].
    destruct (Ascii.eqb c slash); [rewrite IH; reflexivity|apply IH]. }
  apply H.
Qed.
Lemma watch_split id : split (List.tl (watch_path id)) = (t "jobs" :: split id ++ [t "ws"])%list.
Proof.
  change (List.tl (watch_path id)) with (t "jobs" ++ slash :: (id ++ slash :: t "ws"))%list. rewrite split_sep by apply good_jobs. rewrite split_app_sep.
  rewrite (split_none (t "ws")) by apply good_ws. reflexivity.
Qed.
Lemma create_split ns : split (List.tl (create_path ns)) = (t "jobs" :: t "namespaces" :: split ns).
Proof.
  change (List.tl (create_path ns)) with (t "jobs" ++ slash :: (t "namespaces" ++ slash :: ns))%list. rewrite split_sep by apply good_jobs. rewrite split_sep by apply good_namespaces. reflexivity.
Qed.

Lemma delete_arrives id id' : arrives DELETE (delete_path id) None = ADelete id' -> id' = id /\ good_name id.
Proof.
  rewrite arrives_serve. intros E. apply serve_delete in E as (_ & C & S & N). apply segments_no in S. rewrite jobs_split in S. injection S as S. apply split_one in S as [-> Ns].
  split; [reflexivity|]. split_and!; [exact N|exact Ns| |]; intros ->; vm_compute in C; discriminate C.
Qed.
Lemma good_delete id : good_name id -> arrives DELETE (delete_path id) None = ADelete id.
Proof.
  intros G. rewrite arrives_serve, delete_show. assert (F : Forall good_name [t "jobs"; id]) by (constructor; [exact good_jobs|constructor; [exact G|constructor]]).
  rewrite serve_show by (exact F || discriminate). unfold routes. destruct G as (N1 & N2 & N3 & N4).
  assert (E : text_eqb id [] = false) by (destruct (text_eqb_spec id []); [contradiction|reflexivity]).
  do 3 (rewrite find_route_cons, (segments_show _ F ltac:(discriminate)); cbv beta iota zeta; cbn [r_pat r_methods r_slash r_do]; try (cbn [match_segs lit]; change (text_eqb (t "jobs") (t "jobs")) with true; cbv iota; rewrite ?E; cbn [existsb method_eqb orb])). reflexivity.
Qed.
Lemma follow_get n m q p a : In a (follow n m q p) -> a = arrives m p q \/ exists p', a = arrives GET p' q.
Proof.
  revert m p. induction n as [|n IH]; intros m p I; cbn [follow] in I.
  - left. destruct (arrives m p q); destruct I as [I|[]]; auto.
  - destruct (arrives m p q) eqn:E; try (destruct I as [I|[]]; left; auto; fail).
    destruct I as [I|I]; [left; auto|]. right. destruct (IH GET p0 I) as [H|[p' H]]; [exists p0; exact H|exists p'; exact H].
Qed.
Lemma delete_exact id id' : In (ADelete id') (delete_request id) -> id' = id /\ good_name id.
Proof.
  intros I. apply follow_get in I as [E|[p' E]].
  - apply delete_arrives. auto.
  - rewrite arrives_serve in E. symmetry in E. apply serve_delete in E as (? & _). discriminate.
Qed.
Lemma follow_real n m q p a : arrives m p q = a -> real a -> follow n m q p = [a].
Proof. intros E R. destruct n; cbn [follow]; rewrite E; destruct a; try reflexivity; destruct R. Qed.
Lemma delete_good id : good_name id -> delete_request id = [ADelete id].
Proof. intros G. apply follow_real; [apply good_delete, G|exact Logic.I]. Qed.
Lemma delete_nothing_else id a : In a (delete_request id) -> ~ creates a.
Proof.
  intros I (ns & q & ->). assert (H : forall m p, (m = DELETE \/ m = GET) -> arrives m p None <> ACreate ns q).
  { intros m p Hm E. rewrite arrives_serve in E. unfold serve in E. destruct (text_eqb (clean_path p) p); [|discriminate]. apply find_create in E as (-> & _). destruct Hm; discriminate. }
  apply follow_get in I as [E|[p' E]]; [apply (H DELETE (delete_path id)); auto|apply (H GET p'); auto].
Qed.

Lemma watch_exact id id' : watch_request id = AWatch id' -> id' = id /\ good_name id.
Proof.
  unfold watch_request. rewrite arrives_serve. unfold serve. destruct (text_eqb_spec (clean_path (watch_path id)) (watch_path id)) as [C|]; [|discriminate]. intros E. apply find_watch in E as [S N].
  assert (S1 : split id = [id']).
  { destruct S as [S|S]; apply segments_no in S; rewrite watch_split in S; injection S as S.
    - apply (app_inj_tail (split id) [id'] (t "ws") (t "ws")) in S as [S _]. exact S.
    - apply (app_inj_tail (split id) [id'] (t "ws") (t "status")) in S as [_ S]. discriminate. }
  apply split_one in S1 as [-> Ns]. split; [reflexivity|]. split_and!; [exact N|exact Ns| |]; intros ->; vm_compute in C; discriminate C.
Qed.
Lemma watch_good id : good_name id -> watch_request id = AWatch id.
Proof.
  intros G. unfold watch_request. rewrite arrives_serve, watch_show. assert (F : Forall good_name [t "jobs"; id; t "ws"]) by (constructor; [exact good_jobs|constructor; [exact G|constructor; [exact good_ws|constructor]]]).
  rewrite serve_show by (exact F || discriminate). unfold routes. destruct G as (N1 & N2 & N3 & N4).
  assert (E : text_eqb id [] = false) by (destruct (text_eqb_spec id []); [contradiction|reflexivity]).
  do 4 (rewrite find_route_cons, (segments_show _ F ltac:(discriminate)); cbv beta iota zeta; cbn [r_pat r_methods r_slash r_do]; try (cbn [match_segs lit]; change (text_eqb (t "jobs") (t "jobs")) with true; cbv iota; rewrite ?E; change (text_eqb (t "ws") (t "ws")) with true; cbn [existsb method_eqb orb])). reflexivity.
Qed.

Lemma create_exact id ns ns' q : In (ACreate ns' q) (create_request id ns) -> ns' = ns /\ q = (if text_eqb id [] then None else Some id) /\ good_name ns.
Proof.
  intros I. apply follow_get in I as [E|[p' E]]; symmetry in E; rewrite arrives_serve in E; unfold serve in E.
  - destruct (text_eqb_spec (clean_path (create_path ns)) (create_path ns)) as [C|]; [|discriminate]. apply find_create in E as (_ & -> & S & N). apply segments_no in S. rewrite create_split in S. injection S as S. apply split_one in S as [-> Ns].
    split; [reflexivity|]. split; [apply query_of_id|]. split_and!; [exact N|exact Ns| |]; intros ->; vm_compute in C; discriminate C.
  - destruct (text_eqb (clean_path p') p'); [|discriminate]. apply find_create in E as (? & _). discriminate.
Qed.
Lemma create_good id ns : good_name ns -> create_request id ns = [ACreate ns (if text_eqb id [] then None else Some id)].
Proof.
  intros G. apply follow_real; [|exact Logic.I]. rewrite query_of_id. generalize (if text_eqb id [] then None else Some id). intros q.
  rewrite arrives_serve, create_show. assert (F : Forall good_name [t "jobs"; t "namespaces"; ns]) by (constructor; [exact good_jobs|constructor; [exact good_namespaces|constructor; [exact G|constructor]]]).
  rewrite serve_show by (exact F || discriminate). unfold routes. destruct G as (N1 & N2 & N3 & N4).
  assert (E : text_eqb ns [] = false) by (destruct (text_eqb_spec ns []); [contradiction|reflexivity]).
  assert (M1 : match_segs [lit "jobs"] [t "jobs"; t "namespaces"; ns] = None) by reflexivity.
  assert (M2 : match_segs [lit "jobs"; V] [t "jobs"; t "namespaces"; ns] = None) by reflexivity.
  assert (M4 : match_segs [lit "jobs"; V; lit "ws"] [t "jobs"; t "namespaces"; ns] = if text_eqb (t "ws") ns then Some [t "namespaces"] else None) by (cbn [match_segs lit]; change (text_eqb (t "jobs") (t "jobs")) with true; change (text_eqb (t "namespaces") []) with false; destruct (text_eqb (t "ws") ns); reflexivity).
  assert (M5 : match_segs [lit "jobs"; V; lit "status"] [t "jobs"; t "namespaces"; ns] = if text_eqb (t "status") ns then Some [t "namespaces"] else None) by (cbn [match_segs lit]; change (text_eqb (t "jobs") (t "jobs")) with true; change (text_eqb (t "namespaces") []) with false; destruct (text_eqb (t "status") ns); reflexivity).
  assert (M6 : match_segs [lit "jobs"; lit "namespaces"; V] [t "jobs"; t "namespaces"; ns] = Some [ns]) by (cbn [match_segs lit]; change (text_eqb (t "jobs") (t "jobs")) with true; change (text_eqb (t "namespaces") (t "namespaces")) with true; cbv iota; rewrite E; reflexivity).
  assert (S := segments_show _ F ltac:(discriminate)).
  rewrite find_route_cons, S. cbv beta iota zeta. cbn [r_pat]. rewrite M1.
  rewrite find_route_cons, S. cbv beta iota zeta. cbn [r_pat]. rewrite M2.
  rewrite find_route_cons, S. cbv beta iota zeta. cbn [r_pat]. rewrite M2.
  assert (R6 : forall rs seen, find_route (Rt [POST] [lit "jobs"; lit "namespaces"; V] false (fun q vs => ACreate (var vs 0) q) :: rs) seen POST q (show [t "jobs"; t "namespaces"; ns]) = ACreate ns q).
  { intros rs seen. rewrite find_route_cons, S. cbv beta iota zeta. cbn [r_pat]. rewrite M6. reflexivity. }
  rewrite find_route_cons, S. cbv beta iota zeta. cbn [r_pat]. rewrite M4.
  assert (R5 : forall rs seen, find_route (Rt [GET] [lit "jobs"; V; lit "status"] false (fun _ vs => AWatch (var vs 0)) :: Rt [POST] [lit "jobs"; lit "namespaces"; V] false (fun q vs => ACreate (var vs 0) q) :: rs) seen POST q (show [t "jobs"; t "namespaces"; ns]) = ACreate ns q).
  { intros rs seen. rewrite find_route_cons, S. cbv beta iota zeta. cbn [r_pat r_methods]. rewrite M5. destruct (text_eqb (t "status") ns); cbn [existsb method_eqb orb]; apply R6. }
  destruct (text_eqb (t "ws") ns); cbn [r_methods existsb method_eqb orb]; apply R5.
Qed.
Lemma create_success status id ns : serves status -> create_reports_success status id ns = true ->
  In (ACreate ns (if text_eqb id [] then None else Some id)) (create_request id ns) /\ good_name ns.
Proof.
  intros (_ & _ & _ & _ & _ & H) E. apply Z.eqb_eq in E. destruct (H _ E) as (ns' & q & L).
  assert (I : In (ACreate ns' q) (create_request id ns)).
  { rewrite <- L. apply last_in. intros N. rewrite N in L. discriminate. }
  destruct (create_exact _ _ _ _ I) as (-> & -> & G). split; [exact I|exact G].
Qed.

(** * A success that deleted nothing *)

Lemma follow_redirect n m q p p' : arrives m p q = ARedirect p' -> follow (S n) m q p = ARedirect p' :: follow n GET q p'.
Proof. intros E. cbn [follow]. rewrite E. reflexivity. Qed.
Lemma good_page x : good_name x -> arrives GET (delete_path x) None = APage.
Proof.
  intros G. rewrite arrives_serve, delete_show. assert (F : Forall good_name [t "jobs"; x]) by (constructor; [exact good_jobs|constructor; [exact G|constructor]]).
  rewrite serve_show by (exact F || discriminate). unfold routes. destruct G as (N1 & N2 & N3 & N4).
  assert (E : text_eqb x [] = false) by (destruct (text_eqb_spec x []); [contradiction|reflexivity]).
  do 2 (rewrite find_route_cons, (segments_show _ F ltac:(discriminate)); cbv beta iota zeta; cbn [r_pat r_methods r_slash r_do]; try (cbn [match_segs lit]; change (text_eqb (t "jobs") (t "jobs")) with true; cbv iota; rewrite ?E; cbn [existsb method_eqb orb])). reflexivity.
Qed.
Lemma slash_redirects x : good_name x -> arrives DELETE (delete_path (x ++ [slash])%list) None = ARedirect (delete_path x).
Proof.
  intros G. rewrite arrives_serve. assert (F : Forall good_name [t "jobs"; x]) by (constructor; [exact good_jobs|constructor; [exact G|constructor]]).
  destruct G as (N1 & N2 & N3 & N4). assert (E : text_eqb x [] = false) by (destruct (text_eqb_spec x []); [contradiction|reflexivity]).
  assert (P : split (List.tl (delete_path (x ++ [slash])%list)) = [t "jobs"; x; []]).
  { rewrite jobs_split. change (x ++ [slash])%list with (x ++ slash :: [])%list. rewrite split_sep by exact N2. reflexivity. }
  assert (S : segments (delete_path (x ++ [slash])%list) = ([t "jobs"; x], true)).
  { unfold segments. rewrite P. reflexivity. }
  assert (C : clean_path (delete_path (x ++ [slash])%list) = delete_path (x ++ [slash])%list).
  { unfold clean_path. rewrite P. change [t "jobs"; x; []] with ([t "jobs"; x] ++ [[]])%list.
    assert (Q : clean_segs [] ([t "jobs"; x] ++ [[]])%list = [t "jobs"; x]).
    { cbn [app clean_segs]. change (text_eqb (t "jobs") []) with false. change (text_eqb (t "jobs") (t ".")) with false. change (text_eqb (t "jobs") (t "..")) with false. cbn [orb]. rewrite E.
      destruct (text_eqb_spec x (t ".")); [contradiction|]. destruct (text_eqb_spec x (t "..")); [contradiction|]. cbn [orb]. change (text_eqb [] []) with true. reflexivity. }
    rewrite Q. unfold delete_path. rewrite app_assoc. rewrite last_app_cons. rewrite Ascii.eqb_refl. cbn [andb].
    destruct (text_eqb_spec (show [t "jobs"; x]) [slash]) as [H|H]; [discriminate|]. cbn [negb]. unfold show. cbn [flat_map]. rewrite app_nil_r. reflexivity. }
  unfold serve. rewrite C. destruct (text_eqb_spec (delete_path (x ++ [slash])%list) (delete_path (x ++ [slash])%list)); [|congruence].
  unfold routes. do 3 (rewrite find_route_cons, S; cbv beta iota zeta; cbn [r_pat r_methods r_slash r_do]; try (cbn [match_segs lit]; change (text_eqb (t "jobs") (t "jobs")) with true; cbv iota; rewrite ?E; cbn [existsb method_eqb orb Bool.eqb])).
  unfold flip, delete_path. rewrite app_assoc. rewrite removelast_last. reflexivity.
Qed.
Lemma slash_delete x : good_name x -> delete_request (x ++ [slash])%list = [ARedirect (delete_path x); APage].
Proof.
  intros G. unfold delete_request. change 10%nat with (S 9). rewrite (follow_redirect _ _ _ _ _ (slash_redirects x G)).
  rewrite (follow_real 9 GET None (delete_path x) APage (good_page x G) Logic.I). reflexivity.
Qed.
Lemma false_success status x : serves status -> good_name x -> delete_reports_success status (x ++ [slash])%list = true /\ forall a, In a (delete_request (x ++ [slash])%list) -> ~ deletes a.
Proof.
  intros (H & _) G. unfold delete_reports_success. rewrite (slash_delete x G). cbn [List.last]. rewrite H. split; [reflexivity|].
  intros a [<-|[<-|[]]] (id & E); discriminate.
Qed.
Lemma dot_success status : serves status -> delete_reports_success status (t ".") = true /\ forall a, In a (delete_request (t ".")) -> ~ deletes a.
Proof.
  intros (_ & H & _). unfold delete_reports_success. assert (E : delete_request (t ".") = [ARedirect (t "/jobs"); AList]) by (vm_compute; reflexivity).
  rewrite E. cbn [List.last]. rewrite H. split; [reflexivity|]. intros a [<-|[<-|[]]] (id & X); discriminate.
Qed.
Lemma good_success status id : good_name id -> delete_reports_success status id = true <-> status (ADelete id) = 200.
Proof. intros G. unfold delete_reports_success. rewrite (delete_good id G). cbn [List.last]. apply Z.eqb_eq. Qed.
Lemma stuck_job id ns : good_name ns -> id <> [] -> ~ good_name id ->
  create_request id ns = [ACreate ns (Some id)] /\ forall id', ~ In (ADelete id) (delete_request id') /\ watch_request id' <> AWatch id.
Proof.
  intros G N B. split.
  - rewrite (create_good id ns G). destruct (text_eqb_spec id []); [contradiction|reflexivity].
  - intros id'. split.
    + intros I. destruct (delete_exact _ _ I) as [-> X]. exact (B X).
    + intros E. destruct (watch_exact _ _ E) as [-> X]. exact (B X).
Qed.
Lemma read_trace_never ns pod container : read_trace_connects ns pod container = false.
Proof.
  unfold read_trace_connects, trace_uri.
  destruct (negb (text_eqb ns []) && negb (text_eqb pod []) && negb (text_eqb container [])); [reflexivity|].
  destruct (negb (text_eqb ns []) && negb (text_eqb pod []) && text_eqb container []); [reflexivity|].
  destruct (negb (text_eqb ns []) && text_eqb pod [] && text_eqb container []); reflexivity.
Qed.

(** What the dialer takes. *)
Lemma letter_scheme c : is_letter c = true -> (Nat.leb 65 (code c) && Nat.leb (code c) 90) || (Nat.leb 97 (code c) && Nat.leb (code c) 122) = true.
Proof. exact (fun H => H). Qed.
Lemma scheme_letters s : forall first acc rest, Forall (fun c => is_letter c = true) s -> (s <> [] \/ first = false) ->
  scheme_from first acc (s ++ ":"%char :: rest)%list = Some (acc ++ s)%list.
Proof.
  induction s as [|c s IH]; intros first acc rest F N.
  - destruct N as [N| ->]; [contradiction|]. cbn. rewrite app_nil_r. reflexivity.
  - apply Forall_cons in F as [Fc F]. cbn [app scheme_from]. rewrite (letter_scheme c Fc). rewrite (IH false (acc ++ [c])%list rest F) by (right; reflexivity). rewrite <- app_assoc. reflexivity.
Qed.
Lemma scheme_found url : forall first acc s, scheme_from first acc url = Some s -> s = [] \/ exists r rest, s = (acc ++ r)%list /\ url = (r ++ ":"%char :: rest)%list.
Proof.
  induction url as [|c url IH]; intros first acc s; cbn [scheme_from]; [intros Q; injection Q as <-; left; reflexivity|].
  assert (G : forall f, scheme_from f (acc ++ [c])%list url = Some s -> s = [] \/ exists r rest, s = (acc ++ r)%list /\ c :: url = (r ++ ":"%char :: rest)%list).
  { intros f H. destruct (IH _ _ _ H) as [-> |(r & rest & -> & ->)]; [left; reflexivity|]. right. exists (c :: r), rest. split; [rewrite <- app_assoc; reflexivity|reflexivity]. }
  destruct (_ || _); [apply G|]. destruct (_ || _); [destruct first; [intros Q; injection Q as <-; left; reflexivity|apply G]|].
  destruct (Ascii.eqb_spec c ":") as [-> |]; [destruct first; [discriminate|]|intros Q; injection Q as <-; left; reflexivity].
  intros Q; injection Q as <-. right. exists [], url. split; [rewrite app_nil_r; reflexivity|reflexivity].
Qed.
Lemma lower_letters s w : map lower s = w -> Forall (fun c => is_letter c = true) w -> Forall (fun c => is_letter c = true) s.
Proof.
  intros <- F. rewrite Forall_map in F. eapply Forall_impl; [exact F|]. intros c. cbn. destruct c as [[] [] [] [] [] [] [] []]; vm_compute; intros H; exact H.
Qed.
Lemma dials_iff url : dials url = true <-> exists s rest, url = (s ++ ":"%char :: rest)%list /\ (map lower s = t "ws" \/ map lower s = t "wss").
Proof.
  unfold dials, scheme_of. split.
  - destruct (scheme_from true [] url) as [s|] eqn:E; [|discriminate]. intros H. apply orb_true_iff in H as [H|H]; apply (bool_decide_eq_true_1 _) in H.
    + destruct (scheme_found _ _ _ _ E) as [-> |(r & rest & -> & ->)]; [discriminate H|]. exists r, rest. split; [reflexivity|left; exact H].
    + destruct (scheme_found _ _ _ _ E) as [-> |(r & rest & -> & ->)]; [discriminate H|]. exists r, rest. split; [reflexivity|right; exact H].
  - intros (s & rest & -> & H).
    assert (F : Forall (fun c => is_letter c = true) s) by (destruct H as [H|H]; apply (lower_letters _ _ H); repeat (constructor; [reflexivity|]); constructor).
    assert (N : s <> []) by (intros ->; destruct H as [H|H]; discriminate H). rewrite (scheme_letters s true [] rest F (or_introl N)). cbn [app].
    apply orb_true_iff. destruct H as [H|H]; [left|right]; apply bool_decide_eq_true_2; exact H.
Qed.
(** A GET of a path whose components match one route and no route before it. *)
Lemma find_skip r rs seen m q segs : Forall good_name segs -> segs <> [] -> match_segs (r_pat r) segs = None ->
  find_route (r :: rs) seen m q (show segs) = find_route rs seen m q (show segs).
Proof. intros F N M. rewrite find_route_cons, (segments_show _ F N). cbv beta iota zeta. rewrite M. reflexivity. Qed.
Lemma find_here r rs seen m q segs vs : Forall good_name segs -> segs <> [] -> match_segs (r_pat r) segs = Some vs ->
  r_methods r = [m] -> r_slash r = false -> find_route (r :: rs) seen m q (show segs) = r_do r q vs.
Proof. intros F N M E S. rewrite find_route_cons, (segments_show _ F N). cbv beta iota zeta. rewrite M, E, S. destruct m; reflexivity. Qed.
Lemma not_empty s : good_name s -> text_eqb s [] = false.
Proof. intros [N _]. destruct (text_eqb_spec s []); [contradiction|reflexivity]. Qed.
Lemma good_trace : good_name (t "trace") /\ good_name (t "namespaces") /\ good_name (t "pods") /\ good_name (t "containers").
Proof. unfold good_name. split_and!; try discriminate; intros H; vm_compute in H; repeat (destruct H as [H|H]; [discriminate H|]); exact H. Qed.
Ltac skip F := rewrite find_skip; [|exact F|discriminate|reflexivity].
Lemma read_trace_path ns pod container :
  (ns = [] \/ good_name ns) -> (pod = [] \/ good_name pod /\ ns <> []) -> (container = [] \/ good_name container /\ pod <> []) ->
  arrives GET (trace_uri ns pod container) None = ATrace ns pod container.
Proof.
  destruct good_trace as (Gt & Gn & Gp & Gc). intros N P C. rewrite arrives_serve. unfold trace_uri.
  destruct N as [-> |N].
  { destruct P as [-> |[_ P]]; [|contradiction]. destruct C as [-> |[_ C]]; [|contradiction]. vm_compute. reflexivity. }
  rewrite (not_empty ns N). destruct P as [-> |[P _]].
  { destruct C as [-> |[_ C]]; [|contradiction]. change (text_eqb [] []) with true. cbn [negb andb].
    assert (F : Forall good_name [t "trace"; t "namespaces"; ns; t "ws"]) by (repeat (constructor; [assumption||exact good_ws|]); constructor).
    replace (t "/trace/namespaces/" ++ ns ++ t "/ws")%list with (show [t "trace"; t "namespaces"; ns; t "ws"]).
    2: { unfold show. cbn [flat_map]. rewrite ?app_nil_r. reflexivity. }
    rewrite serve_show by (exact F || discriminate). unfold routes. do 8 skip F. rewrite find_skip; [|exact F|discriminate|cbn [r_pat match_segs lit]; rewrite (not_empty ns N); reflexivity].
    rewrite (find_here _ _ _ _ _ _ [ns]); [|exact F|discriminate| |reflexivity|reflexivity]; [reflexivity|].
    cbn [r_pat match_segs lit]. rewrite (not_empty ns N). reflexivity. }
  rewrite (not_empty pod P). destruct C as [-> |[C _]].
  { change (text_eqb [] []) with true. cbn [negb andb].
    assert (F : Forall good_name [t "trace"; t "namespaces"; ns; t "pods"; pod; t "ws"]) by (repeat (constructor; [assumption||exact good_ws|]); constructor).
    replace (t "/trace/namespaces/" ++ ns ++ t "/pods/" ++ pod ++ t "/ws")%list with (show [t "trace"; t "namespaces"; ns; t "pods"; pod; t "ws"]).
    2: { unfold show. cbn [flat_map]. rewrite ?app_nil_r. change (t "/pods/") with (slash :: t "pods" ++ [slash])%list. cbn [app]. rewrite <- !app_assoc. reflexivity. }
    rewrite serve_show by (exact F || discriminate). unfold routes.
    assert (E : forall l, match_segs [lit "trace"; lit "namespaces"; V; lit "ws"] ([t "trace"; t "namespaces"; ns; t "pods"] ++ l) = None) by (intros l; cbn [match_segs lit app]; rewrite (not_empty ns N); reflexivity).
    do 8 skip F. do 3 (rewrite find_skip; [|exact F|discriminate|cbn [r_pat match_segs lit]; rewrite ?(not_empty ns N), ?(not_empty pod P); reflexivity]).
    rewrite (find_here _ _ _ _ _ _ [ns; pod]); [|exact F|discriminate| |reflexivity|reflexivity]; [reflexivity|].
    cbn [r_pat match_segs lit]. rewrite (not_empty ns N), (not_empty pod P). reflexivity. }
  rewrite (not_empty container C). cbn [negb andb].
  assert (F : Forall good_name [t "trace"; t "namespaces"; ns; t "pods"; pod; t "containers"; container; t "ws"]) by (repeat (constructor; [assumption||exact good_ws|]); constructor).
  replace (t "/trace/namespaces/" ++ ns ++ t "/pods/" ++ pod ++ t "/containers/" ++ container ++ t "/ws")%list with (show [t "trace"; t "namespaces"; ns; t "pods"; pod; t "containers"; container; t "ws"]).
  2: { unfold show. cbn [flat_map]. rewrite ?app_nil_r. change (t "/pods/") with (slash :: t "pods" ++ [slash])%list. change (t "/containers/") with (slash :: t "containers" ++ [slash])%list. cbn [app]. rewrite <- !app_assoc. reflexivity. }
  rewrite serve_show by (exact F || discriminate). unfold routes. do 8 skip F.
  do 5 (rewrite find_skip; [|exact F|discriminate|cbn [r_pat match_segs lit]; rewrite ?(not_empty ns N), ?(not_empty pod P), ?(not_empty container C); reflexivity]).
  rewrite (find_here _ _ _ _ _ _ [ns; pod; container]); [|exact F|discriminate| |reflexivity|reflexivity]; [reflexivity|].
  cbn [r_pat match_segs lit]. rewrite (not_empty ns N), (not_empty pod P), (not_empty container C). reflexivity.
Qed.

(** * Endpoints *)

Lemma cut_none sep s : forall acc, cut sep acc s = None <-> ~ In sep s.
Proof.
  induction s as [|c s IH]; intros acc; cbn [cut]; [split; [intros _ []|reflexivity]|].
  destruct (Ascii.eqb_spec c sep) as [-> |N]; [split; [discriminate|intros H; destruct H; left; reflexivity]|].
  rewrite IH. split; [intros H [E|E]; [congruence|exact (H E)]|intros H E; apply H; right; exact E].
Qed.
Lemma cut_some sep s h p : forall acc, cut sep acc s = Some (h, p) <-> exists a, h = (acc ++ a)%list /\ s = (a ++ sep :: p)%list /\ ~ In sep a.
Proof.
  induction s as [|c s IH]; intros acc; cbn [cut].
  - split; [discriminate|]. intros ([|? ?] & _ & H & _); discriminate.
  - destruct (Ascii.eqb_spec c sep) as [-> |N].
    + split.
      * intros [= <- <-]. exists []. rewrite app_nil_r. split_and!; auto. 
      * intros (a & -> & E & Na). destruct a as [|x a]; [injection E as ->; rewrite app_nil_r; reflexivity|]. injection E as <- _. destruct Na. left. reflexivity.
    + rewrite IH. split.
      * intros (a & -> & -> & Na). exists (c :: a). rewrite <- app_assoc. split_and!; auto. intros [E|E]; [congruence|exact (Na E)].
      * intros (a & -> & E & Na). destruct a as [|x a]; [injection E; congruence|]. injection E as <- E. exists a. rewrite <- app_assoc. split_and!; auto. intros H. apply Na. right. exact H.
Qed.
Lemma code_N c : Z.of_N (Ascii.N_of_ascii c) = Z.of_nat (code c).
Proof. unfold code, Ascii.nat_of_ascii. rewrite N_nat_Z. reflexivity. Qed.
Lemma digits_iff ds : forall a n, digits a (String.string_of_list_ascii ds) = Some n <-> Forall (fun c => (48 <= code c <= 57)%nat) ds /\ n = fold_left (fun a c => 10 * a + (Z.of_nat (code c) - 48)) ds a.
Proof.
  induction ds as [|c ds IH]; intros a n; cbn [String.string_of_list_ascii digits fold_left].
  - split; [intros [= <-]; split; [constructor|reflexivity]|intros [_ ->]; reflexivity].
  - unfold digit. rewrite code_N. destruct (Z.leb_spec 48 (Z.of_nat (code c))); destruct (Z.leb_spec (Z.of_nat (code c)) 57); cbn [andb].
    2-4: split; [discriminate|]; intros [F _]; inversion F; subst; lia.
    rewrite IH. replace (a * 10 + (Z.of_nat (code c) - 48)) with (10 * a + (Z.of_nat (code c) - 48)) by lia.
    split; [intros [F E]; split; [constructor; [lia|exact F]|exact E]|intros [F E]; inversion F; subst; auto].
Qed.
Lemma digits_none ds : digits 0 (String.string_of_list_ascii ds) = None <-> ~ Forall (fun c => (48 <= code c <= 57)%nat) ds.
Proof.
  destruct (digits 0 (String.string_of_list_ascii ds)) eqn:E.
  - apply digits_iff in E as [F _]. split; [discriminate|intros N; destruct (N F)].
  - split; [|reflexivity]. intros _ F. assert (H : digits 0 (String.string_of_list_ascii ds) = Some (decimal ds)) by (apply digits_iff; split; [exact F|reflexivity]). congruence.
Qed.
Lemma number_other c s : c <> "-"%char -> c <> "+"%char -> number (String c s) = digits 0 (String c s).
Proof.
  intros H1 H2. unfold number. destruct c as [[] [] [] [] [] [] [] []]; try reflexivity; exfalso; first [apply H1; reflexivity|apply H2; reflexivity].
Qed.
Lemma sign_code : ~ (48 <= code "-"%char <= 57)%nat /\ ~ (48 <= code "+"%char <= 57)%nat.
Proof. split; intros [H _]; vm_compute in H; lia. Qed.
Lemma number_iff p n : number (String.string_of_list_ascii p) = Some n <->
  exists ds, ds <> [] /\ Forall (fun c => (48 <= code c <= 57)%nat) ds /\ ((p = ds \/ p = "+"%char :: ds) /\ n = decimal ds \/ p = "-"%char :: ds /\ n = - decimal ds).
Proof.
  destruct p as [|c p]; [split; [discriminate|]; intros (ds & N & _ & [[[<-|E] _]|[E _]]); congruence|].
  destruct (Ascii.ascii_dec c "-") as [-> |H1]; [|destruct (Ascii.ascii_dec c "+") as [-> |H2]].
  - destruct p as [|c2 p]; [split; [discriminate|]; intros (ds & N & F & [[[<-|E] _]|[E _]]); [inversion F; subst; destruct sign_code; tauto|discriminate|injection E as <-; congruence]|].
    transitivity (match digits 0 (String.string_of_list_ascii (c2 :: p)) with Some n => Some (- n) | None => None end = Some n); [reflexivity|].
    destruct (digits 0 (String.string_of_list_ascii (c2 :: p))) as [k|] eqn:D.
    + apply digits_iff in D as [F E]. split.
      * intros [= <-]. exists (c2 :: p). split_and!; [discriminate|exact F|right; split; [reflexivity|rewrite E; reflexivity]].
      * intros (ds & N & F' & [[[<-|X] _]|[X Y]]); [inversion F'; subst; destruct sign_code; tauto|discriminate|]. injection X as <-. subst n k. reflexivity.
    + apply digits_none in D. split; [discriminate|]. intros (ds & N & F' & [[[<-|X] _]|[X Y]]); [inversion F'; subst; destruct sign_code; tauto|discriminate|]. injection X as <-. contradiction.
  - destruct p as [|c2 p]; [split; [discriminate|]; intros (ds & N & F & [[[<-|E] _]|[E _]]); [inversion F; subst; destruct sign_code; tauto|injection E as <-; congruence|discriminate]|].
    transitivity (digits 0 (String.string_of_list_ascii (c2 :: p)) = Some n); [reflexivity|]. rewrite digits_iff. split.
    + intros [F E]. exists (c2 :: p). split_and!; [discriminate|exact F|left; split; [right; reflexivity|exact E]].
    + intros (ds & N & F' & [[[<-|X] Y]|[X Y]]); [inversion F'; subst; destruct sign_code; tauto|injection X as <-; auto|discriminate].
  - cbn [String.string_of_list_ascii]. rewrite number_other by assumption. change (String c (String.string_of_list_ascii p)) with (String.string_of_list_ascii (c :: p)). rewrite digits_iff. split.
    + intros [F E]. exists (c :: p). split_and!; [discriminate|exact F|left; split; [left; reflexivity|exact E]].
    + intros (ds & N & F' & [[[<-|X] Y]|[X Y]]); [auto|injection X; congruence|injection X; congruence].
Qed.
Lemma atoi_iff p n : atoi (String.string_of_list_ascii p) = Some n <-> number_text p n.
Proof.
  unfold atoi, number_text. destruct (number (String.string_of_list_ascii p)) as [k|] eqn:E.
  - unfold in_int64, int64. split.
    + destruct (Z.leb_spec (- 2 ^ 63) k); [|discriminate]. destruct (Z.ltb_spec k (2 ^ 63)); [|discriminate]. intros [= <-]. split; [lia|]. apply number_iff, E.
    + intros [R H]. apply number_iff in H. rewrite E in H. injection H as ->. destruct (Z.leb_spec (- 2 ^ 63) n); [|lia]. destruct (Z.ltb_spec n (2 ^ 63)); [reflexivity|lia].
  - split; [discriminate|]. intros [_ H]. apply number_iff in H. congruence.
Qed.
Lemma atoi_none p : atoi (String.string_of_list_ascii p) = None <-> forall n, ~ number_text p n.
Proof.
  destruct (atoi (String.string_of_list_ascii p)) as [n|] eqn:E.
  - split; [discriminate|]. intros H. destruct (H n). apply atoi_iff, E.
  - split; [|reflexivity]. intros _ n H. apply atoi_iff in H. congruence.
Qed.
Lemma endpoints_parsed l eps : parse_endpoints l = Parsed eps <-> Forall2 endpoint_text l eps.
Proof.
  revert eps. induction l as [|e l IH]; intros eps; cbn [parse_endpoints].
  - split; [intros [= <-]; constructor|]. intros H. inversion H. reflexivity.
  - destruct (cut ":" [] e) as [[h p]|] eqn:C.
    + apply cut_some in C as (a & -> & -> & Na). cbn [app]. destruct (atoi (String.string_of_list_ascii p)) as [n|] eqn:A.
      * apply atoi_iff in A. destruct (parse_endpoints l) as [r| |] eqn:P.
        -- split; [intros [= <-]; constructor; [exists p; auto|apply IH; reflexivity]|]. intros H. inversion H as [|? [h' n'] ? r' X Y]; subst. apply IH in Y. injection Y as <-. destruct X as (p' & E & Nh & T). cbn [fst snd] in *.
           assert (U : a = h' /\ p = p').
           { assert (Q : cut ":" [] (a ++ ":"%char :: p)%list = Some (a, p)) by (apply cut_some; exists a; auto). assert (Q' : cut ":" [] (h' ++ ":"%char :: p')%list = Some (h', p')) by (apply cut_some; exists h'; auto). rewrite E in Q. rewrite Q in Q'. injection Q' as -> ->. auto. }
           destruct U as [-> ->]. apply atoi_iff in A, T. rewrite A in T. injection T as ->. reflexivity.
        -- split; [discriminate|]. intros H. inversion H as [|? ? ? ? _ Y]; subst. apply IH in Y. discriminate.
        -- split; [discriminate|]. intros H. inversion H as [|? ? ? ? _ Y]; subst. apply IH in Y. discriminate.
      * split; [discriminate|]. intros H. inversion H as [|? [h' n'] ? ? X _]; subst. destruct X as (p' & E & Nh & T). cbn [fst snd] in *.
        assert (Q : cut ":" [] (a ++ ":"%char :: p)%list = Some (a, p)) by (apply cut_some; exists a; auto). assert (Q' : cut ":" [] (h' ++ ":"%char :: p')%list = Some (h', p')) by (apply cut_some; exists h'; auto). rewrite E in Q. rewrite Q in Q'. injection Q' as -> ->.
        apply atoi_iff in T. congruence.
    + apply cut_none in C. split; [discriminate|]. intros H. inversion H as [|? ? ? ? X _]; subst. destruct X as (p & -> & _). destruct C. apply in_app_iff. right. left. reflexivity.
Qed.
Lemma endpoints_panic l : parse_endpoints l = PPanic <-> exists pre eps e post, l = (pre ++ e :: post)%list /\ Forall2 endpoint_text pre eps /\ no_colon e.
Proof.
  induction l as [|e l IH]; cbn [parse_endpoints].
  - split; [discriminate|]. intros ([|? ?] & ? & ? & ? & H & _); discriminate.
  - destruct (cut ":" [] e) as [[h p]|] eqn:C.
    + assert (Ce : ~ no_colon e). { apply cut_some in C as (a & _ & -> & _). intros H. apply H. apply in_app_iff. right. left. reflexivity. }
      destruct (atoi (String.string_of_list_ascii p)) as [n|] eqn:A.
      * assert (T : endpoint_text e (h, n)). { apply cut_some in C as (a & -> & -> & Na). exists p. split_and!; [reflexivity|exact Na|apply atoi_iff, A]. }
        transitivity (parse_endpoints l = PPanic).
        { destruct (parse_endpoints l); split; try discriminate; reflexivity. }
        rewrite IH. split.
        -- intros (pre & eps & e' & post & -> & F & N). exists (e :: pre), ((h, n) :: eps), e', post. split_and!; [reflexivity|constructor; assumption|exact N].
        -- intros (pre & eps & e' & post & E & F & N). destruct pre as [|x pre]; [injection E as <- _; contradiction|]. injection E as <- ->. inversion F; subst. eauto 7.
      * split; [discriminate|]. intros (pre & eps & e' & post & E & F & N). destruct pre as [|x pre]; [injection E as <- _; contradiction|]. injection E as <- ->. inversion F as [|? [h' n'] ? ? X _]; subst.
        assert (Q : parse_endpoints [e] = Parsed [(h', n')]) by (apply endpoints_parsed; constructor; [exact X|constructor]). cbn [parse_endpoints] in Q. rewrite C, A in Q. discriminate.
    + split; [|reflexivity]. intros _. exists [], [], e, l. split_and!; [reflexivity|constructor|]. apply cut_none in C. exact C.
Qed.
Lemma number_no_colon p n : number_text p n -> no_colon p.
Proof.
  intros (_ & ds & _ & F & H) I. assert (D : ~ In ":"%char ds). { intros J. rewrite List.Forall_forall in F. specialize (F _ J). vm_compute in F. lia. }
  destruct H as [[[-> | ->] _]|[-> _]]; [exact (D I)|destruct I as [I|I]; [discriminate|exact (D I)]|destruct I as [I|I]; [discriminate|exact (D I)]].
Qed.
Lemma two_colons a b c post : no_colon a -> parse_endpoints ((a ++ ":"%char :: b ++ ":"%char :: c)%list :: post) = PErr.
Proof.
  intros N. cbn [parse_endpoints]. assert (Q : cut ":" [] (a ++ ":"%char :: (b ++ ":"%char :: c))%list = Some (a, (b ++ ":"%char :: c)%list)) by (apply cut_some; exists a; auto). rewrite Q.
  assert (A : atoi (String.string_of_list_ascii (b ++ ":"%char :: c)%list) = None).
  { apply atoi_none. intros n H. apply number_no_colon in H. apply H. apply in_app_iff. right. left. reflexivity. }
  rewrite A. reflexivity.
Qed.
Lemma canonical_endpoint host port : no_colon host -> int64 port -> parse_endpoints [(host ++ ":"%char :: t (pretty port))%list] = Parsed [(host, port)].
Proof.
  intros N R. cbn [parse_endpoints]. assert (Q : cut ":" [] (host ++ ":"%char :: t (pretty port))%list = Some (host, t (pretty port))) by (apply cut_some; exists host; auto). rewrite Q.
  unfold t. rewrite String.string_of_list_ascii_of_string, atoi_pretty by exact R. reflexivity.
Qed.
Lemma url_is tls wsock host port path : url_text tls wsock host port path
  = (t (if wsock then (if tls then "wss" else "ws") else (if tls then "https" else "http")) ++ t "://" ++ (host ++ ":"%char :: t (pretty port)) ++ escape keep_path false path)%list.
Proof. unfold url_text. rewrite <- (app_assoc host). reflexivity. Qed.
