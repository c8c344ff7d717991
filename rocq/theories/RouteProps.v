(** C115: which request leads where. *)
From Coq Require Import ZArith String Ascii Bool Lia.
From stdpp Require Import base list numbers strings pretty gmap.
From Verif Require Import CodecModel CodecSpec JsonModel JsonSpec ClientModel ClientSpec ClientProofs ClientTop RouteSpec RouteProofs.

Local Open Scope string_scope.
Local Open Scope list_scope.

(** For every method, path and query the server does what the table of URLs says, or turns
    the request away... *)
Theorem C115_what_is_done_is_what_the_url_says : forall m q p,
  turned_away (serve m q p) \/ leads q m p (serve m q p).
Proof. exact answered. Qed.
(** ... and it turns away no request that is in the table. *)
Theorem C115_every_url_works : forall m q p a, leads q m p a -> serve m q p = a /\ ~ turned_away a.
Proof. exact (fun m q p a H => conj (leads_answer m q p a H) (leads_real q m p a H)). Qed.
(** So a request means one thing. *)
Theorem C115_one_meaning : forall m q p a b, leads q m p a -> leads q m p b -> a = b.
Proof. intros m q p a b A B. rewrite <- (leads_answer _ _ _ _ A). exact (leads_answer _ _ _ _ B). Qed.

(** The page at a path opens the events of the job, namespace, pod or container the path
    names. *)
Theorem C115_pages_open_their_stream : forall q p, serve GET q p = APage ->
  exists a, serve GET q (page_opens p) = a /\
  ((exists id, p = t "/jobs/" ++ id /\ a = AWatch id)
   \/ (p = t "/trace" /\ a = ATrace [] [] [])
   \/ (exists ns, p = t "/trace/namespaces/" ++ ns /\ a = ATrace ns [] [])
   \/ (exists ns pod, p = t "/trace/namespaces/" ++ ns ++ t "/pods/" ++ pod /\ a = ATrace ns pod [])
   \/ (exists ns pod c, p = t "/trace/namespaces/" ++ ns ++ t "/pods/" ++ pod ++ t "/containers/" ++ c /\ a = ATrace ns pod c)).
Proof. exact page_stream. Qed.

(** Every path is its components; a redirect is to the path made of them by the rules of
    path.Clean, with "/" at its end if it was there, or to the same path with the "/" at
    its end put there or left out. *)
Theorem C115_paths_have_components : forall p, exists l, slash :: p = path_of l /\ Forall one_component l /\ l <> [].
Proof. exact path_components. Qed.
Theorem C115_where_redirects_lead : forall m q l p', Forall one_component l -> l <> [] -> serve m q (path_of l) = ARedirect p' ->
  (exists g, rtc simpler l g /\ Forall good_name g /\ ended g (List.last l [] = []) p' /\ p' <> path_of l)
  \/ (p' = path_of l ++ [slash] \/ path_of l = p' ++ [slash]).
Proof. exact redirect_leads. Qed.
(** A path with an empty component (but for one at its end), "." or ".." is redirected. *)
Theorem C115_unclean_paths_are_redirected : forall m q l, Forall one_component l -> l <> [] ->
  (forall g, Forall good_name g -> l <> g /\ l <> g ++ [[]]) -> exists p', serve m q (path_of l) = ARedirect p'.
Proof. exact unclean_redirects. Qed.
(** Nobody is sent around in circles: the third answer is no redirect, whatever methods are
    used. *)
Theorem C115_redirects_end : forall m1 m2 m3 q p p1 p2,
  serve m1 q p = ARedirect p1 -> serve m2 q p1 = ARedirect p2 -> forall p3, serve m3 q p2 <> ARedirect p3.
Proof. exact redirects_end. Qed.
(** What is not found is not there for any method. *)
Theorem C115_not_found_is_not_there : forall m q p, serve m q p = ANotFound ->
  forall m' q', serve m' q' p = ANotFound /\ forall a, ~ leads q' m' p a.
Proof.
  intros m q p E m' q'. split; [exact (not_found_any m q p m' q' E)|]. intros a H.
  apply (leads_real _ _ _ _ H). left. rewrite <- (leads_answer _ _ _ _ H). exact (not_found_any m q p m' q' E).
Qed.

Example C115_nonvacuous :
  leads None GET (t "/trace/namespaces/default/pods/web/ws") (ATrace (t "default") (t "web") [])
  /\ serve GET None (t "/trace/namespaces/default/pods/web") = APage
  /\ serve GET None (t "/trace//namespaces/./default/") = ARedirect (t "/trace/namespaces/default/")
  /\ serve GET None (t "/trace/namespaces/default/") = ARedirect (t "/trace/namespaces/default")
  /\ serve GET None (t "/trace/namespaces/default") = APage
  /\ serve GET None (t "/metrics/charts") = ARedirect (t "/metrics/charts/")
  /\ serve DELETE None (t "/jobs") = ANotAllowed
  /\ serve GET None (t "/jobs/a/b") = ANotFound.
Proof.
  split.
  { change (t "/trace/namespaces/default/pods/web/ws") with (t "/trace/namespaces/" ++ t "default" ++ t "/pods/" ++ t "web" ++ t "/ws").
    apply to_pod; apply fixed_good; (reflexivity || discriminate). }
  vm_compute. repeat split.
Qed.
Example C115_unclean : let l := [t "jobs"; t ".."; t "trace"] in
  Forall one_component l /\ l <> [] /\ (forall g, Forall good_name g -> l <> g /\ l <> g ++ [[]])
  /\ serve GET None (path_of l) = ARedirect (t "/trace").
Proof.
  cbv zeta. split; [|split; [discriminate|split; [|vm_compute; reflexivity]]].
  - repeat (constructor; [intros H; apply elem_of_list_In, elem_of_list_In in H; cbn in H; intuition discriminate|]). constructor.
  - intros g G. split; intros E.
    + subst g. inversion G as [|? ? _ G']; subst. inversion G' as [|? ? (_ & _ & _ & X) _]; subst. exact (X eq_refl).
    + destruct g as [|a [|b [|c [|d g]]]]; discriminate E.
Qed.
Print Assumptions C115_what_is_done_is_what_the_url_says.
Print Assumptions C115_every_url_works.
Print Assumptions C115_one_meaning.
Print Assumptions C115_pages_open_their_stream.
Print Assumptions C115_redirects_end.
Print Assumptions C115_not_found_is_not_there.
Print Assumptions C115_paths_have_components.
Print Assumptions C115_where_redirects_lead.
Print Assumptions C115_unclean_paths_are_redirected.
