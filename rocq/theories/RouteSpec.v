(** C115: which request leads where, said by the URLs alone. *)
From Coq Require Import ZArith String Ascii Bool Lia.
From stdpp Require Import base list numbers strings pretty gmap.
From Verif Require Import CodecModel CodecSpec JsonModel JsonSpec ClientModel ClientSpec.

Local Open Scope string_scope.
Local Open Scope list_scope.

(** [leads q m p a]: a request with method [m] for the path [p], with the id [q] in its
    query, is for [a]. *)
Inductive leads (q : option text) : method -> text -> action -> Prop :=
  | to_list : leads q GET (t "/jobs") AList
  | to_job_page id : good_name id -> leads q GET (t "/jobs/" ++ id) APage
  | to_delete id : good_name id -> leads q DELETE (t "/jobs/" ++ id) (ADelete id)
  | to_watch id : good_name id -> leads q GET (t "/jobs/" ++ id ++ t "/ws") (AWatch id)
  | to_status id : good_name id -> leads q GET (t "/jobs/" ++ id ++ t "/status") (AWatch id)
  | to_create ns : good_name ns -> leads q POST (t "/jobs/namespaces/" ++ ns) (ACreate ns q)
  | to_trace_page : leads q GET (t "/trace") APage
  | to_trace : leads q GET (t "/trace/ws") (ATrace [] [] [])
  | to_ns_page ns : good_name ns -> leads q GET (t "/trace/namespaces/" ++ ns) APage
  | to_ns ns : good_name ns -> leads q GET (t "/trace/namespaces/" ++ ns ++ t "/ws") (ATrace ns [] [])
  | to_pod_page ns pod : good_name ns -> good_name pod ->
      leads q GET (t "/trace/namespaces/" ++ ns ++ t "/pods/" ++ pod) APage
  | to_pod ns pod : good_name ns -> good_name pod ->
      leads q GET (t "/trace/namespaces/" ++ ns ++ t "/pods/" ++ pod ++ t "/ws") (ATrace ns pod [])
  | to_container_page ns pod c : good_name ns -> good_name pod -> good_name c ->
      leads q GET (t "/trace/namespaces/" ++ ns ++ t "/pods/" ++ pod ++ t "/containers/" ++ c) APage
  | to_container ns pod c : good_name ns -> good_name pod -> good_name c ->
      leads q GET (t "/trace/namespaces/" ++ ns ++ t "/pods/" ++ pod ++ t "/containers/" ++ c ++ t "/ws") (ATrace ns pod c)
  | to_metrics m : leads q m (t "/metrics") AMetrics
  | to_charts : leads q GET (t "/metrics/charts/") AMetrics
  | to_sankey : leads q GET (t "/metrics/charts/sankey") AMetrics
  | to_errno : leads q GET (t "/metrics/charts/wc/errno") AMetrics
  | to_class : leads q GET (t "/metrics/charts/wc/class") AMetrics
  | to_cloud : leads q GET (t "/metrics/charts/wc/ns") AMetrics.

(** The answers that are none of these. *)
Definition turned_away (a : action) : Prop := a = ANotFound \/ a = ANotAllowed \/ exists p, a = ARedirect p.
(** What a browser that follows the page at [p] connects to (cmd/server.go 905-922):
    window.location.pathname + "/ws". *)
Definition page_opens (p : text) : text := p ++ t "/ws".

(** A path by its components; "/" at its end is an empty last component. *)
Definition path_of (l : list text) : text := flat_map (fun s => slash :: s) l.
Definition one_component (s : text) : Prop := ~ In slash s.
(** The rules of path.Clean for rooted paths, on components: "//" is "/", "." is left out,
    ".." takes the component before it, and is left out at the start. *)
Inductive simpler : list text -> list text -> Prop :=
  | no_empty a b : simpler (a ++ [] :: b) (a ++ b)
  | no_dot a b : simpler (a ++ t "." :: b) (a ++ b)
  | no_inner a x b : good_name x -> simpler (a ++ x :: t ".." :: b) (a ++ b)
  | no_leading b : simpler (t ".." :: b) b.
(** The path of components [g], with "/" at its end if [sl]. *)
Definition ended (g : list text) (sl : Prop) (p : text) : Prop :=
  (g = [] /\ p = [slash]) \/ (g <> [] /\ sl /\ p = path_of g ++ [slash]) \/ (g <> [] /\ ~ sl /\ p = path_of g).
