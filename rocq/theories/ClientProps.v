(** C70-C73: the client. *)
From Coq Require Import ZArith String Ascii Bool Lia.
From stdpp Require Import base list numbers strings pretty gmap.
From Verif Require Import CodecModel CodecSpec JsonModel JsonSpec JsonProofs ClientModel ClientSpec ClientProofs ClientTop ClientJobs.

Local Open Scope string_scope.
Local Open Scope Z_scope.

(** * C70: what the client asks for is what the server does *)

(** A path or query value of any bytes arrives as it was. *)
Theorem C70_every_name_arrives :
  forall s, unescape false (escape keep_path false s) = Some s /\ unescape true (escape keep_query true s) = Some s.
Proof. exact (fun s => conj (path_roundtrip s) (query_roundtrip s)). Qed.

(** ... and ordinary characters are sent as they are. *)
Definition ordinary (more : string) (s : text) : Prop :=
  Forall (fun c => c ∈ t ("ABCDEFGHIJKLMNOPQRSTUVWXYZabcdefghijklmnopqrstuvwxyz0123456789" +:+ more)) s.
Lemma kept keep plus (l s : text) : forallb keep l = true -> Forall (fun c => c ∈ l) s -> escape keep plus s = s.
Proof.
  intros K. induction 1 as [|c s H F IH]; [reflexivity|]. unfold escape in *. cbn [flat_map]. rewrite IH. unfold escape_char.
  rewrite forallb_forall in K. rewrite (K c ltac:(apply elem_of_list_In; exact H)). reflexivity.
Qed.
Theorem C70_ordinary_names_are_sent_unchanged : forall s,
  (ordinary "-_.~$&+,/:;=@" s -> escape keep_path false s = s) /\ (ordinary "-_.~" s -> escape keep_query true s = s).
Proof. intros s. split; apply kept; vm_compute; reflexivity. Qed.

(** A create asks for a job with the id given (none: the server picks one) in the namespace
    given... *)
Theorem C70_create_is_exact :
  forall id ns, good_name ns -> create_request id ns = [ACreate ns (if text_eqb id [] then None else Some id)].
Proof. exact create_good. Qed.

(** ... never for another one, and it reports success only if the job was created. *)
Theorem C70_create_never_another :
  forall id ns ns' q, In (ACreate ns' q) (create_request id ns) -> ns' = ns /\ q = (if text_eqb id [] then None else Some id) /\ good_name ns.
Proof. exact create_exact. Qed.
Theorem C70_create_success_is_true :
  forall status id ns, serves status -> create_reports_success status id ns = true ->
  In (ACreate ns (if text_eqb id [] then None else Some id)) (create_request id ns) /\ good_name ns.
Proof. exact create_success. Qed.

(** A delete of a good name deletes that job and its answer is the server's... *)
Theorem C70_delete_is_exact :
  forall status id, good_name id -> delete_request id = [ADelete id] /\ (delete_reports_success status id = true <-> status (ADelete id) = 200).
Proof. exact (fun status id G => conj (delete_good id G) (good_success status id G)). Qed.

(** ... and whatever the name, no other job is deleted and none is created. *)
Theorem C70_delete_never_another :
  forall id, (forall id', In (ADelete id') (delete_request id) -> id' = id /\ good_name id) /\ forall a, In a (delete_request id) -> ~ creates a.
Proof. exact (fun id => conj (delete_exact id) (delete_nothing_else id)). Qed.

(** A watch is of the job named, or of none. *)
Theorem C70_watch_is_exact :
  forall id, (good_name id -> watch_request id = AWatch id) /\ forall id', watch_request id = AWatch id' -> id' = id /\ good_name id.
Proof. exact (fun id => conj (watch_good id) (watch_exact id)). Qed.

(** A delete that succeeds has deleted the job: refuted, by a name that ends in "/" and by
    ".". *)
Theorem C70_delete_success_is_true_refuted :
  forall status x, serves status -> good_name x ->
  (delete_reports_success status (x ++ [slash])%list = true /\ forall a, In a (delete_request (x ++ [slash])%list) -> ~ deletes a)
  /\ delete_reports_success status (t ".") = true /\ forall a, In a (delete_request (t ".")) -> ~ deletes a.
Proof. exact (fun status x S G => conj (false_success status x S G) (dot_success status S)). Qed.

(** Every job that can be created can be deleted and watched: refuted, for every id that
    is no good name. *)
Theorem C70_jobs_can_be_deleted_refuted :
  forall id ns, good_name ns -> id <> [] -> ~ good_name id ->
  create_request id ns = [ACreate ns (Some id)] /\ forall id', ~ In (ADelete id) (delete_request id') /\ watch_request id' <> AWatch id.
Proof. exact stuck_job. Qed.

(** A reader of a pod's or container's events gets them: refuted, it never connects. *)
Theorem C70_read_trace_connects_refuted :
  forall ns pod container, read_trace_connects ns pod container = false.
Proof. exact read_trace_never. Qed.

(** What it dials is the path of the stream of these containers, without a scheme; the
    dialer takes only addresses that start with one. *)
Theorem C70_read_trace_dials_a_bare_path :
  forall ns pod container,
  (ns = [] \/ good_name ns) -> (pod = [] \/ good_name pod /\ ns <> []) -> (container = [] \/ good_name container /\ pod <> []) ->
  arrives GET (trace_uri ns pod container) None = ATrace ns pod container /\ exists rest, trace_uri ns pod container = slash :: rest.
Proof.
  intros ns pod container N P C. split; [exact (read_trace_path ns pod container N P C)|]. unfold trace_uri.
  destruct (negb (text_eqb ns []) && negb (text_eqb pod []) && negb (text_eqb container [])); [eexists; reflexivity|].
  destruct (negb (text_eqb ns []) && negb (text_eqb pod []) && text_eqb container []); [eexists; reflexivity|].
  destruct (negb (text_eqb ns []) && text_eqb pod [] && text_eqb container []); eexists; reflexivity.
Qed.
Print Assumptions C70_read_trace_dials_a_bare_path.
Theorem C70_dialer_takes_websocket_addresses :
  forall url, dials url = true <-> exists s rest, url = (s ++ ":"%char :: rest)%list /\ (map lower s = t "ws" \/ map lower s = t "wss").
Proof. exact dials_iff. Qed.
Print Assumptions C70_dialer_takes_websocket_addresses.

(** The page of charts is found without its last "/", and the others with one. *)
Theorem C70_last_slash :
  arrives GET (t "/metrics/charts") None = ARedirect (t "/metrics/charts/") /\ arrives GET (t "/metrics/charts/") None = AMetrics
  /\ arrives GET (t "/jobs/") None = ARedirect (t "/jobs") /\ arrives GET (t "/jobs") None = AList.
Proof. split_and!; vm_compute; reflexivity. Qed.
Print Assumptions C70_last_slash.

(** * C71: endpoints *)

(** The flag is accepted exactly if every entry is "host:port" with a decimal port, and
    the endpoints are these, in order... *)
Theorem C71_endpoints_are_the_ones_given :
  forall l eps, parse_endpoints l = Parsed eps <-> Forall2 endpoint_text l eps.
Proof. exact endpoints_parsed. Qed.

(** ... an endpoint is where requests go... *)
Theorem C71_requests_go_to_the_endpoint :
  forall tls wsock host port path, no_colon host -> int64 port ->
  let e := (host ++ ":"%char :: t (pretty port))%list in
  parse_endpoints [e] = Parsed [(host, port)]
  /\ url_text tls wsock host port path
     = (t (if wsock then (if tls then "wss" else "ws") else (if tls then "https" else "http")) ++ t "://" ++ e ++ escape keep_path false path)%list.
Proof. exact (fun tls wsock host port path N R => conj (canonical_endpoint host port N R) (url_is tls wsock host port path)). Qed.

(** ... an entry that is not one is reported: refuted, the command crashes exactly if the
    first bad entry has no colon... *)
Theorem C71_bad_endpoints_are_reported_refuted :
  forall l, parse_endpoints l = PPanic <-> exists pre eps e post, l = (pre ++ e :: post)%list /\ Forall2 endpoint_text pre eps /\ no_colon e.
Proof. exact endpoints_panic. Qed.

(** ... and a host with a colon (an IPv6 address) cannot be given. *)
Theorem C71_ipv6_hosts_refuted :
  forall a b c post, no_colon a -> parse_endpoints ((a ++ ":"%char :: b ++ ":"%char :: c)%list :: post) = PErr.
Proof. exact two_colons. Qed.

(** * C72: lists of jobs *)

(** For ids that are well-formed text the lists are exactly the server's... *)
Theorem C72_lists_are_the_servers :
  forall (A : Type) walk (running completed : gmap string A), any_order walk -> plain_ids running -> plain_ids completed ->
  client_jobs walk running ≡ₚ (map_to_list running).*2
  /\ client_jobs walk completed ≡ₚ (map_to_list completed).*2
  /\ all_jobs walk running completed ≡ₚ ((map_to_list running).*2 ++ (map_to_list completed).*2)%list.
Proof. exact (fun A walk r c W P Q => conj (jobs_exact walk r W P) (conj (jobs_exact walk c W Q) (all_jobs_exact walk r c W P Q))). Qed.

(** ... for any ids they hold nothing else... *)
Theorem C72_lists_hold_real_jobs :
  forall (A : Type) walk (table : gmap string A), any_order walk ->
  (forall x, In x (client_jobs walk table) -> exists id, table !! id = Some x) /\ (length (client_jobs walk table) <= size table)%nat.
Proof. exact (fun A walk table W => conj (fun x => jobs_real walk table x W) (jobs_at_most walk table W)). Qed.

(** ... but two ids that JSON makes equal cost a job. *)
Theorem C72_lists_are_complete_refuted :
  (forall (A : Type) walk (table : gmap string A) id1 id2 x y, any_order walk -> table !! id1 = Some x -> table !! id2 = Some y -> id1 <> id2 ->
     json_text (bytes_of id1) = json_text (bytes_of id2) -> (length (client_jobs walk table) < size table)%nat)
  /\ exists table : gmap string nat, size table = 2%nat /\ forall walk, any_order walk -> length (client_jobs walk table) = 1%nat.
Proof. exact (conj (@jobs_lost) jobs_lost_witness). Qed.

(** * C73: the create command *)

(** Each part of the specification is the flag's if it was given, else the file's. *)
Theorem C73_flags_override_the_file :
  forall f, let file := default (Spec [] [] [] []) (f_file f) in
  replaces (given_list (f_syscalls f)) (s_syscalls file) (s_syscalls (spec_of f))
  /\ replaces (f_labels f) (s_labels file) (s_labels (spec_of f))
  /\ replaces (f_fields f) (s_fields file) (s_fields (spec_of f))
  /\ replaces (given_list (f_hosts f)) (s_hosts file) (s_hosts (spec_of f)).
Proof. exact spec_exact. Qed.

(** Jobs are created on the endpoints in order; each is read and deleted at most once, on
    its own endpoint or on a later one. *)
Theorem C73_one_shot_bounds :
  forall n acts, let s := oneshot_run n acts in
  o_created s = seq 0 (length (o_created s)) /\ (length (o_created s) <= n)%nat
  /\ NoDup (map fst (o_reads s)) /\ NoDup (map fst (o_deletes s))
  /\ forall i e, In (i, e) (o_reads s) \/ In (i, e) (o_deletes s) -> (i <= e < n)%nat /\ In i (o_created s).
Proof.
  exact (fun n acts => conj (proj1 (created_prefix n acts)) (conj (proj2 (created_prefix n acts)) (conj (proj1 (oneshot_once n acts)) (conj (proj2 (oneshot_once n acts)) (oneshot_bounds n acts))))).
Qed.

(** With one endpoint, and on the last of many, the job is gone when the command is done... *)
Theorem C73_one_endpoint_cleans_up :
  forall acts, complete 1 (oneshot_run 1 acts) -> forall e, ~ left_behind (oneshot_run 1 acts) e.
Proof. exact one_endpoint. Qed.
Theorem C73_last_endpoint_cleans_up :
  forall n acts, complete n (oneshot_run n acts) -> (0 < n)%nat -> ~ left_behind (oneshot_run n acts) (pred n).
Proof. exact last_right. Qed.

(** ... with more it can happen that every job is read from the last endpoint, and that
    only the last endpoint's job is deleted. *)
Theorem C73_one_shot_cleans_up_refuted :
  forall n, exists acts, complete n (oneshot_run n acts)
  /\ (forall i e, In (i, e) (o_reads (oneshot_run n acts)) \/ In (i, e) (o_deletes (oneshot_run n acts)) -> e = pred n)
  /\ forall e, (e < pred n)%nat -> left_behind (oneshot_run n acts) e.
Proof. exact oneshot_refuted. Qed.

(** A create that fails leaves nothing: refuted, the jobs on the endpoints before the one
    that failed stay. *)
Theorem C73_failed_create_leaves_nothing_refuted :
  forall n k, (k < n)%nat -> exists acts, o_created (oneshot_run n acts) = seq 0 k /\ o_exit (oneshot_run n acts) = true
  /\ forall more e, (e < k)%nat -> left_behind (oneshot_run n (acts ++ more)%list) e.
Proof. exact failure_leaves. Qed.

(** * Examples *)

Example C70_example_good : good_name (t "my job?").
Proof. split_and!; [discriminate| |discriminate|discriminate]. cbn. intros H. repeat (destruct H as [H|H]; [discriminate|]). destruct H. Qed.
Example C70_example_bad : t "a/b" <> [] /\ ~ good_name (t "a/b").
Proof. split; [discriminate|]. intros (_ & H & _). apply H. right. left. reflexivity. Qed.
Example C70_example_requests :
  delete_request (t "my job?") = [ADelete (t "my job?")] /\ delete_request (t "a/b") = [ANotFound] /\ delete_request [] = [ANotAllowed]
  /\ delete_request (t "job/") = [ARedirect (t "/jobs/job"); APage] /\ watch_request (t "a/b") = ANotFound
  /\ create_request (t "a/b") (t "default") = [ACreate (t "default") (Some (t "a/b"))] /\ create_request [] (t "x y") = [ACreate (t "x y") None].
Proof. vm_compute. split_and!; reflexivity. Qed.
Definition server_status (a : action) : Z :=
  match a with ACreate _ _ => 201 | ADelete _ | AWatch _ | AList | APage | ATrace _ _ _ | AMetrics => 200 | ARedirect _ => 301 | ANotFound => 404 | ANotAllowed => 405 end.
Example C70_example_status : serves server_status.
Proof. split_and!; try reflexivity. intros [ns id|?|?| | |? ? ?| |?| |]; cbn; try discriminate. intros _. exists ns, id. reflexivity. Qed.
Example C71_example :
  parse_endpoints [t "localhost:9095"; t "10.0.0.1:80"] = Parsed [(t "localhost", 9095); (t "10.0.0.1", 80)]
  /\ parse_endpoints [t "localhost"] = PPanic /\ parse_endpoints [t "[::1]:80"] = PErr /\ parse_endpoints [t "localhost:http"] = PErr
  /\ url_text true true (t "localhost") 9095 (t "/jobs/a b/ws") = t "wss://localhost:9095/jobs/a%20b/ws".
Proof. vm_compute. split_and!; reflexivity. Qed.
Example C72_example : well_formed (bytes_of "job-1") /\ json_text (bytes_of id_fe) = json_text (bytes_of id_ff).
Proof. split; [apply json_text_iff; [apply bytes_of_bytes|vm_compute; reflexivity]|vm_compute; reflexivity]. Qed.
Example C72_example_order : any_order (fun m : gmap (list Z) nat => map_to_list m).
Proof. intros m. reflexivity. Qed.
Example C73_example_flags :
  spec_of (CFlags (Some (Spec [t "read"] [] [] [t "c0"])) [t "open"; t "close"] None None []) = Spec [t "open"; t "close"] [] [] [t "c0"].
Proof. reflexivity. Qed.
Example C73_example_one : let s := oneshot_run 1 [OAssign; OCreate true; OGo 0; OGo 0] in complete 1 s /\ o_deletes s = [(0, 0)]%nat.
Proof. vm_compute. split_and!; try reflexivity. constructor; [reflexivity|constructor]. Qed.
Example C73_example_two : let s := oneshot_run 2 [OAssign; OCreate true; OGo 0; OAssign; OGo 0; OCreate true; OGo 1; OGo 1] in
  complete 2 s /\ o_reads s = [(0, 0); (1, 1)]%nat /\ o_deletes s = [(0, 1); (1, 1)]%nat.
Proof. vm_compute. split_and!; try reflexivity. constructor; [reflexivity|constructor; [reflexivity|constructor]]. Qed.

Print Assumptions C70_every_name_arrives.
Print Assumptions C70_create_is_exact.
Print Assumptions C70_create_never_another.
Print Assumptions C70_create_success_is_true.
Print Assumptions C70_delete_is_exact.
Print Assumptions C70_delete_never_another.
Print Assumptions C70_watch_is_exact.
Print Assumptions C70_delete_success_is_true_refuted.
Print Assumptions C70_jobs_can_be_deleted_refuted.
Print Assumptions C70_read_trace_connects_refuted.
Print Assumptions C71_endpoints_are_the_ones_given.
Print Assumptions C71_requests_go_to_the_endpoint.
Print Assumptions C71_bad_endpoints_are_reported_refuted.
Print Assumptions C71_ipv6_hosts_refuted.
Print Assumptions C72_lists_are_the_servers.
Print Assumptions C72_lists_hold_real_jobs.
Print Assumptions C72_lists_are_complete_refuted.
Print Assumptions C73_flags_override_the_file.
Print Assumptions C73_one_shot_bounds.
Print Assumptions C73_one_endpoint_cleans_up.
Print Assumptions C73_last_endpoint_cleans_up.
Print Assumptions C73_one_shot_cleans_up_refuted.
Print Assumptions C73_failed_create_leaves_nothing_refuted.
