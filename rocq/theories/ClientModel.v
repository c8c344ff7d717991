(** Model of the client: pkg/client/endpoint.go and cmd/client.go, with the routes of
    cmd/server.go 770-887 that its requests meet.

    Texts are lists of bytes. The rules of net/url (escaping), gorilla/mux (cleaning of
    paths, variables, StrictSlash) and net/http (redirects) are taken from the sources of
    these libraries; the network and the JSON of trace specifications are left out. *)
From Coq Require Import ZArith String Ascii Bool Lia.
From stdpp Require Import base list numbers strings pretty gmap.
From Verif Require Import CodecModel JsonModel.

Local Open Scope string_scope.
Local Open Scope Z_scope.

Notation text := (list ascii).
Definition t (s : string) : text := String.list_ascii_of_string s.
Definition slash : ascii := "/"%char.

(** * net/url *)

Definition code (c : ascii) : nat := Ascii.nat_of_ascii c.
Definition alnum (c : ascii) : bool :=
  (Nat.leb 48 (code c) && Nat.leb (code c) 57) || (Nat.leb 65 (code c) && Nat.leb (code c) 90) || (Nat.leb 97 (code c) && Nat.leb (code c) 122).
(** shouldEscape for paths, and for query values *)
Definition keep_path (c : ascii) : bool := alnum c || existsb (Ascii.eqb c) (t "-_.~$&+,/:;=@").
Definition keep_query (c : ascii) : bool := alnum c || existsb (Ascii.eqb c) (t "-_.~").
Definition upper_hex (n : nat) : ascii := Ascii.ascii_of_nat (if Nat.ltb n 10 then 48 + n else 55 + n).
Definition unhex (c : ascii) : option nat :=
  if Nat.leb 48 (code c) && Nat.leb (code c) 57 then Some (code c - 48)%nat
  else if Nat.leb 97 (code c) && Nat.leb (code c) 102 then Some (code c - 87)%nat
  else if Nat.leb 65 (code c) && Nat.leb (code c) 70 then Some (code c - 55)%nat
  else None.
(** escape; [plus]: a space becomes "+" (query values) *)
Definition escape_char (keep : ascii -> bool) (plus : bool) (c : ascii) : text :=
  if keep c then [c]
  else if plus && Ascii.eqb c " " then ["+"%char]
  else ["%"%char; upper_hex (Nat.div (code c) 16); upper_hex (Nat.modulo (code c) 16)].
Definition escape (keep : ascii -> bool) (plus : bool) (s : text) : text := flat_map (escape_char keep plus) s.
(** unescape; [None] is an error *)
Fixpoint unescape (plus : bool) (s : text) : option text :=
  match s with
  | [] => Some []
  | c :: s' =>
      if Ascii.eqb c "%" then
        match s' with
        | h :: l :: r =>
            match unhex h, unhex l, unescape plus r with
            | Some a, Some b, Some x => Some (Ascii.ascii_of_nat (16 * a + b) :: x)
            | _, _, _ => None
            end
        | _ => None
        end
      else
        match unescape plus s' with
        | Some x => Some ((if plus && Ascii.eqb c "+" then " "%char else c) :: x)
        | None => None
        end
  end.
(** getscheme: the scheme of a URL, "" if it has none *)
Fixpoint scheme_from (first : bool) (acc s : text) : option text :=
  match s with
  | [] => Some []
  | c :: s' =>
      let n := code c in
      if (Nat.leb 65 n && Nat.leb n 90) || (Nat.leb 97 n && Nat.leb n 122) then scheme_from false (acc ++ [c])%list s'
      else if (Nat.leb 48 n && Nat.leb n 57) || existsb (Ascii.eqb c) (t "+-.") then (if first then Some [] else scheme_from false (acc ++ [c])%list s')
      else if Ascii.eqb c ":" then (if first then None else Some acc)
      else Some []
  end.
Definition scheme_of (url : text) : option text := scheme_from true [] url.

(** * The router *)

Fixpoint split_on (sep : ascii) (acc s : text) : list text :=
  match s with
  | [] => [acc]
  | c :: s' => if Ascii.eqb c sep then acc :: split_on sep [] s' else split_on sep (acc ++ [c])%list s'
  end.
Definition split (s : text) : list text := split_on slash [] s.
Definition text_eqb (a b : text) : bool := bool_decide (a = b).
(** path.Clean of a rooted path, by its components *)
Fixpoint clean_segs (stack segs : list text) : list text :=
  match segs with
  | [] => rev stack
  | s :: r =>
      if text_eqb s [] || text_eqb s (t ".") then clean_segs stack r
      else if text_eqb s (t "..") then clean_segs (List.tl stack) r
      else clean_segs (s :: stack) r
  end.
Definition show (segs : list text) : text :=
  match segs with [] => [slash] | _ => flat_map (fun s => slash :: s) segs end.
(** cleanPath (gorilla/mux): a trailing slash stays. All paths here start with "/". *)
Definition clean_path (p : text) : text :=
  let np := show (clean_segs [] (split (List.tl p))) in
  if Ascii.eqb (List.last p slash) slash && negb (text_eqb np [slash]) then (np ++ [slash])%list else np.

(** What a request leads to. *)
Inductive action :=
  | ACreate (ns : text) (id : option text)      (* POST /jobs/namespaces/{ns} *)
  | ADelete (id : text)                         (* DELETE /jobs/{id} *)
  | AWatch (id : text)                          (* GET /jobs/{id}/ws, /jobs/{id}/status *)
  | AList                                       (* GET /jobs *)
  | APage                                       (* websockRedir: a page, always 200 (905-922) *)
  | ATrace (ns pod container : text)            (* GET /trace.../ws *)
  | AMetrics
  | ARedirect (p : text)                        (* 301 *)
  | ANotFound                                   (* 404 *)
  | ANotAllowed.                                (* 405 *)
Inductive method := GET | POST | DELETE.
Definition method_eqb (a b : method) : bool :=
  match a, b with GET, GET | POST, POST | DELETE, DELETE => true | _, _ => false end.

Inductive pseg := L (s : text) | V.
(** a route: methods (none: all), components, whether the template ends in "/" *)
Record rt := Rt { r_methods : list method; r_pat : list pseg; r_slash : bool; r_do : option text -> list text -> action }.
Definition lit (s : string) : pseg := L (t s).
Definition var (vs : list text) (k : nat) : text := nth k vs [].
(** cmd/server.go 806-885 *)
Definition routes : list rt := [
  Rt [GET] [lit "jobs"] false (fun _ _ => AList);
  Rt [GET] [lit "jobs"; V] false (fun _ _ => APage);
  Rt [DELETE] [lit "jobs"; V] false (fun _ vs => ADelete (var vs 0));
  Rt [GET] [lit "jobs"; V; lit "ws"] false (fun _ vs => AWatch (var vs 0));
  Rt [GET] [lit "jobs"; V; lit "status"] false (fun _ vs => AWatch (var vs 0));
  Rt [POST] [lit "jobs"; lit "namespaces"; V] false (fun q vs => ACreate (var vs 0) q);
  Rt [GET] [lit "trace"] false (fun _ _ => APage);
  Rt [GET] [lit "trace"; lit "ws"] false (fun _ _ => ATrace [] [] []);
  Rt [GET] [lit "trace"; lit "namespaces"; V] false (fun _ _ => APage);
  Rt [GET] [lit "trace"; lit "namespaces"; V; lit "ws"] false (fun _ vs => ATrace (var vs 0) [] []);
  Rt [GET] [lit "trace"; lit "namespaces"; V; lit "pods"; V] false (fun _ _ => APage);
  Rt [GET] [lit "trace"; lit "namespaces"; V; lit "pods"; V; lit "ws"] false (fun _ vs => ATrace (var vs 0) (var vs 1) []);
  Rt [GET] [lit "trace"; lit "namespaces"; V; lit "pods"; V; lit "containers"; V] false (fun _ _ => APage);
  Rt [GET] [lit "trace"; lit "namespaces"; V; lit "pods"; V; lit "containers"; V; lit "ws"] false (fun _ vs => ATrace (var vs 0) (var vs 1) (var vs 2));
  Rt [] [lit "metrics"] false (fun _ _ => AMetrics);
  Rt [GET] [lit "metrics"; lit "charts"] true (fun _ _ => AMetrics);
  Rt [GET] [lit "metrics"; lit "charts"; lit "sankey"] false (fun _ _ => AMetrics);
  Rt [GET] [lit "metrics"; lit "charts"; lit "wc"; lit "errno"] false (fun _ _ => AMetrics);
  Rt [GET] [lit "metrics"; lit "charts"; lit "wc"; lit "class"] false (fun _ _ => AMetrics);
  Rt [GET] [lit "metrics"; lit "charts"; lit "wc"; lit "ns"] false (fun _ _ => AMetrics)].

(** a component variable is [^/]+ *)
Fixpoint match_segs (pat : list pseg) (segs : list text) : option (list text) :=
  match pat, segs with
  | [], [] => Some []
  | L s :: pat', x :: segs' => if text_eqb s x then match_segs pat' segs' else None
  | V :: pat', x :: segs' =>
      if text_eqb x [] then None else match match_segs pat' segs' with Some vs => Some (x :: vs) | None => None end
  | _, _ => None
  end.
(** the components of a path and whether it ends in "/" *)
Definition segments (p : text) : list text * bool :=
  let l := split (List.tl p) in
  if text_eqb (List.last l []) [] then (removelast l, true) else (l, false).
(** the first route whose path and method match; one whose path matches but for the last
    "/" redirects (StrictSlash) *)
Definition flip (p : text) (has : bool) : text := if has then removelast p else (p ++ [slash])%list.
Fixpoint find_route (rs : list rt) (seen : bool) (m : method) (q : option text) (p : text) : action :=
  match rs with
  | [] => if seen then ANotAllowed else ANotFound
  | r :: rs' =>
      let '(segs, sl) := segments p in
      match match_segs (r_pat r) segs with
      | None => find_route rs' seen m q p
      | Some vs =>
          match r_methods r with
          | [] => if Bool.eqb sl (r_slash r) then r_do r q vs else ARedirect (flip p sl)
          | ms => if existsb (method_eqb m) ms then (if Bool.eqb sl (r_slash r) then r_do r q vs else ARedirect (flip p sl)) else find_route rs' true m q p
          end
      end
  end.
(** Router.ServeHTTP: a path that is not clean redirects *)
Definition serve (m : method) (q : option text) (p : text) : action :=
  if text_eqb (clean_path p) p then find_route routes false m q p else ARedirect (clean_path p).

(** * Requests of the client *)

(** What arrives of a request for [path] with the query [id=...]: the path as the
    server decodes it. The query of a server is read by [query_of]. *)
Definition arrives (m : method) (path : text) (query : option text) : action :=
  match unescape false (escape keep_path false path) with
  | None => ANotFound
  | Some p => serve m query p
  end.
(** args.Encode (endpoint.go 104-109) and r.URL.Query()["id"] (server.go 336-345): an
    empty id is not sent *)
Definition query_of (id : text) : option text :=
  if text_eqb id [] then None else unescape true (escape keep_query true id).

(** net/http Client.Do: a redirect is followed, at most ten times, with GET *)
Fixpoint follow (n : nat) (m : method) (query : option text) (path : text) : list action :=
  match arrives m path query with
  | ARedirect p => match n with O => [ARedirect p] | S n' => ARedirect p :: follow n' GET query p end
  | a => [a]
  end.
(** endpoint.go 96, 240, 251 *)
Definition create_path (ns : text) : text := (t "/jobs/namespaces/" ++ ns)%list.
Definition watch_path (id : text) : text := (t "/jobs/" ++ id ++ t "/ws")%list.
Definition delete_path (id : text) : text := (t "/jobs/" ++ id)%list.
(** What the requests of CreateTrace (90-116), DeleteTraceJob (249-259) and the dialer of
    ReadTraceJob (239-243), which follows no redirect, lead to. *)
Definition create_request (id ns : text) : list action := follow 10 POST (query_of id) (create_path ns).
Definition delete_request (id : text) : list action := follow 10 DELETE None (delete_path id).
Definition watch_request (id : text) : action := arrives GET (watch_path id) None.
(** DeleteTraceJob reports success if the last answer was 200 (261-265). [status] is what
    the server answers to an action. *)
Definition delete_reports_success (status : action -> Z) (id : text) : bool :=
  status (List.last (delete_request id) ANotFound) =? 200.
(** CreateTrace: if it was 201 (126-135) *)
Definition create_reports_success (status : action -> Z) (id ns : text) : bool :=
  status (List.last (create_request id ns) ANotFound) =? 201.
(** ReadTrace (endpoint.go 273-297): what is dialed; the dialer of gorilla/websocket takes
    only URLs of the schemes ws and wss *)
Definition trace_uri (ns pod container : text) : text :=
  if negb (text_eqb ns []) && negb (text_eqb pod []) && negb (text_eqb container []) then
    (t "/trace/namespaces/" ++ ns ++ t "/pods/" ++ pod ++ t "/containers/" ++ container ++ t "/ws")%list
  else if negb (text_eqb ns []) && negb (text_eqb pod []) && text_eqb container [] then
    (t "/trace/namespaces/" ++ ns ++ t "/pods/" ++ pod ++ t "/ws")%list
  else if negb (text_eqb ns []) && text_eqb pod [] && text_eqb container [] then (t "/trace/namespaces/" ++ ns ++ t "/ws")%list
  else t "/trace/ws".
Definition is_letter (c : ascii) : bool := (Nat.leb 65 (code c) && Nat.leb (code c) 90) || (Nat.leb 97 (code c) && Nat.leb (code c) 122).
(** strings.ToLower of a scheme, in url.Parse *)
Definition lower (c : ascii) : ascii := if Nat.leb 65 (code c) && Nat.leb (code c) 90 then Ascii.ascii_of_nat (code c + 32) else c.
Definition dials (url : text) : bool :=
  match scheme_of url with Some s => text_eqb (map lower s) (t "ws") || text_eqb (map lower s) (t "wss") | None => false end.
Definition read_trace_connects (ns pod container : text) : bool := dials (trace_uri ns pod container).

(** * Endpoints (cmd/client.go 382-409) *)

Inductive parsed (A : Type) := Parsed (x : A) | PErr | PPanic.
Arguments Parsed {A} _. Arguments PErr {A}. Arguments PPanic {A}.
(** strings.SplitN(s, ":", 2) *)
Fixpoint cut (sep : ascii) (acc s : text) : option (text * text) :=
  match s with
  | [] => None
  | c :: s' => if Ascii.eqb c sep then Some (acc, s') else cut sep (acc ++ [c])%list s'
  end.
Fixpoint parse_endpoints (l : list text) : parsed (list (text * Z)) :=
  match l with
  | [] => Parsed []
  | e :: l' =>
      match cut ":" [] e with
      | None => PPanic
      | Some (host, port) =>
          match atoi (String.string_of_list_ascii port) with
          | None => PErr
          | Some n => match parse_endpoints l' with Parsed r => Parsed ((host, n) :: r) | x => x end
          end
      end
  end.
(** Endpoint.URL (endpoint.go 63-85) as text; hosts with characters that are escaped are
    left out *)
Definition url_text (tls wsock : bool) (host : text) (port : Z) (path : text) : text :=
  (t (if wsock then (if tls then "wss" else "ws") else (if tls then "https" else "http")) ++ t "://" ++ host ++ t ":" ++ t (pretty port) ++ escape keep_path false path)%list.

(** * Lists of jobs *)

(** The two tables as the server writes them (server.go 291-303): one member per job,
    sorted by id; ids go through JSON (JsonModel.v). [J] is the trace of a job. *)
Definition bytes_of (s : string) : list Z := map (fun c => Z.of_N (Ascii.N_of_ascii c)) (t s).
Definition table_json {A} (entries : list (string * A)) : list (list Z * A) := map (fun e => (json_text (bytes_of e.1), e.2)) entries.
(** json.Unmarshal into a map: the last member of a key stays (endpoint.go 347-351) *)
Definition client_table {A} (members : list (list Z * A)) : gmap (list Z) A :=
  fold_left (fun m e => <[e.1 := e.2]> m) members ∅.
(** getJobs (353-361): the map is walked in any order *)
Definition client_jobs {A} (walk : gmap (list Z) A -> list (list Z * A)) (table : gmap string A) : list A :=
  (walk (client_table (table_json (map_to_list table)))).*2.
(** AllJobs (318-329) *)
Definition all_jobs {A} (walk : gmap (list Z) A -> list (list Z * A)) (running completed : gmap string A) : list A :=
  (client_jobs walk running ++ client_jobs walk completed)%list.

(** * The create command *)

(** The trace specification that is sent (cmd/client.go 199-236): what the file says, and
    what a flag says instead. Selectors are left as texts. *)
Record spec := Spec { s_syscalls : list text; s_labels : list (text * text); s_fields : list (text * text); s_hosts : list text }.
Record create_flags := CFlags { f_file : option spec; f_syscalls : list text; f_labels : option (list (text * text)); f_fields : option (list (text * text)); f_hosts : list text }.
Definition spec_of (f : create_flags) : spec :=
  let s0 := default (Spec [] [] [] []) (f_file f) in
  let s1 := match f_syscalls f with [] => s0 | l => Spec l (s_labels s0) (s_fields s0) (s_hosts s0) end in
  let s2 := match f_labels f with None => s1 | Some l => Spec (s_syscalls s1) l (s_fields s1) (s_hosts s1) end in
  let s3 := match f_fields f with None => s2 | Some l => Spec (s_syscalls s2) (s_labels s2) l (s_hosts s2) end in
  match f_hosts f with [] => s3 | l => Spec (s_syscalls s3) (s_labels s3) (s_fields s3) l end.

(** The loop over the endpoints with --oneshot (cmd/client.go 262-286). [ep], the loop's
    variable, is one variable for all iterations (go.mod: go 1.13), and the goroutines read
    it when they run. Endpoints are numbered. *)
Inductive gpc := GStart | GReading | GDone.
Record oneshot := Oneshot {
  o_next : nat;                    (* the endpoint of the next iteration, or of this one *)
  o_busy : bool;                   (* an iteration has set [ep] and is creating the job *)
  o_var : nat;                     (* what [ep] holds *)
  o_exit : bool;                   (* log.Fatal: the program has ended *)
  o_created : list nat;            (* endpoints a job was created on, in order *)
  o_threads : list gpc;            (* one goroutine per created job *)
  o_reads : list (nat * nat);      (* goroutine, endpoint it reads its job from *)
  o_deletes : list (nat * nat) }.  (* goroutine, endpoint it deletes its job on *)
(** The next iteration sets [ep] (262); CreateTrace succeeds or fails (263-266), and the
    goroutine is started (274); goroutine [i] calls ReadTraceJob (275); its ReadTraceJob
    has returned and it calls DeleteTraceJob (279). *)
Inductive ostep := OAssign | OCreate (ok : bool) | OGo (i : nat).
Definition ostart : oneshot := Oneshot 0 false 0 false [] [] [] [].
Definition ostep_do (n : nat) (s : oneshot) (a : ostep) : oneshot :=
  if o_exit s then s
  else
    match a with
    | OAssign =>
        if negb (o_busy s) && Nat.ltb (o_next s) n then
          Oneshot (o_next s) true (o_next s) false (o_created s) (o_threads s) (o_reads s) (o_deletes s)
        else s
    | OCreate ok =>
        if o_busy s then
          if ok then Oneshot (S (o_next s)) false (o_var s) false (o_created s ++ [o_var s]) (o_threads s ++ [GStart]) (o_reads s) (o_deletes s)
          else Oneshot (o_next s) false (o_var s) true (o_created s) (o_threads s) (o_reads s) (o_deletes s)
        else s
    | OGo i =>
        match o_threads s !! i with
        | Some GStart => Oneshot (o_next s) (o_busy s) (o_var s) false (o_created s) (<[i := GReading]> (o_threads s)) (o_reads s ++ [(i, o_var s)]) (o_deletes s)
        | Some GReading => Oneshot (o_next s) (o_busy s) (o_var s) false (o_created s) (<[i := GDone]> (o_threads s)) (o_reads s) (o_deletes s ++ [(i, o_var s)])
        | _ => s
        end
    end.
Definition oneshot_run (n : nat) (acts : list ostep) : oneshot := fold_left (ostep_do n) acts ostart.
