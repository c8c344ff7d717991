(** Model of the way from a Trace resource to the requests its job makes:
    internal/pkg/controller/trace.go createJobResource (38-86), cmd/controller.go
    (95-104), then the arguments of the container, `swoll client create`, as
    cmd/client.go reads them (137-258, 380-425).

    Texts are lists of bytes (ClientModel.v). The rules of encoding/csv, pflag 1.0.5
    and k8s.io/apimachinery 0.18 (labels, validation) follow the sources of these
    libraries; white space is that of ASCII. Kubernetes' expansion of $(NAME) in
    arguments is left out. *)
From Coq Require Import ZArith String Ascii Bool Lia.
From stdpp Require Import base list sorting numbers strings pretty gmap.
From Verif Require Import CodecModel JsonModel ClientModel.

Local Open Scope string_scope.
Local Open Scope Z_scope.

Definition quote : ascii := "034"%char.
Definition comma : ascii := ","%char.
Definition lf : ascii := "010"%char.
Definition cr : ascii := "013"%char.

(** strings.Join *)
Fixpoint join (sep : text) (l : list text) : text :=
  match l with
  | [] => []
  | [a] => a
  | a :: r => (a ++ sep ++ join sep r)%list
  end.

(** * encoding/csv *)

(** Reader.readLine: CR LF is LF, and a CR at the very end goes. *)
Fixpoint newlines (s : text) : text :=
  match s with
  | [] => []
  | c :: r =>
      if Ascii.eqb c cr then
        match r with
        | [] => []
        | d :: _ => if Ascii.eqb d lf then newlines r else c :: newlines r
        end
      else c :: newlines r
  end.
Fixpoint skip_empty (s : text) : text :=
  match s with
  | c :: r => if Ascii.eqb c lf then skip_empty r else s
  | [] => []
  end.
(** Reader.readRecord, the first record: at the start of a field, in a bare field, in a
    quoted one, after a quote in it. [None] is an error. *)
Inductive mode := AtStart | Bare | Quoted | AfterQuote.
Definition field (f : text) (o : option (list text)) : option (list text) :=
  match o with Some l => Some (f :: l) | None => None end.
Fixpoint record (m : mode) (cur s : text) : option (list text) :=
  match s with
  | [] => match m with Quoted => None | _ => Some [cur] end
  | c :: r =>
      match m with
      | AtStart | Bare =>
          if Ascii.eqb c quote then match m with AtStart => record Quoted [] r | _ => None end
          else if Ascii.eqb c comma then field cur (record AtStart [] r)
          else if Ascii.eqb c lf then Some [cur]
          else record Bare (cur ++ [c])%list r
      | Quoted =>
          if Ascii.eqb c quote then record AfterQuote cur r
          else record Quoted (cur ++ [c])%list r
      | AfterQuote =>
          if Ascii.eqb c quote then record Quoted (cur ++ [c])%list r
          else if Ascii.eqb c comma then field cur (record AtStart [] r)
          else if Ascii.eqb c lf then Some [cur]
          else None
      end
  end.
(** Reader.Read; nothing but empty lines is io.EOF. *)
Definition csv_read (s : text) : option (list text) :=
  match skip_empty (newlines s) with [] => None | s => record AtStart [] s end.

(** Writer.fieldNeedsQuotes, Writer.Write *)
Definition space (c : ascii) : bool :=
  let n := code c in (Nat.eqb n 32 || (Nat.leb 9 n && Nat.leb n 13)).
Definition has (c : ascii) (s : text) : bool := existsb (Ascii.eqb c) s.
Definition needs_quotes (f : text) : bool :=
  match f with
  | [] => false
  | c :: _ => bool_decide (f = t "\.") || has comma f || has quote f || has cr f || has lf f || space c
  end.
Definition quoted (f : text) : text := flat_map (fun c => if Ascii.eqb c quote then [quote; quote] else [c]) f.
Definition csv_field (f : text) : text :=
  if needs_quotes f then ([quote] ++ quoted f ++ [quote])%list else f.
Definition csv_write (l : list text) : text := join [comma] (map csv_field l).

(** * pflag *)

(** string_slice.go, readAsCSV and Set: the first Set replaces the default, others add.
    [None]: not set yet. *)
Definition read_as_csv (v : text) : option (list text) :=
  match v with [] => Some [] | _ => csv_read v end.
Definition slice_set (old : option (list text)) (v : text) : option (list text) :=
  match read_as_csv v with
  | Some l => Some (match old with None => l | Some o => (o ++ l)%list end)
  | None => None
  end.
(** GetStringSlice: String() writes the value as CSV between brackets, stringSliceConv
    reads that. All the defaults are empty. *)
Definition slice_get (v : option (list text)) : option (list text) :=
  match csv_write (default [] v) with [] => Some [] | s => read_as_csv s end.

(** The flags of `client create` (client.go 413-425). *)
Record flags := Flags {
  g_endpoints : option (list text); g_syscalls : option (list text); g_hosts : option (list text);
  g_tls : bool; g_oneshot : bool;
  g_output : text; g_ns : text; g_file : text; g_jobid : text; g_labels : text; g_fields : text }.
Definition no_flags : flags := Flags None None None false false (t "json") [] [] [] [] [].
(** strconv.ParseBool *)
Definition parse_bool (v : text) : option bool :=
  if existsb (text_eqb v) (map t ["1"; "t"; "T"; "true"; "TRUE"; "True"]) then Some true
  else if existsb (text_eqb v) (map t ["0"; "f"; "F"; "false"; "FALSE"; "False"]) then Some false
  else None.
(** FlagSet.Set by name. [None]: no such flag (those of root.go 86-98 are left out), or the
    value is refused. *)
Definition set_flag (f : flags) (name v : text) : option flags :=
  match f with
  | Flags e s h tls o out ns file j l fl =>
      if text_eqb name (t "endpoints") then
        match slice_set e v with Some e => Some (Flags (Some e) s h tls o out ns file j l fl) | None => None end
      else if text_eqb name (t "syscalls") then
        match slice_set s v with Some s => Some (Flags e (Some s) h tls o out ns file j l fl) | None => None end
      else if text_eqb name (t "match-hosts") then
        match slice_set h v with Some h => Some (Flags e s (Some h) tls o out ns file j l fl) | None => None end
      else if text_eqb name (t "use-tls") then
        match parse_bool v with Some b => Some (Flags e s h b o out ns file j l fl) | None => None end
      else if text_eqb name (t "oneshot") then
        match parse_bool v with Some b => Some (Flags e s h tls b out ns file j l fl) | None => None end
      else if text_eqb name (t "output") then Some (Flags e s h tls o v ns file j l fl)
      else if text_eqb name (t "namespace") then Some (Flags e s h tls o out v file j l fl)
      else if text_eqb name (t "file") then Some (Flags e s h tls o out ns v j l fl)
      else if text_eqb name (t "jobid") then Some (Flags e s h tls o out ns file v l fl)
      else if text_eqb name (t "label-selector") then Some (Flags e s h tls o out ns file j v fl)
      else if text_eqb name (t "field-selector") then Some (Flags e s h tls o out ns file j l v)
      else None
  end.
Definition is_bool (name : text) : bool := existsb (text_eqb name) (map t ["use-tls"; "oneshot"]).
(** FlagSet.parseArgs, parseLongArg. One-letter flags are left out (an error). *)
Fixpoint parse_args (f : flags) (args : list text) : option flags :=
  match args with
  | [] => Some f
  | a :: rest =>
      match a with
      | "-"%char :: "-"%char :: name =>
          match name with
          | [] => Some f
          | "-"%char :: _ | "="%char :: _ => None
          | _ =>
              match cut "=" [] name with
              | Some (n, v) => match set_flag f n v with Some f => parse_args f rest | None => None end
              | None =>
                  if is_bool name
                  then match set_flag f name (t "true") with Some f => parse_args f rest | None => None end
                  else match rest with
                       | v :: rest => match set_flag f name v with Some f => parse_args f rest | None => None end
                       | [] => None
                       end
              end
          end
      | "-"%char :: _ :: _ => None
      | _ => parse_args f rest
      end
  end.

(** * apimachinery *)

(** Set.String (labels.go): sorted by key=value *)
Fixpoint text_leb (a b : text) : bool :=
  match a, b with
  | [], _ => true
  | _, [] => false
  | x :: a, y :: b => if Nat.ltb (code x) (code y) then true else if Nat.ltb (code y) (code x) then false else text_leb a b
  end.
Definition text_le (a b : text) : Prop := text_leb a b = true.
Global Instance text_le_dec : RelDecision text_le.
Proof. intros a b. unfold text_le. apply _. Defined.
Definition pair_text (kv : text * text) : text := (kv.1 ++ t "=" ++ kv.2)%list.
Definition set_string (m : gmap text text) : text :=
  join [comma] (merge_sort text_le (map pair_text (map_to_list m))).

(** validation.go: IsQualifiedName, IsValidLabelValue, IsDNS1123Subdomain, IsDNS1123Label *)
Definition lower (c : ascii) : bool :=
  let n := code c in (Nat.leb 97 n && Nat.leb n 122) || (Nat.leb 48 n && Nat.leb n 57).
(** first and last of one class, the rest of another *)
Definition edged (edge inner : ascii -> bool) (s : text) : bool :=
  match s with
  | [] => false
  | c :: _ => edge c && (match last s with Some d => edge d | None => false end) && forallb inner s
  end.
Definition name_char (c : ascii) : bool := alnum c || existsb (Ascii.eqb c) (t "-_.").
Definition label_value (s : text) : bool :=
  (length s <=? 63)%nat && match s with [] => true | _ => edged alnum name_char s end.
Definition label_name (s : text) : bool := (length s <=? 63)%nat && edged alnum name_char s.
Definition dns_label_chars (s : text) : bool := edged lower (fun c => lower c || Ascii.eqb c "-") s.
Definition dns_label (s : text) : bool := (length s <=? 63)%nat && dns_label_chars s.
Definition dns_subdomain (s : text) : bool :=
  (length s <=? 253)%nat && forallb dns_label_chars (split_on "." [] s).
Definition label_key (s : text) : bool :=
  match split_on slash [] s with
  | [n] => label_name n
  | [p; n] => negb (text_eqb p []) && dns_subdomain p && label_name n
  | _ => false
  end.
(** strings.TrimSpace *)
Fixpoint trim_left (s : text) : text :=
  match s with c :: r => if space c then trim_left r else s | [] => [] end.
Definition trim (s : text) : text := rev (trim_left (rev (trim_left s))).
(** ConvertSelectorToLabelsMap (labels.go) *)
Fixpoint pairs_of (l : list text) (m : gmap text text) : option (gmap text text) :=
  match l with
  | [] => Some m
  | p :: l =>
      match split_on "=" [] p with
      | [k; v] => if label_key (trim k) && label_value (trim v) then pairs_of l (<[trim k := trim v]> m) else None
      | _ => None
      end
  end.
Definition selector_map (s : text) : option (gmap text text) :=
  match s with [] => Some ∅ | _ => pairs_of (split_on comma [] s) ∅ end.

(** * The controller *)

(** Trace (api/v1alpha1/trace_types.go 36-68): what can be asked for. [tr_expr] stands for
    the expressions a label selector may have next to its labels. *)
Record trace := Trace {
  tr_name : text; tr_ns : text; tr_labels : gmap text text; tr_expr : list text;
  tr_fields : gmap text text; tr_hosts : list text; tr_syscalls : list text; tr_rate : Z }.

(** trace.go 39-43: the default system call, and the id; [u] is the end made up for it *)
Definition job_syscalls (x : trace) : list text :=
  match tr_syscalls x with [] => [t "sys_execve"] | l => l end.
Definition job_id (x : trace) (u : text) : text := (tr_name x ++ t "-" ++ u)%list.
(** 61-73: the arguments *)
Definition job_args (endpoints : list text) (x : trace) (u : text) : list text :=
  [ t "client"; t "create";
    t "--endpoints"; ([quote] ++ join [comma] endpoints ++ [quote])%list;
    t "--syscalls"; join [comma] (job_syscalls x);
    t "--match-hosts"; ([quote] ++ join [comma] (tr_hosts x) ++ [quote])%list;
    t "--label-selector"; set_string (tr_labels x);
    t "--field-selector"; set_string (tr_fields x);
    t "--namespace"; tr_ns x;
    t "--jobid"; job_id x u;
    t "--oneshot" ].
(** 57, 80-81: the name of the container and the labels of the pod *)
Definition container_name (x : trace) : text := (t "sw-" ++ tr_name x)%list.
Definition pod_labels (x : trace) : gmap text text :=
  let m : gmap text text := <[t "swoll" := t "false"]> ∅ in   (* 51 *)
  let m : gmap text text := ∅ in                              (* 80 *)
  <[t "sw-job" := tr_name x]> m.
(** What the API server checks of a job's template, as far as it depends on the trace:
    container names are DNS labels, labels are labels (validation.go of core). *)
Definition job_accepted (x : trace) : bool :=
  dns_label (container_name x) &&
  forallb (fun kv => label_key kv.1 && label_value kv.2) (map_to_list (pod_labels x)).

(** cmd/controller.go 95-104: the flag, or the first address of each node. [None]: a node
    has no address, and the index panics. *)
Fixpoint node_endpoints (nodes : list (list text)) : option (list text) :=
  match nodes with
  | [] => Some []
  | [] :: _ => None
  | (a :: _) :: r => match node_endpoints r with Some l => Some ((a ++ t ":9095")%list :: l) | None => None end
  end.
Definition find_endpoints (flag : list text) (nodes : list (list text)) : option (list text) :=
  match flag with [] => node_endpoints nodes | l => Some l end.

(** * The client *)

(** client.go 137-258 with no --file: where it goes, the namespace, the id ([None]: one is
    made up), the specification, and --oneshot. It stops with an error or a panic. *)
Inductive outcome :=
  | Requests (tls : bool) (eps : list (text * Z)) (ns : text) (id : option text) (s : spec) (oneshot : bool)
  | Fatal | Crash.
Definition selector (v : text) : option (option (list (text * text))) :=
  match v with
  | [] => Some None
  | _ => match selector_map v with Some m => Some (Some (map_to_list m)) | None => None end
  end.
Definition create_cmd (f : flags) : outcome :=
  match slice_get (g_endpoints f) with
  | None => Fatal
  | Some eps =>
      match parse_endpoints eps with
      | PErr => Fatal
      | PPanic => Crash
      | Parsed eps =>
          match g_ns f with
          | [] => Fatal
          | ns =>
              match slice_get (g_syscalls f), slice_get (g_hosts f), selector (g_labels f), selector (g_fields f) with
              | Some sc, Some hs, Some ls, Some fs =>
                  Requests (g_tls f) eps ns (match g_jobid f with [] => None | j => Some j end)
                    (spec_of (CFlags None sc ls fs hs)) (g_oneshot f)
              | _, _, _, _ => Fatal
              end
          end
      end
  end.
(** main.go and cobra: the words up to the flags choose the command *)
Definition swoll (args : list text) : outcome :=
  match args with
  | a :: b :: rest =>
      if text_eqb a (t "client") && text_eqb b (t "create") then
        match parse_args no_flags rest with Some f => create_cmd f | None => Fatal end
      else Fatal
  | _ => Fatal
  end.
