(** Model of which pods an observer follows: the options of pkg/topology/kubernetes.go
    (39-103), NewKubernetes (105-115), Copy (118-137), connectKube (154-193), the
    observer a job makes (pkg/topology/job.go 92-95) and its choice of containers
    (job.go 128-149); cmd/trace.go 79-98, 164-175, cmd/server.go 784-793 and
    cmd/top.go 422-429.

    What the API server does with the selectors follows the sources of
    k8s.io/apimachinery 0.18 (labels/selector.go, fields/selector.go) and of the core
    API's pods. Texts are lists of bytes. *)
From Coq Require Import ZArith String Ascii Bool Lia.
From stdpp Require Import base list sorting numbers strings pretty gmap.
From Verif Require Import CodecModel JsonModel ClientModel AgentModel.

Local Open Scope string_scope.
Local Open Scope list_scope.
Local Open Scope Z_scope.

(** * Label selectors (labels/selector.go) *)

Inductive tok := Word (w : text) | KeyIn (w : text) | Eq1 | Eq2 | Neq | Bang | Lpar | Rpar | Comma | Greater | Less | End.

Definition nul : ascii := "000"%char.
(** isWhitespace, isSpecialSymbol *)
Definition blank (c : ascii) : bool := existsb (Ascii.eqb c) [" "; "009"; "013"; "010"]%char.
Definition special (c : ascii) : bool := existsb (Ascii.eqb c) (t "=!(),><").
Definition one_symbol (c : ascii) : tok :=
  if Ascii.eqb c "=" then Eq1 else if Ascii.eqb c "!" then Bang else if Ascii.eqb c "(" then Lpar
  else if Ascii.eqb c ")" then Rpar else if Ascii.eqb c "," then Comma else if Ascii.eqb c ">" then Greater else Less.
(** scanIDOrKeyword: the words `in` and `notin` are operators in one context and plain
    words in the other *)
Definition word_tok (w : text) : tok := if text_eqb w (t "in") || text_eqb w (t "notin") then KeyIn w else Word w.

(** Lex: at the start of a token, inside a word, or right after a symbol, where a NUL is
    read past; a NUL at the start of a token is taken for the end of the text. *)
Inductive lmode := LStart | LWord (w : text) | LAfter.
Fixpoint lex (m : lmode) (s : text) : list tok :=
  match s with
  | [] => match m with LWord w => [word_tok w; End] | _ => [End] end
  | c :: r =>
      let symbol :=
        match r with
        | d :: r' => if Ascii.eqb d "=" && Ascii.eqb c "=" then Eq2 :: lex LAfter r'
                     else if Ascii.eqb d "=" && Ascii.eqb c "!" then Neq :: lex LAfter r'
                     else one_symbol c :: lex LAfter r
        | [] => [one_symbol c; End]
        end in
      match m with
      | LWord w => if Ascii.eqb c nul || blank c then word_tok w :: lex LStart r
                    else if special c then word_tok w :: symbol else lex (LWord (w ++ [c])) r
      | _ => if Ascii.eqb c nul then match m with LAfter => lex LStart r | _ => [End] end
             else if blank c then lex LStart r else if special c then symbol else lex (LWord [c]) r
      end
  end.

(** Requirement; =, == and in are alike, and so are != and notin *)
Inductive rop := OneOf | NoneOf | Exists_ | Absent | Above | Below.
Record req := Req { r_key : text; r_op : rop; r_vals : list text }.

(** strconv.ParseInt(s, 10, 64) *)
Fixpoint digits_value (acc : Z) (s : text) : option Z :=
  match s with
  | [] => Some acc
  | c :: s => let n := Z.of_nat (code c) in if (48 <=? n) && (n <=? 57) then digits_value (10 * acc + (n - 48)) s else None
  end.
Definition parse_int (s : text) : option Z :=
  let '(neg, d) := match s with c :: r => if Ascii.eqb c "-" then (true, r) else if Ascii.eqb c "+" then (false, r) else (false, s) | [] => (false, s) end in
  match d with
  | [] => None
  | _ => match digits_value 0 d with
         | Some v => let v := if neg then - v else v in if (- 2 ^ 63 <=? v) && (v <? 2 ^ 63) then Some v else None
         | None => None
         end
  end.

(** NewRequirement *)
Definition new_req (k : text) (o : rop) (vs : list text) : option req :=
  let sized := match o with OneOf | NoneOf => match vs with [] => false | _ => true end
                          | Above | Below => match vs with [v] => match parse_int v with Some _ => true | None => false end | _ => false end
                          | _ => true end in
  if label_key k && sized && forallb label_value vs then Some (Req k o vs) else None.

(** The literal of a token where values are expected *)
Definition as_word (x : tok) : option text := match x with Word w | KeyIn w => Some w | _ => None end.

(** parseIdentifiersList, after the opening parenthesis; the closing one is left *)
Fixpoint idents (acc : list text) (ts : list tok) : option (list text * list tok) :=
  match ts with
  | x :: ts' =>
      match as_word x with
      | Some w => match ts' with
                  | Comma :: _ => idents (acc ++ [w]) ts'
                  | Rpar :: _ => Some (acc ++ [w], ts')
                  | _ => None
                  end
      | None =>
          match x with
          | Comma =>
              let acc := match acc with [] => [[]] | _ => acc end in
              match ts' with
              | Rpar :: _ => Some (acc ++ [[]], ts')
              | Comma :: ts'' => idents (acc ++ [[]]) ts''
              | _ => idents acc ts'
              end
          | _ => None
          end
      end
  | [] => None
  end.
(** parseValues *)
Definition values (ts : list tok) : option (list text * list tok) :=
  match ts with
  | Lpar :: Rpar :: ts => Some ([], ts)
  | Lpar :: ts => match idents [] ts with Some (vs, Rpar :: ts) => Some (vs, ts) | _ => None end
  | _ => None
  end.
(** parseExactValue *)
Definition exact_value (ts : list tok) : option (list text * list tok) :=
  match ts with
  | (End :: _ | Comma :: _) => Some ([[]], ts)
  | x :: ts => match as_word x with Some w => Some ([w], ts) | None => None end
  | [] => None
  end.
(** parseRequirement with parseKeyAndInferOperator and parseOperator *)
Definition ends_term (ts : list tok) : bool := match ts with (End :: _ | Comma :: _) => true | _ => false end.
Definition with_req (k : text) (o : rop) (p : option (list text * list tok)) : option (req * list tok) :=
  match p with
  | Some (vs, ts) => match new_req k o vs with Some r => Some (r, ts) | None => None end
  | None => None
  end.
Definition requirement (ts : list tok) : option (req * list tok) :=
  let '(bang, ts) := match ts with Bang :: ts => (true, ts) | _ => (false, ts) end in
  match ts with
  | x :: ts =>
      match as_word x with
      | Some k =>
          if negb (label_key k) then None
          else if bang then with_req k Absent (Some ([], ts))
          else if ends_term ts then with_req k Exists_ (Some ([], ts))
          else match ts with
               | KeyIn w :: ts => with_req k (if text_eqb w (t "in") then OneOf else NoneOf) (values ts)
               | (Eq1 :: ts | Eq2 :: ts) => with_req k OneOf (exact_value ts)
               | Neq :: ts => with_req k NoneOf (exact_value ts)
               | Greater :: ts => with_req k Above (exact_value ts)
               | Less :: ts => with_req k Below (exact_value ts)
               | _ => None
               end
      | None => None
      end
  | [] => None
  end.
(** Parser.parse; every round takes a token at least. *)
Definition starts_term (ts : list tok) : bool :=
  match ts with (Word _ :: _ | KeyIn _ :: _ | Bang :: _) => true | _ => false end.
Fixpoint requirements (fuel : nat) (ts : list tok) : option (list req) :=
  match fuel with
  | O => None
  | S fuel =>
      match ts with
      | End :: _ => Some []
      | _ =>
          match requirement ts with
          | Some (r, End :: _) => Some [r]
          | Some (r, Comma :: ts) =>
              if starts_term ts then match requirements fuel ts with Some rs => Some (r :: rs) | None => None end else None
          | _ => None
          end
      end
  end.
(** Parse. [None]: an error. *)
Definition parse_labels (s : text) : option (list req) :=
  let ts := lex LStart s in requirements (S (length ts)) ts.

(** Requirement.Matches and internalSelector.Matches *)
Definition meets (m : gmap text text) (r : req) : bool :=
  match r_op r, m !! r_key r with
  | OneOf, Some v => existsb (text_eqb v) (r_vals r)
  | OneOf, None => false
  | NoneOf, Some v => negb (existsb (text_eqb v) (r_vals r))
  | NoneOf, None => true
  | Exists_, Some _ => true
  | Exists_, None => false
  | Absent, Some _ => false
  | Absent, None => true
  | Above, Some v => match parse_int v, r_vals r with Some a, [b] => match parse_int b with Some b => b <? a | None => false end | _, _ => false end
  | Above, None => false
  | Below, Some v => match parse_int v, r_vals r with Some a, [b] => match parse_int b with Some b => a <? b | None => false end | _, _ => false end
  | Below, None => false
  end.

(** * Field selectors (fields/selector.go) *)

(** splitTerms: at the commas without a backslash before them *)
Fixpoint split_terms (esc : bool) (cur s : text) : list text :=
  match s with
  | [] => [cur]
  | c :: r => if esc then split_terms false (cur ++ [c]) r
              else if Ascii.eqb c "\" then split_terms true (cur ++ [c]) r
              else if Ascii.eqb c "," then cur :: split_terms false [] r
              else split_terms false (cur ++ [c]) r
  end.
(** splitTerm: at the first of !=, == and =; [true] means equal *)
Fixpoint split_term (cur s : text) : option (text * bool * text) :=
  match s with
  | [] => None
  | c :: r =>
      if Ascii.eqb c "=" then Some (cur, true, match r with d :: r' => if Ascii.eqb d "=" then r' else r | [] => [] end)
      else match r with
           | d :: r' => if Ascii.eqb c "!" && Ascii.eqb d "=" then Some (cur, false, r') else split_term (cur ++ [c]) r
           | [] => None
           end
  end.
(** UnescapeValue *)
Fixpoint unescape_value (esc : bool) (s : text) : option text :=
  match s with
  | [] => if esc then None else Some []
  | c :: r =>
      if esc then
        if existsb (Ascii.eqb c) (t "\,=") then match unescape_value false r with Some x => Some (c :: x) | None => None end else None
      else if Ascii.eqb c "\" then unescape_value true r
      else if existsb (Ascii.eqb c) (t ",=") then None
      else match unescape_value false r with Some x => Some (c :: x) | None => None end
  end.
(** ParseSelector, then the conversion of a pod's fields (core/v1/conversion.go); the
    field, whether it must be equal, the value *)
Definition pod_fields : list text :=
  map t ["metadata.name"; "metadata.namespace"; "spec.nodeName"; "spec.restartPolicy"; "spec.schedulerName";
         "spec.serviceAccountName"; "status.phase"; "status.podIP"; "status.podIPs"; "status.nominatedNodeName"].
Definition field_label (f : text) : option text :=
  if existsb (text_eqb f) pod_fields then Some f else if text_eqb f (t "spec.host") then Some (t "spec.nodeName") else None.
Fixpoint field_terms (parts : list text) : option (list (text * bool * text)) :=
  match parts with
  | [] => Some []
  | [] :: parts => field_terms parts
  | p :: parts =>
      match split_term [] p with
      | Some (f, eq, v) =>
          match unescape_value false v, field_label f, field_terms parts with
          | Some v, Some f, Some l => Some ((f, eq, v) :: l)
          | _, _, _ => None
          end
      | None => None
      end
  end.
Definition parse_fields (s : text) : option (list (text * bool * text)) :=
  match s with [] => Some [] | _ => field_terms (split_terms false [] s) end.

(** * Pods and observers *)

(** [pd_more]: the selectable fields besides name and namespace *)
Record pod := Pod { pd_name : text; pd_ns : text; pd_labels : gmap text text; pd_more : gmap text text }.
(** ToSelectableFields, Set.Get *)
Definition field_of (p : pod) (f : text) : text :=
  if text_eqb f (t "metadata.name") then pd_name p
  else if text_eqb f (t "metadata.namespace") then pd_ns p
  else default [] (pd_more p !! f).
Definition term_holds (p : pod) (x : text * bool * text) : bool :=
  let '(f, eq, v) := x in Bool.eqb (text_eqb (field_of p f) v) eq.

(** kubernetes.go 27-37, without the connections *)
Record observer := Observer { o_cri : text; o_config : text; o_ns : text; o_labels : text; o_fields : text; o_root : text }.
(** 39-103; whether the socket exists is left out *)
Inductive kopt := WithNamespace (s : text) | WithProcRoot (s : text) | WithCRI (s : text) | WithConfig (s : text) | WithLabels (s : text) | WithFields (s : text).
Definition apply_opt (o : observer) (x : kopt) : observer :=
  let '(Observer cri cfg ns l f root) := o in
  match x with
  | WithNamespace s => Observer cri cfg s l f root
  | WithProcRoot s => Observer cri cfg ns l f s
  | WithCRI s => Observer s cfg ns l f root
  | WithConfig s => Observer cri s ns l f root
  | WithLabels s => Observer cri cfg ns s f root
  | WithFields s => Observer cri cfg ns l s root
  end.
(** 105-115: the namespace of all namespaces is "" *)
Definition new_kubernetes (xs : list kopt) : observer := foldl apply_opt (Observer [] [] [] [] [] []) xs.
(** 118-137 *)
Definition copy_observer (o : observer) (xs : list kopt) : observer := foldl apply_opt o xs.

(** 175-189: ListOptions; what is "" is not sent. *)
Definition list_options (o : observer) : option text * option text :=
  (match o_labels o with [] => None | s => Some s end, match o_fields o with [] => None | s => Some s end).

(** The API server: the pods of the namespace (of all, if it is "") that meet both
    selectors; [None]: the request is refused (400). *)
Definition api_pods (ns : text) (q : option text * option text) : option (pod -> bool) :=
  match parse_labels (default [] (fst q)), parse_fields (default [] (snd q)) with
  | Some rs, Some fs => Some (fun p => (text_eqb ns [] || text_eqb (pd_ns p) ns) && forallb (meets (pd_labels p)) rs && forallb (term_holds p) fs)
  | _, _ => None
  end.
(** The informer of an observer is called for these pods only; a request that is refused
    is made again and again. *)
Definition observes_pod (o : observer) (p : pod) : bool :=
  match api_pods (o_ns o) (list_options o) with Some f => f p | None => false end.

(** * Who observes *)

(** job.go 92-95: the observer of a job, made from the hub's. The expressions of a
    selector are not looked at. *)
Definition job_observer (hub : observer) (x : trace) : observer :=
  copy_observer hub [WithNamespace (tr_ns x); WithLabels (set_string (tr_labels x)); WithFields (set_string (tr_fields x))].
(** job.go 132-149 *)
Definition host_matches (x : trace) (name : text) : bool :=
  match tr_hosts x with [] => true | hs => existsb (fun h => text_eqb h name) hs end.
(** The containers that get rules: started ones (kubernetes.go 361-451), named [name]. *)
Definition follows (hub : observer) (x : trace) (p : pod) (name : text) : bool :=
  observes_pod (job_observer hub x) p && host_matches x name.

(** cmd/server.go 784-793, cmd/trace.go 164-175, cmd/top.go 422-429 *)
Definition server_observer (cri cfg root : text) : observer :=
  new_kubernetes [WithCRI cri; WithConfig cfg; WithLabels (t "swoll!=false"); WithProcRoot root].
Definition trace_observer (cri cfg ns root : text) : observer :=
  new_kubernetes [WithCRI cri; WithConfig cfg; WithNamespace ns; WithLabels (t "swoll!=false"); WithProcRoot root].
Definition top_observer (cri cfg ns root labels : text) : observer :=
  new_kubernetes [WithConfig cfg; WithCRI cri; WithNamespace ns; WithProcRoot root; WithLabels labels; WithFields (t "status.phase=Running")].

(** cmd/trace.go 58-61, 68-98: the trace `swoll trace` makes of its arguments, its
    namespace and its --field-selector; [None]: it ends with an error. *)
Definition trace_cmd (args : list text) (ns field : text) (syscalls : list text) : option trace :=
  match selector_map (join (t " ") args), selector_map field with
  | Some labels, Some fields => Some (Trace [] ns labels [] fields [] syscalls 0)
  | _, _ => None
  end.
