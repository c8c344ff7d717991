(** Model of the charts and the Prometheus scrape: cmd/server.go 430-727 and 824-886,
    cmd/prometheus.go 51-94.

    Each metric comes with the answer LookupContainer gave for it ([None] is an error):
    the container table may change between two lookups of one loop, so the answers are
    inputs. Left out: the HTML that go-echarts renders, and the locks, since every
    handler is modelled as one step. *)
From Coq Require Import ZArith String Ascii Bool Lia.
From stdpp Require Import base list numbers strings pretty gmap.
From Verif Require Import SyscallModel CodecModel KernelModel.

Local Open Scope string_scope.
Local Open Scope Z_scope.

(** The fields of types.Container the charts read (pkg/types/container.go 9-19). *)
Record owner := Owner { ow_namespace : string; ow_pod : string; ow_name : string }.
(** One turn of the loops over QueryAll (server.go 688-697, prometheus.go 58-62): the
    metric and the answer of LookupContainer. *)
Notation entry := ((mkey * mval) * option owner)%type.

(** * Floats

    Conversion of a non-negative integer to a binary float with a [p]-bit significand,
    round to nearest, ties to even (IEEE 754, Go specification "Conversions"). Infinity
    is left out: 2^64 is far from the largest float32, and so are sums of them. *)
Definition rnd (p n : Z) : Z :=
  if n <? 2 ^ p then n
  else
    let u := 2 ^ (Z.log2 n - (p - 1)) in
    let q := n / u in
    let r := n mod u in
    if (2 * r <? u) || ((2 * r =? u) && Z.even q) then q * u else (q + 1) * u.
(** float32(x) of an unsigned integer (server.go 703); float64(x) (prometheus.go 72, 84) *)
Definition to_f32 (n : Z) : Z := rnd 24 n.
Definition to_f64 (n : Z) : Z := rnd 53 n.
(** [+=] on float32 values (server.go 651). Two float32 integers have an integer sum,
    which is rounded once. *)
Definition f32_add (a b : Z) : Z := rnd 24 (a + b).

(** * The sankey chart *)

(** server.go 432-442: metricOrderKey *)
Inductive okey := OScGroup | OScClass | OScName | OErrno | ONamespace | OPod | OContainer.

(** strings.Split(order, ",") (server.go 449) *)
Fixpoint split_comma (s : string) : list string :=
  match s with
  | EmptyString => [""]
  | String c s' =>
      if Ascii.eqb c "," then "" :: split_comma s'
      else match split_comma s' with
           | t :: ts => String c t :: ts
           | [] => [String c ""]
           end
  end.
(** one token of parseOrder (server.go 450-465) *)
Definition order_token (t : string) : option okey :=
  if existsb (String.eqb t) ["class"; "cl"] then Some OScClass
  else if existsb (String.eqb t) ["gr"; "group"] then Some OScGroup
  else if existsb (String.eqb t) ["ns"; "namespace"] then Some ONamespace
  else if existsb (String.eqb t) ["p"; "pod"] then Some OPod
  else if existsb (String.eqb t) ["n"; "name"; "syscall"; "sc"] then Some OScName
  else if existsb (String.eqb t) ["e"; "error"; "errno"] then Some OErrno
  else if existsb (String.eqb t) ["c"; "container"] then Some OContainer
  else None.
(** parseOrder (server.go 446-469) *)
Definition parse_order (s : string) : list okey := omap order_token (split_comma s).

(** the order in effect (server.go 597-625) *)
Definition chart_order (ns ord : string) : list okey :=
  if String.eqb ord "" then
    if String.eqb ns "" then [OScClass; OScGroup; ONamespace; OPod; OScName; OErrno]
    else [OScClass; OScGroup; OPod; OContainer; OScName; OErrno]
  else parse_order ord.

(** charts.SankeyLink and the two slices that addLink updates (server.go 582-583) *)
Record link := Link { lk_src : string; lk_dst : string; lk_val : Z }.
Record chart := Chart { ch_nodes : list string; ch_links : list link }.

(** findLink and the first branch of addLink (server.go 628-635, 648-651): the first
    matching link is increased; [None] if there is none. *)
Fixpoint bump (src dst : string) (count : Z) (ls : list link) : option (list link) :=
  match ls with
  | [] => None
  | l :: ls' =>
      if String.eqb (lk_src l) src && String.eqb (lk_dst l) dst
      then Some (Link (lk_src l) (lk_dst l) (f32_add (lk_val l) count) :: ls')
      else match bump src dst count ls' with Some r => Some (l :: r) | None => None end
  end.
(** findNode and the append that follows it (server.go 638-645, 659-665) *)
Definition add_node (n : string) (ns : list string) : list string :=
  if existsb (String.eqb n) ns then ns else (ns ++ [n])%list.
(** addLink (server.go 648-666) *)
Definition add_link (src dst : string) (count : Z) (c : chart) : chart :=
  let links := match bump src dst count (ch_links c) with
               | Some ls => ls
               | None => (ch_links c ++ [Link src dst count])%list
               end in
  Chart (add_node dst (add_node src (ch_nodes c))) links.

(** ordVal (server.go 672-690); [None] is the panic on a nil syscall. *)
Definition ord_val (k : okey) (sc : option syscall) (c : owner) (e : Z) : option string :=
  match k with
  | OScGroup => sc_group <$> sc
  | OScClass => sc_class <$> sc
  | OScName => sc_name <$> sc
  | OErrno => Some (errno_to_string e)
  | ONamespace => Some (ow_namespace c)
  | OPod => Some (ow_pod c)
  | OContainer => Some (ow_name c)
  end.

(** the inner loop (server.go 707-713); [None] is a panic *)
Fixpoint hop (order : list okey) (sc : option syscall) (c : owner) (e count : Z) (ch : chart) : option chart :=
  match order with
  | a :: ((b :: _) as rest) =>
      match ord_val a sc c e, ord_val b sc c e with
      | Some src, Some dst => hop rest sc c e count (add_link src dst count ch)
      | _, _ => None
      end
  | _ => Some ch
  end.
(** one turn of the outer loop (server.go 688-714) *)
Definition sankey_one (tbl : syscalls) (ns : string) (order : list okey) (en : entry) (ch : chart) : option chart :=
  match en with
  | (_, None) => Some ch
  | (kv, Some c) =>
      if negb (String.eqb ns "") && negb (String.eqb (ow_namespace c) ns) then Some ch
      else hop order (lookup_sc tbl (ByInt (mk_nr kv.1))) c (mk_err kv.1) (to_f32 (mv_count kv.2)) ch
  end.
Fixpoint sankey_loop (tbl : syscalls) (ns : string) (order : list okey) (es : list entry) (ch : chart) : option chart :=
  match es with
  | [] => Some ch
  | en :: es' =>
      match sankey_one tbl ns order en ch with
      | Some ch' => sankey_loop tbl ns order es' ch'
      | None => None
      end
  end.
(** sankey (server.go 581-725) *)
Definition sankey (tbl : syscalls) (ns ord : string) (es : list entry) : option chart :=
  sankey_loop tbl ns (chart_order ns ord) es (Chart [] []).

(** * Word clouds *)

(** server.go 471-477 *)
Record clouds := Clouds { wc_errno : gmap string Z; wc_class : gmap string Z; wc_namespace : gmap string Z }.
(** server.go 479-486 *)
Definition new_clouds : clouds := Clouds ∅ ∅ ∅.
(** the update all three maps share (server.go 499-503, 517-521, 538-542); uint64
    addition wraps *)
Definition tally (k : string) (count : Z) (m : gmap string Z) : gmap string Z :=
  match m !! k with
  | Some v => <[k := (count + v) mod 2 ^ 64]> m
  | None => <[k := count]> m
  end.
(** updateMetric (server.go 488-549) *)
Definition update_metric (tbl : syscalls) (w : clouds) (en : entry) : clouds :=
  let count := mv_count en.1.2 in
  Clouds
    (if mk_err en.1.1 =? 0 then wc_errno w else tally (errno_to_string (mk_err en.1.1)) count (wc_errno w))
    (match lookup_sc tbl (ByUint32 (mk_nr en.1.1)) with
     | Some sc => tally (sc_class sc) count (wc_class w)
     | None => wc_class w
     end)
    (match en.2 with
     | Some c => tally (ow_namespace c) count (wc_namespace w)
     | None => wc_namespace w
     end).
(** updateMetrics (server.go 551-558) *)
Definition update_clouds (tbl : syscalls) (es : list entry) (w : clouds) : clouds :=
  fold_left (update_metric tbl) es w.

(** The routes under /metrics/charts (server.go 854-884). [RPage] is "/": it makes two
    queries, one for the clouds and one for the sankey chart. *)
Inductive request :=
  | RPage (ns ord : string) (es1 es2 : list entry)
  | RSankey (es : list entry)
  | RErrno | RClass | RNamespace.
(** What a response shows; [APanic] is a handler that panicked, which net/http turns
    into a dropped connection. *)
Inductive answer :=
  | APage (sankey : chart) (errno class namespace : gmap string Z)
  | ASankey (sankey : chart)
  | ACloud (m : gmap string Z)
  | APanic.
(** the handlers (server.go 854-884); defaultNamespace is "" (server.go 57) *)
Definition serve (tbl : syscalls) (w : clouds) (r : request) : clouds * answer :=
  match r with
  | RPage ns ord es1 es2 =>
      let w := update_clouds tbl es1 w in
      (w, match sankey tbl ns ord es2 with
          | Some ch => APage ch (wc_errno w) (wc_class w) (wc_namespace w)
          | None => APanic
          end)
  | RSankey es => (w, match sankey tbl "" "" es with Some ch => ASankey ch | None => APanic end)
  | RErrno => (w, ACloud (wc_errno w))
  | RClass => (w, ACloud (wc_class w))
  | RNamespace => (w, ACloud (wc_namespace w))
  end.
Fixpoint serve_all (tbl : syscalls) (w : clouds) (rs : list request) : clouds * list answer :=
  match rs with
  | [] => (w, [])
  | r :: rs' =>
      let '(w1, a) := serve tbl w r in
      let '(w2, l) := serve_all tbl w1 rs' in (w2, a :: l)
  end.

(** * Prometheus *)

(** prometheus.go 24-46: the two descriptors *)
Inductive desc := DCount | DTime.
(** a constant metric: descriptor, the eight label values in the order of line 24, value *)
Record sample := Sample { sm_desc : desc; sm_labels : list string; sm_value : Z }.

(** the label values (prometheus.go 73-78, 85-90) *)
Definition labels (sc : syscall) (c : owner) (k : mkey) : list string :=
  [sc_name sc; ow_pod c; ow_name c; ow_namespace c; sc_class sc; sc_group sc;
   errno_to_string (mk_err k); pretty (mk_ns k)].
(** Collect (prometheus.go 51-94); [None] is the panic on a nil syscall. [topo] tells
    whether there is a topology. *)
Fixpoint collect_loop (tbl : syscalls) (es : list entry) : option (list sample) :=
  match es with
  | [] => Some []
  | (_, None) :: es' => collect_loop tbl es'
  | ((k, v), Some c) :: es' =>
      match lookup_sc tbl (ByInt (mk_nr k)) with
      | None => None
      | Some sc =>
          match collect_loop tbl es' with
          | None => None
          | Some l =>
              Some (Sample DCount (labels sc c k) (to_f64 (mv_count v))
                    :: Sample DTime (labels sc c k) (to_f64 (mv_time v)) :: l)
          end
      end
  end.
Definition collect (tbl : syscalls) (topo : bool) (es : list entry) : option (list sample) :=
  if topo then collect_loop tbl es else Some [].

(** What a client of /metrics gets. promhttp.Handler (server.go 831) gathers with the
    default options: a registry refuses a gathering in which two samples have the same
    name and label values, and the handler answers 500. This is the documented
    behaviour of client_golang, whose code is not in /repo. *)
Inductive scrape := Samples (l : list sample) | Refused | Crashed.
Global Instance desc_eq_dec : EqDecision desc.
Proof. solve_decision. Defined.
Definition gather (tbl : syscalls) (topo : bool) (es : list entry) : scrape :=
  match collect tbl topo es with
  | None => Crashed
  | Some l => if bool_decide (NoDup (map (fun s => (sm_desc s, sm_labels s)) l)) then Samples l else Refused
  end.
