(** Model of the top command: cmd/top.go.

    Left out: the rates (go-metrics meters), widget geometry and rendering (termui), and
    mergeStatsByKey, lookup and fixedRateArray, which nothing calls or reads. *)
From Coq Require Import ZArith String Bool Lia.
From stdpp Require Import base list numbers strings pretty gmap.
From Verif Require Import SyscallModel CodecModel KernelModel ChartModel.

Local Open Scope string_scope.
Local Open Scope Z_scope.

(** * The counters *)

(** metricKey (top.go 45-51): pod, namespace, container, syscall, errno *)
Notation tkey := (string * string * string * string * string)%type.
(** mkaggMetricKey (267-276) of the answers of LookupContainer and syscalls.Lookup (490, 491)
    for a metric. A nil Syscall is the empty string (syscalls.go 28-34). *)
Definition top_key (tbl : syscalls) (k : mkey) (o : owner) : tkey :=
  (ow_pod o, ow_namespace o, ow_name o,
   match lookup_sc tbl (ByInt (mk_nr k)) with Some sc => sc_name sc | None => "" end,
   errno_to_string (mk_err k)).
(** A float64 with an integer value: the nearest one to an integer. *)
Definition f64 (x : Z) : Z := Z.sgn x * rnd 53 (Z.abs x).
(** What a tick leaves: the counters of all keys (aggMetrics), and its totalDiff and
    errorDiff. *)
Record tick := Tick { t_table : gmap tkey Z; t_total : Z; t_error : Z }.
(** The body of the loop over QueryAll (486-507), with lookupOrCreate (301-316) *)
Definition top_unit (tbl : syscalls) (t : tick) (en : entry) : tick :=
  match en.2 with
  | None => t                                                             (* 487-490 *)
  | Some o =>
      let k := top_key tbl en.1.1 o in
      let count := to_f64 (mv_count en.1.2) in
      let old := default 0 (t_table t !! k) in
      let diff := f64 (count - old) in
      let err := negb (mk_err en.1.1 =? 0) in
      Tick (<[k := f64 (old + diff)]> (t_table t))
           (if err then t_total t else f64 (t_total t + diff))
           (if err then f64 (t_error t + diff) else t_error t)
  end.
(** One tick (483-524) *)
Definition top_tick (tbl : syscalls) (m : gmap tkey Z) (es : list entry) : tick :=
  fold_left (top_unit tbl) es (Tick m 0 0).
(** The counters after some ticks, and what each tick gave the two graphs. *)
Fixpoint top_run (tbl : syscalls) (m : gmap tkey Z) (h : list (list entry)) : gmap tkey Z * list (Z * Z) :=
  match h with
  | [] => (m, [])
  | es :: h =>
      let t := top_tick tbl m es in
      let '(m', gs) := top_run tbl (t_table t) h in
      (m', (t_total t, t_error t) :: gs)
  end.

(** * The table on the screen *)

(** A row of update (199-265). The count is below 10^21, so that %v writes its digits; the
    rate is a text of its own. *)
Definition top_row (aggregate : bool) (rate : tkey -> string) (kc : tkey * Z) : list string :=
  let '((pod, ns, ctr, sc, err), c) := kc in
  if aggregate then [sc; err; ctr +:+ "." +:+ pod +:+ "." +:+ ns; pretty c; rate (pod, ns, ctr, sc, err)]
  else [sc; err; ns; pod; ctr; pretty c; rate (pod, ns, ctr, sc, err)].
Definition top_header (aggregate : bool) : list string :=
  if aggregate then ["Syscall"; "Errno"; "Host"; "Count"; "Rate"] else ["Syscall"; "Errno"; "Namespace"; "POD"; "Container"; "Count"; "Rate"].
(** update on what makeSortable (129-159) makes of the map *)
Definition top_rows (aggregate : bool) (rate : tkey -> string) (sorted : list (tkey * Z)) : list (list string) :=
  top_header aggregate :: map (top_row aggregate rate) sorted.

(** * The lock

    The goroutines that use [mu]: the main loop in lookupOrCreate (306-307), the widget's
    in update (204-205) and, inside it, makeSortable (132-133), the graph's in its update
    (357-358). sync.RWMutex: a Lock first keeps new readers out, then waits for those that
    hold it; an Unlock lets in the readers that wait. *)
Inductive main_pc := MOut | MWaits | MHolds.
(** WOut: holds nothing; WWait1: blocked in the RLock of update; W1: holds that one;
    WWait2: blocked in the RLock of makeSortable; W2: holds both; W3: has left makeSortable *)
Inductive widget_pc := WOut | WWait1 | W1 | WWait2 | W2 | W3.
Inductive graph_pc := GOut | GWait | G1.
Record locks := Locks { l_main : main_pc; l_widget : widget_pc; l_graph : graph_pc }.
Definition locks_start : locks := Locks MOut WOut GOut.
Inductive who := Main | Widget | Graph.
(** whether a goroutine holds a read lock *)
Definition w_reads (w : widget_pc) : bool := match w with W1 | WWait2 | W2 | W3 => true | _ => false end.
Definition g_reads (g : graph_pc) : bool := match g with G1 => true | _ => false end.
(** the next step of a goroutine; it leaves the state as it is if it is blocked *)
Definition lock_step (s : locks) (a : who) : locks :=
  let '(Locks m w g) := s in
  let free := match m with MOut => true | _ => false end in
  match a with
  | Main =>
      match m with
      | MOut => Locks MWaits w g
      | MWaits => if w_reads w || g_reads g then s else Locks MHolds w g
      | MHolds =>
          Locks MOut (match w with WWait1 => W1 | WWait2 => W2 | _ => w end) (match g with GWait => G1 | _ => g end)
      end
  | Widget =>
      match w with
      | WOut => Locks m (if free then W1 else WWait1) g
      | W1 => Locks m (if free then W2 else WWait2) g
      | W2 => Locks m W3 g
      | W3 => Locks m WOut g
      | WWait1 | WWait2 => s
      end
  | Graph =>
      match g with
      | GOut => Locks m w (if free then G1 else GWait)
      | G1 => Locks m w GOut
      | GWait => s
      end
  end.
Definition lock_run (s : locks) (sched : list who) : locks := fold_left lock_step sched s.
