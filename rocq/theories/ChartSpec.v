(** What the charts and the scrape should show, said without the model's loops. *)
From Coq Require Import ZArith String Ascii Bool Lia.
From stdpp Require Import base list numbers strings pretty gmap.
From Verif Require Import SyscallModel SyscallSpec CodecTables CodecModel KernelModel ChartModel.

Local Open Scope string_scope.
Local Open Scope Z_scope.

Fixpoint sum (l : list Z) : Z := match l with [] => 0 | x :: l' => x + sum l' end.

(** * Floats *)

(** [v] is a non-negative integer a float with a [p]-bit significand can hold. *)
Definition representable (p v : Z) : Prop := exists m e, 0 <= m < 2 ^ p /\ 0 <= e /\ v = m * 2 ^ e.

(** * The sankey chart *)

(** What the tokens of an order mean. *)
Definition means (t : string) (k : okey) : Prop :=
  match k with
  | OScClass => t = "class" \/ t = "cl"
  | OScGroup => t = "group" \/ t = "gr"
  | ONamespace => t = "namespace" \/ t = "ns"
  | OPod => t = "pod" \/ t = "p"
  | OScName => t = "syscall" \/ t = "sc" \/ t = "name" \/ t = "n"
  | OErrno => t = "errno" \/ t = "error" \/ t = "e"
  | OContainer => t = "container" \/ t = "c"
  end.
(** Tokens as they are written in a query: joined by commas. *)
Fixpoint join (ts : list string) : string :=
  match ts with [] => "" | [t] => t | t :: ts' => t +:+ "," +:+ join ts' end.
Fixpoint has_comma (s : string) : bool :=
  match s with EmptyString => false | String c s' => Ascii.eqb c "," || has_comma s' end.

(** [en] is a metric of a known container, of the namespace asked for ("" asks for all). *)
Definition selected (ns : string) (en : entry) : Prop :=
  exists c, en.2 = Some c /\ (ns = "" \/ ow_namespace c = ns).
(** The value of a field of such a metric. *)
Definition field (tbl : syscalls) (en : entry) (k : okey) : string :=
  let sc := default (Syscall 0 "" "" "") (lookup_sc tbl (ByInt (mk_nr en.1.1))) in
  let c := default (Owner "" "" "") en.2 in
  match k with
  | OScGroup => sc_group sc | OScClass => sc_class sc | OScName => sc_name sc
  | OErrno => errno_to_string (mk_err en.1.1)
  | ONamespace => ow_namespace c | OPod => ow_pod c | OContainer => ow_name c
  end.
(** The path of a metric through the chart: its fields, in the order asked for, and the
    steps from each field to the next. *)
Definition path (tbl : syscalls) (order : list okey) (en : entry) : list string := map (field tbl en) order.
Definition steps (p : list string) : list (string * string) := combine p (tl p).
Definition occurrences (x : string * string) (l : list (string * string)) : Z :=
  Z.of_nat (length (List.filter (fun y => bool_decide (y = x)) l)).

(** The traffic from [a] to [b]: the counts of the metrics selected, each as often as
    its path steps from [a] to [b]. *)
Definition chosen (ns : string) (en : entry) : bool :=
  match en.2 with Some c => String.eqb ns "" || String.eqb (ow_namespace c) ns | None => false end.
Definition traffic (tbl : syscalls) (ns : string) (order : list okey) (es : list entry) (a b : string) : Z :=
  sum (map (fun en => if chosen ns en then mv_count en.1.2 * occurrences (a, b) (steps (path tbl order en)) else 0) es).
(** How many counts that is the sum of. *)
Definition addends (tbl : syscalls) (ns : string) (order : list okey) (es : list entry) (a b : string) : Z :=
  sum (map (fun en => if chosen ns en then occurrences (a, b) (steps (path tbl order en)) else 0) es).
(** Some selected metric's path steps from [a] to [b]. *)
Definition linked (tbl : syscalls) (ns : string) (order : list okey) (es : list entry) (a b : string) : Prop :=
  exists en, In en es /\ selected ns en /\ In (a, b) (steps (path tbl order en)).

(** The path of [en] steps from [a] to [b]. *)
Definition steps_through (tbl : syscalls) (order : list okey) (a b : string) (en : entry) : bool :=
  bool_decide ((a, b) ∈ steps (path tbl order en)).

(** Counters are what the kernel's tables can hold. *)
Definition counters_ok (es : list entry) : Prop := forall en, In en es -> 0 <= mv_count en.1.2 < 2 ^ 64.

(** The fields that are read off the syscall table. *)
Definition of_syscall (k : okey) : Prop := k = OScGroup \/ k = OScClass \/ k = OScName.

(** * Word clouds *)

(** What a metric is tallied under in each cloud, if at all. *)
Definition errno_word (en : entry) : option string :=
  if mk_err en.1.1 =? 0 then None else Some (errno_to_string (mk_err en.1.1)).
Definition class_word (tbl : syscalls) (en : entry) : option string :=
  sc_class <$> lookup_sc tbl (ByInt (mk_nr en.1.1)).
Definition namespace_word (en : entry) : option string := ow_namespace <$> en.2.

(** The metrics of a list that go under the word [w], and the cloud they make. *)
Definition under (word : entry -> option string) (w : string) (es : list entry) : list entry :=
  List.filter (fun en => bool_decide (word en = Some w)) es.
Definition cloud_of (word : entry -> option string) (es : list entry) (m : gmap string Z) : Prop :=
  forall w, m !! w =
    match under word w es with
    | [] => None
    | l => Some (sum (map (fun en => mv_count en.1.2) l) mod 2 ^ 64)
    end.

(** Everything the clouds were ever fed: the snapshot of each rendering of the page. *)
Definition fed (rs : list request) : list entry :=
  concat (map (fun r => match r with RPage _ _ es _ => es | _ => [] end) rs).

(** * Prometheus *)

(** The answers of the container table depend on the PID namespace alone, as they do
    when the table does not change during the scrape. *)
Definition steady (es : list entry) : Prop :=
  forall a b, In a es -> In b es -> mk_ns a.1.1 = mk_ns b.1.1 -> a.2 = b.2.
(** An error number that has a name of its own. *)
Definition named (e : Z) : Prop := In e (map fst errno_names).
(** The label values that belong to a metric. *)
Definition label_values (tbl : syscalls) (k : mkey) (c : owner) (l : list string) : Prop :=
  exists sc, lookup_sc tbl (ByInt (mk_nr k)) = Some sc /\
    l = [sc_name sc; ow_pod c; ow_name c; ow_namespace c; sc_class sc; sc_group sc;
         errno_to_string (mk_err k); pretty (mk_ns k)].
(** Two metrics of one container and syscall that differ in the error only, neither of
    which has a name. *)
Definition clash (es : list entry) : Prop := exists a b, In a es /\ In b es /\ is_Some a.2 /\
  mk_ns a.1.1 = mk_ns b.1.1 /\ mk_nr a.1.1 = mk_nr b.1.1 /\ mk_err a.1.1 <> mk_err b.1.1 /\ ~ named (mk_err a.1.1) /\ ~ named (mk_err b.1.1).
