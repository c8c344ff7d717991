(** What the top command should show. *)
From Coq Require Import ZArith String Bool Lia.
From stdpp Require Import base list numbers strings pretty gmap.
From Verif Require Import SyscallModel CodecModel KernelModel ChartModel TopModel.

Local Open Scope string_scope.
Local Open Scope Z_scope.

(** A metric whose container is known, as the user sees it: the names, and the count. *)
Definition seen (tbl : syscalls) (en : entry) : option (tkey * Z) :=
  match en.2 with
  | Some o =>
      Some ((ow_pod o, ow_namespace o, ow_name o,
             match lookup_sc tbl (ByInt (mk_nr en.1.1)) with Some sc => sc_name sc | None => "" end,
             errno_to_string (mk_err en.1.1)), mv_count en.1.2)
  | None => None
  end.
(** The counts that were read under the names [k], in order. *)
Definition counts_of (tbl : syscalls) (k : tkey) (es : list entry) : list Z :=
  omap (fun en => match seen tbl en with Some (k', c) => if decide (k' = k) then Some c else None | None => None end) es.
(** Counts that a float64 holds exactly. *)
Definition exact_counts (es : list entry) : Prop := Forall (fun en : entry => 0 <= mv_count en.1.2 <= 2 ^ 53) es.
(** Ticks in which sums are exact, too: at most [n] metrics of at most [b]. *)
Definition exact_sums (n b : Z) (es : list entry) : Prop :=
  Z.of_nat (length es) <= n /\ Forall (fun en : entry => 0 <= mv_count en.1.2 <= b /\ 0 <= mk_err en.1.1) es.

(** The sum of the counts shown for keys that stand for errors, or for no error. *)
Definition is_error (k : tkey) : bool := negb (String.eqb k.2 "OK").
Definition sum_shown (errors : bool) (m : gmap tkey Z) : Z :=
  foldr Z.add 0 (map snd (List.filter (fun kc : tkey * Z => Bool.eqb (is_error kc.1) errors) (map_to_list m))).
Definition sum (l : list Z) : Z := foldr Z.add 0 l.

(** No dot in a name, as Kubernetes wants it for namespaces and containers. *)
Definition no_dot (s : string) : Prop := forall a b, s <> a +:+ "." +:+ b.
