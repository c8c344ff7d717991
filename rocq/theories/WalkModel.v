(** Model of the walks over BPF hash maps: metrics.Handler.QueryAll and
    PruneNamespace (pkg/kernel/metrics/handler.go) and Filter.GetRunning
    (pkg/kernel/filter.go 79-100). *)
From stdpp Require Import gmap strings list.
From Coq Require Import ZArith.
From Verif Require Import FilterModel KernelModel.
Open Scope Z_scope.

(** A hash map as BPF_MAP_GET_NEXT_KEY shows it: its entries in bucket order. *)
Definition hmap (K V : Type) := list (K * V).

Section walk.
Context {K V : Type} `{EqDecision K}.

(** The entries after [k]; [None] when [k] is not in the map. *)
Fixpoint after (k : K) (m : hmap K V) : option (hmap K V) :=
  match m with
  | [] => None
  | (k', _) :: m => if decide (k' = k) then Some m else after k m
  end.
(** elf.Module.LookupNextElement (github.com/iovisor/gobpf, not in /repo), on top of
    the kernel's htab_map_get_next_key: the entry after [k], the first one when [k]
    is not in the map, [None] at the end. An entry deleted between the two system
    calls it makes is left out. *)
Definition lookup_next (m : hmap K V) (k : K) : option (K * V) :=
  match after k m with Some m' => head m' | None => head m end.
(** The loop of handler.go 65-76, 32-47 and filter.go 85-97: [snap i] is the map at
    the i-th LookupNextElement. [None] means that the loop is still running after
    [fuel] steps. From the second step on both pointers are the same key, which the
    system call reads before it writes. *)
Fixpoint walk (snap : nat -> hmap K V) (fuel : nat) (i : nat) (k : K) : option (list (K * V)) :=
  match fuel with
  | O => None
  | S fuel =>
      match lookup_next (snap i) k with
      | None => Some []
      | Some e => match walk snap fuel (S i) e.1 with None => None | Some r => Some (e :: r) end
      end
  end.
(** bpf_map_delete_elem. *)
Definition delete_key (k : K) (m : hmap K V) : hmap K V := List.filter (fun e => bool_decide (e.1 <> k)) m.
End walk.

(** handler.go 56-79; the first key is the zero value (59). *)
Definition zero_mkey : mkey := MKey 0 0 0.
Definition query_all (snap : nat -> hmap mkey mval) (fuel : nat) : option (list (mkey * mval)) := walk snap fuel 0 zero_mkey.
(** handler.go 23-54: what is deleted ... *)
Definition to_delete (snap : nat -> hmap mkey mval) (fuel : nat) (ns : Z) : option (list mkey) :=
  match walk snap fuel 0 zero_mkey with
  | None => None
  | Some r => Some (map fst (List.filter (fun e => mk_ns e.1 =? u32 ns) r))
  end.
(** ... and the map and result it leads to, when nobody else touches the map. *)
Definition prune_namespace (m : hmap mkey mval) (fuel : nat) (ns : Z) : option (hmap mkey mval * Z) :=
  match to_delete (fun _ => m) fuel ns with
  | None => None
  | Some ks => Some (fold_left (fun m k => delete_key k m) ks m, Z.of_nat (length ks))
  end.
(** filter.go 79-100. *)
Definition zero_fkey : fkey := FKey 0 0 0 0.
Definition get_running (snap : nat -> hmap fkey fval) (fuel : nat) : option (list (fkey * fval)) := walk snap fuel 0 zero_fkey.
