(** What it means for a number to be a set of flags. *)
From stdpp Require Import base list.
From Coq Require Import ZArith String.

Local Open Scope Z_scope.

(** The bitwise or of some flags. *)
Definition union (flags : list Z) : Z := fold_right Z.lor 0 flags.

(** [v] is the union of some of the flags in [known]. *)
Definition made_of (known : list Z) (v : Z) : Prop :=
  exists sub, (forall m, In m sub -> In m known) /\ v = union sub.

(** The table's flags other than the named ones. *)
Definition flags_but (excluded : list string) (tbl : list (Z * string)) : list Z :=
  map fst (List.filter (fun e => negb (existsb (String.eqb (snd e)) excluded)) tbl).

(** Go's int on linux/amd64. *)
Definition int64 (z : Z) : Prop := - 2 ^ 63 <= z < 2 ^ 63.
