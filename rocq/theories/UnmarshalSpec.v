(** How the client makes an event of a message: what is claimed. *)
From Coq Require Import ZArith String Ascii Lia.
From stdpp Require Import base list numbers strings.
From Verif Require Import TopoModel LineModel.

Local Open Scope string_scope.
Local Open Scope list_scope.
Local Open Scope Z_scope.

(** What the client prints of a container: name, pod and namespace, as bytes. *)
Definition names_of (c : option (container (list (string * string)))) : option (list Z * list Z * list Z) :=
  match c with
  | Some c => Some (txt (c_name c), txt (c_pod c), txt (c_namespace c))
  | None => None
  end.
