(** The client's log: what is claimed. *)
From Coq Require Import ZArith String Ascii Lia.
From stdpp Require Import base list numbers strings.
From Verif Require Import TopoModel JsonSpec LineModel.

Local Open Scope string_scope.
Local Open Scope list_scope.
Local Open Scope Z_scope.

(** All texts of the container are UTF-8. *)
Definition utf8_text (s : string) : Prop := well_formed (txt s).
Definition utf8_container (c : option (container (list (string * string)))) : Prop :=
  match c with
  | Some c =>
      utf8_text (c_id c) /\ utf8_text (c_pod c) /\ utf8_text (c_sandbox c) /\ utf8_text (c_name c)
      /\ utf8_text (c_image c) /\ utf8_text (c_namespace c)
      /\ forall k v, In (k, v) (c_labels c) -> utf8_text k /\ utf8_text v
  | None => True
  end.

(** A text is one line: a line feed at its end and nowhere else. *)
Definition one_line (bs : list Z) : Prop := exists body, bs = body ++ [10] /\ ~ In 10 body.
