(** What the client prints: what is claimed. *)
From Coq Require Import ZArith String Ascii Lia.
From stdpp Require Import base list numbers strings pretty.
From Verif Require Import RawModel DecodeModel JsonSpec LineModel TextModel.

Local Open Scope string_scope.
Local Open Scope list_scope.
Local Open Scope Z_scope.

(** The names of the container are UTF-8. *)
Definition container_utf8 (c : option (list Z * list Z * list Z)) : Prop :=
  match c with
  | Some (name, pod, ns) => well_formed name /\ well_formed pod /\ well_formed ns
  | None => True
  end.

(** What fmt makes of a value that is no text: "%!s(int=3)". *)
Definition with_type (type : string) (bs : list Z) : list Z :=
  txt "%!s(" ++ txt type ++ txt "=" ++ bs ++ txt ")".
(** A struct written twice: its numbers plain, and each with its type. *)
Inductive numbers_typed : list Z -> list Z -> Prop :=
| typed_end : numbers_typed [] []
| typed_text s a b : numbers_typed a b -> numbers_typed (txt s ++ a) (txt s ++ b)
| typed_number type (z : Z) a b : numbers_typed a b ->
    numbers_typed (txt (pretty z) ++ a) (with_type type (txt (pretty z)) ++ b).

(** [watched_as src bs w]: an argument the create command (and swoll trace) shows as
    [bs] is shown by the watch command as [w].  File names, addresses, directory
    descriptors and names of flags are the same; numbers come with their type; buffers
    are not lists of numbers but the bytes themselves. *)
Inductive watched_as : source -> list Z -> list Z -> Prop :=
| as_text m bs : watched_as (One m Raw) bs bs
| as_dir m bs : watched_as (One m Dir) bs bs
| as_address m bs : watched_as (One m Sock) bs bs
| as_names m bs : watched_as (One m Other) bs bs
| as_number m type bs : watched_as (One m Num) bs (with_type type bs)
| as_decimal m type z : watched_as (One m Hex) (hex_text z) (with_type type (txt (pretty z)))
| as_bytes m bs : watched_as (One m Buf) (txt "[" ++ txt (join_ints bs) ++ txt "]") bs
| as_struct m a w : numbers_typed a w -> watched_as (One m Other) a w
| as_pointer m type a : watched_as (One m Other) (txt "&" ++ a) (with_type type (txt "&" ++ a))
| as_words ms bs : watched_as (Words ms) bs (txt "[" ++ bs ++ txt "]").
