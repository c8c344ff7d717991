(** What the client should do, said without the model's escaping, routing and loops. *)
From Coq Require Import ZArith String Ascii Bool Lia.
From stdpp Require Import base list numbers strings pretty gmap.
From Verif Require Import CodecModel CodecSpec JsonModel JsonSpec ClientModel.

Local Open Scope string_scope.
Local Open Scope Z_scope.

(** A name that can be one component of a path. *)
Definition good_name (s : text) : Prop := s <> [] /\ ~ In slash s /\ s <> t "." /\ s <> t "..".

(** The server answers 200 to its pages and lists (cmd/server.go 296, 905-922), 301 to a
    redirect, 404 and 405 to what it does not know, and 201 only to a create (383). *)
Definition serves (status : action -> Z) : Prop :=
  status APage = 200 /\ status AList = 200 /\ status ANotFound = 404 /\ status ANotAllowed = 405
  /\ (forall p, status (ARedirect p) = 301) /\ forall a, status a = 201 -> exists ns id, a = ACreate ns id.
(** Requests that delete or create something. *)
Definition deletes (a : action) : Prop := exists id, a = ADelete id.
Definition creates (a : action) : Prop := exists ns id, a = ACreate ns id.

(** A text without a colon. *)
Definition no_colon (s : text) : Prop := ~ In ":"%char s.
(** A decimal number, with or without a sign. *)
Definition decimal (ds : text) : Z := fold_left (fun a c => 10 * a + (Z.of_nat (code c) - 48)) ds 0.
Definition number_text (p : text) (n : Z) : Prop :=
  int64 n /\ exists ds, ds <> [] /\ Forall (fun c => (48 <= code c <= 57)%nat) ds
  /\ ((p = ds \/ p = "+"%char :: ds) /\ n = decimal ds \/ p = "-"%char :: ds /\ n = - decimal ds).
(** "host:port": the host is what stands before the first colon. *)
Definition endpoint_text (e : text) (hp : text * Z) : Prop :=
  exists p, e = (hp.1 ++ ":"%char :: p)%list /\ no_colon hp.1 /\ number_text p hp.2.

(** Go walks a map in any order. *)
Definition any_order {A} (walk : gmap (list Z) A -> list (list Z * A)) : Prop := forall m, walk m ≡ₚ map_to_list m.
(** Ids that JSON does not change. *)
Definition plain_ids {A} (table : gmap string A) : Prop := forall id x, table !! id = Some x -> well_formed (bytes_of id).

(** A flag that was given replaces what the file says. *)
Definition replaces {A} (given : option A) (file result : A) : Prop :=
  match given with Some x => result = x | None => result = file end.
Definition given_list {A} (l : list A) : option (list A) := match l with [] => None | _ => Some l end.

(** The endpoints whose job is left behind when the command has ended. *)
Definition left_behind (s : oneshot) (e : nat) : Prop := In e (o_created s) /\ ~ In e (map snd (o_deletes s)).
(** All jobs were created and all goroutines are done. *)
Definition complete (n : nat) (s : oneshot) : Prop := length (o_created s) = n /\ Forall (eq GDone) (o_threads s) /\ length (o_threads s) = n.
