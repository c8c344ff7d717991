(** What a client of the pub/sub package sees, without trees or ids. *)
From stdpp Require Import gmap strings list sorting.
From Coq Require Import ZArith.
From Verif Require Import PubSubModel.
Open Scope Z_scope.

(** A live subscription: the ordinal of its Subscribe call and its options. *)
Record sub := Sub { s_handle : nat; s_path : list Z; s_shard : string; s_dname : string }.

(** The live subscriptions after a history, [n] being the next ordinal. *)
Fixpoint live_from (n : nat) (l : list sub) (os : list op) : list sub :=
  match os with
  | [] => l
  | Subscribe path shard dname _ :: os' =>
      live_from (S n) (l ++ [Sub n path shard dname]) os'
  | Unsubscribe h :: os' =>
      live_from n (filter (fun s => s_handle s <> h) l) os'
  end.
Definition live (os : list op) : list sub := live_from 0 [] os.

(** Histories in which every unsubscriber is called at most once (and only after
    it has been handed out): at each Unsubscribe its subscription is live. *)
Fixpoint once_from (n : nat) (l : list sub) (os : list op) : Prop :=
  match os with
  | [] => True
  | Subscribe path shard dname _ :: os' =>
      once_from (S n) (l ++ [Sub n path shard dname]) os'
  | Unsubscribe h :: os' =>
      h ∈ map s_handle l /\ once_from n (filter (fun s => s_handle s <> h) l) os'
  end.
Definition unsubscribes_once (os : list op) : Prop := once_from 0 [] os.

(** The contract of math/rand.Int63n for the ids drawn (pubsub.go 75-77). *)
Definition draws_ok (os : list op) : Prop :=
  forall path shard dname draw, Subscribe path shard dname draw ∈ os ->
    0 <= draw < 2^63 - 1.

(** The contract of sort.Sort with Less = "dName <" (node.go 164-178). *)
Definition name_le (a b : string) : Prop := String.leb a b = true.
Definition sort_contract (srt : list env -> list env) : Prop :=
  forall l, srt l ≡ₚ l /\ Sorted name_le (map e_dname (srt l)).

(** How many times a number occurs in a call trace. *)
Definition times (n : nat) (calls : list nat) : nat :=
  length (filter (fun m => m = n) calls).

(** How many calls of a trace go to members of a group. *)
Definition calls_to (members : list sub) (calls : list nat) : nat :=
  length (filter (fun m => m ∈ map s_handle members) calls).

(** The members of a shard group. *)
Definition group (os : list op) (path : list Z) (shard : string) : list sub :=
  filter (fun s => s_path s = path /\ s_shard s = shard) (live os).

(** How often a traverser yields the path [q]. *)
Fixpoint visits (a : traverser) (q : list Z) : nat :=
  match q with
  | [] => 1%nat
  | k :: q' =>
      (fix go (es : list (Z * option traverser)) : nat :=
         match es with
         | [] => 0%nat
         | (k', next) :: es' =>
             ((if decide (k = k') then visits (default a next) q' else 0%nat) + go es')%nat
         end) (entries a)
  end.

(** Walking the tree: is there a node at path q? *)
Fixpoint node_at (n : node) (q : list Z) : option node :=
  match q with
  | [] => Some n
  | k :: q' => match fetch_child n k with Some c => node_at c q' | None => None end
  end.

(** The envelopes a node keeps for a shard id. *)
Definition envs_at (n : node) (sh : string) : list env :=
  match subscriptions n !! sh with Some si => si_envs si | None => [] end.

(** The tree holds exactly the subscriptions [l]: it has a node exactly at the
    prefixes of their paths (and the root), and each node lists exactly the
    subscriptions made at its path, per shard id. *)
Definition holds (s : pubsub) (l : list sub) : Prop :=
  forall q,
    (is_Some (node_at (root s) q) <-> q = [] \/ exists sb, sb ∈ l /\ q `prefix_of` s_path sb) /\
    forall n sh, node_at (root s) q = Some n ->
      map (fun e => (e_sub e, e_dname e)) (envs_at n sh) ≡ₚ
      map (fun sb => (s_handle sb, s_dname sb))
          (filter (fun sb => s_path sb = q /\ s_shard sb = sh) l).

(** An implementation of sort.Sort that meets the contract, for examples. *)
Definition env_le (a b : env) : Prop := name_le (e_dname a) (e_dname b).
#[global] Instance env_le_dec a b : Decision (env_le a b).
Proof. unfold env_le, name_le. apply _. Defined.
Definition some_sort : list env -> list env := merge_sort env_le.
