(** Model of internal/pkg/node/node.go and internal/pkg/pubsub/pubsub.go.

    Simplifications, once for the file:
    - a subscriber callback is identified by a number, the ordinal of the
      Subscribe call that registered it, so "the callback is called" is
      observable as an occurrence of that number in a Publish trace;
    - nodes are mutable Go structs reached by unshared pointers; here they are
      values and an update returns the new tree;
    - the children map is an association list whose update removes every older
      entry of the key, so it behaves as a map;
    - Go strings are Coq [string]s (byte strings). *)
From stdpp Require Import gmap strings list sorting.
From Coq Require Import ZArith.
Open Scope Z_scope.

(** node.go 20-24: SubscriptionEnvelope. *)
Record env := Env { e_sub : nat; e_id : Z; e_dname : string }.

(** node.go 15-18: subscriptionInfo. *)
Record sinfo := SInfo { si_cnt : Z; si_envs : list env }.

(** node.go 8-13: Node (the rand field is passed to the operations instead). *)
Inductive node := Node {
  children : list (Z * node);
  subscriptions : gmap string sinfo;
  shards : gmap Z string }.

(** node.go 27-34: New. *)
Definition new_node : node := Node [] ∅ ∅.

(** A Go map as an association list: read, delete, write. *)
Fixpoint aget {A} (k : Z) (l : list (Z * A)) : option A :=
  match l with
  | [] => None
  | (k', v) :: l' => if decide (k = k') then Some v else aget k l'
  end.
Fixpoint adel {A} (k : Z) (l : list (Z * A)) : list (Z * A) :=
  match l with
  | [] => []
  | (k', v) :: l' => if decide (k = k') then adel k l' else (k', v) :: adel k l'
  end.
Definition aset {A} (k : Z) (v : A) (l : list (Z * A)) : list (Z * A) :=
  (k, v) :: adel k l.

(** node.go 52-62: FetchChild on a non-nil node; [None] is Go's nil. *)
Definition fetch_child (n : node) (k : Z) : option node := aget k (children n).

(** node.go 37-49: AddChild, the child it returns. *)
Definition add_child (n : node) (k : Z) : node :=
  match fetch_child n k with Some c => c | None => new_node end.

(** Writing the (mutated) child back: node.go 47, and pointer mutation. *)
Definition set_child (n : node) (k : Z) (c : node) : node :=
  Node (aset k c (children n)) (subscriptions n) (shards n).

(** node.go 65-71: DeleteChild. *)
Definition delete_child (n : node) (k : Z) : node :=
  Node (adel k (children n)) (subscriptions n) (shards n).

(** node.go 74-76: ChildLen, as the test "= 0". *)
Definition child_len0 (n : node) : bool :=
  match children n with [] => true | _ => false end.

(** node.go 137-139: SubscriptionLen, as the test "= 0". *)
Definition subscription_len0 (n : node) : bool :=
  bool_decide (shards n = ∅).

(** int64 wrap-around of id++ (node.go 156). *)
Definition wrap_int64 (z : Z) : Z := (z + 2^63) mod 2^64 - 2^63.

(** node.go 152-162: createAndSetID, the id it settles on. [draw] is what
    n.rand returned. The Go loop is unbounded; one more turn than there are live
    ids is enough unless the id space is exhausted, and running out of fuel is
    reported as [None] (the Go loop would spin for ever). *)
Fixpoint pick_id (fuel : nat) (taken : gmap Z string) (id : Z) : option Z :=
  match fuel with
  | O => None
  | S fuel' =>
      match taken !! id with
      | Some _ => pick_id fuel' taken (wrap_int64 (id + 1))
      | None => Some id
      end
  end.
Definition create_id (taken : gmap Z string) (draw : Z) : option Z :=
  pick_id (S (size taken)) taken draw.

Section Sort.
(** [srt] is sort.Sort on envelopes (node.go 96, 164-178): any function; its
    contract is a hypothesis of the theorems. *)
Context (srt : list env -> list env).

(** node.go 79-100: AddSubscription; returns the node and the id. *)
Definition add_subscription (n : node) (sub : nat) (shard dname : string)
    (draw : Z) : option (node * Z) :=
  match create_id (shards n) draw with
  | None => None
  | Some id =>
      let si := default (SInfo 0 []) (subscriptions n !! shard) in
      let envs := si_envs si ++ [Env sub id dname] in
      let cnt := if decide (dname = ""%string) then si_cnt si else si_cnt si + 1 in
      Some (Node (children n)
                 (<[shard := SInfo cnt (srt envs)]> (subscriptions n))
                 (<[id := shard]> (shards n)), id)
  end.

(** pubsub.go 158-162: walk/extend the path, then AddSubscription. *)
Fixpoint subscribe_at (n : node) (path : list Z) (sub : nat)
    (shard dname : string) (draw : Z) : option (node * Z) :=
  match path with
  | [] => add_subscription n sub shard dname draw
  | k :: p =>
      match subscribe_at (add_child n k) p sub shard dname draw with
      | Some (c, id) => Some (set_child n k c, id)
      | None => None
      end
  end.
End Sort.

(** node.go 116-127: drop the first envelope with this id, adjusting the count. *)
Fixpoint drop_env (id : Z) (cnt : Z) (es : list env) : Z * list env :=
  match es with
  | [] => (cnt, [])
  | e :: es' =>
      if decide (e_id e = id)
      then (if decide (e_dname e = ""%string) then cnt else cnt - 1, es')
      else let '(c, r) := drop_env id cnt es' in (c, e :: r)
  end.

(** node.go 103-134: DeleteSubscription on a non-nil node. *)
Definition delete_subscription (n : node) (id : Z) : node :=
  match shards n !! id with
  | None => n
  | Some shard =>
      let si := default (SInfo 0 []) (subscriptions n !! shard) in
      let '(cnt, es) := drop_env id (si_cnt si) (si_envs si) in
      Node (children n)
           (match es with
            | [] => delete shard (subscriptions n)
            | _ => <[shard := SInfo cnt es]> (subscriptions n)
            end)
           (delete id (shards n))
  end.

(** pubsub.go 172-184: cleanupSubscriptionTree. [None] is a panic: ChildLen
    (node.go 74-76) has no nil check, so a missing child panics after the
    (harmless) recursive call on nil. *)
Fixpoint cleanup (n : node) (id : Z) (p : list Z) : option node :=
  match p with
  | [] => Some (delete_subscription n id)
  | k :: p' =>
      match fetch_child n k with
      | None => None
      | Some child =>
          match cleanup child id p' with
          | None => None
          | Some child' =>
              if child_len0 child' && subscription_len0 child'
              then Some (delete_child n k)
              else Some (set_child n k child')
          end
      end
  end.

(** The PubSub value together with the unsubscriber closures handed out so far:
    closure number h has captured an id and a path (pubsub.go 164-169). *)
Record pubsub := PubSub { root : node; closures : list (Z * list Z) }.

(** pubsub.go 33-53: New. *)
Definition new_pubsub : pubsub := PubSub new_node [].

(** API calls that change the tree. [Subscribe] carries its options and the value
    n.rand returns in it; [Unsubscribe h] calls the h-th closure. *)
Inductive op :=
| Subscribe (path : list Z) (shard dname : string) (draw : Z)
| Unsubscribe (h : nat).

Inductive result (A : Type) := Ok (a : A) | Panic | Diverge.
Arguments Ok {A} a.  Arguments Panic {A}.  Arguments Diverge {A}.

(** pubsub.go 149-170: Subscribe and the closure it returns. Calling a closure
    that was never handed out is not a program; it is mapped to [Panic]. *)
Definition step (srt : list env -> list env) (s : pubsub) (o : op) : result pubsub :=
  match o with
  | Subscribe path shard dname draw =>
      match subscribe_at srt (root s) path (length (closures s)) shard dname draw with
      | Some (r, id) => Ok (PubSub r (closures s ++ [(id, path)]))
      | None => Diverge
      end
  | Unsubscribe h =>
      match closures s !! h with
      | None => Panic
      | Some (id, path) =>
          match cleanup (root s) id path with
          | Some r => Ok (PubSub r (closures s))
          | None => Panic
          end
      end
  end.

Fixpoint run (srt : list env -> list env) (s : pubsub) (os : list op) : result pubsub :=
  match os with
  | [] => Ok s
  | o :: os' =>
      match step srt s o with
      | Ok s' => run srt s' os'
      | Panic => Panic
      | Diverge => Diverge
      end
  end.

(** pubsub.go 186-214: a TreeTraverser applied to the datum, with a Paths that
    yields finitely many entries; an entry's traverser may be nil ([None], "reuse
    the current one") and traversers may unfold for ever (coinductive).
    Simplification: stateless Paths; the stateful CombinePaths is below. *)
CoInductive traverser := Trav (entries : list (Z * option traverser)).
Definition entries (a : traverser) : list (Z * option traverser) :=
  match a with Trav es => es end.

(** pubsub.go 197-205: LinearTreeTraverser. *)
Fixpoint linear (a : list Z) : traverser :=
  match a with
  | [] => Trav []
  | k :: a' => Trav [(k, Some (linear a'))]
  end.
(** pubsub.go 239-247: a traverser that always returns FlatPaths(p). *)
Definition flat_paths (p : list Z) : traverser := Trav (map (fun k => (k, None)) p).
(** pubsub.go 251-259: PathsWithTraverser. *)
Definition paths_with_traverser (p : list Z) (a : traverser) : traverser :=
  Trav (map (fun k => (k, Some a)) p).

(** Sequential composition of call traces; [None] is a panic. *)
Definition seq_calls (a b : option (list nat)) : option (list nat) :=
  match a, b with Some x, Some y => Some (x ++ y) | _, _ => None end.

(** pubsub.go 290-300 and 320-325 for one shard group. [h] is the value the
    configured hasher returns for the datum, a uint64. rand(0) and %0 panic. *)
Inductive group_calls (h : Z) : string -> sinfo -> option (list nat) -> Prop :=
| gc_all si :
    group_calls h "" si (Some (map e_sub (si_envs si)))
| gc_empty sh si :
    sh <> ""%string -> si_envs si = [] -> group_calls h sh si None
| gc_det sh si e :
    sh <> ""%string -> si_envs si <> [] -> 0 < si_cnt si ->
    si_envs si !! Z.to_nat (h mod Z.of_nat (length (si_envs si))) = Some e ->
    group_calls h sh si (Some [e_sub e])
| gc_rand sh si i e :
    sh <> ""%string -> si_envs si <> [] -> ~ 0 < si_cnt si ->
    si_envs si !! i = Some e ->
    group_calls h sh si (Some [e_sub e]).

(** node.go 142-150: ForEachSubscription over one iteration order. *)
Inductive groups_calls (h : Z) : list (string * sinfo) -> option (list nat) -> Prop :=
| gs_nil : groups_calls h [] (Some [])
| gs_cons sh si l r1 r2 :
    group_calls h sh si r1 -> groups_calls h l r2 ->
    groups_calls h ((sh, si) :: l) (seq_calls r1 r2).

(** pubsub.go 286-318: traversePublish; any iteration order of the map. *)
Inductive traverse (h : Z) : traverser -> option node -> option (list nat) -> Prop :=
| tr_nil a : traverse h a None (Some [])
| tr_node a n order r1 r2 :
    order ≡ₚ map_to_list (subscriptions n) ->
    groups_calls h order r1 ->
    traverse_entries h a (entries a) n r2 ->
    traverse h a (Some n) (seq_calls r1 r2)
with traverse_entries (h : Z) :
    traverser -> list (Z * option traverser) -> node -> option (list nat) -> Prop :=
| te_nil a n : traverse_entries h a [] n (Some [])
| te_cons a k next es n r1 r2 :
    traverse h (default a next) (fetch_child n k) r1 ->
    traverse_entries h a es n r2 ->
    traverse_entries h a ((k, next) :: es) n (seq_calls r1 r2).

(** pubsub.go 280-284: Publish; its observable effect is the trace of calls. *)
Definition publish (s : pubsub) (a : traverser) (h : Z) (calls : option (list nat)) : Prop :=
  traverse h a (Some (root s)) calls.

(** pubsub.go 217-235: CombinePaths as a state machine. A Paths is a function of
    the index; list-backed ones (FlatPaths, PathsWithTraverser,
    PathAndTraversers, 239-277) are [paths_of]. [None] in the result is !ok; a
    negative index would panic in Go, here [paths_of] returns !ok, and the
    theorem's drive never produces one. *)
Definition paths := Z -> option (Z * option traverser).
Definition paths_of (l : list (Z * option traverser)) : paths :=
  fun i => if decide (i < 0) then None else l !! Z.to_nat i.

Record combine_state := Combine { c_start : Z; c_rest : list paths }.
(** One call of the closure: the loop ranges over the slice as it was on entry. *)
Fixpoint combine_loop (todo : list paths) (st : combine_state) (idx : Z)
    : option (Z * option traverser) * combine_state :=
  match todo with
  | [] => (None, st)
  | pp :: todo' =>
      match pp (idx - c_start st) with
      | Some r => (Some r, st)
      | None =>
          match c_rest st with
          | [] => (None, st)
          | _ :: rest => combine_loop todo' (Combine idx rest) idx
          end
      end
  end.
Definition combine_call (st : combine_state) (idx : Z)
    : option (Z * option traverser) * combine_state :=
  combine_loop (c_rest st) st idx.
Definition combine_paths (ps : list paths) : combine_state := Combine 0 ps.

(** pubsub.go 302-317: how Publish drives a Paths: idx = 0,1,2,… until !ok.
    [fuel] bounds the number of calls; [None] = still going. *)
Fixpoint drive (fuel : nat) (st : combine_state) (idx : Z)
    : option (list (Z * option traverser) * combine_state) :=
  match fuel with
  | O => None
  | S fuel' =>
      match combine_call st idx with
      | (None, st') => Some ([], st')
      | (Some e, st') =>
          match drive fuel' st' (idx + 1) with
          | Some (es, st'') => Some (e :: es, st'')
          | None => None
          end
      end
  end.
