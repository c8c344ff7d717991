(** Specification vocabulary for the job API: which jobs run and which were
    deleted, read off what clients and the hub saw. *)
From Coq Require Import ZArith String.
From stdpp Require Import gmap strings list.
From Verif Require Import SyscallModel FilterModel HubModel HubSpec ServerModel.
Open Scope Z_scope.

(** The job running under [id]: started by the last create of it that was answered
    201, unless the hub has deleted it since. *)
Definition live_step (J : nat -> job) (id : string) (cur : option nat) (e : sev) : option nat :=
  match e with
  | EAnswer _ (RCreate j) (ACode 201) => if decide (j_id (J j) = id) then Some j else cur
  | EHub (ODelete id') (RDeleted true) => if decide (id' = id) then None else cur
  | _ => cur
  end.
Definition live (J : nat -> job) (id : string) (h : list sev) : option nat := fold_left (live_step J id) h None.
(** A deletion of [id] was answered 200. *)
Definition deleted_ok (id : string) (h : list sev) : Prop := exists t, EAnswer t (RDelete id) (ACode 200) ∈ h.

(** How many requests are being served; how many creates of [id] are. *)
Definition count {A} (f : A -> bool) (l : list A) : nat := length (List.filter f l).
Definition is_req (e : sev) : bool := match e with EReq _ _ => true | _ => false end.
Definition is_answer (e : sev) : bool := match e with EAnswer _ _ _ => true | _ => false end.
Definition create_of (J : nat -> job) (id : string) (r : req) : bool :=
  match r with RCreate j => bool_decide (j_id (J j) = id) | _ => false end.
Definition is_create_req (J : nat -> job) (id : string) (e : sev) : bool := match e with EReq _ r => create_of J id r | _ => false end.
Definition is_create_answer (J : nat -> job) (id : string) (e : sev) : bool := match e with EAnswer _ r _ => create_of J id r | _ => false end.
(** No two requests, or no two creates of [id], are being served at a time. *)
Definition one_at_a_time (h : list sev) : Prop :=
  forall h', h' `prefix_of` h -> (count is_req h' <= count is_answer h' + 1)%nat.
Definition creates_one_at_a_time (J : nat -> job) (id : string) (h : list sev) : Prop :=
  forall h', h' `prefix_of` h -> (count (is_create_req J id) h' <= count (is_create_answer J id) h' + 1)%nat.

(** How many creates of [id] were answered 201; how many times the hub deleted it. *)
Definition created (J : nat -> job) (id : string) (h : list sev) : nat :=
  count (fun e => match e with EAnswer _ r (ACode 201) => create_of J id r | _ => false end) h.
Definition hub_deleted (id : string) (h : list sev) : nat :=
  count (fun e => match e with EHub (ODelete id') (RDeleted true) => bool_decide (id' = id) | _ => false end) h.

(** What the hub did, to be read with the vocabulary of HubSpec.v. *)
Definition hub_history (h : list sev) : list (hop * hout) := omap (fun e => match e with EHub o out => Some (o, out) | _ => None end) h.
Definition hub_regs (J : nat -> job) (tbl : syscalls) (h : list sev) : list reg :=
  registrations J tbl (map fst (hub_history h)) (map snd (hub_history h)).

(** What a request must be answered when it is the only one being served. [h0] is
    what happened before it arrived, [hm] what happened while it was served. *)
Definition right_answer (J : nat -> job) (h0 hm : list sev) (r : req) (a : answer) : Prop :=
  match r with
  | RCreate j => a = ACode (match live J (j_id (J j)) h0 with Some _ => 500 | None => 201 end)
  | RGet id => a = match live J id h0 with Some j => AAttached j | None => ACode 404 end
  | RDelete id =>
      match live J id h0 with
      | None => a = ACode 404 /\ hub_deleted id hm = 0%nat
      | Some _ =>
          (EHub (ODelete id) (RDeleted false) ∈ hm /\ hub_deleted id hm = 0%nat /\ a = ACode 500) \/
          (EHub (ODelete id) (RDeleted true) ∈ hm /\ hub_deleted id hm = 1%nat /\
             ((~ deleted_ok id h0 /\ a = ACode 200) \/ (deleted_ok id h0 /\ a = ACode 500)))
      end
  | RList =>
      exists run comp, a = ATables run comp /\ (forall id, run !! id = live J id h0) /\
        (forall id, is_Some (comp !! id) <-> deleted_ok id h0)
  end.
