(** C108: copies of the API's objects. *)
From Coq Require Import ZArith String Lia.
From stdpp Require Import base list numbers strings gmap.
From Verif Require Import DeepModel DeepSpec DeepProofs.

Local Open Scope string_scope.
Local Open Scope list_scope.

(** DeepCopy of any object, however it is laid out in memory, does not panic and gives an
    object in which a reader finds the same, nil where there was nil; what was in memory
    is left as it was. *)
Theorem C108_copy_is_equal :
  forall t into_ copy h p x,
    api_type t into_ copy -> sound h -> read (cells h) (TPtr t) (VPtr p) = Some x ->
    exists h' q, copy (VPtr p) h = Some (h', VPtr q) /\ sound h'
      /\ read (cells h') (TPtr t) (VPtr q) = Some x /\ read (cells h') (TPtr t) (VPtr p) = Some x
      /\ forall l, l < next h -> cells h' !! l = cells h !! l.
Proof.
  intros t into_ copy h p x T S R. destruct (api_copy t into_ copy h p x T S R) as (h' & q & E & G & R' & A & Rp). exists h', q.
  split; [exact E|]. split; [exact (g_sound _ _ G)|]. split; [exact R'|]. split; [exact Rp|exact (g_same _ _ G)].
Qed.

(** The two share nothing: whatever is put where memory was in use before, a reader of the
    copy finds the same, and whatever is put elsewhere, so does one of the original. *)
Theorem C108_nothing_shared :
  forall t into_ copy h p x h' q,
    api_type t into_ copy -> sound h -> read (cells h) (TPtr t) (VPtr p) = Some x -> copy (VPtr p) h = Some (h', VPtr q) ->
    found_wherever (fun l => next h <= l) (cells h') (TPtr t) (VPtr q) x
    /\ found_wherever (fun l => l < next h) (cells h') (TPtr t) (VPtr p) x.
Proof.
  intros t into_ copy h p x h' q T S R E. destruct (api_copy t into_ copy h p x T S R) as (h1 & q1 & E1 & G & R' & A & Rp).
  rewrite E in E1. apply Some_inj in E1. apply pair_equal_spec in E1 as [<- Eq]. injection Eq as <-. split; intros c Keep.
  - apply (frame _ _ (cells h')); [exact R'|]. intros l Hl. apply Keep. exact (proj1 (proj1 (Forall_forall _ _) (a_pl _ _ _ _ A) l Hl)).
  - apply (frame _ _ (cells h)); [exact R|]. intros l Hl. pose proof (proj1 (Forall_forall _ _) (places_old h _ _ _ S R) l Hl) as L. cbn in L.
    rewrite (Keep l L). exact (g_same _ _ G l L).
Qed.

(** No two parts of the copy are the same memory, even if they are in the original. *)
Theorem C108_parts_of_the_copy_are_apart :
  forall t into_ copy h p x h' q,
    api_type t into_ copy -> sound h -> read (cells h) (TPtr t) (VPtr p) = Some x -> copy (VPtr p) h = Some (h', VPtr q) ->
    NoDup (places (cells h') (TPtr t) (VPtr q)).
Proof.
  intros t into_ copy h p x h' q T S R E. destruct (api_copy t into_ copy h p x T S R) as (h1 & q1 & E1 & G & R' & A & Rp).
  rewrite E in E1. apply Some_inj in E1. apply pair_equal_spec in E1 as [<- Eq]. injection Eq as <-. exact (a_once _ _ _ _ A).
Qed.

(** So a program that was handed the copy changes, whatever it does, nothing anyone finds
    who held something before... *)
Theorem C108_holder_of_the_copy_changes_nothing_else :
  forall t into_ copy h p x h' q os t' v y,
    api_type t into_ copy -> sound h -> read (cells h) (TPtr t) (VPtr p) = Some x -> copy (VPtr p) h = Some (h', VPtr q) ->
    read (cells h) t' v = Some y -> read (cells (p_mem (op_run (Prog h' [VPtr q]) os))) t' v = Some y.
Proof.
  intros t into_ copy h p x h' q os t' v y T S R E Ry. destruct (api_copy t into_ copy h p x T S R) as (h1 & q1 & E1 & G & R' & A & Rp).
  rewrite E in E1. apply Some_inj in E1. apply pair_equal_spec in E1 as [<- Eq]. injection Eq as <-.
  apply (frame _ _ (cells h)); [exact Ry|]. intros l Hl. pose proof (proj1 (Forall_forall _ _) (places_old h _ _ _ S Ry) l Hl) as L. cbn in L.
  rewrite <- (g_same _ _ G l L). apply (away_run (fun l => l < next h)); [|exact L]. pose proof (g_next _ _ G). constructor; cbn.
  - constructor; [|constructor]. constructor; [|constructor]. pose proof (Forall_inv (a_ad _ _ _ _ A)). cbn in *. lia.
  - intros p' c Ec Np. eapply Forall_impl; [exact (g_new _ _ G p' c ltac:(lia) Ec)|]. cbn. lia.
  - lia.
Qed.
(** ...and a program that holds anything from before, such as the original, nothing a
    reader of the copy finds. *)
Theorem C108_others_do_not_change_the_copy :
  forall t into_ copy h p x h' q held os,
    api_type t into_ copy -> sound h -> read (cells h) (TPtr t) (VPtr p) = Some x -> copy (VPtr p) h = Some (h', VPtr q) ->
    Forall (fun v => Forall (fun l => l < next h) (addresses v)) held ->
    read (cells (p_mem (op_run (Prog h' held) os))) (TPtr t) (VPtr q) = Some x.
Proof.
  intros t into_ copy h p x h' q held os T S R E Hh. destruct (api_copy t into_ copy h p x T S R) as (h1 & q1 & E1 & G & R' & A & Rp).
  rewrite E in E1. apply Some_inj in E1. apply pair_equal_spec in E1 as [<- Eq]. injection Eq as <-.
  apply (frame _ _ (cells h')); [exact R'|]. intros l Hl. apply (away_run (fun l => next h <= l < next h')).
  - pose proof (g_next _ _ G). constructor; cbn.
    + eapply Forall_impl; [exact Hh|]. intros v Hv. eapply Forall_impl; [exact Hv|]. cbn. lia.
    + intros p' c Ec Np. destruct (decide (p' < next h)) as [L|L].
      * rewrite (g_same _ _ G p' L) in Ec. eapply Forall_impl; [exact (proj2 (S p' c Ec))|]. cbn. lia.
      * pose proof (proj1 (g_sound _ _ G p' c Ec)). lia.
    + lia.
  - exact (proj1 (Forall_forall _ _) (a_pl _ _ _ _ A) l Hl).
Qed.

(** nil is copied to nil, and as an object to the nil interface rather than to one that
    holds a nil pointer; other objects as DeepCopy does. *)
Theorem C108_nil :
  forall t into_ copy h, api_type t into_ copy -> copy VNil h = Some (h, VNil).
Proof. intros t into_ copy h T. destruct (api_copies _ _ _ T) as [_ ->]. reflexivity. Qed.
Theorem C108_objects :
  forall t copy object h, api_object t copy object ->
    object VNil h = Some (h, None)
    /\ forall p h' q, copy (VPtr p) h = Some (h', VPtr q) -> object (VPtr p) h = Some (h', Some (VPtr q)).
Proof.
  intros t copy object h [[-> [-> ->]]|[-> [-> ->]]]; (split; [reflexivity|]); intros p h' q E.
  - unfold Trace_DeepCopyObject, copy_object, bind. rewrite E. reflexivity.
  - unfold TraceList_DeepCopyObject, copy_object, bind. rewrite E. reflexivity.
Qed.

(** DeepCopyInto puts such a copy where it is told, whatever was there, and changes nothing
    else; nil is a panic. *)
Theorem C108_copy_into :
  forall t into_ copy h p q x old,
    api_type t into_ copy -> sound h -> read (cells h) (TPtr t) (VPtr p) = Some x ->
    cells h !! q = Some (CArr [old]) -> q ∉ places (cells h) (TPtr t) (VPtr p) ->
    exists h', copy_into into_ (VPtr p) (VPtr q) h = Some (h', tt)
      /\ read (cells h') (TPtr t) (VPtr q) = Some x /\ read (cells h') (TPtr t) (VPtr p) = Some x
      /\ (forall l, l < next h -> l <> q -> cells h' !! l = cells h !! l)
      /\ found_wherever (fun l => next h <= l \/ l = q) (cells h') (TPtr t) (VPtr q) x.
Proof.
  intros t into_ copy h p q x old T S R Eq Nq. destruct (api_copies _ _ _ T) as [C _]. pose proof R as R0. pose proof Nq as Nq0.
  cbn [read places] in R, Nq. destruct (cells h !! p) as [[[|y [|]]|]|] eqn:Ep; try discriminate R. destruct (read (cells h) t y) as [z|] eqn:Ry; [|discriminate R].
  apply Some_inj in R. subst x. destruct (C h y z S Ry) as (h1 & y' & E1 & G & R1 & A). pose proof (proj1 (S q _ Eq)) as Lq.
  assert (cells h1 !! q = Some (CArr [old])) as Eq1 by (rewrite (g_same _ _ G q Lq); exact Eq).
  exists (Mem (<[q := CArr [y']]> (cells h1)) (next h1)). split.
  { cbn [copy_into]. unfold bind, pointee, bind, array. rewrite Ep. unfold ret. cbn. rewrite E1. unfold store. rewrite Eq1. reflexivity. }
  assert (agree (places (cells h1) t y') (cells h1) (<[q := CArr [y']]> (cells h1))) as Ag.
  { intros l Hl. apply lookup_insert_ne. pose proof (proj1 (Forall_forall _ _) (a_pl _ _ _ _ A) l Hl). cbn in *. lia. }
  destruct (frame t y' _ _ _ R1 Ag) as [R2 P2]. cbn [cells].
  assert (read (<[q := CArr [y']]> (cells h1)) (TPtr t) (VPtr q) = Some (LPtr z)) as Rq by (cbn [read]; rewrite lookup_insert, R2; reflexivity).
  split; [exact Rq|]. split.
  { apply (frame _ _ (cells h)); [exact R0|]. intros l Hl. pose proof (proj1 (Forall_forall _ _) (places_old h _ _ _ S R0) l Hl) as L. cbn in L.
    rewrite lookup_insert_ne by (intros ->; exact (Nq0 Hl)). exact (g_same _ _ G l L). }
  split; [intros l L N; rewrite lookup_insert_ne by auto; exact (g_same _ _ G l L)|].
  intros c Keep. apply (frame _ _ _ c _ Rq). intros l Hl. apply Keep. cbn [places] in Hl. rewrite lookup_insert, P2 in Hl. apply elem_of_cons in Hl as [->|Hl]; [right; reflexivity|left].
  exact (proj1 (proj1 (Forall_forall _ _) (a_pl _ _ _ _ A) l Hl)).
Qed.
Theorem C108_copy_of_nil_into_panics :
  forall into_ q h, copy_into into_ VNil q h = None.
Proof. reflexivity. Qed.

(** A trace whose list of hosts is a part of its list of system calls. *)
Definition ex_base (s : string) : val := VBase (BStr s).
Definition ex_meta : val :=
  VStruct [("Name", ex_base "t"); ("GenerateName", ex_base ""); ("Namespace", ex_base "ns"); ("SelfLink", ex_base ""); ("UID", ex_base "u"); ("ResourceVersion", ex_base "7");
           ("Generation", VBase (BInt 1)); ("CreationTimestamp", VBase (BInt 100)); ("DeletionTimestamp", VPtr 3); ("DeletionGracePeriodSeconds", VNil); ("Labels", VMap 2);
           ("Annotations", VMap 2); ("OwnerReferences", VNil); ("Finalizers", VSlice 1 1 1); ("ClusterName", ex_base ""); ("ManagedFields", VNil)].
Definition ex_selector : val := VStruct [("MatchLabels", VMap 2); ("MatchExpressions", VNil)].
Definition ex_spec : val :=
  VStruct [("LabelSelector", ex_selector); ("FieldSelector", ex_selector); ("HostSelector", VSlice 1 0 1); ("Syscalls", VSlice 1 0 2);
           ("Duration", VStruct [("Duration", VBase (BInt 5))]); ("SampleRate", VBase (BInt 3))].
Definition ex_status : val := VStruct [("State", ex_base "Running"); ("StartTime", VPtr 3); ("CompletionTime", VNil); ("JobID", ex_base "j")].
Definition ex_trace : val :=
  VStruct [("TypeMeta", VStruct [("Kind", ex_base "Trace"); ("APIVersion", ex_base "v1alpha1")]); ("ObjectMeta", ex_meta); ("Spec", ex_spec); ("Status", ex_status)].
Definition ex_mem : mem :=
  Mem (<[0 := CArr [ex_trace]]> (<[1 := CArr [ex_base "execve"; ex_base "open"]]> (<[2 := CMap (<["app" := "web"]> ∅)]> (<[3 := CArr [VBase (BInt 100)]]> ∅)))) 4.
Example C108_nonvacuous :
  api_type ty_Trace Trace_DeepCopyInto Trace_DeepCopy /\ sound ex_mem /\ is_Some (read (cells ex_mem) (TPtr ty_Trace) (VPtr 0))
  /\ match Trace_DeepCopy (VPtr 0) ex_mem with
     | Some (h, VPtr q) =>
         let s := op_run (Prog h [VPtr q]) [OConst (BStr "close"); OLoad 0 0; OField 2 "Spec"; OField 3 "Syscalls"; OStore 4 0 1] in
         places (cells h) (TPtr ty_Trace) (VPtr 0) = [0; 3; 2; 2; 1; 2; 2; 1; 1; 3] /\ length (places (cells h) (TPtr ty_Trace) (VPtr q)) = 10
         /\ cells (p_mem s) !! 1 = Some (CArr [ex_base "execve"; ex_base "open"])
         /\ exists l, cells (p_mem s) !! l = Some (CArr [ex_base "close"; ex_base "open"])
     | _ => False
     end.
Proof.
  split; [left; split; [reflexivity|split; reflexivity]|]. split.
  { intros p c E. unfold ex_mem in E. cbn [cells next] in *. repeat (apply lookup_insert_Some in E as [[<- <-]|[_ E]]; [cbn; split; [lia|repeat constructor; lia]|]). rewrite lookup_empty in E. discriminate E. }
  split; [vm_compute; eauto|]. vm_compute. split; [reflexivity|split; [reflexivity|split; [reflexivity|]]]. exists 11. reflexivity.
Qed.

Print Assumptions C108_copy_is_equal.
Print Assumptions C108_nothing_shared.
Print Assumptions C108_parts_of_the_copy_are_apart.
Print Assumptions C108_holder_of_the_copy_changes_nothing_else.
Print Assumptions C108_others_do_not_change_the_copy.
Print Assumptions C108_nil.
Print Assumptions C108_objects.
Print Assumptions C108_copy_into.
Print Assumptions C108_copy_of_nil_into_panics.
