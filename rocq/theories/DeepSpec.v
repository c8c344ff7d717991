(** What C108 says of copies, in terms of what a reader of a variable finds. *)
From Coq Require Import ZArith String Lia.
From stdpp Require Import base list numbers strings gmap.
From Verif Require Import DeepModel.

Local Open Scope string_scope.
Local Open Scope list_scope.

(** Types: plain (strings, numbers, times), pointers, slices, maps of strings, structs. *)
Inductive ty := TBase | TPtr (t : ty) | TSlice (t : ty) | TMap | TStruct (fs : list (string * ty)).
(** What a reader finds who follows every pointer. nil is not the empty slice or map. *)
Inductive tree :=
| LBase (b : base) | LNil | LPtr (t : tree) | LList (ts : list tree) | LMap (m : gmap string string) | LStruct (fs : list (string * tree)).

(** What is found at a variable of a type; [None] if it is not of that type, or points to
    nothing. *)
Fixpoint read (c : gmap nat cell) (t : ty) (v : val) {struct t} : option tree :=
  match t, v with
  | TBase, VBase b => Some (LBase b)
  | TPtr _, VNil => Some LNil
  | TPtr t, VPtr p => match c !! p with Some (CArr [x]) => match read c t x with Some y => Some (LPtr y) | None => None end | _ => None end
  | TSlice _, VNil => Some LNil
  | TSlice t, VSlice p off len =>
      match c !! p with
      | Some (CArr xs) => if Nat.leb (off + len) (length xs) then match mapM (read c t) (take len (drop off xs)) with Some ys => Some (LList ys) | None => None end else None
      | _ => None
      end
  | TMap, VNil => Some LNil
  | TMap, VMap p => match c !! p with Some (CMap m) => Some (LMap m) | _ => None end
  | TStruct fs, VStruct vs =>
      match (fix go (fs : list (string * ty)) (vs : list (string * val)) {struct fs} : option (list (string * tree)) :=
               match fs, vs with
               | [], [] => Some []
               | (n, t) :: fs, (n', v) :: vs =>
                   if String.eqb n n' then
                     match read c t v, go fs vs with Some x, Some r => Some ((n, x) :: r) | _, _ => None end
                   else None
               | _, _ => None
               end) fs vs with
      | Some r => Some (LStruct r)
      | None => None
      end
  | _, _ => None
  end.
(** The addresses a reader follows, with repetitions. *)
Fixpoint places (c : gmap nat cell) (t : ty) (v : val) {struct t} : list nat :=
  match t, v with
  | TPtr t, VPtr p => p :: match c !! p with Some (CArr [x]) => places c t x | _ => [] end
  | TSlice t, VSlice p off len => p :: match c !! p with Some (CArr xs) => flat_map (places c t) (take len (drop off xs)) | _ => [] end
  | TMap, VMap p => [p]
  | TStruct fs, VStruct vs =>
      (fix go (fs : list (string * ty)) (vs : list (string * val)) {struct fs} : list nat :=
         match fs, vs with
         | (_, t) :: fs, (_, v) :: vs => places c t v ++ go fs vs
         | _, _ => []
         end) fs vs
  | _, _ => []
  end.

(** * The types: trace_types.go 26-71, and apimachinery's apis/meta/v1/types.go *)
Definition b_ (n : string) : string * ty := (n, TBase).
Definition ty_Duration := TStruct [b_ "Duration"].
Definition ty_TypeMeta := TStruct [b_ "Kind"; b_ "APIVersion"].
Definition ty_LabelSelectorRequirement := TStruct [b_ "Key"; b_ "Operator"; ("Values", TSlice TBase)].
Definition ty_LabelSelector := TStruct [("MatchLabels", TMap); ("MatchExpressions", TSlice ty_LabelSelectorRequirement)].
Definition ty_OwnerReference :=
  TStruct [b_ "APIVersion"; b_ "Kind"; b_ "Name"; b_ "UID"; ("Controller", TPtr TBase); ("BlockOwnerDeletion", TPtr TBase)].
Definition ty_FieldsV1 := TStruct [("Raw", TSlice TBase)].
Definition ty_ManagedFieldsEntry :=
  TStruct [b_ "Manager"; b_ "Operation"; b_ "APIVersion"; ("Time", TPtr TBase); b_ "FieldsType"; ("FieldsV1", TPtr ty_FieldsV1)].
Definition ty_ObjectMeta :=
  TStruct [b_ "Name"; b_ "GenerateName"; b_ "Namespace"; b_ "SelfLink"; b_ "UID"; b_ "ResourceVersion"; b_ "Generation"; b_ "CreationTimestamp";
           ("DeletionTimestamp", TPtr TBase); ("DeletionGracePeriodSeconds", TPtr TBase); ("Labels", TMap); ("Annotations", TMap);
           ("OwnerReferences", TSlice ty_OwnerReference); ("Finalizers", TSlice TBase); b_ "ClusterName"; ("ManagedFields", TSlice ty_ManagedFieldsEntry)].
Definition ty_ListMeta := TStruct [b_ "SelfLink"; b_ "ResourceVersion"; b_ "Continue"; ("RemainingItemCount", TPtr TBase)].
Definition ty_TraceSpec :=
  TStruct [("LabelSelector", ty_LabelSelector); ("FieldSelector", ty_LabelSelector); ("HostSelector", TSlice TBase); ("Syscalls", TSlice TBase);
           ("Duration", ty_Duration); b_ "SampleRate"].
Definition ty_TraceStatus := TStruct [b_ "State"; ("StartTime", TPtr TBase); ("CompletionTime", TPtr TBase); b_ "JobID"].
Definition ty_Trace := TStruct [("TypeMeta", ty_TypeMeta); ("ObjectMeta", ty_ObjectMeta); ("Spec", ty_TraceSpec); ("Status", ty_TraceStatus)].
Definition ty_TraceList := TStruct [("TypeMeta", ty_TypeMeta); ("ListMeta", ty_ListMeta); ("Items", TSlice ty_Trace)].

(** The types of the API, with their DeepCopyInto (what it stores) and DeepCopy. *)
Definition api_type (t : ty) (copy_into_ copy : val -> act val) : Prop :=
  (t = ty_Trace /\ copy_into_ = Trace_DeepCopyInto /\ copy = Trace_DeepCopy)
  \/ (t = ty_TraceList /\ copy_into_ = TraceList_DeepCopyInto /\ copy = TraceList_DeepCopy)
  \/ (t = ty_TraceSpec /\ copy_into_ = TraceSpec_DeepCopyInto /\ copy = TraceSpec_DeepCopy)
  \/ (t = ty_TraceStatus /\ copy_into_ = TraceStatus_DeepCopyInto /\ copy = TraceStatus_DeepCopy).
(** The two that are objects of the API server, with their DeepCopyObject. *)
Definition api_object (t : ty) (copy : val -> act val) (copy_object : val -> act (option val)) : Prop :=
  (t = ty_Trace /\ copy = Trace_DeepCopy /\ copy_object = Trace_DeepCopyObject)
  \/ (t = ty_TraceList /\ copy = TraceList_DeepCopy /\ copy_object = TraceList_DeepCopyObject).

(** * Memories that Go can have *)

(** The addresses in a value, and in a cell. *)
Fixpoint addresses (v : val) : list nat :=
  match v with
  | VPtr p | VSlice p _ _ | VMap p => [p]
  | VStruct fs => flat_map (fun f => addresses f.2) fs
  | VBase _ | VNil => []
  end.
Definition cell_addresses (c : cell) : list nat := match c with CArr xs => flat_map addresses xs | CMap _ => [] end.
(** Everything allocated is below the next address, and so are the addresses in it. *)
Definition sound (h : mem) : Prop :=
  forall p c, cells h !! p = Some c -> p < next h /\ Forall (fun q => q < next h) (cell_addresses c).

(** What a reader of [v] finds in any memory that is the same as [c] where [keep]. *)
Definition found_wherever (keep : nat -> Prop) (c : gmap nat cell) (t : ty) (v : val) (x : tree) : Prop :=
  forall c', (forall p, keep p -> c' !! p = c !! p) -> read c' t v = Some x.
