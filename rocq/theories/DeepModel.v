(** Model of api/v1alpha1/zz_generated.deepcopy.go: the copies of Trace, TraceList,
    TraceSpec and TraceStatus, with the copies of apimachinery 0.18's ObjectMeta, ListMeta,
    LabelSelector and their parts, which they call (apis/meta/v1/zz_generated.deepcopy.go),
    over a memory with addresses.

    Simplified: a struct is built as a value and stored once, so [new] is the store of the
    finished struct (nobody has the address of the unfinished one); a time is a value (its
    *Location is never written to); the loops over maps go in the order of the model's maps. *)
From Coq Require Import ZArith String Lia.
From stdpp Require Import base list numbers strings gmap.

Local Open Scope string_scope.
Local Open Scope list_scope.

(** * Memory *)

(** What a variable of Go holds: a string, a number or a time; nil; a pointer; a slice
    (address of the array, first element, length); a map; a struct, field by field. *)
Inductive base := BStr (s : string) | BInt (z : Z).
Inductive val :=
| VBase (b : base)
| VNil
| VPtr (p : nat)
| VSlice (p off len : nat)
| VMap (p : nat)
| VStruct (fs : list (string * val)).
(** What is at an address: an array (of one element behind a pointer), or a map. *)
Inductive cell := CArr (xs : list val) | CMap (m : gmap string string).
Record mem := Mem { cells : gmap nat cell; next : nat }.

(** A piece of program: [None] is a panic. *)
Definition act (A : Type) : Type := mem -> option (mem * A).
Definition ret {A} (x : A) : act A := fun h => Some (h, x).
Definition bind {A B} (a : act A) (k : A -> act B) : act B :=
  fun h => match a h with Some (h', x) => k x h' | None => None end.
Definition panic {A} : act A := fun _ => None.
Notation "'do' x <- a ; k" := (bind a (fun x => k)) (at level 200, x name, a at level 100, k at level 200).
Definition alloc (c : cell) : act nat :=
  fun h => Some (Mem (<[next h := c]> (cells h)) (S (next h)), next h).
Definition array (p : nat) : act (list val) :=
  fun h => match cells h !! p with Some (CArr xs) => Some (h, xs) | _ => None end.
Definition strmap (p : nat) : act (gmap string string) :=
  fun h => match cells h !! p with Some (CMap m) => Some (h, m) | _ => None end.
(** The variable behind a pointer. *)
Definition pointee (p : nat) : act val := do xs <- array p; match xs with [x] => ret x | _ => panic end.

(** * Statements of the generated code *)

Fixpoint field (name : string) (fs : list (string * val)) : option val :=
  match fs with
  | [] => None
  | (n, v) :: fs => if String.eqb n name then Some v else field name fs
  end.
Fixpoint set_field (name : string) (x : val) (fs : list (string * val)) : list (string * val) :=
  match fs with
  | [] => []
  | (n, v) :: fs => if String.eqb n name then (n, x) :: fs else (n, v) :: set_field name x fs
  end.
(** [*out = *in], and then for each name of the list, in that order, the field of [in] is
    copied in the given way into the field of [out]. *)
Fixpoint assigns (steps : list (string * (val -> act val))) (in_ out : list (string * val)) : act (list (string * val)) :=
  match steps with
  | [] => ret out
  | (name, copy) :: steps =>
      match field name in_ with
      | None => panic
      | Some x => do y <- copy x; assigns steps in_ (set_field name y out)
      end
  end.
Definition into (steps : list (string * (val -> act val))) (v : val) : act val :=
  match v with
  | VStruct in_ => do out <- assigns steps in_ in_; ret (VStruct out)
  | _ => panic
  end.
(** [out.F = in.F]. *)
Definition assign (x : val) : act val := ret x.
(** [if in.F != nil { *out = make([]string, len( *in)); copy( *out, *in) }]; also of bytes. *)
Definition copy_slice (x : val) : act val :=
  match x with
  | VNil => ret VNil
  | VSlice p off len => do xs <- array p; do q <- alloc (CArr (take len (drop off xs))); ret (VSlice q 0 len)
  | _ => panic
  end.
(** [for i := range *in { ( *in)[i].DeepCopyInto(&( *out)[i]) }] in a new array. *)
Fixpoint each (copy : val -> act val) (xs : list val) : act (list val) :=
  match xs with
  | [] => ret []
  | x :: xs => do y <- copy x; do ys <- each copy xs; ret (y :: ys)
  end.
Definition copy_each (copy : val -> act val) (x : val) : act val :=
  match x with
  | VNil => ret VNil
  | VSlice p off len => do xs <- array p; do ys <- each copy (take len (drop off xs)); do q <- alloc (CArr ys); ret (VSlice q 0 len)
  | _ => panic
  end.
(** [if in.F != nil { *out = make(map[string]string, len( *in)); for key, val := range *in
    { ( *out)[key] = val } }]. *)
Definition copy_map (x : val) : act val :=
  match x with
  | VNil => ret VNil
  | VMap p => do m <- strmap p; do q <- alloc (CMap (map_fold (fun k v out => <[k := v]> out) ∅ m)); ret (VMap q)
  | _ => panic
  end.
(** [if in == nil { return nil }; out := new(T); in.DeepCopyInto(out); return out]; and the
    fields that are pointers. *)
Definition copy_ptr (copy : val -> act val) (x : val) : act val :=
  match x with
  | VNil => ret VNil
  | VPtr p => do v <- pointee p; do y <- copy v; do q <- alloc (CArr [y]); ret (VPtr q)
  | _ => panic
  end.

(** * apimachinery 0.18, apis/meta/v1/zz_generated.deepcopy.go and time.go 33-38 *)

Definition Time_DeepCopyInto : val -> act val := assign.
Definition Time_DeepCopy : val -> act val := copy_ptr Time_DeepCopyInto.
Definition LabelSelectorRequirement_DeepCopyInto : val -> act val :=
  into [("Values", copy_slice)].
Definition LabelSelector_DeepCopyInto : val -> act val :=
  into [("MatchLabels", copy_map); ("MatchExpressions", copy_each LabelSelectorRequirement_DeepCopyInto)].
Definition OwnerReference_DeepCopyInto : val -> act val :=
  into [("Controller", copy_ptr assign); ("BlockOwnerDeletion", copy_ptr assign)].
Definition FieldsV1_DeepCopyInto : val -> act val := into [("Raw", copy_slice)].
Definition ManagedFieldsEntry_DeepCopyInto : val -> act val :=
  into [("Time", Time_DeepCopy); ("FieldsV1", copy_ptr FieldsV1_DeepCopyInto)].
Definition ObjectMeta_DeepCopyInto : val -> act val :=
  into [("CreationTimestamp", Time_DeepCopyInto); ("DeletionTimestamp", Time_DeepCopy);
        ("DeletionGracePeriodSeconds", copy_ptr assign); ("Labels", copy_map); ("Annotations", copy_map);
        ("OwnerReferences", copy_each OwnerReference_DeepCopyInto); ("Finalizers", copy_slice);
        ("ManagedFields", copy_each ManagedFieldsEntry_DeepCopyInto)].
Definition ListMeta_DeepCopyInto : val -> act val := into [("RemainingItemCount", copy_ptr assign)].

(** * zz_generated.deepcopy.go *)

(** 85-100. *)
Definition TraceSpec_DeepCopyInto : val -> act val :=
  into [("LabelSelector", LabelSelector_DeepCopyInto); ("FieldSelector", LabelSelector_DeepCopyInto);
        ("HostSelector", copy_slice); ("Syscalls", copy_slice); ("Duration", assign)].
(** 113-123. *)
Definition TraceStatus_DeepCopyInto : val -> act val :=
  into [("StartTime", Time_DeepCopy); ("CompletionTime", Time_DeepCopy)].
(** 27-33. *)
Definition Trace_DeepCopyInto : val -> act val :=
  into [("TypeMeta", assign); ("ObjectMeta", ObjectMeta_DeepCopyInto); ("Spec", TraceSpec_DeepCopyInto); ("Status", TraceStatus_DeepCopyInto)].
(** 54-65. *)
Definition TraceList_DeepCopyInto : val -> act val :=
  into [("TypeMeta", assign); ("ListMeta", ListMeta_DeepCopyInto); ("Items", copy_each Trace_DeepCopyInto)].
(** 36-43, 68-75, 103-110, 126-133. *)
Definition Trace_DeepCopy : val -> act val := copy_ptr Trace_DeepCopyInto.
Definition TraceList_DeepCopy : val -> act val := copy_ptr TraceList_DeepCopyInto.
Definition TraceSpec_DeepCopy : val -> act val := copy_ptr TraceSpec_DeepCopyInto.
Definition TraceStatus_DeepCopy : val -> act val := copy_ptr TraceStatus_DeepCopyInto.
(** 46-51, 78-83. The result is an interface: [None] is the nil interface. *)
Definition copy_object (copy : val -> act val) (x : val) : act (option val) :=
  do c <- copy x; match c with VNil => ret None | _ => ret (Some c) end.
Definition Trace_DeepCopyObject : val -> act (option val) := copy_object Trace_DeepCopy.
Definition TraceList_DeepCopyObject : val -> act (option val) := copy_object TraceList_DeepCopy.
(** [in.DeepCopyInto(out)] for two different pointers. *)
Definition store (p : nat) (xs : list val) : act unit :=
  fun h => match cells h !! p with Some (CArr _) => Some (Mem (<[p := CArr xs]> (cells h)) (next h), tt) | _ => None end.
Definition copy_into (copy : val -> act val) (x out : val) : act unit :=
  match x, out with
  | VPtr p, VPtr q => do v <- pointee p; do y <- copy v; store q [y]
  | _, _ => panic
  end.

(** * Programs that hold some values and do with them what Go lets them do *)

Inductive op :=
| OConst (b : base)                       (* a constant *)
| ONil
| OLoad (i j : nat)                       (* element [j] of the array, or what the pointer points to *)
| OField (i : nat) (name : string)
| OWith (i : nat) (name : string) (k : nat)  (* the struct with a field replaced *)
| OStruct (fs : list (string * nat))
| OStore (i j k : nat)                    (* assign to an element, or to what the pointer points to *)
| ONew (k : nat)                          (* &x *)
| OMake (ks : list nat)                   (* a slice of the given elements *)
| OReslice (i lo hi : nat)                (* x[lo:hi] *)
| OMakeMap
| OMapSet (i : nat) (k v : string)
| OMapDelete (i : nat) (k : string).
Record prog := Prog { p_mem : mem; p_held : list val }.
Definition hold (s : prog) (v : val) : prog := Prog (p_mem s) (p_held s ++ [v]).
(** The address and the index of element [j]. *)
Definition slot (v : val) (j : nat) : option (nat * nat) :=
  match v with
  | VPtr p => if Nat.eqb j 0 then Some (p, 0) else None
  | VSlice p off len => if Nat.ltb j len then Some (p, off + j) else None
  | _ => None
  end.
Definition set_cell (s : prog) (p : nat) (c : cell) : prog := Prog (Mem (<[p := c]> (cells (p_mem s))) (next (p_mem s))) (p_held s).
Definition op_alloc (s : prog) (c : cell) (v : nat -> val) : prog :=
  match alloc c (p_mem s) with Some (h, q) => Prog h (p_held s ++ [v q]) | None => s end.
(** What cannot be done is not done. *)
Definition op_step (s : prog) (o : op) : prog :=
  match o with
  | OConst b => hold s (VBase b)
  | ONil => hold s VNil
  | OLoad i j =>
      match p_held s !! i with
      | Some v =>
          match slot v j with
          | Some (p, n) => match cells (p_mem s) !! p with Some (CArr xs) => match xs !! n with Some x => hold s x | None => s end | _ => s end
          | None => s
          end
      | None => s
      end
  | OField i name =>
      match p_held s !! i with
      | Some (VStruct fs) => match field name fs with Some x => hold s x | None => s end
      | _ => s
      end
  | OWith i name k =>
      match p_held s !! i, p_held s !! k with
      | Some (VStruct fs), Some x => hold s (VStruct (set_field name x fs))
      | _, _ => s
      end
  | OStruct fs => match mapM (fun f => match p_held s !! f.2 with Some x => Some (f.1, x) | None => None end) fs with Some l => hold s (VStruct l) | None => s end
  | OStore i j k =>
      match p_held s !! i, p_held s !! k with
      | Some v, Some x =>
          match slot v j with
          | Some (p, n) => match cells (p_mem s) !! p with Some (CArr xs) => set_cell s p (CArr (<[n := x]> xs)) | _ => s end
          | None => s
          end
      | _, _ => s
      end
  | ONew k => match p_held s !! k with Some x => op_alloc s (CArr [x]) VPtr | None => s end
  | OMake ks => match mapM (fun k => p_held s !! k) ks with Some xs => op_alloc s (CArr xs) (fun q => VSlice q 0 (length xs)) | None => s end
  | OReslice i lo hi =>
      match p_held s !! i with
      | Some (VSlice p off len) =>
          match cells (p_mem s) !! p with
          | Some (CArr xs) => if Nat.leb lo hi && Nat.leb (off + hi) (length xs) then hold s (VSlice p (off + lo) (hi - lo)) else s
          | _ => s
          end
      | _ => s
      end
  | OMakeMap => op_alloc s (CMap ∅) VMap
  | OMapSet i k v =>
      match p_held s !! i with
      | Some (VMap p) => match cells (p_mem s) !! p with Some (CMap m) => set_cell s p (CMap (<[k := v]> m)) | _ => s end
      | _ => s
      end
  | OMapDelete i k =>
      match p_held s !! i with
      | Some (VMap p) => match cells (p_mem s) !! p with Some (CMap m) => set_cell s p (CMap (delete k m)) | _ => s end
      | _ => s
      end
  end.
Definition op_run (s : prog) (os : list op) : prog := fold_left op_step os s.
