(** Model of pkg/syscalls/syscalls.go. *)
From stdpp Require Import gmap strings list.
From Coq Require Import ZArith.
From Verif Require Import SyscallTable.
Open Scope Z_scope.

(** syscalls.go 10-15: the Syscall struct. *)
Record syscall := Syscall { sc_nr : Z; sc_name : string; sc_class : string; sc_group : string }.
(** syscalls.go 17-22: the two maps of the Syscalls struct. Pointers to one Syscall
    object are modelled by the (never mutated) object itself. *)
Record syscalls := Syscalls { by_nr : gmap Z syscall; by_name : gmap string syscall }.

(** consts.go 4: gSyscallMap as a Go map. *)
Definition syscall_numbers : gmap string Z := list_to_map gSyscallMap.
Definition syscall_nr (name : string) : option Z := syscall_numbers !! name.

(** syscalls.go 98-107: the innermost loop body; [None] is the returned error. *)
Definition init_one (class group : string) (s : syscalls) (name : string) : option syscalls :=
  match syscall_nr name with
  | None => None
  | Some nr =>
      let sc := Syscall nr name class group in
      Some (Syscalls (<[nr := sc]> (by_nr s)) (<[name := sc]> (by_name s)))
  end.
Fixpoint init_names (class group : string) (names : list string) (s : syscalls) : option syscalls :=
  match names with
  | [] => Some s
  | n :: ns => match init_one class group s n with None => None | Some s' => init_names class group ns s' end
  end.
Fixpoint init_groups (class : string) (gs : list (string * list string)) (s : syscalls) : option syscalls :=
  match gs with
  | [] => Some s
  | (g, names) :: gs' =>
      match init_names class g names s with None => None | Some s' => init_groups class gs' s' end
  end.
(** syscalls.go 94-112: init, given the order in which Go happens to walk the map
    of maps. *)
Fixpoint init_classes (cm : list (string * list (string * list string))) (s : syscalls) : option syscalls :=
  match cm with
  | [] => Some s
  | (c, gs) :: cm' =>
      match init_groups c gs s with None => None | Some s' => init_classes cm' s' end
  end.
(** syscalls.go 149-160: New. *)
Definition new_syscalls (walk : list (string * list (string * list string))) : option syscalls :=
  init_classes walk (Syscalls ∅ ∅).

(** A walk over the class map: the classes in any order, the groups of each class in
    any order; the names of a group are a slice, so in order. *)
Definition walks (cm walk : list (string * list (string * list string))) : Prop :=
  exists cm', Permutation cm cm' /\
    Forall2 (fun a b => fst a = fst b /\ Permutation (snd a) (snd b)) cm' walk.

(** The dynamic types Lookup distinguishes. *)
Inductive lookup_arg := ByString (s : string) | ByUint32 (n : Z) | ByInt (n : Z) | OtherType.

(** syscalls.go 116-137: Lookup. *)
Definition lookup_sc (s : syscalls) (v : lookup_arg) : option syscall :=
  match v with
  | ByString v =>
      let v := if String.prefix "sys_" v then v else ("sys_" ++ v)%string in
      by_name s !! v
  | ByUint32 n => by_nr s !! n
  | ByInt n => by_nr s !! n
  | OtherType => None
  end.

(** syscalls.go 60-70: GetByClass; walks the number map in any order. *)
Definition get_by_class (s : syscalls) (class : string) (res : list syscall) : Prop :=
  exists order, Permutation order (map_to_list (by_nr s)).*2 /\
    res = List.filter (fun sc => String.eqb (sc_class sc) class) order.
(** syscalls.go 48-58: GetByGroup. *)
Definition get_by_group (l : list syscall) (group : string) : list syscall :=
  List.filter (fun sc => String.eqb (sc_group sc) group) l.
(** syscalls.go 88-90: Calls. *)
Definition calls (class group : string) : list string :=
  default [] ((list_to_map (default [] ((list_to_map gClassMap : gmap _ _) !! class)) : gmap string (list string)) !! group).
