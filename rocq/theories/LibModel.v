(** Programs that use the library without a hub, as examples/basic-trace/main.go 23-45 and
    examples/kubernetes-basic/main.go 23-67 do: their calls of pkg/kernel's filter and the
    machine they trace. The callbacks, which only print, are in LineModel.v and
    PlainModel.v for `swoll trace`; here it matters whether they are called at all. *)
From Coq Require Import ZArith String Lia.
From stdpp Require Import base list numbers strings gmap.
From Verif Require Import SyscallModel FilterModel FilterSpec KernelModel.

Local Open Scope string_scope.
Local Open Scope list_scope.
Local Open Scope Z_scope.

(** What happens: the machine's tasks and the helpers of the filter (filter.go 143-148,
    241-314), AddRule and DelRule of a rule made by NewFilterRule (filter.go 102-160), and
    FilterSelf (filter.go 318-331). *)
Inductive libop := LMachine (o : kop) | LAddRule (os : list ropt) | LDelRule (os : list ropt) | LFilterSelf.

Definition with_filter (s : kstate) (m : kmaps) : kstate * kout := (KState m (ks_metrics s) (ks_calls s), KOut None None None).
Definition lib_step (tbl : syscalls) (s : kstate) (a : libop) : kstate * kout :=
  match a with
  | LMachine o => kstep tbl s o
  | LAddRule os => with_filter s (with_rule tbl os add_rule (ks_filter s)).1
  | LDelRule os => with_filter s (with_rule tbl os del_rule (ks_filter s)).1
  | LFilterSelf => with_filter s (filter_self (ks_filter s)).1
  end.
Fixpoint lib_run (tbl : syscalls) (s : kstate) (l : list libop) : kstate * list kout :=
  match l with
  | [] => (s, [])
  | a :: l => let (s1, r) := lib_step tbl s a in let (s2, rs) := lib_run tbl s1 l in (s2, r :: rs)
  end.
(** The freshly loaded object. *)
Definition loaded : kstate := fresh_kernel (KMaps ∅ ∅).

(** filter.AddSyscall(name, -1) for each name. *)
Definition add_all (names : list string) : list libop := map (fun n => LMachine (KUser (FAddSyscall (ByString n) (-1)))) names.
(** examples/basic-trace/main.go 29; probe.go 119-129 (WithDefaultFilter). *)
Definition basic_trace : list libop := [LFilterSelf].
(** examples/kubernetes-basic/main.go 35-39. *)
Definition kubernetes_basic : list libop := LFilterSelf :: add_all ["execve"; "openat"; "accept4"; "connect"].
