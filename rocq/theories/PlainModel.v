(** `swoll trace --no-containers` (cmd/trace.go 205-262): the rules it installs, and
    the loop that prints. *)
From Coq Require Import ZArith String Lia.
From stdpp Require Import base list numbers strings gmap.
From Verif Require Import SyscallModel FilterModel RawModel LineModel DecodeModel.

Local Open Scope string_scope.
Local Open Scope list_scope.
Local Open Scope Z_scope.

(** trace.go 53-56: the calls of the -s flag. *)
Definition flag_calls (flag : list string) : list string :=
  match flag with [] => ["execve"] | _ => flag end.

(** trace.go 224-232; filter.go 162-169: NewFilterRuleN. [None] is log.Fatal, on an
    unknown name as well as on a full map. *)
Fixpoint install_calls (tbl : syscalls) (names : list string) (m : kmaps) : option kmaps :=
  match names with
  | [] => Some m
  | n :: names =>
      let (m', ok) := with_rule tbl [SetModeSyscall; SetSyscall (ByString n); SetActionAllow] add_rule m in
      if ok then install_calls tbl names m' else None
  end.

(** trace.go 222-236: the maps are those of the freshly loaded object, empty. *)
Definition install (tbl : syscalls) (flag : list string) : option kmaps :=
  match install_calls tbl (flag_calls flag) (KMaps ∅ ∅) with
  | None => None
  | Some m => let (m', ok) := enable m in if ok then Some m' else None
  end.

(** trace.go 246-258: what is printed for each record, and whether the program still
    runs afterwards. [None] of showMsg is a panic; so is an event Ingest panics on,
    and an error is log.Fatal. The container of the event is never set. The printer may
    differ from line to line: Go goes through a map in any order, and addresses vary. *)
Fixpoint print_loop (json : trace_event -> list Z -> option (list Z)) (p : nat -> trace_event -> printer) (out : string)
    (tty : bool) (msgs : list (list Z)) : list (list Z) * bool :=
  match msgs with
  | [] => ([], true)
  | bs :: msgs =>
      match ingest (InKernelEvent bs), ingest_bytes bs with
      | Ingested t, Some r =>
          match show_msg json (p (length msgs) t) out tty true None t (r_args r) with
          | Some o => let (os, alive) := print_loop json p out tty msgs in (o :: os, alive)
          | None => ([], false)
          end
      | _, _ => ([], false)
      end
  end.
