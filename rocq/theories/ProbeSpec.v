(** What loading, the probe and its reader should do. *)
From Coq Require Import ZArith String Bool Lia.
From stdpp Require Import base list strings.
From Verif Require Import ProbeModel.

Local Open Scope string_scope.
Local Open Scope Z_scope.

(** The file that is named: by the flag, or if it is not given by the environment. *)
Inductive names (flag env : string) : option string -> Prop :=
  | named_by_flag : flag <> "" -> names flag env (Some flag)
  | named_by_env : flag = "" -> env <> "" -> names flag env (Some env)
  | not_named : flag = "" -> env = "" -> names flag env None.
(** The object that should be loaded. *)
Inductive object_for (read : string -> file) (builtin : list Z) : option string -> list Z -> Prop :=
  | the_file n b : read n = Contents b -> b <> [] -> object_for read builtin (Some n) b
  | empty_file n : read n = Contents [] -> object_for read builtin (Some n) builtin
  | no_file : object_for read builtin None builtin.

(** A probe is ready after a history of calls if InitProbe succeeded and it was not closed
    since. *)
Definition ready (h : list pcall) : Prop :=
  exists h1 load opts h2, h = (h1 ++ CInit load opts :: h2)%list /\ (pcall_do (after h1) (CInit load opts)).2 = true /\ ~ In CClose h2.
(** Calls that try to attach tracepoints [0 .. n-1], and did not fail half way. *)
Definition attaches_cleanly (n : nat) (c : pcall) : Prop :=
  match c with CTracepoints oks | CRun oks _ => oks = repeat true n | _ => True end.

(** The number of steps until the first failure. *)
Definition fails_at (oks : list bool) (k : nat) : Prop := exists r, oks = (repeat true k ++ false :: r)%list.

(** What the callback should be called with for what the kernel sends. *)
Definition deliver {M} (i : linput M) : option (option M * Z) := match i with LMsg m => Some (Some m, 0) | LLost n => Some (None, n) | LDone => None end.
