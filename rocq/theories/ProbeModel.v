(** Model of cmd/loader.go, pkg/kernel/probe.go and pkg/event/reader/kernel.go.

    What the file system, gobpf and the kernel answer are inputs. *)
From Coq Require Import ZArith String Bool Lia.
From stdpp Require Import base list strings.

Local Open Scope string_scope.
Local Open Scope Z_scope.

(** * The object to load *)

(** What reading a file gives. *)
Inductive file := Missing | Unreadable | Contents (b : list Z).
(** loadBPFargs (cmd/loader.go 14-46): the flag, else the environment; a file that does not
    exist or is empty makes way for the object that is built in. The second part says
    whether an error is returned: [err] of ReadFile is returned as it is (46). *)
Definition load_bpf (flag env : string) (read : string -> file) (builtin : list Z) : list Z * bool :=
  let name := if String.eqb flag "" then env else flag in
  let instead (b : list Z) := match b with [] => builtin | _ => b end in
  if String.eqb name "" then (instead [], false)
  else
    match read name with
    | Unreadable => ([], true)
    | Missing => (instead [], true)
    | Contents b => (instead b, false)
    end.
(** The callers end the program on an error (cmd/server.go 777-780, cmd/trace.go 100-103). *)
Definition started_with (flag env : string) (read : string -> file) (builtin : list Z) : option (list Z) :=
  let '(b, err) := load_bpf flag env read builtin in if err then None else Some b.

(** * The probe *)

(** Probe (probe.go 24-33), with what its calls did to the module: how often the object
    was loaded, which options were called, which tracepoints are attached, in order. *)
Record probe := Probe { p_init : bool; p_tp : bool; p_loads : nat; p_called : list nat; p_attached : list nat }.
(** NewProbe (53-70) *)
Definition new_probe : probe := Probe false false 0 [] [].
(** A range over calls that stops at the first error: how many were made, whether all went
    well. *)
Fixpoint attempts (oks : list bool) : nat * bool :=
  match oks with
  | [] => (0%nat, true)
  | true :: r => let '(n, ok) := attempts r in (S n, ok)
  | false :: _ => (1%nat, false)
  end.
(** InitProbe (82-107); [load]: whether Load succeeds, [opts]: whether each option does *)
Definition init_probe (p : probe) (load : bool) (opts : list bool) : probe * bool :=
  if p_init p then (p, true)
  else if negb load then (p, false)
  else
    let '(n, ok) := attempts opts in
    (Probe ok (p_tp p) (S (p_loads p)) (p_called p ++ seq 0 n) (p_attached p), ok).
(** InitTracepoints (132-146); [oks]: whether EnableTracepoint succeeds for each tracepoint
    of the configuration. A call that fails attaches nothing. *)
Definition init_tracepoints (p : probe) (oks : list bool) : probe * bool :=
  if p_tp p then (p, true)
  else
    let '(n, ok) := attempts oks in
    let done := if ok then n else pred n in
    (Probe (p_init p) ok (p_loads p) (p_called p) (p_attached p ++ seq 0 done), ok).
(** Close (149-158); gobpf is taken to detach all programs, whatever it returns. It keeps
    one descriptor per tracepoint, so this is a simplification for those attached twice. *)
Definition close_probe (p : probe) : probe := Probe false false (p_loads p) (p_called p) [].
(** Run up to its loop (162-190); [perf]: whether InitPerfMap succeeds *)
Definition run_starts (p : probe) (oks : list bool) (perf : bool) : probe * bool :=
  if negb (p_init p) then (p, false)
  else
    let '(p', ok) := init_tracepoints p oks in
    (p', ok && perf).
(** Histories of calls. *)
Inductive pcall := CInit (load : bool) (opts : list bool) | CTracepoints (oks : list bool) | CClose | CRun (oks : list bool) (perf : bool).
Definition pcall_do (p : probe) (c : pcall) : probe * bool :=
  match c with
  | CInit load opts => init_probe p load opts
  | CTracepoints oks => init_tracepoints p oks
  | CClose => (close_probe p, true)
  | CRun oks perf => run_starts p oks perf
  end.
Definition after (h : list pcall) : probe := fold_left (fun p c => (pcall_do p c).1) h new_probe.

(** * The loop of Run (192-212) *)

(** What the select takes, in order: a message, a number of lost frames, the end of the
    context. *)
Inductive linput (M : Type) := LMsg (m : M) | LLost (n : Z) | LDone.
Arguments LMsg {M} _. Arguments LLost {M} _. Arguments LDone {M}.
Inductive lend := Waiting | CallbackFailed | Cancelled.
(** [cb k]: whether the callback's [k]-th call goes well. The result: the arguments of the
    calls, how the loop ended, and whether PollStop was called. *)
Fixpoint loop {M} (cb : nat -> bool) (k : nat) (ins : list (linput M)) : list (option M * Z) * lend * bool :=
  match ins with
  | [] => ([], Waiting, false)
  | LMsg m :: r => if cb k then let '(ds, e, s) := loop cb (S k) r in ((Some m, 0) :: ds, e, s) else ([(Some m, 0)], CallbackFailed, false)
  | LLost n :: r => if cb k then let '(ds, e, s) := loop cb (S k) r in ((None, n) :: ds, e, s) else ([(None, n)], CallbackFailed, false)
  | LDone :: _ => ([], Cancelled, true)
  end.

(** * KernelReader *)

(** The goroutine of KernelReader.Run (kernel.go 41-51): in the select of Run, in the
    handler that sends on the unbuffered channel (31-36), or returned. *)
Inductive rpc (M : Type) := RSelect | RSending (m : M) | RReturned.
Arguments RSelect {M}. Arguments RSending {M} _. Arguments RReturned {M}.
Record pipe (M : Type) := Pipe {
  k_pc : rpc M;
  k_cancelled : bool;       (* the context *)
  k_run : bool;             (* KernelReader.Run has returned (nil) *)
  k_consumer : bool;        (* someone receives from Read() *)
  k_polled : list M;        (* messages taken from the kernel *)
  k_got : list M;           (* messages received from Read() *)
  k_stopped : bool }.       (* PollStop was called *)
Arguments Pipe {M} _ _ _ _ _ _ _.
Arguments k_pc {M} _. Arguments k_cancelled {M} _. Arguments k_run {M} _. Arguments k_consumer {M} _.
Arguments k_polled {M} _. Arguments k_got {M} _. Arguments k_stopped {M} _.
(** [ok]: whether Run gets to its loop; if not, its error is dropped (46-47) *)
Definition pipe_start {M} (ok : bool) : pipe M := Pipe (if ok then RSelect else RReturned) false false true [] [] false.
Inductive pstep (M : Type) :=
  | SPoll (m : M)      (* the select takes a message and calls the handler *)
  | SLost (n : Z)      (* the select takes a number of lost frames; the handler drops it *)
  | SSee               (* the select sees the context's end *)
  | STake              (* the consumer receives *)
  | SCancel            (* the context is cancelled *)
  | SReturn            (* KernelReader.Run sees that (48-50) *)
  | SQuit.             (* the consumer stops receiving *)
Arguments SPoll {M} _. Arguments SLost {M} _. Arguments SSee {M}. Arguments STake {M}. Arguments SCancel {M}. Arguments SReturn {M}. Arguments SQuit {M}.
Definition pstep_do {M} (s : pipe M) (a : pstep M) : pipe M :=
  match a, k_pc s with
  | SPoll m, RSelect => Pipe (RSending m) (k_cancelled s) (k_run s) (k_consumer s) (k_polled s ++ [m]) (k_got s) (k_stopped s)
  | SLost _, RSelect => s
  | SSee, RSelect => if k_cancelled s then Pipe RReturned true (k_run s) (k_consumer s) (k_polled s) (k_got s) true else s
  | STake, RSending m => if k_consumer s then Pipe RSelect (k_cancelled s) (k_run s) true (k_polled s) (k_got s ++ [m]) (k_stopped s) else s
  | SCancel, pc => Pipe pc true (k_run s) (k_consumer s) (k_polled s) (k_got s) (k_stopped s)
  | SReturn, pc => if k_cancelled s then Pipe pc true true (k_consumer s) (k_polled s) (k_got s) (k_stopped s) else s
  | SQuit, pc => Pipe pc (k_cancelled s) (k_run s) false (k_polled s) (k_got s) (k_stopped s)
  | _, _ => s
  end.
Definition pipe_run {M} (ok : bool) (acts : list (pstep M)) : pipe M := fold_left pstep_do acts (pipe_start ok).
