(** What a user of `swoll trace --no-containers` is told. *)
From Coq Require Import ZArith String Lia.
From stdpp Require Import base list numbers strings pretty gmap.
From Verif Require Import SyscallTable SyscallSpec KernelModel CaptureModel CaptureSpec LineModel LineSpec DecodeModel.

Local Open Scope string_scope.
Local Open Scope list_scope.
Local Open Scope Z_scope.

(** The tables of the program list a call [nr] under this name, with or without
    "sys_". *)
Definition names_call (name : string) (nr : Z) : Prop :=
  exists class group full, in_class_map class group full /\ (full, nr) ∈ gSyscallMap
    /\ (full = name \/ full = "sys_" +:+ name).

(** The names on the command line; execve when there are none. *)
Definition wanted (flag : list string) (name : string) : Prop :=
  (flag = [] /\ name = "execve") \/ name ∈ flag.
Definition asked (flag : list string) (nr : Z) : Prop := exists name, wanted flag name /\ names_call name nr.

(** Nobody else edits the filter. *)
Definition no_edits (l : list kop) : Prop := forall o, KUser o ∉ l.
(** The kernel remembers up to 65535 calls in progress. *)
Definition enters (l : list kop) : list Z := omap (fun o => match o with KEnter tid _ _ _ _ => Some tid | _ => None end) l.
Definition few_threads (l : list kop) : Prop := (size (list_to_set (enters l) : gset Z) <= Z.to_nat 65535)%nat.

(** An event on its way: what the kernel program and its surroundings put in, and the
    record that is read, with whatever the scratch slots held and whatever follows. *)
Definition record_of (x : kevent * surroundings) (bs : list Z) : Prop :=
  let (e, su) := x in
  surroundings_ok e su /\ exists scratch trailing, length scratch = 736%nat /\ bs = emit e su scratch ++ trailing.
(** It was sent in this history. *)
Definition was_sent (rs : list kout) (x : kevent * surroundings) : Prop := exists r, r ∈ rs /\ o_event r = Some (fst x).

(** The line of a call: the task's name and number and the call's name in their
    places. *)
Definition line_of (tty : bool) (comm : list Z) (pid : Z) (name : string) (out : list Z) : Prop :=
  exists ms before behind result args,
    out = text_bytes "(" ++ ms ++ text_bytes "ms) [" ++ repeat 32 before ++ comm ++ text_bytes "/" ++ text_bytes (pretty pid)
          ++ repeat 32 behind ++ text_bytes "] (" ++ result ++ text_bytes ") " ++ paint tty Cyan (text_bytes name)
          ++ text_bytes "(" ++ args ++ text_bytes ")" ++ [10].
(** ... of this event. umount2 (166) is printed as umount (C90). *)
Definition line_for (tty : bool) (x : kevent * surroundings) (out : list Z) : Prop :=
  exists name params, prototype (ev_nr (fst x)) = Some (name, params)
    /\ line_of tty (until_nul (su_comm (snd x))) (ev_tid (fst x) mod 2 ^ 32)
         (if decide (ev_nr (fst x) = 166) then "umount" else name) out.
