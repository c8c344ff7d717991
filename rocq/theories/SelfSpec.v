(** When a self-test should pass. *)
From Coq Require Import ZArith String Ascii Bool Lia.
From stdpp Require Import base list numbers strings gmap.
From Verif Require Import OffsetModel OffsetSpec SelfModel.

Local Open Scope string_scope.
Local Open Scope Z_scope.

(** A line that switches an option on, possibly with the carriage return of a DOS file. *)
Definition switches_on (opt l : string) : Prop :=
  exists v e, (v = "y" \/ v = "m") /\ (e = "" \/ e = String return_char "") /\ l = opt +:+ "=" +:+ v +:+ e.
(** A text of lines has the option. *)
Definition has_option (opt : string) (ls : list string) : Prop := exists l, In l ls /\ switches_on opt l.
(** The release: what comes before the first 0. *)
Definition release_is (r : list Z) (name : string) : Prop :=
  exists pre post, r = (pre ++ post)%list /\ ~ In 0 pre /\ (post = [] \/ exists post', post = 0 :: post')
    /\ name = string_of_list_ascii (map (fun v => Ascii.ascii_of_nat (Z.to_nat (v mod 256))) pre).
(** The file that describes the running kernel. *)
Definition config_file (s : system) (f : string) : Prop :=
  exists r name, sy_release s = Some r /\ release_is r name /\ f = "/boot/config-" +:+ name.
(** The tracing file system is there, or at least cannot be said to be missing. *)
Definition not_missing (a : answer unit) : Prop := a <> NotExist.
Definition mounted (fix_ : bool) (s : system) : Prop :=
  not_missing (sy_tracing s) \/ (fix_ = true /\ sy_mount s = true /\ not_missing (sy_tracing_then s)).
(** The options of the kernel that are needed. *)
Definition needed : list string := ["CONFIG_BPF"; "CONFIG_BPF_JIT"; "CONFIG_FTRACE_SYSCALLS"].
