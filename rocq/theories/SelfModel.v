(** Model of cmd/selftest.go. The system is a record of its answers. *)
From Coq Require Import ZArith String Ascii Bool Lia.
From stdpp Require Import base list numbers strings gmap.
From Verif Require Import OffsetModel.

Local Open Scope string_scope.
Local Open Scope Z_scope.

(** What a call on a path answers. *)
Inductive answer (A : Type) := Gives (a : A) | NotExist | OtherError.
Arguments Gives {A} _. Arguments NotExist {A}. Arguments OtherError {A}.
Record system := System {
  sy_caps : option bool;              (* capability.NewPid(0), and whether it has CAP_SYS_ADMIN *)
  sy_tracing : answer unit;           (* os.Stat("/sys/kernel/debug/tracing") *)
  sy_mount : bool;                    (* whether mounting debugfs succeeds *)
  sy_tracing_then : answer unit;      (* the Stat once it was mounted *)
  sy_release : option (list Z);       (* Uname: the array of the release *)
  sy_stat : string -> answer unit;    (* os.Stat *)
  sy_open : string -> answer string }. (* os.Open, and the file's text *)

(** checkCapabilities (selftest.go 17-27) *)
Definition check_capabilities (s : system) : bool := match sy_caps s with Some b => b | None => false end.
(** checkMounts (29-35) *)
Definition check_mounts (a : answer unit) : bool := match a with NotExist => false | _ => true end.
(** slc2str (42-52): the bytes up to the first 0 *)
Fixpoint slc2str (buf : list Z) : string :=
  match buf with
  | [] => ""
  | v :: buf => if v =? 0 then "" else String (Ascii.ascii_of_nat (Z.to_nat (v mod 256))) (slc2str buf)
  end.
(** getBootConfigFile (41-65) *)
Definition boot_config_file (s : system) : answer string :=
  match sy_release s with
  | None => OtherError
  | Some r =>
      let cfg := "/boot/config-" +:+ slc2str r in
      match sy_stat s cfg with Gives _ => Gives cfg | NotExist => NotExist | OtherError => OtherError end
  end.
(** The expression of line 79, on a whole line *)
Definition config_line (l : string) : option string :=
  match many re_word l with
  | Some (w, r) => if String.eqb r "=y" || String.eqb r "=m" then Some w else None
  | None => None
  end.
(** The loop of parseBootConfig (80-87) *)
Fixpoint config_names (ls : list string) : gset string :=
  match ls with
  | [] => ∅
  | l :: ls => match config_line l with Some w => {[w]} ∪ config_names ls | None => config_names ls end
  end.
(** parseBootConfig (67-91) *)
Definition parse_boot_config (s : system) : answer (gset string) :=
  match boot_config_file s with
  | Gives cfg => match sy_open s cfg with Gives t => Gives (config_names (scan t)) | NotExist => NotExist | OtherError => OtherError end
  | NotExist => NotExist
  | OtherError => OtherError
  end.
(** checkFeatures (93-112): whether it returns nil, an error of a missing file, or another
    one *)
Definition features : list string := ["CONFIG_BPF"; "CONFIG_BPF_JIT"; "CONFIG_FTRACE_SYSCALLS"].
Definition check_features (s : system) : answer unit :=
  match parse_boot_config s with
  | Gives names => if forallb (fun c => bool_decide (c ∈ names)) features then Gives () else OtherError
  | NotExist => NotExist
  | OtherError => OtherError
  end.
(** The end of runSelfTest (137-144) *)
Definition features_pass (s : system) : bool := match check_features s with OtherError => false | _ => true end.
(** runSelfTest (114-145): whether it returns nil, and how often it mounts *)
Definition self_test (fix_ : bool) (s : system) : bool * nat :=
  if negb (check_capabilities s) then (false, 0%nat)
  else if check_mounts (sy_tracing s) then (features_pass s, 0%nat)
  else if negb fix_ then (false, 0%nat)
  else if negb (sy_mount s) then (false, 1%nat)
  else if negb (check_mounts (sy_tracing_then s)) then (false, 1%nat)
  else (features_pass s, 1%nat).
