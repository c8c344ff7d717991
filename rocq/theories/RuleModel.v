(** The text of a rule of the kernel filter: pkg/kernel/filter.go 333-388. The server
    and `swoll trace --no-containers` log it for every running rule (hub.go 303-312,
    cmd/trace.go 261-275). *)
From Coq Require Import ZArith String Lia.
From stdpp Require Import base list numbers strings pretty gmap.
From Verif Require Import SyscallModel FilterModel WalkModel.

Local Open Scope string_scope.
Local Open Scope list_scope.
Local Open Scope Z_scope.

(** strings.Join(out, "|"). *)
Fixpoint join_bar (l : list string) : string :=
  match l with [] => "" | [w] => w | w :: l => (w ++ "|" ++ join_bar l)%string end.
Definition bit (f m : Z) (name : string) : list string := if Z.land f m =? 0 then [] else [name].
(** filter.go 333-356: mode_enabled has no name. *)
Definition flag_text (f : Z) : string :=
  join_bar (bit f mode_syscall "FILTER_MODE_SYSCALL" ++ bit f mode_metrics "FILTER_MODE_METRICS" ++ bit f type_pid "FILTER_TYPE_PID" ++
            bit f type_pidns "FILTER_TYPE_PID_NS" ++ bit f type_syscall "FILTER_TYPE_SYSCALL").
(** filter.go 358-366. *)
Definition action_text (a : Z) : string :=
  if a =? action_allow then "ACTION_ALLOW" else if a =? action_drop then "ACTION_DROP" else "ACTION_UNKNOWN".
(** filter.go 368-379. *)
Definition call_text (tbl : syscalls) (nr : Z) : string := match lookup_sc tbl (ByInt nr) with None => "ALL" | Some sc => sc_name sc end.
Definition key_text (tbl : syscalls) (k : fkey) : string :=
  ("flags=" ++ flag_text (k_flags k) ++ ", pid-namespace=" ++ pretty (k_pidns k) ++ ", thread-id=" ++ pretty (k_thrid k) ++
   ", syscall=" ++ call_text tbl (k_syscall k))%string.
(** filter.go 381-384. *)
Definition val_text (v : fval) : string :=
  ("sample-rate=" ++ pretty (v_rate v) ++ ", current-sample-count=" ++ pretty (v_count v) ++ ", hits=" ++ pretty (v_hits v) ++
   ", action=" ++ action_text (v_action v))%string.
(** filter.go 386-388. *)
Definition rule_text (tbl : syscalls) (k : fkey) (v : fval) : string := ("{" ++ key_text tbl k ++ ", " ++ val_text v ++ "}")%string.
(** hub.go 303-312, trace.go 265-272: the lines of one report; [None]: see [walk]. *)
Definition report (tbl : syscalls) (snap : nat -> hmap fkey fval) (fuel : nat) : option (list string) :=
  match get_running snap fuel with None => None | Some rs => Some (map (fun r => rule_text tbl r.1 r.2) rs) end.
