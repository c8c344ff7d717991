(** Specification vocabulary for the BPF programs: everything is said about the
    history of program runs and what they showed, not about the maps. *)
From stdpp Require Import gmap strings list.
From Coq Require Import ZArith.
From Verif Require Import SyscallModel FilterModel FilterSpec KernelModel.
Open Scope Z_scope.

(** ** Pairing *)
(** Step [i] is a sys_exit of thread [tid]. *)
Definition exit_at (l : list kop) (i : nat) (tid : Z) : Prop :=
  exists t ret now cpu, l !! i = Some (KExit tid t ret now cpu).
(** Step [i] is a sys_enter of thread [tid]. *)
Definition enter_at (l : list kop) (i : nat) (tid : Z) : Prop :=
  exists t args ugid now, l !! i = Some (KEnter tid t args ugid now).
(** ... that the filter let through and that was stored. *)
Definition saved (rs : list kout) (i : nat) : Prop := exists r, rs !! i = Some r /\ o_saved r = Some true.
(** A thread enters a call only after it has left the one before. *)
Definition takes_turns (l : list kop) (tid : Z) : Prop :=
  forall i j, (i < j)%nat -> enter_at l i tid -> enter_at l j tid -> exists k, (i < k < j)%nat /\ exit_at l k tid.
(** Step [i] is the last thing thread [tid] did before step [k]. *)
Definition just_before (l : list kop) (i k : nat) (tid : Z) : Prop :=
  (i < k)%nat /\ forall j, (i < j < k)%nat -> ~ exit_at l j tid /\ ~ enter_at l j tid.

(** ** Metrics *)
(** The errno the metrics see in a return value: its low 32 bits, when they are
    between -254 and -1. *)
Definition errno_of (ret : Z) : Z := let r := s32 ret in if decide (-255 < r < 0) then - r else 0.
(** A step that is a monitored sys_exit of [nr] in namespace [ns] with errno [e]. *)
Definition exits_with (ns nr e : Z) (s : kop * kout) : Prop :=
  match s with
  | (KExit _ t ret _ _, r) => o_metric r <> None /\ t_pidns t = ns /\ u32 (t_id t) = nr /\ errno_of ret = e
  | _ => False
  end.
Global Instance exits_with_dec ns nr e s : Decision (exits_with ns nr e s).
Proof. destruct s as [[] ?]; cbn; apply _. Defined.
(** A step that is a monitored sys_exit of [nr] in namespace [ns]. *)
Definition exits_all (ns nr : Z) (s : kop * kout) : Prop :=
  match s with (KExit _ t _ _ _, r) => o_metric r <> None /\ t_pidns t = ns /\ u32 (t_id t) = nr | _ => False end.
Global Instance exits_all_dec ns nr s : Decision (exits_all ns nr s).
Proof. destruct s as [[] ?]; cbn; apply _. Defined.
(** The steps since [ns] was last pruned. *)
Fixpoint since_prune (ns : Z) (h : list (kop * kout)) : list (kop * kout) :=
  match h with
  | [] => []
  | s :: h => if existsb (fun x => match x with (KPrune n, _) => u32 n =? ns | _ => false end) h
              then since_prune ns h
              else match s with (KPrune n, _) => if u32 n =? ns then h else s :: h | _ => s :: h end
  end.
(** How many monitored exits there were since the last prune. *)
Definition exits_count (ns nr e : Z) (h : list (kop * kout)) : Z := Z.of_nat (length (filter (exits_with ns nr e) (since_prune ns h))).
(** No metrics update was refused because the map was full. *)
Definition never_full (rs : list kout) : Prop := forall r, r ∈ rs -> o_metric r <> Some false.
(** What the metrics map shows for a key. *)
Definition shown_count (s : kstate) (ns nr e : Z) : Z := match ks_metrics s !! MKey ns nr e with Some v => mv_count v | None => 0 end.
Definition shown_time (s : kstate) (ns nr e : Z) : Z := match ks_metrics s !! MKey ns nr e with Some v => mv_time v | None => 0 end.

(** ** Time *)
(** One call: entry time, exit time, return value. *)
Record called := Called { cl_in : Z; cl_out : Z; cl_ret : Z }.
(** The monitored calls of [nr] in [ns], read off a history in which they do not
    overlap: the finished ones and the entry time of the one in flight. [None] when
    two overlap, an exit has no entry, or [ns] is pruned during a call. *)
Definition call_step (ns nr : Z) (st : option (list called * option Z)) (s : kop * kout) : option (list called * option Z) :=
  match st with
  | None => None
  | Some (cs, fl) =>
      match s with
      | (KEnter _ t _ _ now, KOut (Some _) _ _) =>
          if decide (t_pidns t = ns /\ u32 (t_id t) = nr)
          then match fl with None => Some (cs, Some now) | Some _ => None end else st
      | (KExit _ t ret now _, KOut (Some _) _ _) =>
          if decide (t_pidns t = ns /\ u32 (t_id t) = nr)
          then match fl with Some e => Some ((cs ++ [Called e now ret])%list, None) | None => None end else st
      | (KPrune n, _) =>
          if decide (u32 n = ns) then match fl with None => Some ([], None) | Some _ => None end else st
      | _ => st
      end
  end.
Definition calls (ns nr : Z) (h : list (kop * kout)) : option (list called * option Z) :=
  fold_left (call_step ns nr) h (Some ([], None)).
(** Total duration of some calls. *)
Definition total (cs : list called) : Z := fold_right (fun c n => (cl_out c - cl_in c) + n) 0 cs.
Definition with_errno (e : Z) (cs : list called) : list called := filter (fun c => errno_of (cl_ret c) = e) cs.
(** The return value is an errno or not negative as an int. *)
Definition ordinary (c : called) : Prop := -255 < s32 (cl_ret c).
