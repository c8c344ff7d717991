(** What offset detection should do, said without the model's loops. *)
From Coq Require Import ZArith String Ascii Bool Lia.
From stdpp Require Import base list numbers strings gmap.
From Verif Require Import OffsetModel.

Local Open Scope string_scope.
Local Open Scope Z_scope.

Fixpoint all_chars (p : ascii -> bool) (s : string) : bool :=
  match s with EmptyString => true | String c s' => p c && all_chars p s' end.
(** A non-empty run of characters of a class. *)
Definition run (p : ascii -> bool) (s : string) : Prop := s <> "" /\ all_chars p s = true.

(** * Symbol files *)

(** [s] is the words [ws] with white space between and around them. *)
Inductive splits : string -> list string -> Prop :=
  | sp_nil s : all_chars is_space s = true -> splits s []
  | sp_cons pre w rest ws : all_chars is_space pre = true -> run (fun c => negb (is_space c)) w ->
      (rest = "" \/ exists c r, rest = String c r /\ is_space c = true) ->
      splits rest ws -> splits (pre +:+ w +:+ rest) (w :: ws).

(** A line of a file: no newline in it. *)
Definition one_line (l : string) : Prop := all_chars (fun c => negb (Ascii.eqb c newline)) l = true.
(** A line a scanner can hold. *)
Definition fits (l : string) : Prop := Z.of_nat (String.length l) <= 65535.
(** Lines as a file has them: each ended by a newline. *)
Fixpoint unlines (ls : list string) : string :=
  match ls with [] => "" | l :: ls' => l +:+ String newline (unlines ls') end.

(** The line says that a function [n] is at address [a]: address, "t" or "T", name, and
    possibly more. *)
Definition text_symbol (l a n : string) : Prop :=
  exists t rest, splits l (a :: t :: n :: rest) /\ (t = "t" \/ t = "T").
(** The line has no type, or is of a function and has no name. *)
Definition malformed (l : string) : Prop :=
  splits l [] \/ (exists a, splits l [a]) \/ exists a t, splits l [a; t] /\ (t = "t" \/ t = "T").
(** The last line about the function [n] says [a]. *)
Definition last_says (ls : list string) (n a : string) : Prop :=
  exists l1 l l2, ls = (l1 ++ l :: l2)%list /\ text_symbol l a n /\ forall l' a', In l' l2 -> ~ text_symbol l' a' n.

(** * Disassemblies *)

(** [s] starts with a load from a positive displacement, "mov r,QWORD PTR [b+off]". *)
Definition mov_at (s off : string) : Prop := exists sp r b w rest,
  s = "mov" +:+ sp +:+ r +:+ ",QWORD PTR [" +:+ b +:+ "+" +:+ "0x" +:+ w +:+ "]" +:+ rest
  /\ run re_space sp /\ run re_word r /\ run re_word b /\ run re_word w /\ off = "0x" +:+ w.
(** [s] starts with "lea r,[b+off]" or "lea r,[b-off]". *)
Definition lea_at (s off : string) : Prop := exists sp r b sign w rest,
  s = "lea" +:+ sp +:+ r +:+ ",[" +:+ b +:+ sign +:+ "0x" +:+ w +:+ "]" +:+ rest
  /\ (sign = "+" \/ sign = "-")
  /\ run re_space sp /\ run re_word r /\ run re_word b /\ run re_word w /\ off = "0x" +:+ w.
(** The first place of [s] where there is one. *)
Definition first_in (at_start : string -> string -> Prop) (s off : string) : Prop :=
  exists pre s', s = pre +:+ s' /\ at_start s' off /\
    forall pre' s'' off', s = pre' +:+ s'' -> at_start s'' off' -> (String.length pre <= String.length pre')%nat.

(** A line of code, and whether it mentions a text. *)
Definition code_line (l : string) : Prop := exists r, l = "ffffffff" +:+ r.
Definition mentions (sub l : string) : Prop := exists a b, l = a +:+ sub +:+ b.
Definition code_lines (ls : list string) : list string := List.filter (String.prefix "ffffffff") ls.

(** The offset in the first load that follows the first line that mentions the lock. *)
Definition load_after_lock (lock : string) (ls : list string) (off : string) : Prop :=
  exists l1 lk l2 mv l3, code_lines ls = (l1 ++ lk :: l2 ++ mv :: l3)%list
    /\ (forall l, In l l1 -> ~ mentions lock l) /\ mentions lock lk
    /\ (forall l o, In l l2 -> ~ first_in mov_at l o) /\ first_in mov_at mv off.

(** * Votes *)

Definition votes_for (off : string) (votes : list string) : Z :=
  Z.of_nat (length (List.filter (String.eqb off) votes)).
Definition most_voted (votes : list string) (off : string) : Prop :=
  In off votes /\ forall o, votes_for o votes <= votes_for off votes.
(** Go walks a map in any order. *)
Definition walks_map (walk : walker) : Prop := forall m, walk m ≡ₚ map_to_list m.

(** * Numbers *)

(** The value of a string of hexadecimal digits, most significant first. *)
Fixpoint hex_value (ds : list Z) : Z :=
  match ds with [] => 0 | d :: ds' => d * 16 ^ Z.of_nat (length ds') + hex_value ds' end.
Definition hex_digits (s : string) (ds : list Z) : Prop := map hex_digit (String.list_ascii_of_string s) = map Some ds.
(** The number an offset "0x…" stands for. *)
Definition offset_number (off : string) (n : Z) : Prop :=
  exists w ds, off = "0x" +:+ w /\ hex_digits w ds /\ ds <> [] /\ n = hex_value ds.

(** * Ballots *)

(** The votes of one text: [one_vote] says what a text votes for, if anything. *)
Definition vote_of (one_vote : string -> Prop) (vs : list string) : Prop :=
  (exists off, one_vote off /\ vs = [off]) \/ ((forall off, ~ one_vote off) /\ vs = []).
(** For the first offset a disassembled function has one vote. For the second every line
    of it has one. *)
Definition nsproxy_ballot (lock code : string) (vs : list string) : Prop := vote_of (load_after_lock lock (scan code)) vs.
Definition pidns_ballot (code : string) (vs : list string) : Prop :=
  exists per_line, Forall2 (fun l => vote_of (first_in lea_at l)) (scan code) per_line /\ vs = concat per_line.
(** All functions are known, could be disassembled, and [votes] is what they vote for. *)
Inductive ballots (ballot : string -> list string -> Prop) (syms : gmap string string) (dump : dumper) : list string -> list string -> Prop :=
  | ballots_nil : ballots ballot syms dump [] []
  | ballots_cons fn fns addr code vs rest : syms !! fn = Some addr -> dump addr = Some code ->
      ballot code vs -> ballots ballot syms dump fns rest -> ballots ballot syms dump (fn :: fns) (vs ++ rest)%list.
(** The address of the lock, "" if the symbols do not have it. *)
Definition lock_of (syms : gmap string string) : string := default "" (syms !! "_raw_spin_lock").

(** The functions that are looked at (offset_helper.go 18-31): those that read
    task->nsproxy, and those that read nsproxy->pid_ns_for_children. *)
Definition nsproxy_users : list string :=
  ["ipcns_get"; "mntns_get"; "cgroupns_get"; "netns_get"; "get_proc_task_net"; "switch_task_namespaces"; "mounts_open_common"].
Definition pidns_users : list string := ["pidns_for_children_get"; "pidns_put"; "pidns_get"].

(** What a detection works on: the symbols, and what the functions vote for. *)
Definition election (w : world) (votes1 votes2 : list string) : Prop :=
  exists text syms, w_syms w = Some text /\ parse_kernel_syms text = Some syms
    /\ ballots (nsproxy_ballot (lock_of syms)) syms (w_dump w) nsproxy_users votes1
    /\ ballots pidns_ballot syms (w_dump w) pidns_users votes2.
(** Only one offset has the most votes. *)
Definition clear_winner (votes : list string) (off : string) : Prop :=
  In off votes /\ forall o, o <> off -> votes_for o votes < votes_for off votes.
(** Both offsets in the map, as 32-bit numbers. *)
Definition both_set (cfg : gmap Z Z) (n1 n2 : Z) : gmap Z Z := <[2 := n2 mod 2 ^ 32]> (<[1 := n1 mod 2 ^ 32]> cfg).
(** The map is there, the kernel refuses nothing, and every vote is a number that fits. *)
Definition can_set (w : world) : Prop := w_map w = true /\ forall t, w_refuses w t = false.
Definition numeric (votes : list string) : Prop := forall o, In o votes -> exists n, offset_number o n /\ n < 2 ^ 63.

(** * Set *)

(** Which offset a call of Set is about: 1 and 2, by name or by number, integers modulo 256. *)
Definition about (a : set_arg) (t : Z) : Prop :=
  (t = 1 \/ t = 2) /\ (a = SetString (if t =? 1 then "nsproxy" else "pid_ns_common") \/ a = SetType t \/ exists n, a = SetInt n /\ n mod 256 = t).

(** * Flags *)

(** The number a flag says: an optional "0x", an optional sign, hexadecimal digits, and it
    fits a 64-bit integer. *)
Definition flag_says (s : string) (n : Z) : Prop :=
  exists sign w ds, (s = sign +:+ w \/ s = "0x" +:+ sign +:+ w) /\ hex_digits w ds /\ ds <> []
    /\ (sign = "-" /\ n = - hex_value ds \/ (sign = "" \/ sign = "+") /\ n = hex_value ds)
    /\ - 2 ^ 63 <= n < 2 ^ 63.
(** A flag that is given with a number sets the offset, one that is not given leaves it. *)
Definition flag_sets (t : Z) (s : string) (cfg cfg' : gmap Z Z) : Prop :=
  s = "" /\ cfg' = cfg \/ exists n, flag_says s n /\ cfg' = <[t := n mod 2 ^ 32]> cfg.
