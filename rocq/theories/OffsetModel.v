(** Model of offset detection: pkg/kernel/offset_helper.go, pkg/kernel/offsets.go,
    cmd/offsetter.go, and of the kernel side that reads the offsets, probe.c 1033-1062.

    Texts are byte strings. White space and word characters are the ASCII ones: non-ASCII
    text in a symbol file or a disassembly is left out. Opening files and running objdump
    are inputs. *)
From Coq Require Import ZArith String Ascii Bool Lia.
From stdpp Require Import base list numbers strings gmap.

Local Open Scope string_scope.
Local Open Scope Z_scope.

(** * Texts *)

Definition newline : ascii := Ascii.ascii_of_nat 10.
Definition return_char : ascii := Ascii.ascii_of_nat 13.

(** bufio.ScanLines: the pieces that newlines end, and what follows the last one *)
Fixpoint pieces (acc s : string) : list string :=
  match s with
  | EmptyString => if String.eqb acc "" then [] else [acc]
  | String c s' => if Ascii.eqb c newline then acc :: pieces "" s' else pieces (acc +:+ String c "") s'
  end.
(** one carriage return is dropped from the end of a line *)
Fixpoint drop_cr (s : string) : string :=
  match s with
  | EmptyString => ""
  | String c EmptyString => if Ascii.eqb c return_char then "" else s
  | String c s' => String c (drop_cr s')
  end.
(** bufio.Scanner with its default buffer of 64 KiB: a longer line ends the scan, and
    none of the loops below asks for the error (offset_helper.go 52, 158, 198). *)
Fixpoint scan_pieces (l : list string) : list string :=
  match l with
  | [] => []
  | t :: l' => if (Z.of_nat (String.length t) <=? 65535) then drop_cr t :: scan_pieces l' else []
  end.
Definition scan (text : string) : list string := scan_pieces (pieces "" text).

(** strings.Fields *)
Definition is_space (c : ascii) : bool :=
  existsb (Nat.eqb (Ascii.nat_of_ascii c)) [9; 10; 11; 12; 13; 32]%nat.
Fixpoint fields_from (acc s : string) : list string :=
  match s with
  | EmptyString => if String.eqb acc "" then [] else [acc]
  | String c s' =>
      if is_space c then (if String.eqb acc "" then fields_from "" s' else acc :: fields_from "" s')
      else fields_from (acc +:+ String c "") s'
  end.
Definition fields (s : string) : list string := fields_from "" s.

(** strings.Contains, strings.TrimPrefix *)
Fixpoint contains (sub s : string) : bool :=
  String.prefix sub s || match s with EmptyString => false | String _ s' => contains sub s' end.
Fixpoint strip (lit s : string) : option string :=
  match lit, s with
  | EmptyString, _ => Some s
  | String a lit', String b s' => if Ascii.eqb a b then strip lit' s' else None
  | String _ _, EmptyString => None
  end.
Definition trim_prefix (lit s : string) : string := match strip lit s with Some r => r | None => s end.

(** * The two regular expressions (offset_helper.go 106-107)

    In both, every repetition is followed by a character outside its class, so it can
    only match the longest run; a match is the leftmost one. *)
Definition re_space (c : ascii) : bool := existsb (Nat.eqb (Ascii.nat_of_ascii c)) [9; 10; 12; 13; 32]%nat.
Definition re_word (c : ascii) : bool :=
  let n := Ascii.nat_of_ascii c in
  (Nat.leb 48 n && Nat.leb n 57) || (Nat.leb 65 n && Nat.leb n 90) || (Nat.leb 97 n && Nat.leb n 122) || Nat.eqb n 95.
Fixpoint span (p : ascii -> bool) (s : string) : string * string :=
  match s with
  | EmptyString => ("", "")
  | String c s' => if p c then let '(a, b) := span p s' in (String c a, b) else ("", s)
  end.
(** one or more characters of a class *)
Definition many (p : ascii -> bool) (s : string) : option (string * string) :=
  let '(a, b) := span p s in if String.eqb a "" then None else Some (a, b).
(** (0x\w+?)\] *)
Definition re_offset (s : string) : option string :=
  match strip "0x" s with
  | Some s =>
      match many re_word s with
      | Some (w, s) => match strip "]" s with Some _ => Some ("0x" +:+ w) | None => None end
      | None => None
      end
  | None => None
  end.
(** mov\s+\w+,QWORD PTR \[\w+\+(0x\w+?)\] at the start of [s] *)
Definition re_mov (s : string) : option string :=
  match strip "mov" s with
  | Some s =>
      match many re_space s with
      | Some (_, s) =>
          match many re_word s with
          | Some (_, s) =>
              match strip ",QWORD PTR [" s with
              | Some s =>
                  match many re_word s with
                  | Some (_, s) => match strip "+" s with Some s => re_offset s | None => None end
                  | None => None
                  end
              | None => None
              end
          | None => None
          end
      | None => None
      end
  | None => None
  end.
(** lea\s+\w+,\[\w+[+-](0x\w+?)\] at the start of [s] *)
Definition re_lea (s : string) : option string :=
  match strip "lea" s with
  | Some s =>
      match many re_space s with
      | Some (_, s) =>
          match many re_word s with
          | Some (_, s) =>
              match strip ",[" s with
              | Some s =>
                  match many re_word s with
                  | Some (_, s) =>
                      match s with
                      | String c s => if Ascii.eqb c "+" || Ascii.eqb c "-" then re_offset s else None
                      | EmptyString => None
                      end
                  | None => None
                  end
              | None => None
              end
          | None => None
          end
      | None => None
      end
  | None => None
  end.
(** FindStringSubmatch: the first group of the leftmost match *)
Fixpoint find (re : string -> option string) (s : string) : option string :=
  match re s with
  | Some r => Some r
  | None => match s with EmptyString => None | String _ s' => find re s' end
  end.

(** * Symbols and searches *)

(** one line of parseKernelSyms (offset_helper.go 53-62); [None] is the panic on a slice
    index *)
Definition sym_line (m : gmap string string) (line : string) : option (gmap string string) :=
  match fields line with
  | a :: t :: rest =>
      if String.eqb t "t" || String.eqb t "T" then
        match rest with n :: _ => Some (<[n := a]> m) | [] => None end
      else Some m
  | _ => None
  end.
Fixpoint sym_lines (m : gmap string string) (ls : list string) : option (gmap string string) :=
  match ls with
  | [] => Some m
  | l :: ls' => match sym_line m l with Some m' => sym_lines m' ls' | None => None end
  end.
(** parseKernelSyms (offset_helper.go 48-66) *)
Definition parse_kernel_syms (text : string) : option (gmap string string) := sym_lines ∅ (scan text).

(** nsproxyOffsetSearch (offset_helper.go 153-183); a symbol that is missing from a Go
    map is "" *)
Fixpoint nsproxy_lines (lockaddr : string) (locked : bool) (ls : list string) : string :=
  match ls with
  | [] => ""
  | l :: ls' =>
      if negb (String.prefix "ffffffff" l) then nsproxy_lines lockaddr locked ls'
      else if locked then
        match find re_mov l with Some off => off | None => nsproxy_lines lockaddr true ls' end
      else nsproxy_lines lockaddr (contains lockaddr l) ls'
  end.
Definition nsproxy_search (code : string) (syms : gmap string string) : string :=
  nsproxy_lines (default "" (syms !! "_raw_spin_lock")) false (scan code).

(** pidnscommonOffsetSearch (offset_helper.go 194-205) *)
Definition pidns_search (code : string) : list string := omap (find re_lea) (scan code).

(** * Candidates *)

(** candidates[off]++ (offset_helper.go 242, 269) *)
Definition vote (m : gmap string Z) (off : string) : gmap string Z := <[off := default 0 (m !! off) + 1]> m.
(** maxCandidates (offset_helper.go 207-223) over the order Go happens to walk the map *)
Fixpoint max_from (ms : string) (mn : Z) (l : list (string * Z)) : string * Z :=
  match l with
  | [] => (ms, mn)
  | (k, v) :: l' => if mn <? v then max_from k v l' else max_from ms mn l'
  end.
Definition max_candidates (l : list (string * Z)) : string * Z := max_from "" 0 l.

(** objdumpAddress (offset_helper.go 82-100): what the disassembly of an address is, or
    [None] for any error. *)
Notation dumper := (string -> option string).

(** the loop of nsproxyLikelyOffset (offset_helper.go 258-272): [None] is an error, else
    the votes in order *)
Fixpoint nsproxy_votes (syms : gmap string string) (dump : dumper) (fns : list string) : option (list string) :=
  match fns with
  | [] => Some []
  | fn :: fns' =>
      match syms !! fn with
      | None => None
      | Some addr =>
          match dump addr with
          | None => None
          | Some code =>
              match nsproxy_votes syms dump fns' with
              | None => None
              | Some l => let off := nsproxy_search code syms in Some (if String.eqb off "" then l else off :: l)
              end
          end
      end
  end.
(** the loop of pidnsCommonLikelyOffset (offset_helper.go 228-245) *)
Fixpoint pidns_votes (syms : gmap string string) (dump : dumper) (fns : list string) : option (list string) :=
  match fns with
  | [] => Some []
  | fn :: fns' =>
      match syms !! fn with
      | None => None
      | Some addr =>
          match dump addr with
          | None => None
          | Some code =>
              match pidns_votes syms dump fns' with
              | None => None
              | Some l => Some (pidns_search code ++ l)%list
              end
          end
      end
  end.
(** the votes counted, and the winner (offset_helper.go 247, 271) *)
Notation walker := (gmap string Z -> list (string * Z)).
Definition winner (walk : walker) (votes : list string) : string :=
  fst (max_candidates (walk (fold_left vote votes ∅))).

(** offset_helper.go 18-31 *)
Definition nsproxy_probes : list string :=
  ["ipcns_get"; "mntns_get"; "cgroupns_get"; "netns_get"; "get_proc_task_net"; "switch_task_namespaces"; "mounts_open_common"].
Definition pidns_probes : list string := ["pidns_for_children_get"; "pidns_put"; "pidns_get"].

(** * Numbers: strconv.ParseInt(s, 16, 64) *)

Definition hex_digit (c : ascii) : option Z :=
  let n := Z.of_nat (Ascii.nat_of_ascii c) in
  if (48 <=? n) && (n <=? 57) then Some (n - 48)
  else if (97 <=? n) && (n <=? 102) then Some (n - 87)
  else if (65 <=? n) && (n <=? 70) then Some (n - 55)
  else None.
Fixpoint hex_from (acc : Z) (s : string) : option Z :=
  match s with
  | EmptyString => Some acc
  | String c s' => match hex_digit c with Some d => hex_from (acc * 16 + d) s' | None => None end
  end.
(** digits only, at least one; Go checks for overflow digit by digit, the model at the end *)
Definition parse_uint16 (s : string) : option Z := if String.eqb s "" then None else hex_from 0 s.
Definition parse_int (s : string) : option Z :=
  match s with
  | String c s' =>
      if Ascii.eqb c "-" then
        match parse_uint16 s' with Some n => if n <=? 2 ^ 63 then Some (- n) else None | None => None end
      else
        match parse_uint16 (if Ascii.eqb c "+" then s' else s) with
        | Some n => if n <? 2 ^ 63 then Some n else None
        | None => None
        end
  | EmptyString => None
  end.

(** * Setting offsets *)

(** offsets.go 10-17 *)
Definition type_nsproxy : Z := 1.
Definition type_pidns : Z := 2.
(** what Offsetter.Set is given (offsets.go 68-85) *)
Inductive set_arg := SetString (s : string) | SetInt (n : Z) | SetType (t : Z) | SetOther.
Definition real_type (a : set_arg) : Z :=
  match a with
  | SetString s => if String.eqb s "nsproxy" then type_nsproxy else if String.eqb s "pid_ns_common" then type_pidns else 0
  | SetInt n => n mod 2 ^ 8
  | SetType t => t
  | SetOther => 0
  end.
(** NewOffset (offsets.go 49-63) accepts the two types only *)
Definition valid_type (t : Z) : bool := (t =? type_nsproxy) || (t =? type_pidns).
(** Set (offsets.go 68-95) on the configuration map of the probe. [refuses] tells for
    which keys the kernel refuses the update. The result is whether an error came back. *)
Definition set_offset (refuses : Z -> bool) (cfg : gmap Z Z) (a : set_arg) (v : Z) : bool * gmap Z Z :=
  let t := real_type a in
  if valid_type t then
    if refuses t then (true, cfg) else (false, <[t := v mod 2 ^ 32]> cfg)
  else (true, cfg).

(** What a call came back with. *)
Inductive outcome := ONil | OErr | OPanic.

(** errors.Wrapf of github.com/pkg/errors: nil stays nil *)
Definition wrapf (is_err : bool) : outcome := if is_err then OErr else ONil.

(** What detection finds outside: the symbol file, objdump, whether the probe has the
    configuration map, and which updates the kernel refuses. *)
Record world := World { w_syms : option string; w_dump : dumper; w_map : bool; w_refuses : Z -> bool }.

(** the numbers and the two calls of Set (offset_helper.go 295-323) *)
Definition set_detected (w : world) (nsproxy pidns : string) (cfg : gmap Z Z) : outcome * gmap Z Z :=
  match parse_int (trim_prefix "0x" nsproxy) with
  | None => (OErr, cfg)
  | Some n1 =>
      match parse_int (trim_prefix "0x" pidns) with
      | None => (OErr, cfg)
      | Some n2 =>
          if negb (w_map w) then (OErr, cfg)
          else
            let '(e, cfg) := set_offset (w_refuses w) cfg (SetString "nsproxy") n1 in
            if e then (OErr, cfg)
            else
              let '(e, cfg) := set_offset (w_refuses w) cfg (SetString "pid_ns_common") n2 in
              if e then (OErr, cfg) else (ONil, cfg)
      end
  end.
(** DetectAndSetOffsets (offset_helper.go 280-324) *)
Definition detect (walk1 walk2 : walker) (w : world) (cfg : gmap Z Z) : outcome * gmap Z Z :=
  match w_syms w with
  | None => (wrapf true, cfg)
  | Some text =>
      match parse_kernel_syms text with
      | None => (OPanic, cfg)
      | Some syms =>
          match nsproxy_votes syms (w_dump w) nsproxy_probes with
          | None => (wrapf true, cfg)
          | Some votes1 =>
              let nsproxy := winner walk1 votes1 in
              if String.eqb nsproxy "" then (wrapf false, cfg)
              else
                match pidns_votes syms (w_dump w) pidns_probes with
                | None => (wrapf true, cfg)
                | Some votes2 =>
                    let pidns := winner walk2 votes2 in
                    if String.eqb pidns "" then (wrapf false, cfg)
                    else set_detected w nsproxy pidns cfg
                end
          end
      end
  end.

(** * The command line *)

(** the three flags (cmd/root.go 94-96) *)
Record flags := Flags { fl_nodetect : bool; fl_nsproxy : string; fl_pidns : string }.
(** one flag (cmd/offsetter.go 28-46, 53-70); the program ends if the map is missing, an
    [OPanic] here *)
Definition set_flag (w : world) (name flag : string) (cfg : gmap Z Z) : outcome * gmap Z Z :=
  if String.eqb flag "" then (ONil, cfg)
  else
    match parse_int (trim_prefix "0x" flag) with
    | None => (OErr, cfg)
    | Some n =>
        if negb (w_map w) then (OPanic, cfg)
        else let '(e, cfg) := set_offset (w_refuses w) cfg (SetString name) n in ((if e then OErr else ONil), cfg)
    end.
(** SetOffsetsFromArgs (cmd/offsetter.go 12-77) *)
Definition offsets_from_args (walk1 walk2 : walker) (w : world) (f : flags) (cfg : gmap Z Z) : outcome * gmap Z Z :=
  if negb (fl_nodetect f) then detect walk1 walk2 w cfg
  else
    match set_flag w "nsproxy" (fl_nsproxy f) cfg with
    | (ONil, cfg) => set_flag w "pid_ns_common" (fl_pidns f) cfg
    | r => r
    end.

(** * The kernel side *)

(** swoll__get_nsproxy_offset and swoll__get_pid_ns_common_offset (probe.c 1033-1062);
    [compiled] is the offset the probe was compiled with *)
Definition kernel_offset (cfg : gmap Z Z) (t compiled : Z) : Z := default compiled (cfg !! t).
