(** The log of "swoll client create --oneshot -o json" (cmd/client.go 275-333), which is
    the log of the pods the trace controller starts, and hack/tools/pretty_logs.go, which
    prints it.

    A log line is the JSON text of a client.StreamMessage (pkg/client/endpoint.go 38-43):
    the endpoint and the event readWebsock made of the server's message.  The texts of
    MsgModel.v, the reading of UnmarshalModel.v and the printing of PrintModel.v are used
    here again. *)
From Coq Require Import ZArith String Ascii Lia.
From stdpp Require Import base list numbers strings pretty gmap.
From Verif Require Import ChartModel TopModel SyscallModel TopoModel RawModel DecodeModel CodecTables CodecModel JsonModel LineModel TextModel
  MsgModel MsgSpec ReadSpec PrintModel UnmarshalModel.

Local Open Scope string_scope.
Local Open Scope list_scope.
Local Open Scope Z_scope.

(** * The event in the client's memory *)

(** An argument as UnmarshalJSON leaves it: a number, a socket option with its level, a
    Go string, a byte slice, the 16 bytes of a SockAddr, the bytes of a struct of numbers,
    the two numbers of a nanosleep's struct. *)
Inductive cvalue :=
| HInt (z : Z)
| HOption (lv tp : Z)
| HText (bs : list Z)
| HBytes (bs : list Z)
| HSock (mem : list Z)
| HStruct (bs : list Z)
| HPair (sec nsec : Z).

Definition held_int (m : option JsonModel.member) : option cvalue :=
  match m with
  | Some (MInt z) => Some (HInt z)
  | Some (MOption lv tp) => Some (HOption lv tp)
  | _ => None
  end.
(** As UnmarshalModel.un_member. *)
Definition held_value (order : list (Z * string) -> list (Z * string)) (nr : Z) (f : field) (j : json) : option cvalue :=
  match f_kind f, j with
  | KS32, _ | KU32, _ | KS64, _ | KU64, _ | KUnset, _ => held_int (un_int order nr (f_name f) j)
  | KStr, JsStr s => Some (HText s)
  | KSlice _, JsStr s | KSliceMin _, JsStr s | KSliceMax _, JsStr s =>
      match unb64 s with Some bs => Some (HBytes bs) | None => None end
  | KSock, JsObj ms =>
      match un_struct [("Family", LNum 2); ("Data", LNums 14 1)] ms with Some bs => Some (HSock bs) | None => None end
  | KCopy _, JsObj ms | KPtr _, JsObj ms =>
      match un_struct (layout_of nr) ms with Some bs => Some (HStruct bs) | None => None end
  | KAddrs, JsObj ms =>
      match num_at ms "Sec", num_at ms "Nsec" with Some a, Some b => Some (HPair a b) | _, _ => None end
  | _, _ => None
  end.

(** A Go string: its bytes as characters. *)
Definition string_at (ms : list (list Z * json)) (key : string) : option string :=
  match UnmarshalModel.text_at ms key with Some bs => Some (string_of_bytes bs) | None => None end.

(** syscalls.go 10-15 *)
Definition held_syscall (ms : list (list Z * json)) : option syscall :=
  match member_of ms "syscall" with
  | Some (JsObj l) =>
      match num_at l "nr", string_at l "name", string_at l "class", string_at l "group" with
      | Some nr, Some name, Some class, Some group => Some (Syscall nr name class group)
      | _, _, _, _ => None
      end
  | _ => None
  end.
(** container.go 5-15.  The labels are kept in the order of the message, which is
    ascending, as a map's are when it is written. *)
Definition held_labels (ms : list (list Z * json)) : option (list (string * string)) :=
  match member_of ms "labels" with
  | None | Some JsNull => Some []
  | Some (JsObj l) =>
      mapM (fun e => match snd e with
                     | JsStr s => Some (string_of_bytes (fst e), string_of_bytes s)
                     | JsNull => Some (string_of_bytes (fst e), "")
                     | _ => None
                     end) l
  | Some _ => None
  end.
Definition held_container (ms : list (list Z * json)) : option (option (container (list (string * string)))) :=
  match member_of ms "container" with
  | None | Some JsNull => Some None
  | Some (JsObj l) =>
      match string_at l "id", string_at l "pod", string_at l "sandbox-id", string_at l "name", string_at l "image", string_at l "namespace" with
      | Some id, Some pod, Some sandbox, Some name, Some image, Some ns =>
          match held_labels l, num_at l "pid", num_at l "pid-namespace" with
          | Some ls, Some pid, Some pidns => Some (Some (Ctr id pod sandbox name image ns ls pid pidns))
          | _, _, _ => None
          end
      | _, _, _, _, _, _ => None
      end
  | Some _ => None
  end.

(** trace.go 18-34; the numbers: those of UnmarshalModel.numbers. *)
Record held := Held {
  h_syscall : syscall; h_comm : list Z; h_sid : Z; h_container : option (container (list (string * string)));
  h_error : Z; h_numbers : list Z; h_fields : list field; h_values : list cvalue
}.
(** As UnmarshalModel.un_event: [Some] if it is [Read]. *)
Definition held_event (order : list (Z * string) -> list (Z * string)) (j : json) : option held :=
  match j with
  | JsObj ms =>
      match held_syscall ms, UnmarshalModel.text_at ms "comm", num_at ms "session", un_error order ms, held_container ms, mapM (num_at ms) numbers with
      | Some sc, Some comm, Some sid, Some err, Some c, Some ns =>
          match decoder (sc_nr sc), member_of ms "args" with
          | Some fs, Some a =>
              match args_members (sc_nr sc) a with
              | Some l =>
                  if forallb (present l) fs
                  then match mapM (fun f => match argument_of l (f_name f) with
                                            | Some j => held_value order (sc_nr sc) f j
                                            | None => None
                                            end) fs with
                       | Some vs => Some (Held sc comm sid c err ns fs vs)
                       | None => None
                       end
                  else None
              | None => None
              end
          | _, _ => None
          end
      | _, _, _, _, _, _ => None
      end
  | _ => None
  end.
(** endpoint.go 223-227 *)
Definition holds (order : list (Z * string) -> list (Z * string)) (msg : list Z) : option held :=
  match read_json msg with Some j => held_event order j | None => None end.

(** * The line *)

(** The JSON methods of the argument types, as in MsgModel.member_text.  [heap] is the
    memory behind a SockAddr. *)
Definition cvalue_text (order : list (Z * string) -> list (Z * string)) (heap : list Z) (nr : Z) (name : string) (v : cvalue) : list Z :=
  match v with
  | HInt z => int_text (JParams order 0 []) [] nr name z
  | HOption lv tp => qs (render_option lv tp)
  | HText bs => quote bs
  | HBytes bs => [34] ++ b64 bs ++ [34]
  | HSock mem => sock_text (mem ++ heap)
  | HStruct bs => struct_text nr bs
  | HPair sec nsec => timespec_text (num sec) (num nsec)
  end.
Fixpoint named_held (fs : list field) (vs : list cvalue) (name : string) : option cvalue :=
  match fs, vs with
  | f :: fs', v :: vs' => if String.eqb (f_name f) name then Some v else named_held fs' vs' name
  | _, _ => None
  end.
(** As MsgModel.field_text; members the server never assigns are zero here as well. *)
Definition held_field (at_ : string -> list Z) (j : jfield) : string * list Z :=
  match j with
  | JOf n m => (n, at_ m)
  | JZero n => (n, num 0)
  | JWords n ms => (n, arr (map at_ ms ++ [quote []]))
  end.
Definition held_args (order : list (Z * string) -> list (Z * string)) (heap : list Z) (h : held) : list Z :=
  let nr := sc_nr (h_syscall h) in
  match List.find (fun e => fst (fst e) =? nr) json_structs with
  | Some (_, nest, js) =>
      let o := obj (map (held_field (fun m => match named_held (h_fields h) (h_values h) m with
                                              | Some v => cvalue_text order heap nr m v
                                              | None => []
                                              end)) js) in
      match nest with Some n => obj [(n, o)] | None => o end
  | None => []
  end.
Definition number_of (h : held) (key : string) : list Z :=
  match List.find (fun e => String.eqb (fst e) key) (combine numbers (h_numbers h)) with
  | Some (_, z) => num z
  | None => []
  end.
(** trace.go 18-34 *)
Definition held_text (order : list (Z * string) -> list (Z * string)) (heap : list Z) (h : held) : list Z :=
  obj [("syscall", syscall_text (Some (h_syscall h))); ("pid", number_of h "pid"); ("tid", number_of h "tid");
       ("container_pid", number_of h "container_pid"); ("uid", number_of h "uid"); ("gid", number_of h "gid");
       ("comm", quote (h_comm h)); ("session", num (h_sid h));
       ("container", container_text (h_container h)); ("error", qs (errno_to_string (h_error h)));
       ("return", number_of h "return"); ("pid_ns", number_of h "pid_ns");
       ("uts_ns", number_of h "uts_ns"); ("mount_ns", number_of h "mount_ns");
       ("start", number_of h "start"); ("finish", number_of h "finish"); ("args", held_args order heap h)].

(** endpoint.go 27-34 *)
Record endpoint := Endpoint { ep_host : string; ep_port : Z; ep_tls : bool }.
Definition endpoint_text (e : endpoint) : list Z :=
  obj [("hostname", qs (ep_host e)); ("port", num (ep_port e)); ("UseTLS", txt (if ep_tls e then "true" else "false"))].
(** client.go 322-324 *)
Definition log_line (order : list (Z * string) -> list (Z * string)) (heap : list Z) (e : endpoint) (h : held) : list Z :=
  obj [("endpoint", endpoint_text e); ("payload", held_text order heap h)] ++ [10].

(** * pretty_logs.go *)

(** bufio.Scanner with ScanLines: lines without their line feed and a carriage return
    before it; what is behind the last line feed is a line if there is anything.  A line
    that does not fit a buffer of 65536 bytes with its line feed ends the scan: [false]. *)
Definition drop_cr (bs : list Z) : list Z :=
  match last bs with Some 13 => take (length bs - 1) bs | _ => bs end.
Fixpoint scan (line rest : list Z) : list (list Z) * bool :=
  match rest with
  | [] => if 65536 <=? Z.of_nat (length line) then ([], false)
          else (match line with [] => [] | _ => [drop_cr line] end, true)
  | b :: rest =>
      if b =? 10
      then if 65536 <=? Z.of_nat (length line) then ([], false)
           else let '(ls, ok) := scan [] rest in (drop_cr line :: ls, ok)
      else scan (line ++ [b]) rest
  end.

(** endpoint.go 27-43: whether "endpoint" is one. *)
Definition bool_at (ms : list (list Z * json)) (key : string) : bool :=
  match member_of ms key with None | Some JsNull | Some (JsBool _) => true | Some _ => false end.
Definition endpoint_ok (ms : list (list Z * json)) : bool :=
  match member_of ms "endpoint" with
  | None | Some JsNull => true
  | Some (JsObj l) => bool_decide (is_Some (UnmarshalModel.text_at l "hostname")) && bool_decide (is_Some (num_at l "port")) && bool_at l "UseTLS"
  | Some _ => false
  end.
(** pretty_logs.go 29-32: json.Unmarshal goes on behind a member of a wrong type and
    returns the error at its end.  [ReadNil]: no error, but no payload. *)
Definition read_log (order : list (Z * string) -> list (Z * string)) (heap : list Z) (base : Z) (b : list Z) : outcome :=
  match read_json b with
  | Some JsNull => ReadNil
  | Some (JsObj ms) =>
      let payload := match member_of ms "payload" with Some j => un_event order heap base j | None => ReadNil end in
      if endpoint_ok ms then payload
      else match payload with Read _ | ReadNil => Skipped | o => o end
  | _ => Skipped
  end.

(** pretty_logs.go 38-60 *)
Definition pretty_arg (tty : bool) (a : string * string * list Z) : list Z :=
  let '(ty, label, bs) := a in
  txt "(" ++ bold tty (txt ty) ++ txt ")" ++ txt label ++ txt "=" ++ bold tty bs.
Definition pretty_line (order : list (Z * string) -> list (Z * string)) (base : Z) (tty : bool) (e : client_event) : option (list Z) :=
  match call (ce_nr e), client_arguments (client_printer order base e) e with
  | Some (name, _), Some args =>
      Some (right_align 35 (bold tty (paint tty Green (fqdn (ce_container e)))) ++ txt ": ["
            ++ right_align 8 (ce_comm e) ++ txt "] (" ++ right_align 11 (error_text tty (ce_error e)) ++ txt ") "
            ++ bold tty (paint tty Cyan (txt name)) ++ txt "("
            ++ join (txt ", ") (map (pretty_arg tty) args) ++ txt ")" ++ [10])
  | _, _ => None
  end.

(** What a line makes the program do: print something, or [None]: end with a panic.
    pretty_logs.go 25: of a line of one byte the second is looked at; line 34: a nil
    pointer is followed. *)
Definition pretty_step (order : list (Z * string) -> list (Z * string)) (heap : list Z) (base : Z) (tty : bool) (b : list Z) : option (list Z) :=
  match b with
  | [] => Some []
  | b0 :: t =>
      if b0 =? 10 then Some []
      else match t with
           | [] => None
           | b1 :: _ =>
               if b1 =? 13 then Some []
               else match read_log order heap base b with
                    | Read e => pretty_line order base tty e
                    | Skipped => Some []
                    | ReadNil | Crashed | Unmodelled => None
                    end
           end
  end.
(** What is printed, and whether all lines were looked at. *)
Fixpoint pretty_lines (order : list (Z * string) -> list (Z * string)) (heap : list Z) (base : Z) (tty : bool) (ls : list (list Z)) : list Z * bool :=
  match ls with
  | [] => ([], true)
  | b :: ls =>
      match pretty_step order heap base tty b with
      | Some out => let '(outs, ok) := pretty_lines order heap base tty ls in (out ++ outs, ok)
      | None => ([], false)
      end
  end.
Definition pretty_logs (order : list (Z * string) -> list (Z * string)) (heap : list Z) (base : Z) (tty : bool) (input : list Z) : list Z * bool :=
  let '(ls, ok) := scan [] input in
  let '(out, ok') := pretty_lines order heap base tty ls in (out, ok' && ok).
