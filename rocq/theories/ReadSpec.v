(** What a reader of the server's messages finds: JSON read by RFC 8259, and the
    values an event stands for. *)
From Coq Require Import ZArith String Ascii Lia.
From stdpp Require Import base list numbers strings.
From Verif Require Import SyscallModel TopoModel RawModel CodecTables CodecModel JsonModel JsonSpec
  LineModel DecodeModel MsgModel MsgSpec.

Local Open Scope string_scope.
Local Open Scope list_scope.
Local Open Scope Z_scope.

(** * JSON *)

(** Values; strings and keys are their bytes in UTF-8.  Numbers with a fraction or an
    exponent are left out: [read_json] refuses them. *)
Inductive json :=
| JsNull
| JsBool (b : bool)
| JsNum (z : Z)
| JsStr (bs : list Z)
| JsArr (l : list json)
| JsObj (l : list (list Z * json)).

Fixpoint skip (bs : list Z) : list Z :=
  match bs with
  | b :: t => if (b =? 32) || (b =? 9) || (b =? 10) || (b =? 13) then skip t else bs
  | [] => []
  end.

(** What is before the next quote without a backslash, and what is behind it. *)
Fixpoint to_quote (bs : list Z) : option (list Z * list Z) :=
  match bs with
  | [] => None
  | b :: t =>
      if b =? 34 then Some ([], t)
      else if b =? 92 then
        match t with
        | e :: t' => match to_quote t' with Some (r, k) => Some (b :: e :: r, k) | None => None end
        | [] => None
        end
      else match to_quote t with Some (r, k) => Some (b :: r, k) | None => None end
  end.
Definition read_string (bs : list Z) : option (list Z * list Z) :=
  match to_quote bs with
  | Some (raw, k) => match unesc raw with Some s => Some (s, k) | None => None end
  | None => None
  end.

Definition is_digit (b : Z) : bool := (48 <=? b) && (b <=? 57).
Fixpoint read_digits (bs : list Z) (acc : Z) : Z * list Z :=
  match bs with
  | b :: t => if is_digit b then read_digits t (acc * 10 + (b - 48)) else (acc, bs)
  | [] => (acc, [])
  end.
Definition read_nat (bs : list Z) : option (Z * list Z) :=
  match bs with
  | b :: t => if b =? 48 then Some (0, t) else if is_digit b then Some (read_digits t (b - 48)) else None
  | [] => None
  end.
Definition read_num (bs : list Z) : option (Z * list Z) :=
  match bs with
  | b :: t =>
      if b =? 45 then match read_nat t with Some (z, k) => Some (- z, k) | None => None end
      else read_nat bs
  | [] => None
  end.

(** What is behind the byte [c], if [bs] starts with it; what is behind a comma, or else
    behind the closing byte [c]. *)
Definition after (c : Z) (bs : list Z) : option (list Z) :=
  match bs with b :: t => if b =? c then Some t else None | [] => None end.
Fixpoint after_all (cs bs : list Z) : option (list Z) :=
  match cs with
  | [] => Some bs
  | c :: cs => match after c bs with Some k => after_all cs k | None => None end
  end.
Definition more_or_end (c : Z) (bs : list Z) : option (bool * list Z) :=
  match after 44 (skip bs) with
  | Some k => Some (true, k)
  | None => match after c (skip bs) with Some k => Some (false, k) | None => None end
  end.

(** A value at the start of [bs], and what is behind it; [n]: at most this deep. *)
Fixpoint read_value (n : nat) (bs : list Z) : option (json * list Z) :=
  match n with
  | O => None
  | S n =>
      match skip bs with
      | [] => None
      | b :: t =>
          if b =? 34 then match read_string t with Some (s, k) => Some (JsStr s, k) | None => None end
          else if b =? 91 then
            match after 93 (skip t) with
            | Some k => Some (JsArr [], k)
            | None => match read_items n t with Some (l, k) => Some (JsArr l, k) | None => None end
            end
          else if b =? 123 then
            match after 125 (skip t) with
            | Some k => Some (JsObj [], k)
            | None => match read_members n t with Some (l, k) => Some (JsObj l, k) | None => None end
            end
          else if b =? 110 then match after_all (txt "ull") t with Some k => Some (JsNull, k) | None => None end
          else if b =? 116 then match after_all (txt "rue") t with Some k => Some (JsBool true, k) | None => None end
          else if b =? 102 then match after_all (txt "alse") t with Some k => Some (JsBool false, k) | None => None end
          else match read_num (b :: t) with Some (z, k) => Some (JsNum z, k) | None => None end
      end
  end
with read_items (n : nat) (bs : list Z) : option (list json * list Z) :=
  match n with
  | O => None
  | S n =>
      match read_value n bs with
      | Some (v, k) =>
          match more_or_end 93 k with
          | Some (true, k) => match read_items n k with Some (l, k) => Some (v :: l, k) | None => None end
          | Some (false, k) => Some ([v], k)
          | None => None
          end
      | None => None
      end
  end
with read_members (n : nat) (bs : list Z) : option (list (list Z * json) * list Z) :=
  match n with
  | O => None
  | S n =>
      match after 34 (skip bs) with
      | Some t =>
          match read_string t with
          | Some (key, k) =>
              match after 58 (skip k) with
              | Some k =>
                  match read_value n k with
                  | Some (v, k) =>
                      match more_or_end 125 k with
                      | Some (true, k) =>
                          match read_members n k with Some (l, k) => Some ((key, v) :: l, k) | None => None end
                      | Some (false, k) => Some ([(key, v)], k)
                      | None => None
                      end
                  | None => None
                  end
              | None => None
              end
          | None => None
          end
      | None => None
      end
  end.

(** A whole text. *)
Definition read_json (bs : list Z) : option json :=
  match read_value (length bs) bs with
  | Some (v, k) => match skip k with [] => Some v | _ => None end
  | None => None
  end.

(** * Events *)

(** A string as a reader gets it: with U+FFFD for each byte that is not part of a
    well-formed sequence. *)
Definition js_bytes (bs : list Z) : json := JsStr (json_text bs).
Definition js_text (s : string) : json := js_bytes (txt s).
Definition js_names (l : list string) : json := JsArr (map js_text l).
Definition js_obj (l : list (string * json)) : json := JsObj (map (fun e => (txt (fst e), snd e)) l).

Definition syscall_json (sc : option syscall) : json :=
  match sc with
  | Some s => js_obj [("nr", JsNum (sc_nr s)); ("name", js_text (sc_name s)); ("class", js_text (sc_class s));
                      ("group", js_text (sc_group s))]
  | None => JsNull
  end.

(** Members that are empty are left out. *)
Definition unless_empty (n s : string) : list (list Z * json) := if decide (s = "") then [] else [(txt n, js_text s)].
Definition unless_zero (n : string) (z : Z) : list (list Z * json) := if decide (z = 0) then [] else [(txt n, JsNum z)].
Definition container_json (c : option (container (list (string * string)))) : json :=
  match c with
  | Some c =>
      JsObj (unless_empty "id" (c_id c) ++ unless_empty "pod" (c_pod c)
             ++ unless_empty "sandbox-id" (c_sandbox c) ++ unless_empty "name" (c_name c)
             ++ unless_empty "image" (c_image c) ++ unless_empty "namespace" (c_namespace c)
             ++ (if decide (c_labels c = []) then []
                 else [(txt "labels", JsObj (map (fun kv => (json_text (txt (fst kv)), js_text (snd kv))) (c_labels c)))])
             ++ unless_zero "pid" (c_pid c) ++ unless_zero "pid-namespace" (c_pidns c))
  | None => JsNull
  end.

(** A number of a call: flag sets are the list of their names, enumerations a name. *)
Definition is_among (l : list (Z * string)) (nr : Z) (name : string) : bool :=
  existsb (fun e => (fst e =? nr) && String.eqb (snd e) name) l.
Definition js_flags (p : jparams) (c : codec) (z : Z) : json := js_names (encode c (j_order p (c_masks c)) z).
Definition int_json (p : jparams) (args : list Z) (nr : Z) (name : string) (z : Z) : json :=
  if is_among [(2, "flags"); (257, "flags")] nr name then js_flags p file_codec z
  else if is_among [(288, "flags")] nr name then js_flags p accept_codec z
  else if is_among [(254, "mask")] nr name then js_flags p inotify_codec z
  else if is_among [(165, "flags")] nr name then js_flags p mount_codec z
  else if is_among [(44, "flags"); (45, "flags")] nr name then js_flags p msg_codec z
  else if is_among [(166, "flags")] nr name then js_flags p umount_codec z
  else if is_among [(283, "flags"); (286, "flags")] nr name then js_flags p timer_codec z
  else if is_among [(41, "type")] nr name then js_names (encode_socktype z)
  else if is_among [(41, "family")] nr name then js_text (render family_names z)
  else if is_among [(41, "protocol")] nr name then js_text (render proto_names z)
  else if is_among [(54, "level"); (55, "level")] nr name then js_text (render level_names z)
  else if is_among [(54, "name"); (55, "name")] nr name then js_text (render_option (option_level args) z)
  else if is_among [(302, "resource")] nr name then js_text (render resource_names z)
  else JsNum z.

(** Structs: little-endian numbers of 8 or 4 bytes. *)
Definition js_s64 (bs : list Z) (off : nat) : json := JsNum (s64 (le (take 8 (drop off bs)))).
Definition js_u64 (bs : list Z) (off : nat) : json := JsNum (u64 (le (take 8 (drop off bs)))).
Definition js_s32 (bs : list Z) (off : nat) : json := JsNum (s32 (le (take 4 (drop off bs)))).
Definition js_u32 (bs : list Z) (off : nat) : json := JsNum (u32 (le (take 4 (drop off bs)))).
Definition js_timespec (sec nsec : json) : json := js_obj [("Sec", sec); ("Nsec", nsec)].
Definition js_timespec_at (bs : list Z) (off : nat) : json := js_timespec (js_s64 bs off) (js_s64 bs (off + 8)).
(** man 2 prlimit, timerfd_settime, stat. *)
Definition js_struct (nr : Z) (bs : list Z) : json :=
  if nr =? 302 then js_obj [("Cur", js_u64 bs 0); ("Max", js_u64 bs 8)]
  else if nr =? 286 then js_obj [("Interval", js_timespec_at bs 0); ("Value", js_timespec_at bs 16)]
  else js_obj
    [("Dev", js_u64 bs 0); ("Ino", js_u64 bs 8); ("Nlink", js_u64 bs 16); ("Mode", js_u32 bs 24);
     ("Uid", js_u32 bs 28); ("Gid", js_u32 bs 32); ("X__pad0", js_s32 bs 36); ("Rdev", js_u64 bs 40);
     ("Size", js_s64 bs 48); ("Blksize", js_s64 bs 56); ("Blocks", js_s64 bs 64);
     ("Atim", js_timespec_at bs 72); ("Mtim", js_timespec_at bs 88); ("Ctim", js_timespec_at bs 104);
     ("X__unused", JsArr [js_s64 bs 120; js_s64 bs 128; js_s64 bs 136])].
Definition js_sockaddr (mem : list Z) : json :=
  js_obj [("Family", JsNum (le (take 2 mem)));
          ("Data", JsArr (map (fun b => JsNum (s8 b)) (take 14 (drop 2 mem))));
          ("decoded", js_text (sockaddr_string mem))].

(** [j] shows the argument [v]. *)
Definition shows (p : jparams) (args : list Z) (nr : Z) (name : string) (v : value) (j : json) : Prop :=
  match v with
  | VInt z => j = int_json p args nr name z
  | VStr bs => j = js_bytes bs
  | VSlice off len =>
      exists s, j = JsStr s /\ unb64 s = Some (take (Z.to_nat len) (drop off args ++ j_heap p))
  | VSock off => j = js_sockaddr (drop off args ++ j_heap p)
  | VCopy bs => j = js_struct nr bs
  | VPtr off n => j = js_struct nr (take n (drop off args))
  | VAddrs slot =>
      j = js_timespec (JsNum (j_base p + Z.of_nat (slot_start slot))) (JsNum (j_base p + Z.of_nat (slot_start (S slot))))
  end.

(** Keys as Go's encoding/json finds them: upper and lower case are the same. *)
Definition lower (b : Z) : Z := if (65 <=? b) && (b <=? 90) then b + 32 else b.
Definition same_key (k : list Z) (name : string) : bool := bool_decide (map lower k = map lower (txt name)).
Definition member_of (ms : list (list Z * json)) (name : string) : option json :=
  match List.find (fun e => same_key (fst e) name) ms with Some e => Some (snd e) | None => None end.
(** execve's arguments are in an array. *)
Definition argument_of (ms : list (list Z * json)) (name : string) : option json :=
  let word i := match member_of ms "argv" with Some (JsArr l) => l !! i | _ => None end in
  if decide (name = "argv[0]") then word 0%nat
  else if decide (name = "argv[1]") then word 1%nat
  else if decide (name = "argv[2]") then word 2%nat
  else member_of ms name.

(** The members that hold no argument. *)
Definition extra (nr : Z) (k : list Z) (j : json) : Prop :=
  (nr = 59 /\ k = txt "argv" /\ exists l, j = JsArr l /\ length l = 4%nat /\ last l = Some (JsStr []))
  \/ (j = JsNum 0 /\ In (nr, k) [(45, txt "o_size"); (49, txt "Ret"); (2, txt "ret")]).

(** [a] shows the arguments: each of them, and nothing else.  getsockopt's are one level
    deeper. *)
Definition shows_args (p : jparams) (args : list Z) (nr : Z) (fs : list field) (vs : list value) (a : json) : Prop :=
  exists ms,
    a = (if nr =? 55 then js_obj [("sockopt", JsObj ms)] else JsObj ms)
    /\ (forall f v, (f, v) ∈ zip fs vs ->
          exists j, argument_of ms (f_name f) = Some j /\ shows p args nr (f_name f) v j)
    /\ (forall k j, (k, j) ∈ ms -> (exists f, f ∈ fs /\ same_key k (f_name f) = true) \/ extra nr k j).

(** The event [t] with arguments [a]. *)
Definition event_json (sc : option syscall) (c : option (container (list (string * string)))) (t : trace_event)
    (a : json) : json :=
  js_obj [("syscall", syscall_json sc); ("pid", JsNum (t_pid t)); ("tid", JsNum (t_tid t));
          ("container_pid", JsNum (t_cpid t)); ("uid", JsNum (t_uid t)); ("gid", JsNum (t_gid t));
          ("comm", js_bytes (t_comm t)); ("session", JsNum (t_sid t));
          ("container", container_json c); ("error", js_text (errno_to_string (t_error t)));
          ("return", JsNum (t_return t)); ("pid_ns", JsNum (t_pid_ns t));
          ("uts_ns", JsNum (t_uts_ns t)); ("mount_ns", JsNum (t_mnt_ns t));
          ("start", JsNum (t_start t)); ("finish", JsNum (t_finish t)); ("args", a)].
