(** What the users of `swoll server` rely on: about what happened on the machine, what
    the observers said and who asked, not about maps, trees and buffers. *)
From Coq Require Import ZArith String Lia.
From stdpp Require Import base list numbers strings pretty gmap.
From Verif Require Import SyscallModel SyscallSpec FilterModel HashModel RawModel CodecModel JsonModel JsonSpec DecodeModel KernelModel CaptureModel CaptureSpec MsgModel MsgSpec ReadSpec
  TopoModel HubModel HubSpec LineModel LineSpec PlainSpec WholeSpec LiveModel LiveSpec ServeModel.
From Verif Require PubSubSpec WatchModel WatchSpec.

Local Open Scope string_scope.
Local Open Scope list_scope.
Local Open Scope Z_scope.

(** ** What happened *)

(** The history as the machine and the hub's own observer see it, in the words of
    LiveSpec.v; what is none of their business is shown as a container without pid
    namespace, which is dropped. *)
Definition machine (o : sop) : wop :=
  match o with
  | STask o su scratch trailing lost => WTask o su scratch trailing lost
  | SPod start c => WPod start c
  | SMeter start ns => WMeter start ns
  | SRead i => WRead i
  | _ => WPod false (Container "" "" "" 0)
  end.
Definition outcome (r : sout) : wout := match r with VTask r => UTask r | VRead k ps => URead k ps None | _ => UNone end.
Definition story (l : list sop) : list wop := map machine l.
Definition outcomes (rs : list sout) : list wout := map outcome rs.

(** Memory, names and what the ring buffer adds are bytes; pid namespaces are kernel
    numbers; the encoder's parameters are reasonable. *)
Definition byte_memory (m : memory) : Prop := forall a b, m a = Some b -> 0 <= b < 256.
Definition plausible (o : sop) : Prop :=
  real (machine o)
  /\ match o with
     | STask _ su scratch trailing _ => byte_memory (su_mem su) /\ bytes (su_comm su) /\ bytes scratch /\ bytes trailing
     | SJob _ _ c => ct_ns c < 2 ^ 32
     | SCall p _ => reasonable p
     | _ => True
     end.

(** ** Jobs *)

(** Step [m] put job [j]'s [i]th call, which is [nr], in force for the containers of pid
    namespace [ns], and the job was not deleted since. A start that fails midway puts
    the first [n] calls in force. *)
Definition in_force (J : nat -> job) (l : list sop) (rs : list sout) (ns nr : Z) (m i j : nat) : Prop :=
  exists c n ok name, l !! m = Some (SJob j true c) /\ rs !! m = Some (VMatched n ok)
    /\ ct_ns c = ns /\ selects (J j) (ct_name c)
    /\ j_calls (J j) !! i = Some name /\ names_call name nr /\ (ok = true \/ (i < n)%nat)
    /\ forall q b, (m < q)%nat -> l !! q = Some (SDelete (j_id (J j))) -> rs !! q <> Some (VDeleted b).
Definition demanded (J : nat -> job) (l : list sop) (rs : list sout) (ns nr : Z) : Prop := exists m i j, in_force J l rs ns nr m i j.
(** [e] is a call, left at step [k], that a job demanded when it was entered; or an
    execve, entered at step [k]. *)
Definition about (J : nat -> job) (l : list sop) (rs : list sout) (k : nat) (e : kevent) : Prop :=
  (exists i tid t0 t args ugid now0 now ret cpu, a_call (story l) i k tid t0 t args ugid now0 now ret cpu /\ t_id t0 = t_id t
     /\ cpu < 1024 /\ t_id t mod 2 ^ 32 <> 59 /\ demanded J (take i l) (take i rs) (t_pidns t0) (t_id t mod 2 ^ 32)
     /\ e = KEvent tid ugid (t_id t mod 2 ^ 32) now0 now (t_pidns t) args ret)
  \/ exists tid t args ugid now cpu, did (story l) k (KExecve tid t args ugid now cpu)
     /\ cpu < 1024 /\ demanded J (take k l) (take k rs) (t_pidns t) 59 /\ e = KEvent tid ugid 59 now now (t_pidns t) args 0.
(** How often the jobs called [id] are in force for a call. *)
Definition times_in_force (J : nat -> job) (l : list sop) (rs : list sout) (ns nr : Z) (id : string) (n : nat) : Prop :=
  exists xs : list (nat * nat), NoDup xs /\ length xs = n
    /\ forall m i, (m, i) ∈ xs <-> exists j, in_force J l rs ns nr m i j /\ j_id (J j) = id.

Definition nothing_stopped (l : list sop) : Prop := forall j c, SJob j false c ∉ l.
Definition everything_installed (rs : list sout) : Prop := forall n, VMatched n false ∉ rs.

(** ** Clients *)

(** Client [w] came at step [i], asking for [a]. *)
Definition came (l : list sop) (rs : list sout) (i w : nat) (a : WatchModel.ask) : Prop :=
  exists draw, l !! i = Some (SClient (WatchModel.Join a draw)) /\ rs !! i = Some (VJoined w).
(** It was written at step [q] the text of the event sent at step [k]. *)
Definition wrote (rs : list sout) (q w k : nat) (text : list Z) : Prop := rs !! q = Some (VWrote w k text).
Definition took (rs : list sout) (q k : nat) (ps : list (option nat * list Z)) : Prop := rs !! q = Some (VRead k ps).

(** [n] texts of the event sent at [k] were written to client [w]. *)
Definition written (w k : nat) (r : sout) : bool :=
  match r with VWrote w' k' _ => (w =? w')%nat && (k =? k')%nat | _ => false end.
Definition texts (w k : nat) (rs : list sout) : nat := length (List.filter (written w k) rs).

(** The client asked for the events of this container; of a job in force. Names are
    compared by their hashes (C09, C10). *)
Definition meant_for (J : nat -> job) (l : list sop) (rs : list sout) (a : WatchModel.ask) (c : HubModel.container) (nr : Z) : Prop :=
  match a with
  | WatchModel.AskJob id => exists m i j, in_force J l rs (ct_ns c) nr m i j /\ (id = "" \/ hash (j_id (J j)) = hash id)
  | WatchModel.AskTrace ns pod name =>
      demanded J l rs (ct_ns c) nr /\ WatchSpec.agree (fun a b => hash a = hash b) ns pod name (ct_namespace c) (ct_pod c) (ct_name c)
  end.

(** The client is there to the end. *)
Definition stays_open (s : server) (w : nat) : Prop :=
  exists x, WatchModel.ws (sv_sys s) !! w = Some x /\ WatchModel.w_open x = true /\ WatchModel.w_broken x = false.

(** ** The text *)

(** A number of the call. The names of socket options depend on their level. *)
Definition number_json (p : jparams) (nr : Z) (regs : list Z) (name : string) (z : Z) : json :=
  if is_among [(54, "name"); (55, "name")] nr name then js_text (render_option (convert Int (nth 1 regs 0)) z)
  else int_json p [] nr name z.
(** How JSON shows an argument. Data and the values of socket options are in base 64. *)
Definition based (bs : list Z) (j : json) : Prop := exists s, j = JsStr s /\ unb64 s = Some bs.
Definition argument_json (p : jparams) (nr : Z) (regs : list Z) (name : string) (m : meaning) (sh : shown) (j : json) : Prop :=
  match sh with
  | ShInt z => j = number_json p nr regs name z
  | ShBytes bs =>
      match m with
      | Data _ _ => based bs j
      | Bytes _ _ => if decide (nr = 54 \/ nr = 55) then based bs j else j = js_struct nr bs
      | _ => j = js_bytes bs
      end
  | ShSock (address, port) =>
      exists family data, j = js_obj [("Family", family); ("Data", data); ("decoded", js_text (address ++ ":" ++ pretty port)%string)]
  | ShAddrs _ => False
  end.

(** The text is the event: who made the call, where, when, with what result and with
    what arguments, as far as they are shown right (CaptureSpec.v). Of the result 32 bits
    are shown, as a number that is not negative; execve is reported when it is entered. *)
Definition says (p : jparams) (d : TopoModel.container (list (string * string))) (e : kevent) (su : surroundings) (text : list Z) : Prop :=
  exists name class group failed result ret ms,
    read_json text = Some (js_obj
      [("syscall", js_obj [("nr", JsNum (ev_nr e)); ("name", js_text name); ("class", js_text class); ("group", js_text group)]);
       ("pid", JsNum (ev_tid e mod 2 ^ 32)); ("tid", JsNum (ev_tid e / 2 ^ 32));
       ("container_pid", JsNum (su_ns_pid su)); ("uid", JsNum (ev_ugid e mod 2 ^ 32)); ("gid", JsNum (ev_ugid e / 2 ^ 32));
       ("comm", js_bytes (until_nul (su_comm su))); ("session", JsNum (su_session su));
       ("container", container_json (Some d)); ("error", js_text result);
       ("return", JsNum ret); ("pid_ns", JsNum (ev_pidns e));
       ("uts_ns", JsNum (su_uts_ns su)); ("mount_ns", JsNum (su_mnt_ns su));
       ("start", JsNum (s64 (ev_entr e))); ("finish", JsNum (s64 (ev_exit e)));
       ("args", if ev_nr e =? 55 then js_obj [("sockopt", JsObj ms)] else JsObj ms)])
    /\ (exists call params, prototype (ev_nr e) = Some (call, params) /\ name = ("sys_" ++ call)%string) /\ in_class_map class group name
    /\ tells (ev_nr e) (ev_ret e) failed result
    /\ ret = (if decide (ev_nr e = 59) then 0 else ev_ret e mod 2 ^ 32)
    /\ forall member m sh, doc (ev_nr e) member = Some m -> is_wrong (ev_nr e) member = false ->
         expected (ev_enter e) (su_mem su) m = Some sh ->
         exists j, argument_of ms member = Some j /\ argument_json p (ev_nr e) (ev_enter e) member m sh j.

(** ** The end *)

(** No text can be made of the event: the caller gave read, write, readlink or readlinkat
    a count below 0, or mprotect a size above that of the memory behind the argument. *)
Definition unprintable (p : jparams) (e : kevent) : Prop :=
  (ev_nr e ∈ [0; 1; 89] /\ s64 (nth 2 (ev_enter e) 0) < 0)
  \/ (ev_nr e = 267 /\ s64 (nth 3 (ev_enter e) 0) < 0)
  \/ (ev_nr e = 10 /\ 256 + Z.of_nat (length (j_heap p)) < s64 (nth 1 (ev_enter e) 0)).
(** Two jobs with the same positive rate are in force for the call, and none with a lower one. *)
Definition same_rates (J : nat -> job) (l : list sop) (rs : list sout) (ns nr : Z) : Prop :=
  exists m i j m' i' j', in_force J l rs ns nr m i j /\ in_force J l rs ns nr m' i' j' /\ j <> j'
    /\ 0 < j_rate (J j) /\ j_rate (J j') = j_rate (J j)
    /\ forall m i j', in_force J l rs ns nr m i j' -> j_rate (J j) <= j_rate (J j').

(** What can end the server: a job that names no call, started or stopped for a
    container; a record whose call has no decoder, or of jobs with the same rate; a text
    that cannot be made; a client that let a write block. *)
Definition ends (J : nat -> job) (l : list sop) (rs : list sout) (o : sop) : Prop :=
  match o with
  | SJob j start c => 0 < ct_ns c /\ (start = true -> selects (J j) (ct_name c))
      /\ exists name, name ∈ j_calls (J j) /\ forall nr, ~ names_call name nr
  | SRead _ => exists k e su, sends (story l) (outcomes rs) k e su /\ (forall q ps, ~ took rs q k ps)
      /\ (decoder (ev_nr e) = None
           \/ (exists c, LiveSpec.known (story l) (ev_pidns e) c) /\ same_rates J l rs (ev_pidns e) (ev_nr e))
  | SCall p _ => exists q k ps e su, took rs q k ps /\ (forall q' k' ps', took rs q' k' ps' -> (q' <= q)%nat)
      /\ sends (story l) (outcomes rs) k e su /\ unprintable p e
  | SClient (WatchModel.Millisecond _) => exists p, SCall p false ∈ l
  | _ => False
  end.

(** The container as the hub has it, with its id, image and labels. *)
Definition describes (describe : HubModel.container -> TopoModel.container (list (string * string))) : Prop :=
  forall c, TopoModel.c_name (describe c) = ct_name c /\ TopoModel.c_pod (describe c) = ct_pod c
    /\ TopoModel.c_namespace (describe c) = ct_namespace c /\ TopoModel.c_pidns (describe c) = ct_ns c.
