(** What a watched job's user can rely on, in terms of what arrives and when. *)
From Coq Require Import ZArith List Lia.
From stdpp Require Import base list numbers.
From Verif Require Import StreamModel.

Local Open Scope list_scope.
Local Open Scope Z_scope.

Section Event.
Context {A : Type}.

(** The frames that arrive in a history, and the events among frames. *)
Definition arrived (is : list (input A)) : list (frame A) :=
  flat_map (fun i => match i with Arrive f => [f] | _ => [] end) is.
Definition events (fs : list (frame A)) : list A :=
  flat_map (fun f => match f with Data _ (Some a) => [a] | _ => [] end) fs.
Definition waiting (h : option A) : list A := match h with Some a => [a] | None => [] end.

(** How long a history takes. *)
Definition elapsed (is : list (input A)) : Z :=
  foldr (fun i n => match i with Wait d => Z.max 0 d | _ => 0 end + n) 0 is.

(** The frames the client reads during a history that starts in [s]. *)
Fixpoint frames_read (is : list (input A)) (s : stream A) : list (frame A) :=
  match is with
  | [] => []
  | i :: is' =>
      match i, queue s with
      | Read _, f :: q => if (length (queue (step i s)) <? length (queue s))%nat then [f] else []
      | _, _ => []
      end ++ frames_read is' (step i s)
  end.

(** No message is too large and nobody ends the stream. *)
Definition harmless (i : input A) : Prop :=
  match i with
  | Arrive (Data n _) => (n <= max_message_size)%nat
  | Arrive Close | Arrive (Broken _) | Reset _ | Cancel => False
  | _ => True
  end.

(** The client never goes a minute without reading the answer to a ping. *)
Definition answered (is : list (input A)) (s : stream A) : Prop :=
  forall is1 is2 is3, is = is1 ++ is2 ++ is3 -> Pong ∉ frames_read is2 (run is1 s) ->
    elapsed is2 < pong_wait.

(** What one endpoint sees of the whole command's history: up to the signal that
    ends it. *)
Fixpoint seen_by (ep : nat) (is : list (winput A)) : list (input A) :=
  match is with
  | [] => []
  | At e i :: is' => (if (e =? ep)%nat then [i] else []) ++ seen_by ep is'
  | Clock d :: is' => Wait d :: seen_by ep is'
  | Signal :: _ => [Cancel]
  end.

(** What was printed of one endpoint's events. *)
Definition printed_of (ep : nat) (out : list (nat * A)) : list A :=
  flat_map (fun e => if (fst e =? ep)%nat then [snd e] else []) out.

End Event.
