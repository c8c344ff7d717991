(** Model of how swoll server listens and ends: cmd/server.go 771-775, 888-903 and
    shutdown (925-942), with http.Server's Shutdown as Go 1.13 has it (net/http/server.go):
    the listener is closed first, idle connections next, then it looks again and again
    whether any connection is left, until the context's time is over. Connections that
    became websockets (Hijack) are not the server's any more. The probe, the hub and the
    jobs of a running server are in ServeModel.v and ServerModel.v. *)
From Coq Require Import List Arith Lia.
From stdpp Require Import base gmap list.

(** Running; an interrupt came and so many seconds are left; ended with a status. *)
Inductive phase := Serving | Closing (left : nat) | Gone (status : nat).

(** Whether the listener was opened (889-897: ListenAndServe's error goes nowhere), the
    requests being handled, the websockets, all requests ever taken. *)
Record life := Life { l_phase : phase; l_listens : bool; l_busy : gset nat; l_streams : gset nat; l_taken : list nat }.
Definition new_life (listens : bool) : life := Life Serving listens ∅ ∅ [].

(** What can happen: a client sends a new request; the handler of a request answers it or
    makes a websocket of it (cmd/server.go 275, 316); a websocket ends; the process is
    interrupted; a second passes; Shutdown looks for connections that are left. *)
Inductive lact := Send (id : nat) | Answer (id : nat) | Upgrade (id : nat) | Hangup (id : nat) | Interrupt | Second | Look.

Definition gone (p : phase) : bool := match p with Gone _ => true | _ => false end.
Definition lstep (s : life) (a : lact) : life :=
  if gone (l_phase s) then s
  else
    match a with
    (* only a server that listens and is not closing takes requests *)
    | Send id =>
        match l_phase s with
        | Serving =>
            if l_listens s && negb (bool_decide (id ∈ l_taken s))
            then Life Serving true ({[id]} ∪ l_busy s) (l_streams s) (l_taken s ++ [id])
            else s
        | _ => s
        end
    | Answer id => Life (l_phase s) (l_listens s) (l_busy s ∖ {[id]}) (l_streams s) (l_taken s)
    | Upgrade id =>
        if bool_decide (id ∈ l_busy s)
        then Life (l_phase s) (l_listens s) (l_busy s ∖ {[id]}) ({[id]} ∪ l_streams s) (l_taken s)
        else s
    | Hangup id => Life (l_phase s) (l_listens s) (l_busy s) (l_streams s ∖ {[id]}) (l_taken s)
    (* 927-936: the first interrupt is read from the channel, later ones stay in it *)
    | Interrupt =>
        match l_phase s with
        | Serving => Life (Closing 15) (l_listens s) (l_busy s) (l_streams s) (l_taken s)
        | _ => s
        end
    (* 933, 936-939: the context ends, Shutdown returns its error, runServer returns *)
    | Second =>
        match l_phase s with
        | Closing (S (S n)) => Life (Closing (S n)) (l_listens s) (l_busy s) (l_streams s) (l_taken s)
        | Closing _ => Life (Gone 0) (l_listens s) (l_busy s) (l_streams s) (l_taken s)
        | _ => s
        end
    (* 936, 941: nothing is left, Shutdown returns nil, runServer returns *)
    | Look =>
        match l_phase s with
        | Closing _ => if bool_decide (l_busy s = ∅) then Life (Gone 0) (l_listens s) (l_busy s) (l_streams s) (l_taken s) else s
        | _ => s
        end
    end.
Definition lrun (s : life) (h : list lact) : life := fold_left lstep h s.
