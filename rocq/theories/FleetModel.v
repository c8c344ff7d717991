(** Model of the commands of cmd/client.go that ask several endpoints in turn,
    swoll client create and swoll client delete, run against servers of
    ServerModel.v. The servers go on serving others and watching their containers
    between any two steps of a command, and any of them may end or be cut off. *)
From Coq Require Import ZArith String.
From stdpp Require Import gmap strings list.
From Verif Require Import SyscallModel FilterModel HubModel ServerModel.
Open Scope Z_scope.

(** The command: create (cmd/client.go 262-266, without --oneshot, the id given by
    --jobid or made up, 184 and 238-242) or delete (51-75). The id is one that the paths of the API keep as
    it is; what other ids do to the requests is modelled in ClientModel.v. *)
Inductive command := CCreate (id : string) | CDelete (id : string).

(** What is to be seen: what happens at server [i]; a command starts with its list
    of endpoints; it sends its request to one (the [t]-th request there); it finds
    the answer to be the one it wants (it prints "Success!" 72, or goes on 268); it
    ends with a status. *)
Inductive fev :=
  | VServer (i : nat) (e : sev)
  | VStart (c : command) (eps : list nat)
  | VSend (i t : nat)
  | VDone (i : nat)
  | VExit (status : Z).

(** A running command: the endpoints it is not done with, and the number of its
    request to the first of them once that is sent. *)
Record proc := Proc { p_cmd : command; p_todo : list nat; p_wait : option nat }.

(** The servers ([None]: it has ended), what was seen, the command at work. *)
Record fleet := Fleet { f_srv : list (option srv); f_log : list fev; f_cmd : option proc }.

(** The request of a command, pkg/client/endpoint.go 96-110 and 251, as server
    [i] understands it. *)
Definition ask_of (c : command) : ask := match c with CCreate _ => QCreate | CDelete id => QDelete id end.
(** The answer it wants: pkg/client/endpoint.go 126 and 261. *)
Definition wanted (c : command) (a : answer) : bool :=
  match a with
  | ACode s => s =? match c with CCreate _ => 201 | CDelete _ => 200 end
  | _ => false
  end.
(** The next job a server makes is one with the id asked for (cmd/server.go
    344-369). The jobs of a server are given by [J i]: a [J] whose next job has
    another id does not describe this history. *)
Definition meant (J : nat -> job) (s : srv) (c : command) : bool :=
  match c with CCreate id => bool_decide (j_id (J (fresh s)) = id) | CDelete _ => true end.

(** What server [i] answered its request [t]. *)
Definition answer_in (i t : nat) (e : fev) : option answer :=
  match e with VServer i' (EAnswer t' _ a) => if decide (i' = i /\ t' = t) then Some a else None | _ => None end.
Fixpoint answer_of (i t : nat) (l : list fev) : option answer :=
  match l with
  | [] => None
  | e :: l => match answer_in i t e with Some a => Some a | None => answer_of i t l end
  end.

(** What can happen next: a server does something, a command is started, the command
    goes on, its connection fails. *)
Inductive fact := FServer (i : nat) (a : sact) | FStart (c : command) (eps : list nat) | FGo | FBreak.

Definition exits (f : fleet) (st : Z) : fleet := Fleet (f_srv f) (f_log f ++ [VExit st]) None.

(** The next thing the command does: cmd/client.go 64-73 and 262-268. *)
Definition fgo (J : nat -> nat -> job) (tbl : syscalls) (f : fleet) (p : proc) : fleet :=
  match p_todo p, p_wait p with
  (* the loop is over: the command returns *)
  | [], _ => exits f 0
  (* the request is sent; nobody listens: 67-70, 263-265 *)
  | i :: _, None =>
      match f_srv f !! i with
      | Some (Some s) =>
          if meant (J i) s (p_cmd p) then
            match sstep (J i) tbl s (SReq (ask_of (p_cmd p))) with
            | Ok (s', es) =>
                Fleet (<[i := Some s']> (f_srv f)) (f_log f ++ VSend i (length (threads s)) :: map (VServer i) es)
                  (Some (Proc (p_cmd p) (p_todo p) (Some (length (threads s)))))
            | _ => f
            end
          else f
      | _ => exits f 1
      end
  (* the answer is looked at: 67-72, 263-268 *)
  | i :: rest, Some t =>
      match answer_of i t (f_log f) with
      | Some a => if wanted (p_cmd p) a then Fleet (f_srv f) (f_log f ++ [VDone i]) (Some (Proc (p_cmd p) rest None)) else exits f 1
      | None => f
      end
  end.

Definition fstep (J : nat -> nat -> job) (tbl : syscalls) (f : fleet) (a : fact) : fleet :=
  match a with
  | FServer i a =>
      match f_srv f !! i with
      | Some (Some s) =>
          match sstep (J i) tbl s a with
          | Ok (s', es) => Fleet (<[i := Some s']> (f_srv f)) (f_log f ++ map (VServer i) es) (f_cmd f)
          | _ => Fleet (<[i := None]> (f_srv f)) (f_log f) (f_cmd f)
          end
      | _ => f
      end
  (* one command at a time: the next is started when the last has ended *)
  | FStart c eps =>
      match f_cmd f with None => Fleet (f_srv f) (f_log f ++ [VStart c eps]) (Some (Proc c eps None)) | Some _ => f end
  | FGo => match f_cmd f with Some p => fgo J tbl f p | None => f end
  (* client.Do fails: the request may or may not have reached the server *)
  | FBreak => match f_cmd f with Some (Proc _ (_ :: _) _) => exits f 1 | _ => f end
  end.
Definition frun (J : nat -> nat -> job) (tbl : syscalls) (f : fleet) (acts : list fact) : fleet := fold_left (fstep J tbl) acts f.

(** [n] servers as they start. *)
Definition new_fleet (tbl : syscalls) (n : nat) : fleet := Fleet (repeat (new_server tbl) n) [] None.
