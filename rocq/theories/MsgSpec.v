(** Reading a message: strings by RFC 8259, byte strings by RFC 4648; and when a
    message is small enough for the client. *)
From Coq Require Import ZArith String Ascii Lia.
From stdpp Require Import base list numbers.
From Verif Require Import RawModel JsonSpec LineModel DecodeModel MsgModel.

Local Open Scope list_scope.
Local Open Scope Z_scope.

(** The value of a hexadecimal digit. *)
Definition hex_value (c : Z) : option Z :=
  if (48 <=? c) && (c <=? 57) then Some (c - 48)
  else if (97 <=? c) && (c <=? 102) then Some (c - 87)
  else if (65 <=? c) && (c <=? 70) then Some (c - 55)
  else None.

(** The character a backslash and [e] stand for, unless [e] is u. *)
Definition short_escape (e : Z) : option Z :=
  if e =? 34 then Some 34 else if e =? 92 then Some 92 else if e =? 47 then Some 47
  else if e =? 98 then Some 8 else if e =? 102 then Some 12 else if e =? 110 then Some 10
  else if e =? 114 then Some 13 else if e =? 116 then Some 9 else None.

(** The text between the quotes of a JSON string, read (RFC 8259, section 7): no
    control character, no bare quote, escapes replaced.  A surrogate half is refused. *)
Fixpoint unesc (bs : list Z) : option (list Z) :=
  match bs with
  | [] => Some []
  | b :: t =>
      if b =? 92 then
        match t with
        | e :: t1 =>
            if e =? 117 then
              match t1 with
              | h3 :: h2 :: h1 :: h0 :: t2 =>
                  match hex_value h3, hex_value h2, hex_value h1, hex_value h0, unesc t2 with
                  | Some d3, Some d2, Some d1, Some d0, Some r =>
                      let c := ((d3 * 16 + d2) * 16 + d1) * 16 + d0 in
                      if (55296 <=? c) && (c <? 57344) then None else Some (utf8 c ++ r)
                  | _, _, _, _, _ => None
                  end
              | _ => None
              end
            else match short_escape e, unesc t1 with
                 | Some c, Some r => Some (c :: r)
                 | _, _ => None
                 end
        | [] => None
        end
      else if (b <? 32) || (b =? 34) then None
      else match unesc t with Some r => Some (b :: r) | None => None end
  end.

(** The value of a character of RFC 4648's table 1. *)
Definition sextet (c : Z) : option Z :=
  if (65 <=? c) && (c <=? 90) then Some (c - 65)
  else if (97 <=? c) && (c <=? 122) then Some (c - 71)
  else if (48 <=? c) && (c <=? 57) then Some (c + 4)
  else if c =? 43 then Some 62
  else if c =? 47 then Some 63
  else None.

(** Groups of four characters, read. *)
Fixpoint unb64 (cs : list Z) : option (list Z) :=
  match cs with
  | [] => Some []
  | c0 :: c1 :: c2 :: c3 :: t =>
      match sextet c0, sextet c1, unb64 t with
      | Some s0, Some s1, Some r =>
          if c3 =? 61 then
            match t with
            | [] => if c2 =? 61 then Some [s0 * 4 + s1 / 16]
                    else match sextet c2 with
                         | Some s2 => Some [s0 * 4 + s1 / 16; s1 mod 16 * 16 + s2 / 4]
                         | None => None
                         end
            | _ => None
            end
          else match sextet c2, sextet c3 with
               | Some s2, Some s3 =>
                   Some (s0 * 4 + s1 / 16 :: s1 mod 16 * 16 + s2 / 4 :: s2 mod 4 * 64 + s3 :: r)
               | _, _ => None
               end
      | _, _, _ => None
      end
  | _ => None
  end.

(** maxMessageSize (pkg/client/endpoint.go 22). *)
Definition message_limit : nat := 4096.

(** Printable ASCII without the characters JSON or HTML treat specially. *)
Definition ordinary (bs : list Z) : Prop :=
  Forall (fun b => 32 <= b <= 126 /\ b <> 34 /\ b <> 38 /\ b <> 60 /\ b <> 62 /\ b <> 92) bs.

(** What is left to parameters of the model is reasonable: a map's loop meets each
    entry once, memory holds bytes, addresses are those of user space. *)
Record reasonable (p : jparams) : Prop := {
  re_order : forall l, j_order p l ≡ₚ l;
  re_heap : bytes (j_heap p);
  re_base : 0 <= j_base p < 2 ^ 47
}.

(** No argument that is a slice is longer than 1024 bytes. *)
Definition short_slices (vs : list value) : Prop := forall off n, VSlice off n ∈ vs -> n <= 1024.
Definition ordinary_strings (vs : list value) : Prop := forall s, VStr s ∈ vs -> ordinary s.

(** The calls of which no text can be made: a read, write or readlink of a negative
    count; an mprotect of more than the memory that can be read behind the argument
    (the fourth of five slots of 128 bytes). *)
Definition ends_the_server (p : jparams) (args : list Z) (nr : Z) : Prop :=
  (In nr [0; 1; 89] /\ exists n, c64 args (slot_start 2) = Some n /\ n < 0)
  \/ (nr = 267 /\ exists n, c64 args (slot_start 3) = Some n /\ n < 0)
  \/ (nr = 10 /\ exists n, c64 args (slot_start 1) = Some n /\ 256 + Z.of_nat (length (j_heap p)) < n).
