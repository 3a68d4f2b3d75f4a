(** Specification: why a packet is refused. *)
From Verif Require Import GoBase WireSpec.
From Coq Require Import Arith.
Open Scope nat_scope.

(** a sequence of complete parameters, each with all its padding *)
Inductive Whole : list byte -> Prop :=
| Whole_nil : Whole []
| Whole_cons tag v pad rest : (tag < 65536)%N -> length v <= max_value_len -> length pad = pad_len (length v) -> Whole rest ->
    Whole (be 2 tag ++ be 2 (N.of_nat (4 + length v)) ++ v ++ pad ++ rest).
(** the octets after them are too few for the tag and length of another parameter *)
Definition cut_off (body : list byte) : Prop := exists good t, body = good ++ t /\ Whole good /\ 1 <= length t <= 3.
(** or the next length is smaller than four or larger than what is left *)
Definition wrong_length (body : list byte) : Prop := exists good t, body = good ++ t /\ Whole good /\ 4 <= length t /\
  ((val (firstn 2 (skipn 2 t)) < 4)%N \/ (N.of_nat (length t) < val (firstn 2 (skipn 2 t)))%N).
