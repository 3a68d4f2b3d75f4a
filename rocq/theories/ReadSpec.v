(** What the accessors of a received message should say, given the list of
    parameters in the packet. *)
From Verif Require Import GoBase ParamsModel WireSpec NormSpec.
From Coq Require Import Arith.
Open Scope nat_scope.

(** read a value with [f]; reading what is not there is a panic *)
Definition seen {A} (tag : N) (l : list (N * list byte)) (f : list byte -> res A) : res A :=
  match last_value tag l with
  | None => Panic PNil
  | Some v => f v
  end.
(** four octets are a number, anything else is 0 *)
Definition number (v : list byte) : N := if length v =? 4 then val v else 0%N.
(** whole words, anything else is no word *)
Definition spelled (v : list byte) (us : list N) : Prop :=
  if length v mod 4 =? 0 then concat (map (be 4) us) = v /\ Forall (fun u => (u < 4294967296)%N) us else us = [].
Definition first_word (v : list byte) : res N :=
  if (length v mod 4 =? 0) && (4 <=? length v) then Ok (val (firstn 4 v)) else Panic PIndex.
(** twelve octets of routing label and the user data *)
Definition label_and_data (v : list byte) : res pdpayload :=
  if length v <? 12 then Err EParamTooShortParse
  else Ok (mkPD (val (firstn 4 v)) (val (firstn 4 (skipn 4 v))) (nth 8 v x00) (nth 9 v x00) (nth 10 v x00) (nth 11 v x00) (skipn 12 v)).

(** the parameters RFC 4666 section 3 calls mandatory, as far as the message has any *)
Definition rfc_mandatory (t : mtype) : list N :=
  match t with
  | DATA => [0x210]
  | DUNA | DAVA | DAUD | SCON | DRST => [18]
  | DUPU => [18; 0x204]
  | ERR => [12]
  | NTFY => [13]
  | _ => []
  end%N.
