(** Specification: how many octets the library sends on its own account. *)
From Verif Require Import GoBase ParamsModel MessagesModel WireSpec ConfigModel ConnModel ConnSpec.
From Coq Require Import Arith List.
Open Scope nat_scope.

(** the octets of a packet with all its padding *)
Definition round4 (n : nat) : nat := 4 * ((n + 3) / 4).
(** the octets a configured parameter takes in a message *)
Definition room (o : option param) : nat :=
  match o with Some p => 4 + length (p_data p) + pad_len (length (p_data p)) | None => 0 end.
(** the largest message made of configured parameters alone, and at least an ERR with 40 octets of diagnostic information *)
Definition own_size (g : config) : nat :=
  Nat.max 60 (8 + Nat.max (room (cf_aspid g)) (Nat.max (room (cf_tmt g) + room (cf_rc g)) (16 + room (cf_rc g) + room (cf_na g)))).
(** octets of the messages counted in C90, and of the packets read *)
Definition answered (es : list event) : nat :=
  list_sum (map (fun e => match e with ESend (OMon | OHand _ | OData _) _ _ b => length b | _ => 0 end) es).
Definition taken (es : list event) : nat :=
  list_sum (map (fun e => match e with ERead raw => round4 (length raw) | _ => 0 end) es).
