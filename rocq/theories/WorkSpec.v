(** Specification: how much the library does in return for what happens to it. *)
From Verif Require Import GoBase MessagesModel ConfigModel ConnModel.
From Coq Require Import Arith.
Open Scope nat_scope.

(** the steps made by the goroutines of the library and by calls under way; the others are what happens to them *)
Definition inner (l : label) : bool := match l with LArrive _ | LCancel | LOtherBeat _ | LHbTimer | LDialTimeout | LCall _ => false | _ => true end.
(** how often an SCTP message of the peer is read from, 1500 octets at a time *)
Definition pieces (p : list byte) : nat := S ((length p - 1) / 1500).
(** what may be done in return for an event *)
Definition worth (l : label) : nat := match l with LArrive p => 12 * pieces p | LCall _ => 3 | LHbTimer => 3 | _ => 0 end.
Definition worths (ls : list label) : nat := list_sum (map worth ls).

(** messages written by the library itself, that is by the monitor and by the goroutines that handle packets; messages read *)
Definition is_answer (e : event) : bool := match e with ESend (OMon | OHand _ | OData _) _ _ _ => true | _ => false end.
Definition is_read (e : event) : bool := match e with ERead _ => true | _ => false end.
Definition answers (es : list event) : nat := length (filter is_answer es).
Definition packets (es : list event) : nat := length (filter is_read es).
