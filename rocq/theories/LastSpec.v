(** Specification: the end of a connection and the data received before it. *)
From Verif Require Import GoBase ParamsModel MessagesModel ConfigModel ConnModel ConnSpec.
From Coq Require Import Arith.
Open Scope nat_scope.

(** a Read or ReadPD that waits for data *)
Definition blocked_read (u : upc) : bool := match u with URecv _ => true | _ => false end.
Definition blocked (c : conn) : nat := length (filter blocked_read (us c)).

(** A connection that has ended, by its peer or by Close: the state is Down, the
    association and the channels are closed, no received packet is being handled,
    and all the monitor can do is end. *)
Record ended (c : conn) : Prop := {
  en_closed : closed c = true; en_sopen : sopen c = false; en_state : state c = Down;
  en_dial : dial c <> DWait; en_ini : ini c = false; en_hs : Forall (fun h => h = []) (hs c);
  en_mon : mon c = MRead \/ mon c = MClose \/ mon c = MExit }.

(** an established connection that waits for a packet *)
Record listening (c : conn) : Prop := {
  li_crash : crash c = None; li_mon : mon c = MRead; li_state : state c <> Down; li_closed : closed c = false; li_dial : dial c = DOk }.
