(** Specification: received data that nobody reads. *)
From Verif Require Import GoBase ParamsModel MessagesModel ConnModel ConnSpec ConnData.
From Coq Require Import Arith.
Open Scope nat_scope.

(** a DATA message with a payload *)
Definition carries_data (raw : list byte) : Prop :=
  length raw <= 1500 /\ exists t q pd, valid raw (Typed t) /\ m_kind t = KData /\ fget FProtocolData (m_f t) = Some q /\ ProtocolData q = Ok pd.
(** no call is under way *)
Definition no_calls (c : conn) : Prop := Forall (fun u => exists r, u = UDone r) (us c).
(** goroutines that wait for room in the queue *)
Definition stuck_data (c : conn) : nat := length (filter (fun d => match d with DSend _ => true | _ => false end) (ds c)).
