(** Vocabulary for the order in which received data are delivered (C115). *)
From Verif Require Import GoBase ParamsModel MessagesModel ConfigModel ConnModel ConnSpec ConnData.
Open Scope nat_scope.

(** [picked a b]: a is b with some elements left out, the others in the same order *)
Inductive picked {A} : list A -> list A -> Prop :=
| P_nil : picked [] []
| P_take x a b : picked a b -> picked (x :: a) (x :: b)
| P_skip x a b : picked a b -> picked a (x :: b).

(** [unhurried c ls]: along the execution ls from c, whenever a packet is read from
    the association, the goroutines of all earlier DATA messages have ended *)
Definition unhurried (c : conn) (ls : list label) : Prop :=
  forall pre l post a b, ls = pre ++ l :: post -> run c pre = Some a -> step a l = Some b ->
  reads (log b) <> reads (log a) -> Forall (fun d => d = DDone) (ds a).

(** [raw] is a DATA message, read in one piece, that carries [pd] *)
Definition data_packet (raw : list byte) (pd : pdpayload) : Prop :=
  length raw <= 1500 /\ exists t p, valid raw (Typed t) /\ m_kind t = KData /\ fget FProtocolData (m_f t) = Some p /\ ProtocolData p = Ok pd.
