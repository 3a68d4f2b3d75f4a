(** Specification: packets between which an endpoint makes no difference. *)
From Verif Require Import GoBase MessagesModel NormSpec ConnModel ConnSpec.

(** two packets that are decoded to the same message (all parameters and all of the header), or that are both refused *)
Definition same_meaning (raw raw' : list byte) : Prop :=
  (exists m m', Parse raw = Ok m /\ Parse raw' = Ok m' /\ same_content m m') \/ ((exists e, Parse raw = Err e) /\ exists e, Parse raw' = Err e).
(** messages whose parameters nobody looks at *)
Definition unread_kinds : list kind :=
  [KAspUp; KAspUpAck; KAspDown; KAspDownAck; KAspActive; KAspActiveAck; KAspInactive; KAspInactiveAck; KError; KNotify].
Definition same_request (raw raw' : list byte) : Prop :=
  exists a a', valid raw (Typed a) /\ valid raw' (Typed a') /\ m_kind a = m_kind a' /\ In (m_kind a) unread_kinds.
Definition same_effect (raw raw' : list byte) : Prop := same_meaning raw raw' \/ same_request raw raw'.
(** two DATA messages with the same Protocol Data, whatever network appearance, routing context and correlation they have *)
Definition same_data (raw raw' : list byte) : Prop :=
  exists a a', valid raw (Typed a) /\ valid raw' (Typed a') /\ m_kind a = KData /\ m_kind a' = KData /\ fget FProtocolData (m_f a) = fget FProtocolData (m_f a').
Definition not_data (raw : list byte) : Prop := forall t, valid raw (Typed t) -> m_kind t <> KData.
