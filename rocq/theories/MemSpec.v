(** What a received packet means and which packets a history of the memory
    (MemModel.v) contains; used to state C92. *)
From Verif Require Import GoBase ParamsModel MessagesModel MemModel.
Open Scope nat_scope.

(** decoding the octets [b] as values gives the payload [pd] *)
Definition carries (b : list byte) (pd : pdpayload) : Prop :=
  exists m p, Parse b = Ok (Typed m) /\ m_kind m = KData /\
    fget FProtocolData (m_f m) = Some p /\ ProtocolData p = Ok pd.

(** the packets read, in order *)
Fixpoint packets (es : list mev) : list (list byte) :=
  match es with
  | [] => []
  | MRead pkt :: r => pkt :: packets r
  | _ :: r => packets r
  end.

(** the user has not written into the payload of packet [i] *)
Definition untouched (i : nat) (es : list mev) : Prop :=
  forall at_ bs, ~ In (MScribble i at_ bs) es.
