(** Specification: messages made with the package's New functions, and their octets one after another. *)
From Verif Require Import GoBase ParamsModel MessagesModel WireSpec ParamsSpec MsgSpec.
From Coq Require Import Arith.
Open Scope nat_scope.

(** [made t slots m]: m is what the New function for t returns for the arguments slots, given in the order of RFC 4666 *)
Inductive made : mtype -> list (option param) -> msg -> Prop :=
| MK_data na rc pd cid : made DATA [na; rc; pd; cid] (NewData na rc pd cid)
| MK_duna na rc apc info : made DUNA [na; rc; apc; info] (NewDestinationUnavailable na rc apc info)
| MK_dava na rc apc info : made DAVA [na; rc; apc; info] (NewDestinationAvailable na rc apc info)
| MK_daud na rc apc info : made DAUD [na; rc; apc; info] (NewDestinationStateAudit na rc apc info)
| MK_drst na rc apc info : made DRST [na; rc; apc; info] (NewDestinationRestricted na rc apc info)
| MK_scon na rc apc cdst ind info : made SCON [na; rc; apc; cdst; ind; info] (NewSignallingCongestion na rc apc cdst ind info)
| MK_dupu na rc apc cause info : made DUPU [na; rc; apc; cause; info] (NewDestinationUserPartUnavailable na rc apc cause info)
| MK_up id info : made ASPUP [id; info] (NewAspUp id info)
| MK_up_ack id info : made ASPUP_ACK [id; info] (NewAspUpAck id info)
| MK_down info : made ASPDN [info] (NewAspDown info)
| MK_down_ack info : made ASPDN_ACK [info] (NewAspDownAck info)
| MK_beat hb : made BEAT [hb] (NewHeartbeat hb)
| MK_beat_ack hb : made BEAT_ACK [hb] (NewHeartbeatAck hb)
| MK_active tmt rc info : made ASPAC [tmt; rc; info] (NewAspActive tmt rc info)
| MK_active_ack tmt rc info : made ASPAC_ACK [tmt; rc; info] (NewAspActiveAck tmt rc info)
| MK_inactive rc info : made ASPIA [rc; info] (NewAspInactive rc info)
| MK_inactive_ack rc info : made ASPIA_ACK [rc; info] (NewAspInactiveAck rc info)
| MK_error code rc na apc diag : made ERR [code; rc; na; apc; diag] (NewError code rc na apc diag)
| MK_notify status id rc info : made NTFY [status; id; rc; info] (NewNotify status id rc info).

(** a message with parameters where they belong and short enough for the wire *)
Record letter := mkLetter { l_type : mtype; l_slots : list (option param); l_msg : msg }.
Definition proper (x : letter) : Prop := made (l_type x) (l_slots x) (l_msg x) /\ Forall2 slot_ok (rfc_params (l_type x)) (l_slots x).
(** its octets *)
Definition octets_are (x : letter) (b : list byte) : Prop := exists m', m3_MarshalBinary (Typed (l_msg x)) = Ok (m', b).
(** the same message: same type, same parameters with the same values *)
Definition same_letter (x y : letter) : Prop := l_type x = l_type y /\ map (option_map tv) (l_slots x) = map (option_map tv) (l_slots y).
(** octets cut into pieces, each as long as the length in its header says *)
Inductive cut_up : list byte -> list (list byte) -> Prop :=
| CU_nil : cut_up [] []
| CU_cons p rest ps : 8 <= length p -> val (firstn 4 (skipn 4 p)) = N.of_nat (length p) -> cut_up rest ps -> cut_up (p ++ rest) (p :: ps).
(** Parse gives back a message of this type with these parameters *)
Definition read_as (x : letter) (b : list byte) : Prop :=
  exists m slots, Parse b = Ok (Typed m) /\ has_params (l_type x) slots m /\ map (option_map tv) slots = map (option_map tv) (l_slots x).
