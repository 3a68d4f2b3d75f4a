(** Properties C13-C23: messages (package messages). *)
From Verif Require Import GoBase ParamsModel MessagesModel WireSpec ParamsSpec MsgSpec
  BaseProofs ParamsProofs AccessorProofs MessagesProofs MessagesProofs2.
From Coq Require Import Arith Lia ZifyNat ZifyN.
Open Scope nat_scope.
Opaque max_value_len. (* keep tactics from unfolding the number 65531 *)

(** * C13 *)
Theorem C13_header_format : forall h,
  Header_MarshalBinary h =
    Ok (packet (h_version h) (h_reserved h) (h_class h) (h_type h) (h_length h) (h_payload h)) /\
  ((h_length h < 4294967296)%N ->
   ParseHeader (packet (h_version h) (h_reserved h) (h_class h) (h_type h) (h_length h) (h_payload h))
   = Ok h).
Proof. exact Header_format. Qed.
Print Assumptions C13_header_format.

Theorem C13_header_decoding : forall b,
  (length b < 8 -> ParseHeader b = Err EMsgTooShortParse) /\
  (8 <= length b ->
   ParseHeader b = Ok (mkHeader (nth 0 b x00) (nth 1 b x00) (nth 2 b x00) (nth 3 b x00)
                                (val (firstn 4 (skipn 4 b))) (skipn 8 b))).
Proof. exact Header_decoding. Qed.
Print Assumptions C13_header_decoding.

Theorem C13_new_header : forall v c t pl,
  (N.of_nat (8 + length pl) < 4294967296)%N ->
  h_length (NewHeader v c t pl) = N.of_nat (8 + length pl) /\
  exists bs, Header_MarshalBinary (NewHeader v c t pl) = Ok bs /\
    length bs = 8 + length pl /\ ParseHeader bs = Ok (NewHeader v c t pl).
Proof. exact NewHeader_rt. Qed.
Print Assumptions C13_new_header.
Example C13_ex : Header_MarshalBinary (NewHeader x01 x03 x02 [xaa; xbb]) =
  Ok [x01; x00; x03; x02; x00; x00; x00; x0a; xaa; xbb].
Proof. reflexivity. Qed.
Example C13_ex_length_unchecked : exists h,
  ParseHeader [x01; x00; x03; x02; xff; xff; xff; xff; xaa] = Ok h /\ h_payload h = [xaa].
Proof. eexists. vm_compute. split; reflexivity. Qed.

(** * C14, C15.  [roundtrips t slots m]: the encoding of [m] is exactly the RFC
    packet for [t] with the parameters [slots]; its length is MarshalLen; Parse of
    it gives a message of type [t] with exactly these parameters (MsgSpec.v). *)
Theorem C14_data : forall na rc pd cid,
  Forall2 slot_ok (rfc_params DATA) [na; rc; pd; cid] ->
  roundtrips DATA [na; rc; pd; cid] (NewData na rc pd cid).
Proof. exact NewData_rt. Qed.
Theorem C14_duna : forall na rc apc info,
  Forall2 slot_ok (rfc_params DUNA) [na; rc; apc; info] ->
  roundtrips DUNA [na; rc; apc; info] (NewDestinationUnavailable na rc apc info).
Proof. exact NewDUNA_rt. Qed.
Theorem C14_dava : forall na rc apc info,
  Forall2 slot_ok (rfc_params DAVA) [na; rc; apc; info] ->
  roundtrips DAVA [na; rc; apc; info] (NewDestinationAvailable na rc apc info).
Proof. exact NewDAVA_rt. Qed.
Theorem C14_daud : forall na rc apc info,
  Forall2 slot_ok (rfc_params DAUD) [na; rc; apc; info] ->
  roundtrips DAUD [na; rc; apc; info] (NewDestinationStateAudit na rc apc info).
Proof. exact NewDAUD_rt. Qed.
Theorem C14_drst : forall na rc apc info,
  Forall2 slot_ok (rfc_params DRST) [na; rc; apc; info] ->
  roundtrips DRST [na; rc; apc; info] (NewDestinationRestricted na rc apc info).
Proof. exact NewDRST_rt. Qed.
Theorem C14_scon : forall na rc apc cdst ind info,
  Forall2 slot_ok (rfc_params SCON) [na; rc; apc; cdst; ind; info] ->
  roundtrips SCON [na; rc; apc; cdst; ind; info] (NewSignallingCongestion na rc apc cdst ind info).
Proof. exact NewSCON_rt. Qed.
Theorem C14_dupu : forall na rc apc cause info,
  Forall2 slot_ok (rfc_params DUPU) [na; rc; apc; cause; info] ->
  roundtrips DUPU [na; rc; apc; cause; info] (NewDestinationUserPartUnavailable na rc apc cause info).
Proof. exact NewDUPU_rt. Qed.
Theorem C14_asp_up : forall aspID info,
  Forall2 slot_ok (rfc_params ASPUP) [aspID; info] ->
  roundtrips ASPUP [aspID; info] (NewAspUp aspID info).
Proof. exact NewAspUp_rt. Qed.
Theorem C14_asp_up_ack : forall aspID info,
  Forall2 slot_ok (rfc_params ASPUP_ACK) [aspID; info] ->
  roundtrips ASPUP_ACK [aspID; info] (NewAspUpAck aspID info).
Proof. exact NewAspUpAck_rt. Qed.
Theorem C14_asp_down : forall info,
  Forall2 slot_ok (rfc_params ASPDN) [info] -> roundtrips ASPDN [info] (NewAspDown info).
Proof. exact NewAspDown_rt. Qed.
Theorem C14_asp_down_ack : forall info,
  Forall2 slot_ok (rfc_params ASPDN_ACK) [info] -> roundtrips ASPDN_ACK [info] (NewAspDownAck info).
Proof. exact NewAspDownAck_rt. Qed.
Theorem C14_heartbeat : forall hb,
  Forall2 slot_ok (rfc_params BEAT) [hb] -> roundtrips BEAT [hb] (NewHeartbeat hb).
Proof. exact NewHeartbeat_rt. Qed.
Theorem C14_heartbeat_ack : forall hb,
  Forall2 slot_ok (rfc_params BEAT_ACK) [hb] -> roundtrips BEAT_ACK [hb] (NewHeartbeatAck hb).
Proof. exact NewHeartbeatAck_rt. Qed.
Theorem C14_asp_active : forall tmt rc info,
  Forall2 slot_ok (rfc_params ASPAC) [tmt; rc; info] ->
  roundtrips ASPAC [tmt; rc; info] (NewAspActive tmt rc info).
Proof. exact NewAspActive_rt. Qed.
Theorem C14_asp_active_ack : forall tmt rc info,
  Forall2 slot_ok (rfc_params ASPAC_ACK) [tmt; rc; info] ->
  roundtrips ASPAC_ACK [tmt; rc; info] (NewAspActiveAck tmt rc info).
Proof. exact NewAspActiveAck_rt. Qed.
Theorem C14_asp_inactive : forall rc info,
  Forall2 slot_ok (rfc_params ASPIA) [rc; info] ->
  roundtrips ASPIA [rc; info] (NewAspInactive rc info).
Proof. exact NewAspInactive_rt. Qed.
Theorem C14_asp_inactive_ack : forall rc info,
  Forall2 slot_ok (rfc_params ASPIA_ACK) [rc; info] ->
  roundtrips ASPIA_ACK [rc; info] (NewAspInactiveAck rc info).
Proof. exact NewAspInactiveAck_rt. Qed.
Theorem C14_error : forall code rc na apc diag,
  Forall2 slot_ok (rfc_params ERR) [code; rc; na; apc; diag] ->
  roundtrips ERR [code; rc; na; apc; diag] (NewError code rc na apc diag).
Proof. exact NewError_rt. Qed.
Theorem C14_notify : forall status aspID rc info,
  Forall2 slot_ok (rfc_params NTFY) [status; aspID; rc; info] ->
  roundtrips NTFY [status; aspID; rc; info] (NewNotify status aspID rc info).
Proof. exact NewNotify_rt. Qed.
Print Assumptions C14_data.
Print Assumptions C14_duna.
Print Assumptions C14_dava.
Print Assumptions C14_daud.
Print Assumptions C14_drst.
Print Assumptions C14_scon.
Print Assumptions C14_dupu.
Print Assumptions C14_asp_up.
Print Assumptions C14_asp_up_ack.
Print Assumptions C14_asp_down.
Print Assumptions C14_asp_down_ack.
Print Assumptions C14_heartbeat.
Print Assumptions C14_heartbeat_ack.
Print Assumptions C14_asp_active.
Print Assumptions C14_asp_active_ack.
Print Assumptions C14_asp_inactive.
Print Assumptions C14_asp_inactive_ack.
Print Assumptions C14_error.
Print Assumptions C14_notify.

(** parameters built with the package's constructors are unchanged by the
    SetLength that every message constructor performs *)
Theorem C14_setlength_identity : forall p, wf_param p -> SetLength p = p.
Proof. exact SetLength_wf_id. Qed.
Print Assumptions C14_setlength_identity.

Definition data_example : list (option param) :=
  [Some (NewNetworkAppearance 2); None; Some (NewProtocolData 1 2 x03 x02 x00 x01 [xde; xad; xbe]); None].
Example C14_ex : Forall2 slot_ok (rfc_params DATA) data_example.
Proof.
  unfold data_example, rfc_params. cbn [rfc snd].
  repeat apply Forall2_cons; try apply Forall2_nil; try exact I;
    (split; [reflexivity|apply max_value_len_spec; cbn; lia]).
Qed.
Example C14_ex_bytes :
  exists m, m3_MarshalBinary (Typed (NewData (Some (NewNetworkAppearance 2)) None
              (Some (NewProtocolData 1 2 x03 x02 x00 x01 [xde; xad; xbe])) None)) = Ok (m,
   [x01; x00; x01; x01; x00; x00; x00; x24;
    x02; x00; x00; x08; x00; x00; x00; x02;
    x02; x10; x00; x13; x00; x00; x00; x01; x00; x00; x00; x02; x03; x02; x00; x01; xde; xad; xbe; x00]).
Proof. eexists. vm_compute. reflexivity. Qed.

(** ... and one message of each of the other types, with its octets: *)
Definition x_packets : list (mtype * list (option param) * msg * list byte) :=
  [
   (DUNA, [Some (NewNetworkAppearance 2); Some (NewRoutingContext [1; 2]); Some (NewAffectedPointCode [1193046]); Some (NewInfoString [x68; x69; x21])],
    NewDestinationUnavailable (Some (NewNetworkAppearance 2)) (Some (NewRoutingContext [1; 2])) (Some (NewAffectedPointCode [1193046])) (Some (NewInfoString [x68; x69; x21])),
    [x01; x00; x02; x01; x00; x00; x00; x2c; x02; x00; x00; x08; x00; x00; x00; x02; x00; x06; x00; x0c; x00; x00; x00; x01; x00; x00; x00; x02; x00; x12; x00; x08; x00; x12; x34; x56; x00; x04; x00; x07; x68; x69; x21; x00]);
   (DAVA, [None; Some (NewRoutingContext [1; 2]); Some (NewAffectedPointCode [1193046]); None],
    NewDestinationAvailable None (Some (NewRoutingContext [1; 2])) (Some (NewAffectedPointCode [1193046])) None,
    [x01; x00; x02; x02; x00; x00; x00; x1c; x00; x06; x00; x0c; x00; x00; x00; x01; x00; x00; x00; x02; x00; x12; x00; x08; x00; x12; x34; x56]);
   (DAUD, [Some (NewNetworkAppearance 2); None; Some (NewAffectedPointCode [1193046]); Some (NewInfoString [x68; x69; x21])],
    NewDestinationStateAudit (Some (NewNetworkAppearance 2)) None (Some (NewAffectedPointCode [1193046])) (Some (NewInfoString [x68; x69; x21])),
    [x01; x00; x02; x03; x00; x00; x00; x20; x02; x00; x00; x08; x00; x00; x00; x02; x00; x12; x00; x08; x00; x12; x34; x56; x00; x04; x00; x07; x68; x69; x21; x00]);
   (DRST, [None; None; Some (NewAffectedPointCode [1193046]); Some (NewInfoString [x68; x69; x21])],
    NewDestinationRestricted None None (Some (NewAffectedPointCode [1193046])) (Some (NewInfoString [x68; x69; x21])),
    [x01; x00; x02; x06; x00; x00; x00; x18; x00; x12; x00; x08; x00; x12; x34; x56; x00; x04; x00; x07; x68; x69; x21; x00]);
   (SCON, [Some (NewNetworkAppearance 2); Some (NewRoutingContext [1; 2]); Some (NewAffectedPointCode [1193046]); Some (NewConcernedDestination 66051); Some (NewCongestionIndications x02); Some (NewInfoString [x68; x69; x21])],
    NewSignallingCongestion (Some (NewNetworkAppearance 2)) (Some (NewRoutingContext [1; 2])) (Some (NewAffectedPointCode [1193046])) (Some (NewConcernedDestination 66051)) (Some (NewCongestionIndications x02)) (Some (NewInfoString [x68; x69; x21])),
    [x01; x00; x02; x04; x00; x00; x00; x3c; x02; x00; x00; x08; x00; x00; x00; x02; x00; x06; x00; x0c; x00; x00; x00; x01; x00; x00; x00; x02; x00; x12; x00; x08; x00; x12; x34; x56; x02; x06; x00; x08; x00; x01; x02; x03; x02; x05; x00; x08; x00; x00; x00; x02; x00; x04; x00; x07; x68; x69; x21; x00]);
   (DUPU, [Some (NewNetworkAppearance 2); Some (NewRoutingContext [1; 2]); Some (NewAffectedPointCode [1193046]); Some (NewUserCause 3 1); Some (NewInfoString [x68; x69; x21])],
    NewDestinationUserPartUnavailable (Some (NewNetworkAppearance 2)) (Some (NewRoutingContext [1; 2])) (Some (NewAffectedPointCode [1193046])) (Some (NewUserCause 3 1)) (Some (NewInfoString [x68; x69; x21])),
    [x01; x00; x02; x05; x00; x00; x00; x34; x02; x00; x00; x08; x00; x00; x00; x02; x00; x06; x00; x0c; x00; x00; x00; x01; x00; x00; x00; x02; x00; x12; x00; x08; x00; x12; x34; x56; x02; x04; x00; x08; x00; x01; x00; x03; x00; x04; x00; x07; x68; x69; x21; x00]);
   (ASPUP, [Some (NewAspIdentifier 7); Some (NewInfoString [x68; x69; x21])],
    NewAspUp (Some (NewAspIdentifier 7)) (Some (NewInfoString [x68; x69; x21])),
    [x01; x00; x03; x01; x00; x00; x00; x18; x00; x11; x00; x08; x00; x00; x00; x07; x00; x04; x00; x07; x68; x69; x21; x00]);
   (ASPUP_ACK, [Some (NewAspIdentifier 7); None],
    NewAspUpAck (Some (NewAspIdentifier 7)) None,
    [x01; x00; x03; x04; x00; x00; x00; x10; x00; x11; x00; x08; x00; x00; x00; x07]);
   (ASPDN, [Some (NewInfoString [x68; x69; x21])],
    NewAspDown (Some (NewInfoString [x68; x69; x21])),
    [x01; x00; x03; x02; x00; x00; x00; x10; x00; x04; x00; x07; x68; x69; x21; x00]);
   (ASPDN_ACK, [Some (NewInfoString [x68; x69; x21])],
    NewAspDownAck (Some (NewInfoString [x68; x69; x21])),
    [x01; x00; x03; x05; x00; x00; x00; x10; x00; x04; x00; x07; x68; x69; x21; x00]);
   (BEAT, [Some (NewHeartbeatData [xca; xfe])],
    NewHeartbeat (Some (NewHeartbeatData [xca; xfe])),
    [x01; x00; x03; x03; x00; x00; x00; x10; x00; x09; x00; x06; xca; xfe; x00; x00]);
   (BEAT_ACK, [Some (NewHeartbeatData [xca; xfe])],
    NewHeartbeatAck (Some (NewHeartbeatData [xca; xfe])),
    [x01; x00; x03; x06; x00; x00; x00; x10; x00; x09; x00; x06; xca; xfe; x00; x00]);
   (ASPAC, [Some (NewTrafficModeType 2); Some (NewRoutingContext [1; 2]); Some (NewInfoString [x68; x69; x21])],
    NewAspActive (Some (NewTrafficModeType 2)) (Some (NewRoutingContext [1; 2])) (Some (NewInfoString [x68; x69; x21])),
    [x01; x00; x04; x01; x00; x00; x00; x24; x00; x0b; x00; x08; x00; x00; x00; x02; x00; x06; x00; x0c; x00; x00; x00; x01; x00; x00; x00; x02; x00; x04; x00; x07; x68; x69; x21; x00]);
   (ASPAC_ACK, [Some (NewTrafficModeType 2); Some (NewRoutingContext [1; 2]); None],
    NewAspActiveAck (Some (NewTrafficModeType 2)) (Some (NewRoutingContext [1; 2])) None,
    [x01; x00; x04; x03; x00; x00; x00; x1c; x00; x0b; x00; x08; x00; x00; x00; x02; x00; x06; x00; x0c; x00; x00; x00; x01; x00; x00; x00; x02]);
   (ASPIA, [Some (NewRoutingContext [1; 2]); Some (NewInfoString [x68; x69; x21])],
    NewAspInactive (Some (NewRoutingContext [1; 2])) (Some (NewInfoString [x68; x69; x21])),
    [x01; x00; x04; x02; x00; x00; x00; x1c; x00; x06; x00; x0c; x00; x00; x00; x01; x00; x00; x00; x02; x00; x04; x00; x07; x68; x69; x21; x00]);
   (ASPIA_ACK, [Some (NewRoutingContext [1; 2]); None],
    NewAspInactiveAck (Some (NewRoutingContext [1; 2])) None,
    [x01; x00; x04; x04; x00; x00; x00; x14; x00; x06; x00; x0c; x00; x00; x00; x01; x00; x00; x00; x02]);
   (ERR, [Some (NewErrorCode 25); Some (NewRoutingContext [1; 2]); Some (NewNetworkAppearance 2); Some (NewAffectedPointCode [1193046]); Some (NewDiagnosticInformation [x01; x00; x09; x09; x00])],
    NewError (Some (NewErrorCode 25)) (Some (NewRoutingContext [1; 2])) (Some (NewNetworkAppearance 2)) (Some (NewAffectedPointCode [1193046])) (Some (NewDiagnosticInformation [x01; x00; x09; x09; x00])),
    [x01; x00; x00; x00; x00; x00; x00; x38; x00; x0c; x00; x08; x00; x00; x00; x19; x00; x06; x00; x0c; x00; x00; x00; x01; x00; x00; x00; x02; x02; x00; x00; x08; x00; x00; x00; x02; x00; x12; x00; x08; x00; x12; x34; x56; x00; x07; x00; x09; x01; x00; x09; x09; x00; x00; x00; x00]);
   (NTFY, [Some (NewStatus 65538); Some (NewAspIdentifier 7); Some (NewRoutingContext [1; 2]); Some (NewInfoString [x68; x69; x21])],
    NewNotify (Some (NewStatus 65538)) (Some (NewAspIdentifier 7)) (Some (NewRoutingContext [1; 2])) (Some (NewInfoString [x68; x69; x21])),
    [x01; x00; x00; x01; x00; x00; x00; x2c; x00; x0d; x00; x08; x00; x01; x00; x02; x00; x11; x00; x08; x00; x00; x00; x07; x00; x06; x00; x0c; x00; x00; x00; x01; x00; x00; x00; x02; x00; x04; x00; x07; x68; x69; x21; x00])]%N.
Example C14_ex_slots : Forall (fun e => let '(t, slots, _, _) := e in Forall2 slot_ok (rfc_params t) slots) x_packets.
Proof.
  unfold x_packets, rfc_params. repeat apply Forall_cons; try apply Forall_nil; cbn [rfc snd];
    repeat apply Forall2_cons; try apply Forall2_nil; try exact I;
    (split; [reflexivity|apply max_value_len_spec; cbn; lia]).
Qed.
Example C14_ex_octets : Forall (fun e => let '(_, _, m, bs) := e in exists m', m3_MarshalBinary (Typed m) = Ok (Typed m', bs) /\ Parse bs = Ok (Typed m')) x_packets.
Proof. unfold x_packets. repeat apply Forall_cons; try apply Forall_nil; (eexists; split; vm_compute; reflexivity). Qed.

Theorem C15_length_multiple_of_4 : forall m, m3_MarshalLen m mod 4 = 0.
Proof. exact m3_MarshalLen_mod4. Qed.
Print Assumptions C15_length_multiple_of_4.

Theorem C15_marshal_len_exact : forall m,
  exists m' bs, m3_MarshalBinary m = Ok (m', bs) /\ length bs = m3_MarshalLen m.
Proof. exact MarshalLen_exact. Qed.
Print Assumptions C15_marshal_len_exact.
Example C15_ex : map (fun e => m3_MarshalLen (Typed (snd (fst e)))) x_packets = map (fun e => length (snd e)) x_packets /\
  m3_MarshalLen (Typed (NewAspUp None (Some (NewInfoString [x61; x62; x63; x64; x65])))) = 20.
Proof. split; vm_compute; reflexivity. Qed.

(** * C16 *)
Theorem C16_parse_total : forall b,
  (exists m, Parse b = Ok m) \/
  (exists e, Parse b = Err e /\
     In e [EMsgTooShortParse; EMsgInvalidParameter; EParamTooShortParse; EParamInvalidLength]).
Proof. exact Parse_outcome. Qed.
Print Assumptions C16_parse_total.

(** exactly which inputs are accepted *)
Theorem C16_parse_accepts_exactly : forall b,
  (exists m, Parse b = Ok m) <->
  (exists v r c ty len body l,
     (len < 4294967296)%N /\ b = packet v r c ty len body /\ TLVs body l /\
     forall mt, N.lor ((16 * b2n c) mod 256) (b2n ty) = (16 * b2n (rfc_class mt) + b2n (rfc_type mt))%N ->
                Forall (fun x => In (fst x) (rfc_params mt)) l).
Proof. exact Parse_accepts_exactly. Qed.
Print Assumptions C16_parse_accepts_exactly.
Example C16_ex_ok : exists m, Parse [x01; x00; x03; x01; x00; x00; x00; x10; x00; x11; x00; x08; x00; x00; x00; x07] = Ok m.
Proof. eexists. vm_compute. reflexivity. Qed.
Example C16_ex_err : Parse [x01; x00; x03; x01; x00; x00; x00; x10; x00; x11; x00; x09; x00; x00; x00; x07]
  = Err EParamInvalidLength.
Proof. vm_compute. reflexivity. Qed.

(** * C17 *)
Theorem C17_dispatch_defined : forall v r c ty len body m,
  (len < 4294967296)%N -> Parse (packet v r c ty len body) = Ok m ->
  (forall mt, (c, ty) = (rfc_class mt, rfc_type mt) ->
     exists m', m = Typed m' /\ m_kind m' = go_type mt) /\
  ((b2n c < 16)%N -> (b2n ty < 16)%N -> (forall mt, (c, ty) <> (rfc_class mt, rfc_type mt)) ->
     exists g, m = Gen g) /\
  ((b2n c < 16)%N -> (b2n ty < 16)%N -> MessageClass m = c /\ MessageType m = ty) /\
  Version m = v /\ h_class (hdr_of m) = c /\ h_type (hdr_of m) = ty.
Proof. exact Parse_class. Qed.
Print Assumptions C17_dispatch_defined.
Example C17_ex : exists g,
  Parse (packet x01 x00 x09 x01 16 (tlv 0x207 [x01; x02; x03; x04])) = Ok (Gen g) /\
  g_params g = [mkParam 0x207 8 [x01; x02; x03; x04]].
Proof. eexists. vm_compute. split; reflexivity. Qed.

(** * C18 *)
Theorem C18_dispatch_exact : forall v r c ty len body mt,
  (len < 4294967296)%N ->
  forall m, Parse (packet v r c ty len body) = Ok m ->
    (exists m', m = Typed m' /\ m_kind m' = go_type mt) <->
    N.lor ((16 * b2n c) mod 256) (b2n ty) = (16 * b2n (rfc_class mt) + b2n (rfc_type mt))%N.
Proof. exact Parse_typed_iff. Qed.
Print Assumptions C18_dispatch_exact.

(** "only the 19 defined pairs are returned as typed messages" is false *)
Theorem C18_only_defined_pairs_refuted :
  exists b m c ty, nth_error b 2 = Some c /\ nth_error b 3 = Some ty /\
    (forall mt, (c, ty) <> (rfc_class mt, rfc_type mt)) /\
    Parse b = Ok (Typed m) /\ m_kind m = KAspUp /\
    MessageClass (Typed m) <> c.
Proof. exact alias_witness. Qed.
Print Assumptions C18_only_defined_pairs_refuted.
(** the same octets with the class of another message: class 0x13 is read as class 3, class 5 is not *)
Example C18_ex : exists m1 m2 g,
  Parse (packet x01 x00 x13 x01 16 (tlv 17 [x00; x00; x00; x01])) = Ok (Typed m1) /\ m_kind m1 = go_type ASPUP /\
  Parse (packet x01 x00 x03 x01 16 (tlv 17 [x00; x00; x00; x01])) = Ok (Typed m2) /\ m_kind m2 = go_type ASPUP /\
  Parse (packet x01 x00 x05 x01 16 (tlv 17 [x00; x00; x00; x01])) = Ok (Gen g).
Proof. eexists _, _, _. split; [vm_compute; reflexivity|]. split; [reflexivity|]. split; [vm_compute; reflexivity|]. split; [reflexivity|]. vm_compute. reflexivity. Qed.

(** * C19 *)
Theorem C19_last_wins_foreign_refused : forall t v r c ty len body ps,
  (len < 4294967296)%N ->
  (c, ty) = (rfc_class t, rfc_type t) ->
  ParseMultiParams body = Ok ps ->
  (Forall (fun p => In (p_tag p) (rfc_params t)) ps ->
   exists m, Parse (packet v r c ty len body) = Ok (Typed m) /\
     m_kind m = go_type t /\ m_hdr m = mkHeader v r c ty len body /\
     forall f, fget f (m_f m) =
       if in_dec N.eq_dec (field_tag f) (rfc_params t) then last_with (field_tag f) ps else None) /\
  (~ Forall (fun p => In (p_tag p) (rfc_params t)) ps ->
   Parse (packet v r c ty len body) = Err EMsgInvalidParameter).
Proof. exact Parse_typed_defined. Qed.
Print Assumptions C19_last_wins_foreign_refused.
Example C19_ex : exists m,
  Parse (packet x01 x00 x03 x01 0 (tlv 17 [x00; x00; x00; x01] ++ tlv 4 [x61] ++ tlv 17 [x00; x00; x00; x02]))
  = Ok (Typed m) /\ fget FAspIdentifier (m_f m) = Some (NewAspIdentifier 2).
Proof. eexists. vm_compute. split; reflexivity. Qed.
Example C19_ex2 :
  Parse (packet x01 x00 x03 x01 0 (tlv 17 [x00; x00; x00; x01] ++ tlv 6 [x00; x00; x00; x02]))
  = Err EMsgInvalidParameter.
Proof. vm_compute. reflexivity. Qed.

(** * C20 *)
Theorem C20_length_field_ignored : forall v r c ty len1 len2 body,
  (len1 < 4294967296)%N -> (len2 < 4294967296)%N ->
  same_up_to_length (Parse (packet v r c ty len1 body)) (Parse (packet v r c ty len2 body)).
Proof. exact Parse_length_ignored. Qed.
Print Assumptions C20_length_field_ignored.
Example C20_ex : exists m1 m2,
  Parse (packet x01 x00 x03 x01 16 (tlv 17 [x00; x00; x00; x01])) = Ok m1 /\
  Parse (packet x01 x00 x03 x01 4294967295 (tlv 17 [x00; x00; x00; x01])) = Ok m2 /\ m1 <> m2.
Proof. eexists _, _. vm_compute. repeat split; discriminate. Qed.

(** * C21 *)
Theorem C21_message_marshal_to : forall m,
  exists m' enc, m3_MarshalBinary m = Ok (m', enc) /\ length enc = m3_MarshalLen m /\
  forall b,
    m3_MarshalTo m b =
    if length b <? m3_MarshalLen m then Err EMsgTooShortMarshal
    else Ok (m', enc ++ skipn (m3_MarshalLen m) b).
Proof. exact m3_MarshalTo_any. Qed.
Print Assumptions C21_message_marshal_to.

(** [b] is the capacity region of the buffer *)
Theorem C21_param_marshal_to : forall p b,
  MarshalTo p b =
  if length b <? MarshalLen p then Panic PSlice
  else Ok (be 2 (p_tag p) ++ be 2 (p_length p) ++ p_data p ++ skipn (4 + length (p_data p)) b).
Proof. exact param_MarshalTo_any. Qed.
Print Assumptions C21_param_marshal_to.
(** stale padding bytes survive *)
Example C21_ex : MarshalTo (NewInfoString [x61]) [xff; xff; xff; xff; xff; xff; xff; xff; xff]
  = Ok [x00; x04; x00; x05; x61; xff; xff; xff; xff].
Proof. vm_compute. reflexivity. Qed.
Example C21_ex2 : MarshalTo (NewInfoString [x61]) [xff; xff; xff; xff; xff; xff; xff] = Panic PSlice.
Proof. vm_compute. reflexivity. Qed.

(** * C22 *)
Theorem C22_reencode_typed : forall t v r c ty len slots,
  (len < 4294967296)%N ->
  N.lor ((16 * b2n c) mod 256) (b2n ty) = (16 * b2n (rfc_class t) + b2n (rfc_type t))%N ->
  Forall (fun o => match o with Some v => length v <= max_value_len | None => True end) slots ->
  let b := packet v r c ty len (body_of (zip_slots (rfc_params t) slots)) in
  exists m, Parse b = Ok m /\ m3_MarshalBinary m = Ok (m, b).
Proof. exact reencode_typed'. Qed.
Print Assumptions C22_reencode_typed.

Theorem C22_reencode_generic : forall v r c ty len l,
  (len < 4294967296)%N ->
  (forall t, N.lor ((16 * b2n c) mod 256) (b2n ty) <> (16 * b2n (rfc_class t) + b2n (rfc_type t))%N) ->
  Forall (fun x => (fst x < 65536)%N /\ length (snd x) <= max_value_len) l ->
  let b := packet v r c ty len (body_of l) in
  exists m, Parse b = Ok m /\ m3_MarshalBinary m = Ok (m, b).
Proof. exact reencode_generic'. Qed.
Print Assumptions C22_reencode_generic.
Example C22_ex : exists m,
  let b := packet x01 x00 x04 x01 999 (tlv 11 [x00; x00; x00; x02] ++ tlv 4 [x61; x62]) in
  b = packet x01 x00 x04 x01 999
        (body_of (zip_slots (rfc_params ASPAC) [Some [x00; x00; x00; x02]; None; Some [x61; x62]])) /\
  Parse b = Ok m /\ m3_MarshalBinary m = Ok (m, b).
Proof. eexists. vm_compute. repeat split. Qed.
(** the hypothesis on order is needed: out of order, the bytes change *)
Example C22_ex_order : exists m m' b',
  let b := packet x01 x00 x04 x01 28 (tlv 4 [x61; x62; x63; x64] ++ tlv 11 [x00; x00; x00; x02]) in
  Parse b = Ok m /\ m3_MarshalBinary m = Ok (m', b') /\ b' <> b.
Proof. eexists _, _, _. vm_compute. repeat split; discriminate. Qed.

(** * C23 *)
Theorem C23_generic_roundtrip : forall v c ty ps,
  Forall (fun p => (p_tag p < 65536)%N /\ length (p_data p) <= max_value_len) ps ->
  let body := body_for ps in
  (N.of_nat (8 + length body) < 4294967296)%N ->
  let bs := packet v x00 c ty (N.of_nat (8 + length body)) body in
  exists g',
    m3_MarshalBinary (Gen (New v c ty ps)) = Ok (Gen g', bs) /\
    m3_MarshalLen (Gen (New v c ty ps)) = length bs /\
    gen_Unmarshal bs = Ok g' /\
    ((forall t, N.lor ((16 * b2n c) mod 256) (b2n ty) <> (16 * b2n (rfc_class t) + b2n (rfc_type t))%N) ->
     Parse bs = Ok (Gen g')) /\
    g_params g' = map SetLength ps /\
    h_version (g_hdr g') = v /\ h_class (g_hdr g') = c /\ h_type (g_hdr g') = ty.
Proof. exact New_roundtrip'. Qed.
Print Assumptions C23_generic_roundtrip.
(** an RKM registration request (class 9, type 1) *)
Example C23_ex : exists g bs,
  m3_MarshalBinary (Gen (New x01 x09 x01 [NewRoutingKey (mkRK (Some (NewLocalRoutingKeyIdentifier 1)) None
     None (Some (NewDestinationPointCode 3)) None None None)])) = Ok (Gen g, bs) /\
  Parse bs = Ok (Gen g) /\ length bs = 28.
Proof. eexists _, _. vm_compute. repeat split. Qed.
