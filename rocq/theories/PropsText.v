(** C76-C78: the texts of values, the names of messages, the deprecated names. *)
From Verif Require Import GoBase ParamsModel MessagesModel ReuseModel TextModel WireSpec ParamsSpec MsgSpec ReuseSpec PcSpec TextSpec
  ParamsProofs MessagesProofs2 TextProofs.
From Coq Require Import Arith Lia Strings.String.
Open Scope nat_scope.
Open Scope list_scope.
Opaque max_value_len.

(** C76: the text of a message shows the header and all parameters of the RFC in order, each under its name ... *)
Theorem C76_message : forall t m, m_kind m = go_type t -> msg_fits m -> ~ header_only t -> exists s, m3_String (Typed m) = Ok s /\ shows_msg t m s.
Proof. exact msg_shows. Qed.
Theorem C76_generic : forall g, gen_fits g -> exists s, m3_String (Gen g) = Ok s /\ shows_generic g s.
Proof. exact gen_shows. Qed.
Theorem C76_param : forall o, (forall p, o = Some p -> param_fits p) -> shows_param o (Param_String o).
Proof. exact Param_shows. Qed.
Theorem C76_payload : forall p, (pd_opc p < 4294967296)%N -> (pd_dpc p < 4294967296)%N -> shows_payload p (Payload_String p).
Proof. exact Payload_shows. Qed.
(** ... except for five types, of which only the header is shown. *)
Theorem C76_header_only : forall t m, m_kind m = go_type t -> (h_length (m_hdr m) < 4294967296)%N -> header_only t ->
  exists s, m3_String (Typed m) = Ok s /\ shows_header (m_hdr m) s.
Proof. exact msg_header_only. Qed.
(** A text determines what it shows. *)
Theorem C76_message_unique : forall t m m' s, shows_msg t m s -> shows_msg t m' s ->
  m_hdr m = m_hdr m' /\ forall f, In (field_tag f) (rfc_params t) -> fget f (m_f m) = fget f (m_f m').
Proof. exact msg_det. Qed.
Theorem C76_generic_unique : forall g g' s, shows_generic g s -> shows_generic g' s -> g = g'.
Proof. exact generic_det. Qed.
Theorem C76_payload_unique : forall p p' s, shows_payload p s -> shows_payload p' s -> p = p'.
Proof. exact payload_det. Qed.
(** Two packets that decode to messages with the same text are the same packet. *)
Theorem C76_packets : forall b b' m m' s, Parse b = Ok m -> Parse b' = Ok m' -> m3_String m = Ok s -> m3_String m' = Ok s -> b = b'.
Proof. exact packet_text. Qed.
Print Assumptions C76_message.
Print Assumptions C76_generic.
Print Assumptions C76_param.
Print Assumptions C76_payload.
Print Assumptions C76_header_only.
Print Assumptions C76_message_unique.
Print Assumptions C76_generic_unique.
Print Assumptions C76_payload_unique.
Print Assumptions C76_packets.
(** Different messages may have the same text: the parameters of a DUNA are not shown. *)
Definition duna (apc : list byte) : msg := NewDestinationUnavailable None None (Some (mkParam 18 0 apc)) None.
Theorem C76_distinct_refuted : exists m m' s, m_f m <> m_f m' /\ m3_String (Typed m) = Ok s /\ m3_String (Typed m') = Ok s /\
  exists b b', option_map snd (match m3_MarshalBinary (Typed m) with Ok x => Some x | _ => None end) = Some b /\
    option_map snd (match m3_MarshalBinary (Typed m') with Ok x => Some x | _ => None end) = Some b' /\ b <> b'.
Proof.
  exists (duna [x00; x00; x00; x01]), (duna [x00; x00; x00; x02]), (lit "{Version: 1, Reserved: 0x0, Class: 2, Type: 1, Length: 16, Payload: }").
  split; [discriminate|]. split; [reflexivity|]. split; [reflexivity|]. eexists _, _. split; [reflexivity|]. split; [reflexivity|]. discriminate.
Qed.
Print Assumptions C76_distinct_refuted.
Definition up : msg := NewAspUp (Some (mkParam 17 0 [x00; x00; x00; x2a])) None.
Example C76_ex : msg_fits up /\ m_kind up = go_type ASPUP /\ ~ header_only ASPUP /\
  m3_String (Typed up) = Ok (lit "{Header: {Version: 1, Reserved: 0x0, Class: 3, Type: 1, Length: 16, Payload: }, AspIdentifier: {Tag: 17, Length: 8, Data: 0000002a}, InfoString: }").
Proof.
  split; [split; [reflexivity|]|]. { intros f p. destruct f; cbn; intros E; inversion E; subst; split; reflexivity. }
  split; [reflexivity|]. split; [cbn; intuition discriminate|reflexivity].
Qed.
Definition gen2 : generic := New xff x09 x01 [mkParam 65535 0 [xab]; mkParam 4 0 []].
Example C76_ex_generic : gen_fits gen2 /\
  m3_String (Gen gen2) = Ok (lit "{Header: {Version: 255, Reserved: 0x0, Class: 9, Type: 1, Length: 20, Payload: }, Params: [{Tag: 65535, Length: 5, Data: ab} {Tag: 4, Length: 4, Data: }]}").
Proof. split; [split; [reflexivity|repeat constructor]|reflexivity]. Qed.
Example C76_ex_packets : exists m s, Parse [x01; x0f; x02; x01; x00; x00; x00; x10; x00; x12; x00; x08; x00; x00; x00; x01] = Ok m /\ m3_String m = Ok s /\
  s = lit "{Version: 1, Reserved: 0xf, Class: 2, Type: 1, Length: 16, Payload: 0012000800000001}".
Proof. eexists _, _. split; [reflexivity|]. split; reflexivity. Qed.

(** C77: the type name tells the 19 types apart; the class name tells their classes apart. *)
Theorem C77_type : forall m m', TypeName (Typed m) = TypeName (Typed m') -> m_kind m = m_kind m'.
Proof. intros m m'. apply names_kind. Qed.
Theorem C77_class : forall m m', ClassName (Typed m) = ClassName (Typed m') <-> MessageClass (Typed m) = MessageClass (Typed m').
Proof. intros m m'. apply names_class. Qed.
(** the names of the RFC (sections 3.3 to 3.8) *)
Definition rfc_name (t : mtype) : string := match t with
  | DATA => "Payload Data" | DUNA => "Destination Unavailable" | DAVA => "Destination Available" | DAUD => "Destination State Audit"
  | SCON => "Signalling Congestion" | DUPU => "Destination User Part Unavailable" | DRST => "Destination Restricted"
  | ASPUP => "ASP Up" | ASPUP_ACK => "ASP Up Ack" | ASPDN => "ASP Down" | ASPDN_ACK => "ASP Down Ack" | BEAT => "Heartbeat" | BEAT_ACK => "Heartbeat Ack"
  | ASPAC => "ASP Active" | ASPAC_ACK => "ASP Active Ack" | ASPIA => "ASP Inactive" | ASPIA_ACK => "ASP Inactive Ack" | ERR => "Error" | NTFY => "Notify"
  end.
Definition rfc_class_name (c : byte) : string := match c with
  | x00 => "Management" | x01 => "Transfer" | x02 => "SSNM" | x03 => "ASPSM" | x04 => "ASPTM" | _ => "" end.
Theorem C77_received : forall v r len body t m, (len < 4294967296)%N -> Parse (packet v r (rfc_class t) (rfc_type t) len body) = Ok m ->
  TypeName m = lit (rfc_name t) /\ ClassName m = lit (rfc_class_name (rfc_class t)).
Proof.
  intros v r len body t m L P. destruct (Parse_class _ _ _ _ _ _ _ L P) as (A & _). destruct (A t eq_refl) as (m' & -> & K).
  cbn [TypeName ClassName]. rewrite K. destruct t; split; reflexivity.
Qed.
(** A message the library does not know has neither name, also if its class is known. *)
Theorem C77_unknown_class_refuted : exists b g, Parse b = Ok (Gen g) /\ MessageClass (Gen g) = rfc_class DUNA /\ ClassName (Gen g) = lit "Unknown".
Proof. exists [x01; x00; x02; x07; x00; x00; x00; x08]. eexists. split; [reflexivity|]. split; reflexivity. Qed.
Print Assumptions C77_type.
Print Assumptions C77_class.
Print Assumptions C77_received.
Print Assumptions C77_unknown_class_refuted.
Example C77_ex : exists m, Parse (packet x01 x00 (rfc_class DUPU) (rfc_type DUPU) 16 [x00; x04; x00; x05; x61; x00; x00; x00]) = Ok m /\
  TypeName m = lit "Destination User Part Unavailable".
Proof. eexists. split; reflexivity. Qed.

(** C78: of all types but two the deprecated methods encode and decode like the new ones. *)
Theorem C78_roundtrip : forall t slots m, t <> SCON -> t <> DUPU -> roundtrips t slots m ->
  let body := body_for (present slots) in
  let bs := packet x01 x00 (rfc_class t) (rfc_type t) (N.of_nat (8 + List.length body)) body in
  exists x y, value_Serialize (value_of m) = Ok (x, bs) /\ value_Len (value_of m) = Ok (List.length bs) /\
    value_SerializeTo (value_of m) (zeros (List.length bs)) = Ok (x, bs) /\
    value_DecodeFromBytes (zero_value (go_type t)) bs = (y, Ok tt) /\ slots_are t (v_f y) (map (option_map SetLength) slots).
Proof. exact deprecated_roundtrip. Qed.
(** Of SignallingCongestion and DestinationUserPartUnavailable they are those of the header: no parameter is encoded or decoded. *)
Theorem C78_header_only : forall x h b, v_kind x = go_type SCON \/ v_kind x = go_type DUPU -> v_hdr x = Some h ->
  value_Serialize x = Ok (x, packet (h_version h) (h_reserved h) (h_class h) (h_type h) (h_length h) (h_payload h)) /\
  value_Len x = Ok (8 + List.length (h_payload h)) /\ v_f (fst (value_DecodeFromBytes x b)) = v_f x.
Proof. intros x h b [K|K]; apply promoted; rewrite K; reflexivity. Qed.
Theorem C78_zero_panics : forall t b, t = SCON \/ t = DUPU -> 8 <= List.length b ->
  value_DecodeFromBytes (zero_value (go_type t)) b = (zero_value (go_type t), Panic PNil).
Proof. intros t b [->| ->]; apply promoted_zero; reflexivity. Qed.
(** A new SCON is serialised as eight octets that announce more, and peers cannot decode the parameters. *)
Definition scon : msg := NewSignallingCongestion None None (Some (mkParam 18 0 [x00; x00; x00; x01])) None None None.
Theorem C78_all_refuted : exists m slots x, roundtrips SCON slots m /\ present slots <> [] /\
  value_Serialize (value_of m) = Ok (x, [x01; x00; x02; x04; x00; x00; x00; x10]) /\ value_Len (value_of m) = Ok 8 /\
  value_SerializeTo (value_of m) (zeros 8) = Ok (x, [x01; x00; x02; x04; x00; x00; x00; x10]).
Proof.
  exists scon, [None; None; Some (mkParam 18 0 [x00; x00; x00; x01]); None; None; None], (value_of scon).
  split. { apply NewSCON_rt. repeat (apply Forall2_cons || apply Forall2_nil); cbn [slot_ok]; auto. split; [reflexivity|]. apply max_value_len_spec. cbn. lia. }
  split; [discriminate|]. split; [reflexivity|]. split; reflexivity.
Qed.
Print Assumptions C78_roundtrip.
Print Assumptions C78_header_only.
Print Assumptions C78_zero_panics.
Print Assumptions C78_all_refuted.
Example C78_ex : roundtrips ASPUP [Some (mkParam 17 0 [x00; x00; x00; x2a]); None] up.
Proof. apply NewAspUp_rt. repeat (apply Forall2_cons || apply Forall2_nil); cbn [slot_ok]; auto. split; [reflexivity|]. apply max_value_len_spec. cbn. lia. Qed.
Example C78_ex_header : v_kind (value_of scon) = go_type SCON /\ v_hdr (value_of scon) = Some (m_hdr scon) /\ present [f_apc (v_f (value_of scon))] <> [].
Proof. split; [reflexivity|]. split; [reflexivity|discriminate]. Qed.
