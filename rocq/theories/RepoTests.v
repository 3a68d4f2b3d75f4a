(** The cases of the package's own tests, evaluated in the model: messages/*_test.go, messages/params/params_test.go and pc/pc_test.go, one Example for each
    case, and the four checks of each (decode, encode, len, interface — messages/testutils_test.go:33-88). They validate the translation: the expected octets
    were written by the authors of the library. conn_test.go is the Example C121_ex of PropsGain.v. *)
From Verif Require Import GoBase ParamsModel MessagesModel PcModel TextModel.
From Coq Require Import Arith Strings.String.
Open Scope nat_scope.
Open Scope list_scope.

(** encode and decode of TestParam — params_test.go *)
Definition param_case (p : param) (b : list byte) : Prop := MarshalBinary p = Ok b /\ ParseParam b = Ok p.
(** the decoder of each case: UnmarshalBinary, then Payload = nil *)
Definition no_payload (m : msg) : msg := mkMsg (m_kind m) (set_payload (m_hdr m) []) (m_f m).
Definition octets {A} (r : res (A * list byte)) : res (list byte) := match r with Ok (_, b) => Ok b | Err e => Err e | Panic p => Panic p end.
Definition alike (m m' : m3ua) : Prop :=
  MessageClass m' = MessageClass m /\ ClassName m' = ClassName m /\ MessageType m' = MessageType m /\ TypeName m' = TypeName m.
(** runTests — testutils_test.go:33-88 *)
Definition msg_case (m : msg) (b : list byte) : Prop :=
  (let! m' := msg_Unmarshal (m_kind m) b in Ok (no_payload m')) = Ok m /\
  octets (m3_MarshalBinary (Typed m)) = Ok b /\ msg_MarshalLen m = List.length b /\
  match Parse b with Ok m' => alike (Typed m) m' | _ => False end.
(** the constant AsStateActive — params/status.go *)
Definition AsStateActive : N := 0x00010003.
(** TestConvertPointCode — pc_test.go:46-67 *)
Definition pc_case (raw : N) (cur nxt before_ after_ : str) : Prop :=
  match NewPointCode raw cur, NewPointCodeFrom before_ cur, NewPointCodeFrom after_ nxt with
  | Some p, Some q, Some q' => String_ p = before_ /\ Uint32_ q = Uint32_ p /\ fst (ConvertTo p nxt) = Some after_ /\ Uint32_ q' = Uint32_ p
  | _, _, _ => False
  end.

(** messages/header_test.go *)
Example repo_header : 
  let h := NewHeader x01 x10 x10 [xde; xad; xbe; xef] in let b := [x01; x00; x10; x10; x00; x00; x00; x0c; xde; xad; xbe; xef] in
  ParseHeader b = Ok h /\ Header_MarshalBinary h = Ok b /\ Header_MarshalLen h = List.length b.
Proof. vm_compute. repeat split. Qed.

(** messages/generic_test.go *)
Example repo_generic :
  let g := New x01 x7f x7f [NewNetworkAppearance 1; NewRoutingContext [1%N; 255%N]] in
  let b := [x01; x00; x7f; x7f; x00; x00; x00; x1c; x02; x00; x00; x08; x00; x00; x00; x01; x00; x06; x00; x0c; x00; x00; x00; x01; x00; x00; x00; xff] in
  (let! g' := gen_Unmarshal b in Ok (mkGeneric (set_payload (g_hdr g') []) (g_params g'))) = Ok g /\
  octets (m3_MarshalBinary (Gen g)) = Ok b /\ gen_MarshalLen g = List.length b /\ match Parse b with Ok m' => alike (Gen g) m' | _ => False end.
Proof. vm_compute. repeat split. Qed.

(** messages/messages_test.go *)
Example repo_malformed : Forall (fun n => Parse (zeros n) = Err EMsgTooShortParse) [1; 2; 3; 4].
Proof. vm_compute. repeat constructor. Qed.

(** pc/pc_test.go *)
Example repo_pc_1234 : pc_case 1234 Variant383 Variant437 (txt "0-154-2"%string) (txt "1-1-82"%string).
Proof. vm_compute. repeat split. Qed.
Example repo_pc_all_ones : pc_case 0xffffffff Variant383 Variant437 (txt "7-255-7"%string) (txt "15-7-127"%string).
Proof. vm_compute. repeat split. Qed.
Example repo_pc_zero : pc_case 0 Variant383 Variant437 (txt "0-0-0"%string) (txt "0-0-0"%string).
Proof. vm_compute. repeat split. Qed.

(** params/params_test.go: TestParseMultiParams, TestParseMalformed *)
Example repo_multi : ParseMultiParams [x00; x06; x00; x08; x00; x00; x00; x01; x00; x01; x00; x08; xde; xad; xbe; xef] = Ok [NewRoutingContext [1%N]; NewParam 1 [xde; xad; xbe; xef]].
Proof. vm_compute. reflexivity. Qed.
Example repo_param_malformed : Forall (fun n => ParseParam (zeros n) = Err EParamTooShortParse /\ ParseMultiParams (zeros n) = Err EParamTooShortParse) [1; 2; 3] /\
  ParseParam (zeros 4) = Err EParamInvalidLength /\ ParseMultiParams (zeros 4) = Err EParamInvalidLength.
Proof. vm_compute. repeat constructor. Qed.

(** params/params_test.go: TestParam *)
Example repo_param_AspIdentifier : param_case
  (NewAspIdentifier 1%N)
  [x00; x11; x00; x08; x00; x00; x00; x01].
Proof. vm_compute. repeat split. Qed.

Example repo_param_TrafficModeType : param_case
  (NewTrafficModeType 1%N)
  [x00; x0b; x00; x08; x00; x00; x00; x01].
Proof. vm_compute. repeat split. Qed.

Example repo_param_NetworkAppearance : param_case
  (NewNetworkAppearance 1%N)
  [x02; x00; x00; x08; x00; x00; x00; x01].
Proof. vm_compute. repeat split. Qed.

Example repo_param_RoutingContext_single : param_case
  (NewRoutingContext [1%N])
  [x00; x06; x00; x08; x00; x00; x00; x01].
Proof. vm_compute. repeat split. Qed.

Example repo_param_RoutingContext_multiple : param_case
  (NewRoutingContext [1%N; 2%N; 3%N])
  [x00; x06; x00; x10; x00; x00; x00; x01; x00; x00; x00; x02; x00; x00; x00; x03].
Proof. vm_compute. repeat split. Qed.

Example repo_param_HeartbeatData : param_case
  (NewHeartbeatData (txt "some information"%string))
  [x00; x09; x00; x14; x73; x6f; x6d; x65; x20; x69; x6e; x66; x6f; x72; x6d; x61; x74; x69; x6f; x6e].
Proof. vm_compute. repeat split. Qed.

Example repo_param_ErrorCode : param_case
  (NewErrorCode 1%N)
  [x00; x0c; x00; x08; x00; x00; x00; x01].
Proof. vm_compute. repeat split. Qed.

Example repo_param_UserCause : param_case
  (NewUserCause 0%N 1%N)
  [x02; x04; x00; x08; x00; x01; x00; x00].
Proof. vm_compute. repeat split. Qed.

Example repo_param_Status : param_case
  (NewStatus AsStateActive)
  [x00; x0d; x00; x08; x00; x01; x00; x03].
Proof. vm_compute. repeat split. Qed.

Example repo_param_AffectedPointCode : param_case
  (NewAffectedPointCode [1%N; 2%N; 3%N])
  [x00; x12; x00; x10; x00; x00; x00; x01; x00; x00; x00; x02; x00; x00; x00; x03].
Proof. vm_compute. repeat split. Qed.

Example repo_param_ConcernedDestination : param_case
  (NewConcernedDestination 1%N)
  [x02; x06; x00; x08; x00; x00; x00; x01].
Proof. vm_compute. repeat split. Qed.

Example repo_param_CorrelationID : param_case
  (NewCorrelationID 1%N)
  [x00; x13; x00; x08; x00; x00; x00; x01].
Proof. vm_compute. repeat split. Qed.

Example repo_param_InfoString : param_case
  (NewInfoString (txt "some information"%string))
  [x00; x04; x00; x14; x73; x6f; x6d; x65; x20; x69; x6e; x66; x6f; x72; x6d; x61; x74; x69; x6f; x6e].
Proof. vm_compute. repeat split. Qed.

Example repo_param_DiagnosticInformation : param_case
  (NewDiagnosticInformation (txt "some information"%string))
  [x00; x07; x00; x14; x73; x6f; x6d; x65; x20; x69; x6e; x66; x6f; x72; x6d; x61; x74; x69; x6f; x6e].
Proof. vm_compute. repeat split. Qed.

Example repo_param_CongestionIndications : param_case
  (NewCongestionIndications x01)
  [x02; x05; x00; x08; x00; x00; x00; x01].
Proof. vm_compute. repeat split. Qed.

Example repo_param_LocalRoutingKeyIdentifier : param_case
  (NewLocalRoutingKeyIdentifier 1%N)
  [x02; x0a; x00; x08; x00; x00; x00; x01].
Proof. vm_compute. repeat split. Qed.

Example repo_param_DestinationPointCode : param_case
  (NewDestinationPointCode 1%N)
  [x02; x0b; x00; x08; x00; x00; x00; x01].
Proof. vm_compute. repeat split. Qed.

Example repo_param_OriginatingPointCodeList : param_case
  (NewOriginatingPointCodeList [1%N; 2%N; 3%N])
  [x02; x0e; x00; x10; x00; x00; x00; x01; x00; x00; x00; x02; x00; x00; x00; x03].
Proof. vm_compute. repeat split. Qed.

Example repo_param_ServiceIndicators : param_case
  (NewServiceIndicators [x01; x02; x03])
  [x02; x0c; x00; x08; x01; x02; x03; x00].
Proof. vm_compute. repeat split. Qed.

Example repo_param_RegistrationStatus : param_case
  (NewRegistrationStatus 1%N)
  [x02; x12; x00; x08; x00; x00; x00; x01].
Proof. vm_compute. repeat split. Qed.

Example repo_param_DeregistrationStatus : param_case
  (NewDeregistrationStatus 1%N)
  [x02; x13; x00; x08; x00; x00; x00; x01].
Proof. vm_compute. repeat split. Qed.

Example repo_param_Generic : param_case
  (NewParam 1%Z [xde; xad; xbe; xef])
  [x00; x01; x00; x08; xde; xad; xbe; xef].
Proof. vm_compute. repeat split. Qed.

Example repo_param_ProtocolData : param_case
  (NewProtocolData 1%N 2%N x03 x01 x00 x01 [xde; xad; xbe; xef])
  [x02; x10; x00; x14; x00; x00; x00; x01; x00; x00; x00; x02; x03; x01; x00; x01; xde; xad; xbe; xef].
Proof. vm_compute. repeat split. Qed.

Example repo_param_RegistrationResult : param_case
  (NewRegistrationResult (mkRR (Some (NewLocalRoutingKeyIdentifier 1%N)) (Some (NewRegistrationStatus 1%N)) (Some (NewRoutingContext [1%N]))))
  [x02; x08; x00; x1c; x02; x0a; x00; x08; x00; x00; x00; x01; x02; x12; x00; x08; x00; x00; x00; x01; x00; x06; x00; x08; x00; x00; x00; x01].
Proof. vm_compute. repeat split. Qed.

Example repo_param_DeregistrationResult : param_case
  (NewDeregistrationResult (mkDR (Some (NewRoutingContext [1%N])) (Some (NewDeregistrationStatus 1%N))))
  [x02; x09; x00; x14; x00; x06; x00; x08; x00; x00; x00; x01; x02; x13; x00; x08; x00; x00; x00; x01].
Proof. vm_compute. repeat split. Qed.

(** messages/asp-active-ack_test.go *)
Example repo_asp_active_ack_has_all_params : msg_case
  (NewAspActiveAck (Some (NewTrafficModeType 2%N)) (Some (NewRoutingContext [1%N])) (Some (NewInfoString (txt "deadbeef"%string))))
  [x01; x00; x04; x03; x00; x00; x00; x24; x00; x0b; x00; x08; x00; x00; x00; x02; x00; x06; x00; x08; x00; x00; x00; x01; x00; x04; x00; x0c; x64; x65; x61; x64; x62; x65; x65; x66].
Proof. vm_compute. repeat split. Qed.

Example repo_asp_active_ack_has_tmt_rc : msg_case
  (NewAspActiveAck (Some (NewTrafficModeType 2%N)) (Some (NewRoutingContext [1%N])) None)
  [x01; x00; x04; x03; x00; x00; x00; x18; x00; x0b; x00; x08; x00; x00; x00; x02; x00; x06; x00; x08; x00; x00; x00; x01].
Proof. vm_compute. repeat split. Qed.

Example repo_asp_active_ack_has_tmt_info : msg_case
  (NewAspActiveAck (Some (NewTrafficModeType 2%N)) None (Some (NewInfoString (txt "deadbeef"%string))))
  [x01; x00; x04; x03; x00; x00; x00; x1c; x00; x0b; x00; x08; x00; x00; x00; x02; x00; x04; x00; x0c; x64; x65; x61; x64; x62; x65; x65; x66].
Proof. vm_compute. repeat split. Qed.

Example repo_asp_active_ack_has_rc_info : msg_case
  (NewAspActiveAck None (Some (NewRoutingContext [1%N])) (Some (NewInfoString (txt "deadbeef"%string))))
  [x01; x00; x04; x03; x00; x00; x00; x1c; x00; x06; x00; x08; x00; x00; x00; x01; x00; x04; x00; x0c; x64; x65; x61; x64; x62; x65; x65; x66].
Proof. vm_compute. repeat split. Qed.

Example repo_asp_active_ack_has_tmt : msg_case
  (NewAspActiveAck (Some (NewTrafficModeType 2%N)) None None)
  [x01; x00; x04; x03; x00; x00; x00; x10; x00; x0b; x00; x08; x00; x00; x00; x02].
Proof. vm_compute. repeat split. Qed.

Example repo_asp_active_ack_has_rc : msg_case
  (NewAspActiveAck None (Some (NewRoutingContext [1%N])) None)
  [x01; x00; x04; x03; x00; x00; x00; x10; x00; x06; x00; x08; x00; x00; x00; x01].
Proof. vm_compute. repeat split. Qed.

Example repo_asp_active_ack_has_info : msg_case
  (NewAspActiveAck None None (Some (NewInfoString (txt "deadbeef"%string))))
  [x01; x00; x04; x03; x00; x00; x00; x14; x00; x04; x00; x0c; x64; x65; x61; x64; x62; x65; x65; x66].
Proof. vm_compute. repeat split. Qed.

Example repo_asp_active_ack_has_none : msg_case
  (NewAspActiveAck None None None)
  [x01; x00; x04; x03; x00; x00; x00; x08].
Proof. vm_compute. repeat split. Qed.

(** messages/asp-active_test.go *)
Example repo_asp_active_has_all : msg_case
  (NewAspActive (Some (NewTrafficModeType 2%N)) (Some (NewRoutingContext [1%N])) (Some (NewInfoString (txt "deadbeef"%string))))
  [x01; x00; x04; x01; x00; x00; x00; x24; x00; x0b; x00; x08; x00; x00; x00; x02; x00; x06; x00; x08; x00; x00; x00; x01; x00; x04; x00; x0c; x64; x65; x61; x64; x62; x65; x65; x66].
Proof. vm_compute. repeat split. Qed.

Example repo_asp_active_has_tmt_rc : msg_case
  (NewAspActive (Some (NewTrafficModeType 2%N)) (Some (NewRoutingContext [1%N])) None)
  [x01; x00; x04; x01; x00; x00; x00; x18; x00; x0b; x00; x08; x00; x00; x00; x02; x00; x06; x00; x08; x00; x00; x00; x01].
Proof. vm_compute. repeat split. Qed.

Example repo_asp_active_has_tmt_info : msg_case
  (NewAspActive (Some (NewTrafficModeType 2%N)) None (Some (NewInfoString (txt "deadbeef"%string))))
  [x01; x00; x04; x01; x00; x00; x00; x1c; x00; x0b; x00; x08; x00; x00; x00; x02; x00; x04; x00; x0c; x64; x65; x61; x64; x62; x65; x65; x66].
Proof. vm_compute. repeat split. Qed.

Example repo_asp_active_has_rc_info : msg_case
  (NewAspActive None (Some (NewRoutingContext [1%N])) (Some (NewInfoString (txt "deadbeef"%string))))
  [x01; x00; x04; x01; x00; x00; x00; x1c; x00; x06; x00; x08; x00; x00; x00; x01; x00; x04; x00; x0c; x64; x65; x61; x64; x62; x65; x65; x66].
Proof. vm_compute. repeat split. Qed.

Example repo_asp_active_has_tmt : msg_case
  (NewAspActive (Some (NewTrafficModeType 2%N)) None None)
  [x01; x00; x04; x01; x00; x00; x00; x10; x00; x0b; x00; x08; x00; x00; x00; x02].
Proof. vm_compute. repeat split. Qed.

Example repo_asp_active_has_rc : msg_case
  (NewAspActive None (Some (NewRoutingContext [1%N])) None)
  [x01; x00; x04; x01; x00; x00; x00; x10; x00; x06; x00; x08; x00; x00; x00; x01].
Proof. vm_compute. repeat split. Qed.

Example repo_asp_active_has_info : msg_case
  (NewAspActive None None (Some (NewInfoString (txt "deadbeef"%string))))
  [x01; x00; x04; x01; x00; x00; x00; x14; x00; x04; x00; x0c; x64; x65; x61; x64; x62; x65; x65; x66].
Proof. vm_compute. repeat split. Qed.

Example repo_asp_active_has_none : msg_case
  (NewAspActive None None None)
  [x01; x00; x04; x01; x00; x00; x00; x08].
Proof. vm_compute. repeat split. Qed.

(** messages/asp-down-ack_test.go *)
Example repo_asp_down_ack_has_info : msg_case
  (NewAspDownAck (Some (NewInfoString (txt "deadbeef"%string))))
  [x01; x00; x03; x05; x00; x00; x00; x14; x00; x04; x00; x0c; x64; x65; x61; x64; x62; x65; x65; x66].
Proof. vm_compute. repeat split. Qed.

Example repo_asp_down_ack_has_none : msg_case
  (NewAspDownAck None)
  [x01; x00; x03; x05; x00; x00; x00; x08].
Proof. vm_compute. repeat split. Qed.

(** messages/asp-down_test.go *)
Example repo_asp_down_has_info : msg_case
  (NewAspDown (Some (NewInfoString (txt "deadbeef"%string))))
  [x01; x00; x03; x02; x00; x00; x00; x14; x00; x04; x00; x0c; x64; x65; x61; x64; x62; x65; x65; x66].
Proof. vm_compute. repeat split. Qed.

Example repo_asp_down_has_none : msg_case
  (NewAspDown None)
  [x01; x00; x03; x02; x00; x00; x00; x08].
Proof. vm_compute. repeat split. Qed.

(** messages/asp-inactive-ack_test.go *)
Example repo_asp_inactive_ack_has_all : msg_case
  (NewAspInactiveAck (Some (NewRoutingContext [1%N])) (Some (NewInfoString (txt "deadbeef"%string))))
  [x01; x00; x04; x04; x00; x00; x00; x1c; x00; x06; x00; x08; x00; x00; x00; x01; x00; x04; x00; x0c; x64; x65; x61; x64; x62; x65; x65; x66].
Proof. vm_compute. repeat split. Qed.

Example repo_asp_inactive_ack_has_rc : msg_case
  (NewAspInactiveAck (Some (NewRoutingContext [1%N])) None)
  [x01; x00; x04; x04; x00; x00; x00; x10; x00; x06; x00; x08; x00; x00; x00; x01].
Proof. vm_compute. repeat split. Qed.

Example repo_asp_inactive_ack_has_info : msg_case
  (NewAspInactiveAck None (Some (NewInfoString (txt "deadbeef"%string))))
  [x01; x00; x04; x04; x00; x00; x00; x14; x00; x04; x00; x0c; x64; x65; x61; x64; x62; x65; x65; x66].
Proof. vm_compute. repeat split. Qed.

Example repo_asp_inactive_ack_has_none : msg_case
  (NewAspInactiveAck None None)
  [x01; x00; x04; x04; x00; x00; x00; x08].
Proof. vm_compute. repeat split. Qed.

(** messages/asp-inactive_test.go *)
Example repo_asp_inactive_has_all : msg_case
  (NewAspInactive (Some (NewRoutingContext [1%N])) (Some (NewInfoString (txt "deadbeef"%string))))
  [x01; x00; x04; x02; x00; x00; x00; x1c; x00; x06; x00; x08; x00; x00; x00; x01; x00; x04; x00; x0c; x64; x65; x61; x64; x62; x65; x65; x66].
Proof. vm_compute. repeat split. Qed.

Example repo_asp_inactive_has_rc : msg_case
  (NewAspInactive (Some (NewRoutingContext [1%N])) None)
  [x01; x00; x04; x02; x00; x00; x00; x10; x00; x06; x00; x08; x00; x00; x00; x01].
Proof. vm_compute. repeat split. Qed.

Example repo_asp_inactive_has_info : msg_case
  (NewAspInactive None (Some (NewInfoString (txt "deadbeef"%string))))
  [x01; x00; x04; x02; x00; x00; x00; x14; x00; x04; x00; x0c; x64; x65; x61; x64; x62; x65; x65; x66].
Proof. vm_compute. repeat split. Qed.

Example repo_asp_inactive_has_none : msg_case
  (NewAspInactive None None)
  [x01; x00; x04; x02; x00; x00; x00; x08].
Proof. vm_compute. repeat split. Qed.

(** messages/asp-up-ack_test.go *)
Example repo_asp_up_ack_has_all : msg_case
  (NewAspUpAck (Some (NewAspIdentifier 1%N)) (Some (NewInfoString (txt "deadbeef"%string))))
  [x01; x00; x03; x04; x00; x00; x00; x1c; x00; x11; x00; x08; x00; x00; x00; x01; x00; x04; x00; x0c; x64; x65; x61; x64; x62; x65; x65; x66].
Proof. vm_compute. repeat split. Qed.

Example repo_asp_up_ack_has_asp : msg_case
  (NewAspUpAck (Some (NewAspIdentifier 1%N)) None)
  [x01; x00; x03; x04; x00; x00; x00; x10; x00; x11; x00; x08; x00; x00; x00; x01].
Proof. vm_compute. repeat split. Qed.

Example repo_asp_up_ack_has_info : msg_case
  (NewAspUpAck None (Some (NewInfoString (txt "deadbeef"%string))))
  [x01; x00; x03; x04; x00; x00; x00; x14; x00; x04; x00; x0c; x64; x65; x61; x64; x62; x65; x65; x66].
Proof. vm_compute. repeat split. Qed.

Example repo_asp_up_ack_has_none : msg_case
  (NewAspUpAck None None)
  [x01; x00; x03; x04; x00; x00; x00; x08].
Proof. vm_compute. repeat split. Qed.

(** messages/asp-up_test.go *)
Example repo_asp_up_has_all : msg_case
  (NewAspUp (Some (NewAspIdentifier 1%N)) (Some (NewInfoString (txt "deadbeef"%string))))
  [x01; x00; x03; x01; x00; x00; x00; x1c; x00; x11; x00; x08; x00; x00; x00; x01; x00; x04; x00; x0c; x64; x65; x61; x64; x62; x65; x65; x66].
Proof. vm_compute. repeat split. Qed.

Example repo_asp_up_has_asp : msg_case
  (NewAspUp (Some (NewAspIdentifier 1%N)) None)
  [x01; x00; x03; x01; x00; x00; x00; x10; x00; x11; x00; x08; x00; x00; x00; x01].
Proof. vm_compute. repeat split. Qed.

Example repo_asp_up_has_info : msg_case
  (NewAspUp None (Some (NewInfoString (txt "deadbeef"%string))))
  [x01; x00; x03; x01; x00; x00; x00; x14; x00; x04; x00; x0c; x64; x65; x61; x64; x62; x65; x65; x66].
Proof. vm_compute. repeat split. Qed.

Example repo_asp_up_has_none : msg_case
  (NewAspUp None None)
  [x01; x00; x03; x01; x00; x00; x00; x08].
Proof. vm_compute. repeat split. Qed.

(** messages/data_test.go *)
Example repo_data_has_all : msg_case
  (NewData (Some (NewNetworkAppearance 1%N)) (Some (NewRoutingContext [1%N])) (Some (NewProtocolData 1%N 2%N x03 x01 x00 x01 [xde; xad; xbe; xef])) None)
  [x01; x00; x01; x01; x00; x00; x00; x2c; x02; x00; x00; x08; x00; x00; x00; x01; x00; x06; x00; x08; x00; x00; x00; x01; x02; x10; x00; x14; x00; x00; x00; x01; x00; x00; x00; x02; x03; x01; x00; x01; xde; xad; xbe; xef].
Proof. vm_compute. repeat split. Qed.

Example repo_data_has_rc : msg_case
  (NewData (Some (NewNetworkAppearance 1%N)) None (Some (NewProtocolData 1%N 2%N x03 x01 x00 x01 [xde; xad; xbe; xef])) None)
  [x01; x00; x01; x01; x00; x00; x00; x24; x02; x00; x00; x08; x00; x00; x00; x01; x02; x10; x00; x14; x00; x00; x00; x01; x00; x00; x00; x02; x03; x01; x00; x01; xde; xad; xbe; xef].
Proof. vm_compute. repeat split. Qed.

Example repo_data_has_info : msg_case
  (NewData None (Some (NewRoutingContext [1%N; 255%N])) (Some (NewProtocolData 1%N 2%N x03 x01 x00 x01 [xde; xad; xbe; xef])) None)
  [x01; x00; x01; x01; x00; x00; x00; x28; x00; x06; x00; x0c; x00; x00; x00; x01; x00; x00; x00; xff; x02; x10; x00; x14; x00; x00; x00; x01; x00; x00; x00; x02; x03; x01; x00; x01; xde; xad; xbe; xef].
Proof. vm_compute. repeat split. Qed.

Example repo_data_has_none : msg_case
  (NewData None None (Some (NewProtocolData 1%N 2%N x03 x01 x00 x01 [xde; xad; xbe; xef])) None)
  [x01; x00; x01; x01; x00; x00; x00; x1c; x02; x10; x00; x14; x00; x00; x00; x01; x00; x00; x00; x02; x03; x01; x00; x01; xde; xad; xbe; xef].
Proof. vm_compute. repeat split. Qed.

(** messages/daud_test.go *)
Example repo_daud_has_all : msg_case
  (NewDestinationStateAudit (Some (NewNetworkAppearance 1%N)) (Some (NewRoutingContext [2%N])) (Some (NewAffectedPointCode [3%N; 4%N])) (Some (NewInfoString (txt "deadbeef"%string))))
  [x01; x00; x02; x03; x00; x00; x00; x30; x02; x00; x00; x08; x00; x00; x00; x01; x00; x06; x00; x08; x00; x00; x00; x02; x00; x12; x00; x0c; x00; x00; x00; x03; x00; x00; x00; x04; x00; x04; x00; x0c; x64; x65; x61; x64; x62; x65; x65; x66].
Proof. vm_compute. repeat split. Qed.

(** messages/dava_test.go *)
Example repo_dava_has_all : msg_case
  (NewDestinationAvailable (Some (NewNetworkAppearance 1%N)) (Some (NewRoutingContext [2%N])) (Some (NewAffectedPointCode [3%N; 4%N])) (Some (NewInfoString (txt "deadbeef"%string))))
  [x01; x00; x02; x02; x00; x00; x00; x30; x02; x00; x00; x08; x00; x00; x00; x01; x00; x06; x00; x08; x00; x00; x00; x02; x00; x12; x00; x0c; x00; x00; x00; x03; x00; x00; x00; x04; x00; x04; x00; x0c; x64; x65; x61; x64; x62; x65; x65; x66].
Proof. vm_compute. repeat split. Qed.

(** messages/drst_test.go *)
Example repo_drst_has_all : msg_case
  (NewDestinationRestricted (Some (NewNetworkAppearance 1%N)) (Some (NewRoutingContext [2%N])) (Some (NewAffectedPointCode [3%N; 4%N])) (Some (NewInfoString (txt "deadbeef"%string))))
  [x01; x00; x02; x06; x00; x00; x00; x30; x02; x00; x00; x08; x00; x00; x00; x01; x00; x06; x00; x08; x00; x00; x00; x02; x00; x12; x00; x0c; x00; x00; x00; x03; x00; x00; x00; x04; x00; x04; x00; x0c; x64; x65; x61; x64; x62; x65; x65; x66].
Proof. vm_compute. repeat split. Qed.

(** messages/duna_test.go *)
Example repo_duna_has_all : msg_case
  (NewDestinationUnavailable (Some (NewNetworkAppearance 1%N)) (Some (NewRoutingContext [2%N])) (Some (NewAffectedPointCode [3%N; 4%N])) (Some (NewInfoString (txt "deadbeef"%string))))
  [x01; x00; x02; x01; x00; x00; x00; x30; x02; x00; x00; x08; x00; x00; x00; x01; x00; x06; x00; x08; x00; x00; x00; x02; x00; x12; x00; x0c; x00; x00; x00; x03; x00; x00; x00; x04; x00; x04; x00; x0c; x64; x65; x61; x64; x62; x65; x65; x66].
Proof. vm_compute. repeat split. Qed.

(** messages/dupu_test.go *)
Example repo_dupu_has_all : msg_case
  (NewDestinationUserPartUnavailable (Some (NewNetworkAppearance 1%N)) (Some (NewRoutingContext [2%N])) (Some (NewAffectedPointCode [3%N; 4%N])) (Some (NewUserCause 0%N 1%N)) (Some (NewInfoString (txt "deadbeef"%string))))
  [x01; x00; x02; x05; x00; x00; x00; x38; x02; x00; x00; x08; x00; x00; x00; x01; x00; x06; x00; x08; x00; x00; x00; x02; x00; x12; x00; x0c; x00; x00; x00; x03; x00; x00; x00; x04; x02; x04; x00; x08; x00; x01; x00; x00; x00; x04; x00; x0c; x64; x65; x61; x64; x62; x65; x65; x66].
Proof. vm_compute. repeat split. Qed.

(** messages/error_test.go *)
Example repo_error_has_all : msg_case
  (NewError (Some (NewErrorCode 1%N)) (Some (NewRoutingContext [1%N])) (Some (NewNetworkAppearance 1%N)) (Some (NewAffectedPointCode [286331153%N; 572662306%N])) (Some (NewDiagnosticInformation [xde; xad; xbe; xef])))
  [x01; x00; x00; x00; x00; x00; x00; x34; x00; x0c; x00; x08; x00; x00; x00; x01; x00; x06; x00; x08; x00; x00; x00; x01; x02; x00; x00; x08; x00; x00; x00; x01; x00; x12; x00; x0c; x11; x11; x11; x11; x22; x22; x22; x22; x00; x07; x00; x08; xde; xad; xbe; xef].
Proof. vm_compute. repeat split. Qed.

Example repo_error_has_none : msg_case
  (NewError None None None None None)
  [x01; x00; x00; x00; x00; x00; x00; x08].
Proof. vm_compute. repeat split. Qed.

(** messages/heartbeat-ack_test.go *)
Example repo_heartbeat_ack_has_all : msg_case
  (NewHeartbeatAck (Some (NewHeartbeatData [xde; xad; xbe; xef])))
  [x01; x00; x03; x06; x00; x00; x00; x10; x00; x09; x00; x08; xde; xad; xbe; xef].
Proof. vm_compute. repeat split. Qed.

(** messages/heartbeat_test.go *)
Example repo_heartbeat_has_all : msg_case
  (NewHeartbeat (Some (NewHeartbeatData [xde; xad; xbe; xef])))
  [x01; x00; x03; x03; x00; x00; x00; x10; x00; x09; x00; x08; xde; xad; xbe; xef].
Proof. vm_compute. repeat split. Qed.

(** messages/notify_test.go *)
Example repo_notify_has_all_params : msg_case
  (NewNotify (Some (NewStatus AsStateActive)) (Some (NewAspIdentifier 2%N)) (Some (NewRoutingContext [1%N])) (Some (NewInfoString (txt "deadbeef"%string))))
  [x01; x00; x00; x01; x00; x00; x00; x2c; x00; x0d; x00; x08; x00; x01; x00; x03; x00; x11; x00; x08; x00; x00; x00; x02; x00; x06; x00; x08; x00; x00; x00; x01; x00; x04; x00; x0c; x64; x65; x61; x64; x62; x65; x65; x66].
Proof. vm_compute. repeat split. Qed.

Example repo_notify_has_asp_rc : msg_case
  (NewNotify (Some (NewStatus AsStateActive)) (Some (NewAspIdentifier 2%N)) (Some (NewRoutingContext [1%N])) None)
  [x01; x00; x00; x01; x00; x00; x00; x20; x00; x0d; x00; x08; x00; x01; x00; x03; x00; x11; x00; x08; x00; x00; x00; x02; x00; x06; x00; x08; x00; x00; x00; x01].
Proof. vm_compute. repeat split. Qed.

Example repo_notify_has_asp_info : msg_case
  (NewNotify (Some (NewStatus AsStateActive)) (Some (NewAspIdentifier 2%N)) None (Some (NewInfoString (txt "deadbeef"%string))))
  [x01; x00; x00; x01; x00; x00; x00; x24; x00; x0d; x00; x08; x00; x01; x00; x03; x00; x11; x00; x08; x00; x00; x00; x02; x00; x04; x00; x0c; x64; x65; x61; x64; x62; x65; x65; x66].
Proof. vm_compute. repeat split. Qed.

Example repo_notify_has_rc_info : msg_case
  (NewNotify (Some (NewStatus AsStateActive)) None (Some (NewRoutingContext [1%N])) (Some (NewInfoString (txt "deadbeef"%string))))
  [x01; x00; x00; x01; x00; x00; x00; x24; x00; x0d; x00; x08; x00; x01; x00; x03; x00; x06; x00; x08; x00; x00; x00; x01; x00; x04; x00; x0c; x64; x65; x61; x64; x62; x65; x65; x66].
Proof. vm_compute. repeat split. Qed.

Example repo_notify_has_asp : msg_case
  (NewNotify (Some (NewStatus AsStateActive)) (Some (NewAspIdentifier 2%N)) None None)
  [x01; x00; x00; x01; x00; x00; x00; x18; x00; x0d; x00; x08; x00; x01; x00; x03; x00; x11; x00; x08; x00; x00; x00; x02].
Proof. vm_compute. repeat split. Qed.

Example repo_notify_has_rc : msg_case
  (NewNotify (Some (NewStatus AsStateActive)) None (Some (NewRoutingContext [1%N])) None)
  [x01; x00; x00; x01; x00; x00; x00; x18; x00; x0d; x00; x08; x00; x01; x00; x03; x00; x06; x00; x08; x00; x00; x00; x01].
Proof. vm_compute. repeat split. Qed.

Example repo_notify_has_info : msg_case
  (NewNotify (Some (NewStatus AsStateActive)) None None (Some (NewInfoString (txt "deadbeef"%string))))
  [x01; x00; x00; x01; x00; x00; x00; x1c; x00; x0d; x00; x08; x00; x01; x00; x03; x00; x04; x00; x0c; x64; x65; x61; x64; x62; x65; x65; x66].
Proof. vm_compute. repeat split. Qed.

Example repo_notify_has_status_only : msg_case
  (NewNotify (Some (NewStatus AsStateActive)) None None None)
  [x01; x00; x00; x01; x00; x00; x00; x10; x00; x0d; x00; x08; x00; x01; x00; x03].
Proof. vm_compute. repeat split. Qed.

Example repo_notify_has_none : msg_case
  (NewNotify None None None None)
  [x01; x00; x00; x01; x00; x00; x00; x08].
Proof. vm_compute. repeat split. Qed.

(** messages/scon_test.go *)
Example repo_scon_has_all : msg_case
  (NewSignallingCongestion (Some (NewNetworkAppearance 1%N)) (Some (NewRoutingContext [2%N])) (Some (NewAffectedPointCode [3%N; 4%N])) (Some (NewConcernedDestination 5%N)) (Some (NewCongestionIndications x06)) (Some (NewInfoString (txt "deadbeef"%string))))
  [x01; x00; x02; x04; x00; x00; x00; x40; x02; x00; x00; x08; x00; x00; x00; x01; x00; x06; x00; x08; x00; x00; x00; x02; x00; x12; x00; x0c; x00; x00; x00; x03; x00; x00; x00; x04; x02; x06; x00; x08; x00; x00; x00; x05; x02; x05; x00; x08; x00; x00; x00; x06; x00; x04; x00; x0c; x64; x65; x61; x64; x62; x65; x65; x66].
Proof. vm_compute. repeat split. Qed.

Example repo_scon_has_none : msg_case
  (NewSignallingCongestion None None None None None None)
  [x01; x00; x02; x04; x00; x00; x00; x08].
Proof. vm_compute. repeat split. Qed.
