(** Model of package messages/params (messages/params/*.go of /repo). *)
From Verif Require Import GoBase.
From Coq Require Import Arith.
Open Scope nat_scope.

(** * Parameter tags — params.go:16-60 *)
Definition tInfoString : N := 4.                    (* params.go:20 *)
Definition tRoutingContext : N := 6.                (* params.go:22 *)
Definition tDiagnosticInformation : N := 7.         (* params.go:23 *)
Definition tHeartbeatData : N := 9.                 (* params.go:25 *)
Definition tTrafficModeType : N := 11.              (* params.go:27 *)
Definition tErrorCode : N := 12.                    (* params.go:28 *)
Definition tStatus : N := 13.                       (* params.go:29 *)
Definition tAspIdentifier : N := 17.                (* params.go:33 *)
Definition tAffectedPointCode : N := 18.            (* params.go:34 *)
Definition tCorrelationID : N := 19.                (* params.go:35 *)
Definition tNetworkAppearance : N := 0x200.         (* params.go:40 *)
Definition tUserCause : N := 0x204.                 (* params.go:44 *)
Definition tCongestionIndications : N := 0x205.     (* params.go:45 *)
Definition tConcernedDestination : N := 0x206.      (* params.go:46 *)
Definition tRoutingKey : N := 0x207.                (* params.go:47 *)
Definition tRegistrationResult : N := 0x208.        (* params.go:48 *)
Definition tDeregistrationResult : N := 0x209.      (* params.go:49 *)
Definition tLocalRoutingKeyIdentifier : N := 0x20a. (* params.go:50 *)
Definition tDestinationPointCode : N := 0x20b.      (* params.go:51 *)
Definition tServiceIndicators : N := 0x20c.         (* params.go:52 *)
Definition tOriginatingPointCodeList : N := 0x20e.  (* params.go:54 *)
Definition tProtocolData : N := 0x210.              (* params.go:56 *)
Definition tRegistrationStatus : N := 0x212.        (* params.go:58 *)
Definition tDeregistrationStatus : N := 0x213.      (* params.go:59 *)

(** * type Param — params.go:71-75.  Tag and Length are uint16 kept in [N]
    (the decoder and the constructors only produce values below 65536). *)
Record param := mkParam { p_tag : N; p_length : N; p_data : list byte }.

(** Param.Padding — params.go:234-240 *)
Definition Padding (p : param) : nat :=
  let x := length (p_data p) mod 4 in
  if x =? 0 then 0 else 4 - x.

(** Param.MarshalLen — params.go:243-245 *)
Definition MarshalLen (p : param) : nat := 4 + length (p_data p) + Padding p.

(** Param.SetLength — params.go:248-250; uint16(...) truncates *)
Definition SetLength (p : param) : param :=
  mkParam (p_tag p) (u16 (N.of_nat (4 + length (p_data p)))) (p_data p).

(** Param.MarshalTo — params.go:200-205.  [b] is the capacity region of the
    argument: the three slice expressions are bounded by capacity, not length.
    Returns the new contents of that region. *)
Definition MarshalTo (p : param) (b : list byte) : res (list byte) :=
  let! b := PutUint16 b 0 (p_tag p) in
  let! b := PutUint16 b 2 (p_length p) in
  copy_at b 4 (MarshalLen p) (p_data p).

(** Param.MarshalBinary — params.go:191-197 *)
Definition MarshalBinary (p : param) : res (list byte) :=
  MarshalTo p (zeros (MarshalLen p)).

(** Param.UnmarshalBinary / Parse — params.go:208-231 *)
Definition ParseParam (b : list byte) : res param :=
  let l := length b in
  if l <? 4 then Err EParamTooShortParse else
  let! tag := Uint16 b 0 in
  let! len := Uint16 b 2 in
  if (l <? N.to_nat len) || (len <? 4)%N then Err EParamInvalidLength else
  let! d := slice b 4 (N.to_nat len) in
  Ok (mkParam tag len d).

(** MarshalMultiParams — params.go:265-275 (a nil element panics in Go; the
    model's lists hold non-nil parameters) *)
Fixpoint MarshalMultiParams (ps : list param) : res (list byte) :=
  match ps with
  | [] => Ok []
  | p :: r =>
      let! c := MarshalBinary p in
      let! b := MarshalMultiParams r in
      Ok (c ++ b)
  end.

(** ParseMultiParams — params.go:282-301.  The for loop is recursion on fuel;
    each iteration consumes at least 4 bytes, so [length b + 1] is enough. *)
Fixpoint ParseMulti_loop (fuel : nat) (b : list byte) (acc : list param) : res (list param) :=
  match fuel with
  | 0 => Err EFuel
  | S fuel' =>
      if length b =? 0 then Ok acc else
      let! p := ParseParam b in
      let acc := acc ++ [p] in
      let adv := N.to_nat (p_length p) + Padding p in
      if length b <? adv then Ok acc else
      let! b' := slice b adv (length b) in
      ParseMulti_loop fuel' b' acc
  end.
Definition ParseMultiParams (b : list byte) : res (list param) :=
  ParseMulti_loop (S (length b)) b [].

(** NewParam — params.go:181-188; uint16(tag) truncates an int *)
Definition NewParam (tag : Z) (d : list byte) : param :=
  SetLength (mkParam (Z.to_N (tag mod 65536)) 0 d).

(** * Unexported constructors *)

(** newUint32ValParam — params.go:77-85 *)
Definition newUint32ValParam (t : N) (u : N) : param := mkParam t 8 (put_u32 u).

(** uint32To24 — params.go:97-99 *)
Definition uint32To24 (n : N) : list byte := [n2b (N.shiftr n 16); n2b (N.shiftr n 8); n2b n].

(** newUint24ValParam — params.go:87-95 *)
Definition newUint24ValParam (t : N) (u : N) : param := mkParam t 8 (zeros 1 ++ uint32To24 u).

(** newUint8ValParam — params.go:101-107 *)
Definition newUint8ValParam (t : N) (u : byte) : param := mkParam t 8 [x00; x00; x00; u].

(** newMultiUint32ValParam — params.go:109-120; the loop writes the i-th value
    at offset 4*i of a buffer of 4*len(ux) bytes *)
Fixpoint put_all (ux : list N) (i : nat) (d : list byte) : res (list byte) :=
  match ux with
  | [] => Ok d
  | u :: r => let! d := PutUint32 d (i * 4) u in put_all r (S i) d
  end.
Definition newMultiUint32ValParam (t : N) (ux : list N) : param :=
  match put_all ux 0 (zeros (length ux * 4)) with
  | Ok d => SetLength (mkParam t 0 d)
  | _ => mkParam t 0 []   (* proved unreachable: put_all never panics here *)
  end.

(** newMultiUint8ValParam — params.go:122-132 *)
Definition newMultiUint8ValParam (t : N) (ux : list byte) : param :=
  let l := length ux + (4 - length ux mod 4) in
  let d := splice (zeros l) 0 (firstn (min l (length ux)) ux) in  (* copy(p.Data, ux) *)
  SetLength (mkParam t 0 d).

(** newVariableLenValParam — params.go:134-141 *)
Definition newVariableLenValParam (t : N) (b : list byte) : param := SetLength (mkParam t 0 b).

(** newNestedParam — params.go:143-156; an error of MarshalBinary would be
    dropped (there is none) *)
Fixpoint nested_data (ps : list (option param)) : list byte :=
  match ps with
  | [] => []
  | None :: r => nested_data r
  | Some p :: r => match MarshalBinary p with Ok x => x | _ => [] end ++ nested_data r
  end.
Definition newNestedParam (t : N) (ps : list (option param)) : param :=
  SetLength (mkParam t 0 (nested_data ps)).

(** decodeUint32ValData — params.go:158-164 *)
Definition decodeUint32ValData (p : param) : N :=
  match p_data p with
  | [a; b; c; d] => get_u32 a b c d
  | _ => 0%N
  end.

(** decodeMultiUint32ValData — params.go:166-177 (nil result = []) *)
Fixpoint words (d : list byte) : list N :=
  match d with
  | a :: b :: c :: e :: r => get_u32 a b c e :: words r
  | _ => []
  end.
Definition decodeMultiUint32ValData (p : param) : list N :=
  if length (p_data p) mod 4 =? 0 then words (p_data p) else [].

(** * Exported constructors and accessors.  Accessors have a *Param receiver
    that must be non-nil; call sites where it may be nil model that. *)

(** the accessor pattern "if p.Tag != T { return 0 } return p.decodeUint32ValData()" *)
Definition acc32 (t : N) (p : param) : N :=
  if (p_tag p =? t)%N then decodeUint32ValData p else 0%N.

Definition NewAspIdentifier (u : N) := newUint32ValParam tAspIdentifier u.       (* asp-identifier.go:9-11 *)
Definition AspIdentifier := acc32 tAspIdentifier.                                (* asp-identifier.go:14-19 *)
Definition NewCorrelationID (u : N) := newUint32ValParam tCorrelationID u.       (* correlation-id.go:9-11 *)
Definition CorrelationID := acc32 tCorrelationID.                                (* correlation-id.go:14-19 *)
Definition NewNetworkAppearance (u : N) := newUint32ValParam tNetworkAppearance u. (* network-appearance.go:9-11 *)
Definition NetworkAppearance := acc32 tNetworkAppearance.                        (* network-appearance.go:14-19 *)
Definition NewLocalRoutingKeyIdentifier (u : N) := newUint32ValParam tLocalRoutingKeyIdentifier u. (* local-rk-identifier.go:9-11 *)
Definition LocalRoutingKeyIdentifier := acc32 tLocalRoutingKeyIdentifier.        (* local-rk-identifier.go:14-19 *)
Definition NewRegistrationStatus (u : N) := newUint32ValParam tRegistrationStatus u. (* registration-status.go:26-28 *)
Definition RegistrationStatus := acc32 tRegistrationStatus.                      (* registration-status.go:31-37 *)
Definition NewDeregistrationStatus (u : N) := newUint32ValParam tDeregistrationStatus u. (* deregistration-status.go:19-21 *)
Definition DeregistrationStatus := acc32 tDeregistrationStatus.                  (* deregistration-status.go:24-29 *)
Definition NewTrafficModeType (u : N) := newUint32ValParam tTrafficModeType u.   (* traffic-mode-type.go:17-19 *)
Definition TrafficModeType := acc32 tTrafficModeType.                            (* traffic-mode-type.go:22-28 *)
Definition NewErrorCode (u : N) := newUint32ValParam tErrorCode u.               (* error-code.go:40-42 *)
Definition ErrorCode := acc32 tErrorCode.                                        (* error-code.go:45-50 *)

(** status.go:33-62 *)
Definition NewStatus (u : N) := newUint32ValParam tStatus u.
Definition Status := acc32 tStatus.
Definition StatusType (p : param) : N :=
  if (p_tag p =? tStatus)%N then u16 (N.shiftr (decodeUint32ValData p) 16) else 0%N.
Definition StatusInfo (p : param) : N :=
  if (p_tag p =? tStatus)%N then u16 (N.land (decodeUint32ValData p) 0xffff) else 0%N.
(** (the constants of status.go:8-28 are in CodePoints.v) *)

(** user-cause.go:32-62 *)
Definition NewUserCause (user cause : N) : param :=
  newUint32ValParam tUserCause (N.lor (u32 (N.shiftl cause 16)) user).
Definition UserCause := acc32 tUserCause.
Definition UserIdentity (p : param) : N :=
  if (p_tag p =? tUserCause)%N then u16 (N.land (decodeUint32ValData p) 0xffff) else 0%N.
Definition UnavailabilityCause (p : param) : N :=
  if (p_tag p =? tUserCause)%N then u16 (N.shiftr (decodeUint32ValData p) 16) else 0%N.

(** congestion-indications.go:9-19 *)
Definition NewCongestionIndications (u : byte) := newUint8ValParam tCongestionIndications u.
Definition CongestionLevel (p : param) : N :=
  if (p_tag p =? tCongestionIndications)%N then N.land (decodeUint32ValData p) 0xff else 0%N.

(** concerned-destination.go:9-19 *)
Definition NewConcernedDestination (u : N) := newUint24ValParam tConcernedDestination u.
Definition ConcernedDestination (p : param) : N :=
  if (p_tag p =? tConcernedDestination)%N then N.land (decodeUint32ValData p) 0xffffff else 0%N.

(** destination-pointcode.go:9-19 *)
Definition NewDestinationPointCode (u : N) := newUint24ValParam tDestinationPointCode u.
Definition DestinationPointCode (p : param) : N :=
  if (p_tag p =? tDestinationPointCode)%N then N.land (decodeUint32ValData p) 0xffffff else 0%N.

(** routing-context.go:10-30 *)
Definition NewRoutingContext (ux : list N) := newMultiUint32ValParam tRoutingContext ux.
Definition RoutingContexts (p : param) : list N :=
  if (p_tag p =? tRoutingContext)%N then decodeMultiUint32ValData p else [].
Definition RoutingContext (p : param) : res N :=
  if (p_tag p =? tRoutingContext)%N then index (RoutingContexts p) 0 else Ok 0%N.

(** affected-pointcode.go:12-30 *)
Definition NewAffectedPointCode (ux : list N) := newMultiUint32ValParam tAffectedPointCode ux.
Definition AffectedPointCodes (p : param) : list N :=
  if (p_tag p =? tAffectedPointCode)%N then decodeMultiUint32ValData p else [].
Definition AffectedPointCode (p : param) : res N :=
  if (p_tag p =? tAffectedPointCode)%N then index (AffectedPointCodes p) 0 else Ok 0%N.

(** originating-point-code-list.go:12-22 *)
Definition NewOriginatingPointCodeList (ux : list N) := newMultiUint32ValParam tOriginatingPointCodeList ux.
Definition OriginatingPointCodeList (p : param) : list N :=
  if (p_tag p =? tOriginatingPointCodeList)%N then decodeMultiUint32ValData p else [].

(** service-indicators.go:9-20 *)
Definition NewServiceIndicators (si : list byte) := newMultiUint8ValParam tServiceIndicators si.
Definition ServiceIndicators (p : param) : list byte :=
  if (p_tag p =? tServiceIndicators)%N then p_data p else [].

(** info-string.go:9-19, heartbeat-data.go:9-19, diagnostic-information.go:9-19
    (strings are byte lists) *)
Definition NewInfoString (s : list byte) := newVariableLenValParam tInfoString s.
Definition InfoString (p : param) : list byte :=
  if (p_tag p =? tInfoString)%N then p_data p else [].
Definition NewHeartbeatData (s : list byte) := newVariableLenValParam tHeartbeatData s.
Definition HeartbeatData (p : param) : list byte :=
  if (p_tag p =? tHeartbeatData)%N then p_data p else [].
Definition NewDiagnosticInformation (s : list byte) := newVariableLenValParam tDiagnosticInformation s.
Definition DiagnosticInformation (p : param) : list byte :=
  if (p_tag p =? tDiagnosticInformation)%N then p_data p else [].

(** * Protocol Data — protocol-data.go *)

(** type ProtocolDataPayload — protocol-data.go:32-40 *)
Record pdpayload := mkPD {
  pd_opc : N; pd_dpc : N; pd_si : byte; pd_ni : byte; pd_mp : byte; pd_sls : byte;
  pd_data : list byte }.

(** ProtocolDataPayload.MarshalLen — protocol-data.go:132-134 *)
Definition pd_MarshalLen (p : pdpayload) : nat := 12 + length (pd_data p).

(** ProtocolDataPayload.MarshalTo — protocol-data.go:90-103 *)
Definition pd_MarshalTo (p : pdpayload) (b : list byte) : res (list byte) :=
  if length b <? pd_MarshalLen p then Err EParamTooShortMarshal else
  let! b := PutUint32 b 0 (pd_opc p) in
  let! b := PutUint32 b 4 (pd_dpc p) in
  let! b := set_index b 8 (pd_si p) in
  let! b := set_index b 9 (pd_ni p) in
  let! b := set_index b 10 (pd_mp p) in
  let! b := set_index b 11 (pd_sls p) in
  copy_at b 12 (pd_MarshalLen p) (pd_data p).

(** ProtocolDataPayload.MarshalBinary — protocol-data.go:81-87 *)
Definition pd_MarshalBinary (p : pdpayload) : res (list byte) :=
  pd_MarshalTo p (zeros (pd_MarshalLen p)).

(** NewProtocolData — protocol-data.go:60-69; the error is dropped, leaving nil *)
Definition NewProtocolData (opc dpc : N) (si ni mp sls : byte) (d : list byte) : param :=
  let pd := match pd_MarshalBinary (mkPD opc dpc si ni mp sls d) with Ok b => b | _ => [] end in
  SetLength (mkParam tProtocolData 0 pd).

(** ParseProtocolDataPayload / UnmarshalBinary — protocol-data.go:106-129 *)
Definition ParseProtocolDataPayload (b : list byte) : res pdpayload :=
  if length b <? 12 then Err EParamTooShortParse else
  let! opc := Uint32 b 0 in
  let! dpc := Uint32 b 4 in
  let! si := index b 8 in
  let! ni := index b 9 in
  let! mp := index b 10 in
  let! sls := index b 11 in
  let! d := slice b 12 (length b) in
  Ok (mkPD opc dpc si ni mp sls d).

(** Param.ProtocolData — protocol-data.go:72-78 *)
Definition ProtocolData (p : param) : res pdpayload :=
  if (p_tag p =? tProtocolData)%N then ParseProtocolDataPayload (p_data p) else Err EParamInvalidType.

(** * Nested parameters *)

(** type RoutingKeyPayload — routing-key.go:10-12 *)
Record rkpayload := mkRK {
  rk_lrki : option param; rk_rc : option param; rk_tmt : option param; rk_dpc : option param;
  rk_na : option param; rk_si : option param; rk_opcl : option param }.

(** NewRoutingKey — routing-key.go:31-42 *)
Definition NewRoutingKey (r : rkpayload) : param :=
  newNestedParam tRoutingKey
    [rk_lrki r; rk_rc r; rk_tmt r; rk_dpc r; rk_na r; rk_si r; rk_opcl r].

(** the switch of RoutingKeyPayload.UnmarshalBinary — routing-key.go:77-94 *)
Definition rk_assign (r : rkpayload) (p : param) : res rkpayload :=
  let t := p_tag p in
  if (t =? tLocalRoutingKeyIdentifier)%N then
    Ok (mkRK (Some p) (rk_rc r) (rk_tmt r) (rk_dpc r) (rk_na r) (rk_si r) (rk_opcl r))
  else if (t =? tRoutingContext)%N then
    Ok (mkRK (rk_lrki r) (Some p) (rk_tmt r) (rk_dpc r) (rk_na r) (rk_si r) (rk_opcl r))
  else if (t =? tTrafficModeType)%N then
    Ok (mkRK (rk_lrki r) (rk_rc r) (Some p) (rk_dpc r) (rk_na r) (rk_si r) (rk_opcl r))
  else if (t =? tDestinationPointCode)%N then
    Ok (mkRK (rk_lrki r) (rk_rc r) (rk_tmt r) (Some p) (rk_na r) (rk_si r) (rk_opcl r))
  else if (t =? tNetworkAppearance)%N then
    Ok (mkRK (rk_lrki r) (rk_rc r) (rk_tmt r) (rk_dpc r) (Some p) (rk_si r) (rk_opcl r))
  else if (t =? tServiceIndicators)%N then
    Ok (mkRK (rk_lrki r) (rk_rc r) (rk_tmt r) (rk_dpc r) (rk_na r) (Some p) (rk_opcl r))
  else if (t =? tOriginatingPointCodeList)%N then
    Ok (mkRK (rk_lrki r) (rk_rc r) (rk_tmt r) (rk_dpc r) (rk_na r) (rk_si r) (Some p))
  else Err EParamInvalidType.

Fixpoint rk_assign_all (r : rkpayload) (ps : list param) : res rkpayload :=
  match ps with
  | [] => Ok r
  | p :: ps => let! r := rk_assign r p in rk_assign_all r ps
  end.

(** RoutingKeyPayload.UnmarshalBinary — routing-key.go:67-97 *)
Definition ParseRoutingKeyPayload (b : list byte) : res rkpayload :=
  let! ps := ParseMultiParams b in
  if length ps <? 3 then Err EParamInvalidLength else
  rk_assign_all (mkRK None None None None None None None) ps.

(** Param.RoutingKey — routing-key.go:45-55 *)
Definition RoutingKey (p : param) : res rkpayload :=
  if (p_tag p =? tRoutingKey)%N then ParseRoutingKeyPayload (p_data p) else Err EParamInvalidType.

(** type RegistrationResultPayload — registration-result.go:10-12 *)
Record rrpayload := mkRR { rr_lrki : option param; rr_status : option param; rr_rc : option param }.

(** NewRegistrationResult — registration-result.go:25-32 *)
Definition NewRegistrationResult (r : rrpayload) : param :=
  newNestedParam tRegistrationResult [rr_lrki r; rr_status r; rr_rc r].

(** RegistrationResultPayload.UnmarshalBinary — registration-result.go:57-71 *)
Definition ParseRegistrationResultPayload (b : list byte) : res rrpayload :=
  let! ps := ParseMultiParams b in
  match ps with
  | [p0; p1; p2] => Ok (mkRR (Some p0) (Some p1) (Some p2))
  | _ => Err EParamInvalidLength
  end.

(** Param.RegistrationResult — registration-result.go:35-45 *)
Definition RegistrationResult (p : param) : res rrpayload :=
  if (p_tag p =? tRegistrationResult)%N then ParseRegistrationResultPayload (p_data p)
  else Err EParamInvalidType.

(** type DeregResultPayload — deregistration-result.go:10-12 *)
Record drpayload := mkDR { dr_rc : option param; dr_status : option param }.

(** NewDeregistrationResult — deregistration-result.go:24-30 *)
Definition NewDeregistrationResult (r : drpayload) : param :=
  newNestedParam tDeregistrationResult [dr_rc r; dr_status r].

(** the loop of DeregResultPayload.UnmarshalBinary — deregistration-result.go:64-71
    (other tags are skipped) *)
Definition dr_assign (r : drpayload) (p : param) : drpayload :=
  if (p_tag p =? tRoutingContext)%N then mkDR (Some p) (dr_status r)
  else if (p_tag p =? tDeregistrationStatus)%N then mkDR (dr_rc r) (Some p)
  else r.

(** DeregResultPayload.UnmarshalBinary — deregistration-result.go:55-73 *)
Definition ParseDeregResultPayload (b : list byte) : res drpayload :=
  let! ps := ParseMultiParams b in
  if length ps =? 2 then Ok (fold_left dr_assign ps (mkDR None None)) else Err EParamInvalidLength.

(** Param.DeregistrationResult — deregistration-result.go:33-43 *)
Definition DeregistrationResult (p : param) : res drpayload :=
  if (p_tag p =? tDeregistrationResult)%N then ParseDeregResultPayload (p_data p)
  else Err EParamInvalidType.
