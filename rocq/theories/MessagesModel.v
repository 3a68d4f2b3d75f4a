(** Model of package messages (messages/*.go of /repo): common header, the 19
    typed messages, the generic message and Parse. *)
From Verif Require Import GoBase ParamsModel.
From Coq Require Import Arith.
Open Scope nat_scope.

(** * Header — header.go *)

(** type Header — header.go:14-21 *)
Record header := mkHeader {
  h_version : byte; h_reserved : byte; h_class : byte; h_type : byte;
  h_length : N; h_payload : list byte }.

(** Header.MarshalLen — header.go:90-92 *)
Definition Header_MarshalLen (h : header) : nat := 8 + length (h_payload h).

(** Header.SetLength — header.go:95-97 *)
Definition Header_SetLength (h : header) : header :=
  mkHeader (h_version h) (h_reserved h) (h_class h) (h_type h)
           (u32 (N.of_nat (8 + length (h_payload h)))) (h_payload h).

(** NewHeader — header.go:24-35 *)
Definition NewHeader (ver cls typ : byte) (payload : list byte) : header :=
  Header_SetLength (mkHeader ver x00 cls typ 0 payload).

(** Header.MarshalTo — header.go:48-61 *)
Definition Header_MarshalTo (h : header) (b : list byte) : res (list byte) :=
  if length b <? Header_MarshalLen h then Err EMsgTooShortMarshal else
  let! b := set_index b 0 (h_version h) in
  let! b := set_index b 1 (h_reserved h) in
  let! b := set_index b 2 (h_class h) in
  let! b := set_index b 3 (h_type h) in
  let! b := PutUint32 b 4 (h_length h) in
  copy_at b 8 (Header_MarshalLen h) (h_payload h).

(** Header.MarshalBinary — header.go:38-45 *)
Definition Header_MarshalBinary (h : header) : res (list byte) :=
  Header_MarshalTo h (zeros (Header_MarshalLen h)).

(** ParseHeader / Header.UnmarshalBinary — header.go:64-87 *)
Definition ParseHeader (b : list byte) : res header :=
  let l := length b in
  if l <? 8 then Err EMsgTooShortParse else
  let! ver := index b 0 in
  let! rsv := index b 1 in
  let! cls := index b 2 in
  let! typ := index b 3 in
  let! len := Uint32 b 4 in
  let! pl := slice b 8 l in
  Ok (mkHeader ver rsv cls typ len pl).

(** * Message kinds: one per typed message struct *)
Inductive kind :=
| KData | KDUNA | KDAVA | KDAUD | KSCON | KDUPU | KDRST
| KAspUp | KAspDown | KHeartbeat | KAspUpAck | KAspDownAck | KHeartbeatAck
| KAspActive | KAspActiveAck | KAspInactive | KAspInactiveAck
| KError | KNotify.

(** The class and type constants (message.go:13-86) returned by each type's
    MessageClass()/MessageType() and put into the header by its constructor. *)
Definition kind_class (k : kind) : byte :=
  match k with
  | KError | KNotify => x00                                  (* MsgClassManagement: error.go:206, notify.go:197 *)
  | KData => x01                                             (* MsgClassTransfer: data.go:188 *)
  | KDUNA | KDAVA | KDAUD | KSCON | KDUPU | KDRST => x02     (* MsgClassSSNM: duna.go:173 ... scon.go:218 *)
  | KAspUp | KAspDown | KHeartbeat
  | KAspUpAck | KAspDownAck | KHeartbeatAck => x03           (* MsgClassASPSM: asp-up.go:152 ... *)
  | KAspActive | KAspActiveAck
  | KAspInactive | KAspInactiveAck => x04                    (* MsgClassASPTM: asp-active.go:170 ... *)
  end.

Definition kind_type (k : kind) : byte :=
  match k with
  | KError => x00          (* message.go:38 *)
  | KNotify => x01         (* message.go:39 *)
  | KDUNA => x01           (* message.go:45 *)
  | KDAVA => x02           (* message.go:46 *)
  | KDAUD => x03           (* message.go:47 *)
  | KSCON => x04           (* message.go:48 *)
  | KDUPU => x05           (* message.go:49 *)
  | KDRST => x06           (* message.go:50 *)
  | KData => x01           (* message.go:56 *)
  | KAspUp => x01          (* message.go:62 *)
  | KAspDown => x02        (* message.go:63 *)
  | KHeartbeat => x03      (* message.go:64 *)
  | KAspUpAck => x04       (* message.go:65 *)
  | KAspDownAck => x05     (* message.go:66 *)
  | KHeartbeatAck => x06   (* message.go:67 *)
  | KAspActive => x01      (* message.go:73 *)
  | KAspInactive => x02    (* message.go:74 *)
  | KAspActiveAck => x03   (* message.go:75 *)
  | KAspInactiveAck => x04 (* message.go:76 *)
  end.

(** * Struct fields.  [field] names the *params.Param fields occurring in the
    message structs; [fields] holds their values (nil = None).  A struct that
    lacks a field has None there. *)
Inductive field :=
| FNetworkAppearance | FRoutingContext | FProtocolData | FCorrelationID
| FAffectedPointCode | FInfoString | FConcernedDestination | FCongestionIndications
| FUserCause | FAspIdentifier | FHeartbeatData | FTrafficModeType
| FErrorCode | FDiagnosticInformation | FStatus.

Record fields := mkFields {
  f_na : option param; f_rc : option param; f_pd : option param; f_cid : option param;
  f_apc : option param; f_info : option param; f_cdst : option param; f_cong : option param;
  f_uc : option param; f_aspid : option param; f_hb : option param; f_tmt : option param;
  f_ec : option param; f_diag : option param; f_status : option param }.

Definition no_fields : fields :=
  mkFields None None None None None None None None None None None None None None None.

Definition fget (f : field) (s : fields) : option param :=
  match f with
  | FNetworkAppearance => f_na s | FRoutingContext => f_rc s | FProtocolData => f_pd s
  | FCorrelationID => f_cid s | FAffectedPointCode => f_apc s | FInfoString => f_info s
  | FConcernedDestination => f_cdst s | FCongestionIndications => f_cong s
  | FUserCause => f_uc s | FAspIdentifier => f_aspid s | FHeartbeatData => f_hb s
  | FTrafficModeType => f_tmt s | FErrorCode => f_ec s | FDiagnosticInformation => f_diag s
  | FStatus => f_status s
  end.

Definition fset (f : field) (v : option param) (s : fields) : fields :=
  match s with
  | mkFields na rc pd cid apc info cdst cong uc aspid hb tmt ec diag status =>
    match f with
    | FNetworkAppearance => mkFields v rc pd cid apc info cdst cong uc aspid hb tmt ec diag status
    | FRoutingContext => mkFields na v pd cid apc info cdst cong uc aspid hb tmt ec diag status
    | FProtocolData => mkFields na rc v cid apc info cdst cong uc aspid hb tmt ec diag status
    | FCorrelationID => mkFields na rc pd v apc info cdst cong uc aspid hb tmt ec diag status
    | FAffectedPointCode => mkFields na rc pd cid v info cdst cong uc aspid hb tmt ec diag status
    | FInfoString => mkFields na rc pd cid apc v cdst cong uc aspid hb tmt ec diag status
    | FConcernedDestination => mkFields na rc pd cid apc info v cong uc aspid hb tmt ec diag status
    | FCongestionIndications => mkFields na rc pd cid apc info cdst v uc aspid hb tmt ec diag status
    | FUserCause => mkFields na rc pd cid apc info cdst cong v aspid hb tmt ec diag status
    | FAspIdentifier => mkFields na rc pd cid apc info cdst cong uc v hb tmt ec diag status
    | FHeartbeatData => mkFields na rc pd cid apc info cdst cong uc aspid v tmt ec diag status
    | FTrafficModeType => mkFields na rc pd cid apc info cdst cong uc aspid hb v ec diag status
    | FErrorCode => mkFields na rc pd cid apc info cdst cong uc aspid hb tmt v diag status
    | FDiagnosticInformation => mkFields na rc pd cid apc info cdst cong uc aspid hb tmt ec v status
    | FStatus => mkFields na rc pd cid apc info cdst cong uc aspid hb tmt ec diag v
    end
  end.

(** A typed message value. *)
Record msg := mkMsg { m_kind : kind; m_hdr : header; m_f : fields }.

(** * Per-type tables, one per method, in the order of the code *)

(** fields written by MarshalTo, in order *)
Definition marshal_order (k : kind) : list field :=
  match k with
  | KData => [FNetworkAppearance; FRoutingContext; FProtocolData; FCorrelationID]    (* data.go:54-90 *)
  | KDUNA => [FNetworkAppearance; FRoutingContext; FAffectedPointCode; FInfoString]  (* duna.go:54-86 *)
  | KDAVA => [FNetworkAppearance; FRoutingContext; FAffectedPointCode; FInfoString]  (* dava.go:54-86 *)
  | KDAUD => [FNetworkAppearance; FRoutingContext; FAffectedPointCode; FInfoString]  (* daud.go:54-86 *)
  | KDRST => [FNetworkAppearance; FRoutingContext; FAffectedPointCode; FInfoString]  (* drst.go:54-86 *)
  | KSCON => [FNetworkAppearance; FRoutingContext; FAffectedPointCode;
              FConcernedDestination; FCongestionIndications; FInfoString]            (* scon.go:57-102 *)
  | KDUPU => [FNetworkAppearance; FRoutingContext; FAffectedPointCode; FUserCause; FInfoString] (* dupu.go:55-93 *)
  | KAspUp => [FAspIdentifier; FInfoString]                                          (* asp-up.go:50-72 *)
  | KAspUpAck => [FAspIdentifier; FInfoString]                                       (* asp-up-ack.go:50-72 *)
  | KAspDown => [FInfoString]                                                        (* asp-down.go:49-63 *)
  | KAspDownAck => [FInfoString]                                                     (* asp-down-ack.go:49-63 *)
  | KHeartbeat => [FHeartbeatData]                                                   (* heartbeat.go:49-63 *)
  | KHeartbeatAck => [FHeartbeatData]                                                (* heartbeat-ack.go:49-63 *)
  | KAspActive => [FTrafficModeType; FRoutingContext; FInfoString]                   (* asp-active.go:52-81 *)
  | KAspActiveAck => [FTrafficModeType; FRoutingContext; FInfoString]                (* asp-active-ack.go:52-81 *)
  | KAspInactive => [FRoutingContext; FInfoString]                                   (* asp-inactive.go:50-72 *)
  | KAspInactiveAck => [FRoutingContext; FInfoString]                                (* asp-inactive-ack.go:50-72 *)
  | KError => [FErrorCode; FRoutingContext; FNetworkAppearance; FAffectedPointCode; FDiagnosticInformation] (* error.go:56-99 *)
  | KNotify => [FStatus; FAspIdentifier; FRoutingContext; FInfoString]               (* notify.go:54-98 *)
  end.

(** fields counted by MarshalLen *)
Definition len_fields (k : kind) : list field :=
  match k with
  | KData => [FNetworkAppearance; FRoutingContext; FProtocolData; FCorrelationID]    (* data.go:149-164 *)
  | KDUNA => [FNetworkAppearance; FRoutingContext; FAffectedPointCode; FInfoString]  (* duna.go:145-160 *)
  | KDAVA => [FNetworkAppearance; FRoutingContext; FAffectedPointCode; FInfoString]  (* dava.go:145-160 *)
  | KDAUD => [FNetworkAppearance; FRoutingContext; FAffectedPointCode; FInfoString]  (* daud.go:145-160 *)
  | KDRST => [FNetworkAppearance; FRoutingContext; FAffectedPointCode; FInfoString]  (* drst.go:145-160 *)
  | KSCON => [FNetworkAppearance; FRoutingContext; FAffectedPointCode;
              FConcernedDestination; FCongestionIndications; FInfoString]            (* scon.go:171-192 *)
  | KDUPU => [FNetworkAppearance; FRoutingContext; FAffectedPointCode; FUserCause; FInfoString] (* dupu.go:157-175 *)
  | KAspUp => [FAspIdentifier; FInfoString]                                          (* asp-up.go:121-130 *)
  | KAspUpAck => [FAspIdentifier; FInfoString]                                       (* asp-up-ack.go:121-130 *)
  | KAspDown => [FInfoString]                                                        (* asp-down.go:107-113 *)
  | KAspDownAck => [FInfoString]                                                     (* asp-down-ack.go:107-113 *)
  | KHeartbeat => [FHeartbeatData]                                                   (* heartbeat.go:107-113 *)
  | KHeartbeatAck => [FHeartbeatData]                                                (* heartbeat-ack.go:107-113 *)
  | KAspActive => [FTrafficModeType; FRoutingContext; FInfoString]                   (* asp-active.go:135-147 *)
  | KAspActiveAck => [FTrafficModeType; FRoutingContext; FInfoString]                (* asp-active-ack.go:135-147 *)
  | KAspInactive => [FRoutingContext; FInfoString]                                   (* asp-inactive.go:121-130 *)
  | KAspInactiveAck => [FRoutingContext; FInfoString]                                (* asp-inactive-ack.go:121-130 *)
  | KError => [FErrorCode; FRoutingContext; FNetworkAppearance; FAffectedPointCode; FDiagnosticInformation] (* error.go:163-181 *)
  | KNotify => [FStatus; FAspIdentifier; FRoutingContext; FInfoString]               (* notify.go:157-173 *)
  end.

(** fields whose Length is set by SetLength *)
Definition setlen_fields (k : kind) : list field :=
  match k with
  | KData => [FNetworkAppearance; FRoutingContext; FProtocolData; FCorrelationID]    (* data.go:131-146 *)
  | KDUNA => [FNetworkAppearance; FRoutingContext; FAffectedPointCode; FInfoString]  (* duna.go:127-142 *)
  | KDAVA => [FNetworkAppearance; FRoutingContext; FAffectedPointCode; FInfoString]  (* dava.go:127-142 *)
  | KDAUD => [FNetworkAppearance; FRoutingContext; FAffectedPointCode; FInfoString]  (* daud.go:127-142 *)
  | KDRST => [FNetworkAppearance; FRoutingContext; FAffectedPointCode; FInfoString]  (* drst.go:127-142 *)
  | KSCON => [FNetworkAppearance; FRoutingContext; FAffectedPointCode;
              FConcernedDestination; FCongestionIndications; FInfoString]            (* scon.go:147-168 *)
  | KDUPU => [FNetworkAppearance; FRoutingContext; FAffectedPointCode; FUserCause; FInfoString] (* dupu.go:136-154 *)
  | KAspUp => [FAspIdentifier; FInfoString]                                          (* asp-up.go:109-118 *)
  | KAspUpAck => [FAspIdentifier; FInfoString]                                       (* asp-up-ack.go:109-118 *)
  | KAspDown => [FInfoString]                                                        (* asp-down.go:98-104 *)
  | KAspDownAck => [FInfoString]                                                     (* asp-down-ack.go:98-104 *)
  | KHeartbeat => [FHeartbeatData]                                                   (* heartbeat.go:98-104 *)
  | KHeartbeatAck => [FHeartbeatData]                                                (* heartbeat-ack.go:98-104 *)
  | KAspActive => [FTrafficModeType; FRoutingContext; FInfoString]                   (* asp-active.go:120-132 *)
  | KAspActiveAck => [FTrafficModeType; FRoutingContext; FInfoString]                (* asp-active-ack.go:120-132 *)
  | KAspInactive => [FRoutingContext; FInfoString]                                   (* asp-inactive.go:109-118 *)
  | KAspInactiveAck => [FRoutingContext; FInfoString]                                (* asp-inactive-ack.go:109-118 *)
  | KError => [FErrorCode; FRoutingContext; FNetworkAppearance; FAffectedPointCode; FDiagnosticInformation] (* error.go:142-160 *)
  | KNotify => [FStatus; FAspIdentifier; FRoutingContext; FInfoString]               (* notify.go:139-154 *)
  end.

(** the switch of UnmarshalBinary: case params.T: x.F = pr; default: error *)
Definition unmarshal_cases (k : kind) : list (N * field) :=
  match k with
  | KData => [(tNetworkAppearance, FNetworkAppearance); (tRoutingContext, FRoutingContext);
              (tProtocolData, FProtocolData); (tCorrelationID, FCorrelationID)]      (* data.go:113-126 *)
  | KDUNA => [(tNetworkAppearance, FNetworkAppearance); (tRoutingContext, FRoutingContext);
              (tAffectedPointCode, FAffectedPointCode); (tInfoString, FInfoString)]  (* duna.go:109-122 *)
  | KDAVA => [(tNetworkAppearance, FNetworkAppearance); (tRoutingContext, FRoutingContext);
              (tAffectedPointCode, FAffectedPointCode); (tInfoString, FInfoString)]  (* dava.go:109-122 *)
  | KDAUD => [(tNetworkAppearance, FNetworkAppearance); (tRoutingContext, FRoutingContext);
              (tAffectedPointCode, FAffectedPointCode); (tInfoString, FInfoString)]  (* daud.go:109-122 *)
  | KDRST => [(tNetworkAppearance, FNetworkAppearance); (tRoutingContext, FRoutingContext);
              (tAffectedPointCode, FAffectedPointCode); (tInfoString, FInfoString)]  (* drst.go:109-122 *)
  | KSCON => [(tNetworkAppearance, FNetworkAppearance); (tRoutingContext, FRoutingContext);
              (tAffectedPointCode, FAffectedPointCode); (tConcernedDestination, FConcernedDestination);
              (tCongestionIndications, FCongestionIndications); (tInfoString, FInfoString)] (* scon.go:125-142 *)
  | KDUPU => [(tNetworkAppearance, FNetworkAppearance); (tRoutingContext, FRoutingContext);
              (tAffectedPointCode, FAffectedPointCode); (tUserCause, FUserCause);
              (tInfoString, FInfoString)]                                            (* dupu.go:116-131 *)
  | KAspUp => [(tAspIdentifier, FAspIdentifier); (tInfoString, FInfoString)]         (* asp-up.go:95-104 *)
  | KAspUpAck => [(tAspIdentifier, FAspIdentifier); (tInfoString, FInfoString)]      (* asp-up-ack.go:95-104 *)
  | KAspDown => [(tInfoString, FInfoString)]                                         (* asp-down.go:86-93 *)
  | KAspDownAck => [(tInfoString, FInfoString)]                                      (* asp-down-ack.go:86-93 *)
  | KHeartbeat => [(tHeartbeatData, FHeartbeatData)]                                 (* heartbeat.go:86-93 *)
  | KHeartbeatAck => [(tHeartbeatData, FHeartbeatData)]                              (* heartbeat-ack.go:86-93 *)
  | KAspActive => [(tTrafficModeType, FTrafficModeType); (tRoutingContext, FRoutingContext);
                   (tInfoString, FInfoString)]                                       (* asp-active.go:104-115 *)
  | KAspActiveAck => [(tTrafficModeType, FTrafficModeType); (tRoutingContext, FRoutingContext);
                      (tInfoString, FInfoString)]                                    (* asp-active-ack.go:104-115 *)
  | KAspInactive => [(tRoutingContext, FRoutingContext); (tInfoString, FInfoString)] (* asp-inactive.go:95-104 *)
  | KAspInactiveAck => [(tRoutingContext, FRoutingContext); (tInfoString, FInfoString)] (* asp-inactive-ack.go:95-104 *)
  | KError => [(tErrorCode, FErrorCode); (tRoutingContext, FRoutingContext);
               (tNetworkAppearance, FNetworkAppearance); (tAffectedPointCode, FAffectedPointCode);
               (tDiagnosticInformation, FDiagnosticInformation)]                     (* error.go:122-137 *)
  | KNotify => [(tStatus, FStatus); (tAspIdentifier, FAspIdentifier);
                (tRoutingContext, FRoutingContext); (tInfoString, FInfoString)]      (* notify.go:121-134 *)
  end.

(** * Methods of typed messages (identical code in the 19 files up to the tables) *)

(** MarshalLen, e.g. data.go:149-164 *)
Definition opt_len (o : option param) : nat :=
  match o with None => 0 | Some p => MarshalLen p end.
Definition msg_MarshalLen (m : msg) : nat :=
  fold_left (fun l f => l + opt_len (fget f (m_f m))) (len_fields (m_kind m)) 8.

(** SetLength, e.g. data.go:131-146 *)
Definition msg_SetLength (m : msg) : msg :=
  let fs := fold_left (fun s f => fset f (option_map SetLength (fget f s)) s)
                      (setlen_fields (m_kind m)) (m_f m) in
  let m := mkMsg (m_kind m) (m_hdr m) fs in
  let h := m_hdr m in
  mkMsg (m_kind m)
        (mkHeader (h_version h) (h_reserved h) (h_class h) (h_type h)
                  (u32 (N.of_nat (msg_MarshalLen m))) (h_payload h))
        (m_f m).

(** the "if param := x.F; param != nil { param.MarshalTo(x.Header.Payload[offset:]); offset += ... }"
    blocks of MarshalTo, e.g. data.go:61-87 *)
Fixpoint marshal_params (ps : list (option param)) (payload : list byte) (offset : nat)
  : res (list byte) :=
  match ps with
  | [] => Ok payload
  | None :: r => marshal_params r payload offset
  | Some p :: r =>
      let! sub := slice payload offset (length payload) in
      let! sub := MarshalTo p sub in
      marshal_params r (firstn offset payload ++ sub) (offset + MarshalLen p)
  end.

Definition set_payload (h : header) (pl : list byte) : header :=
  mkHeader (h_version h) (h_reserved h) (h_class h) (h_type h) (h_length h) pl.

(** MarshalTo, e.g. data.go:54-90; returns the message with its new
    Header.Payload and the new buffer contents *)
Definition msg_MarshalTo (m : msg) (b : list byte) : res (msg * list byte) :=
  if length b <? msg_MarshalLen m then Err EMsgTooShortMarshal else
  let! pl := marshal_params (map (fun f => fget f (m_f m)) (marshal_order (m_kind m)))
                            (zeros (msg_MarshalLen m - 8)) 0 in
  let h := set_payload (m_hdr m) pl in
  let! b := Header_MarshalTo h b in
  Ok (mkMsg (m_kind m) h (m_f m), b).

(** the loop of UnmarshalBinary, e.g. data.go:113-126 *)
Fixpoint lookup_case (t : N) (cs : list (N * field)) : option field :=
  match cs with
  | [] => None
  | (t', f) :: r => if (t =? t')%N then Some f else lookup_case t r
  end.
Fixpoint assign_all (k : kind) (s : fields) (ps : list param) : res fields :=
  match ps with
  | [] => Ok s
  | p :: r =>
      match lookup_case (p_tag p) (unmarshal_cases k) with
      | Some f => assign_all k (fset f (Some p) s) r
      | None => Err EMsgInvalidParameter
      end
  end.

(** UnmarshalBinary of a zero value of type [k], e.g. data.go:102-128.  DUNA,
    DAVA, DAUD, DRST and DUPU wrap ErrInvalidParameter with %w; same value here. *)
Definition msg_Unmarshal (k : kind) (b : list byte) : res msg :=
  let! h := ParseHeader b in
  let! ps := ParseMultiParams (h_payload h) in
  let! fs := assign_all k no_fields ps in
  Ok (mkMsg k h fs).

(** * Constructors *)

(** the common part: header {1, 0, class, type}, then SetLength *)
Definition new_msg (k : kind) (fs : fields) : msg :=
  msg_SetLength (mkMsg k (mkHeader x01 x00 (kind_class k) (kind_type k) 0 []) fs).

Definition with_fields (l : list (field * option param)) : fields :=
  fold_left (fun s fv => fset (fst fv) (snd fv) s) l no_fields.

(** data.go:26-42 *)
Definition NewData (nwApr rtCtx pd corrID : option param) : msg :=
  new_msg KData (with_fields [(FNetworkAppearance, nwApr); (FRoutingContext, rtCtx);
                              (FProtocolData, pd); (FCorrelationID, corrID)]).
(** duna.go:26-42 *)
Definition NewDestinationUnavailable (nwApr rtCtx apcs info : option param) : msg :=
  new_msg KDUNA (with_fields [(FNetworkAppearance, nwApr); (FRoutingContext, rtCtx);
                              (FAffectedPointCode, apcs); (FInfoString, info)]).
(** dava.go:26-42 *)
Definition NewDestinationAvailable (nwApr rtCtx apcs info : option param) : msg :=
  new_msg KDAVA (with_fields [(FNetworkAppearance, nwApr); (FRoutingContext, rtCtx);
                              (FAffectedPointCode, apcs); (FInfoString, info)]).
(** daud.go:26-42 *)
Definition NewDestinationStateAudit (nwApr rtCtx apcs info : option param) : msg :=
  new_msg KDAUD (with_fields [(FNetworkAppearance, nwApr); (FRoutingContext, rtCtx);
                              (FAffectedPointCode, apcs); (FInfoString, info)]).
(** drst.go:26-42 *)
Definition NewDestinationRestricted (nwApr rtCtx apcs info : option param) : msg :=
  new_msg KDRST (with_fields [(FNetworkAppearance, nwApr); (FRoutingContext, rtCtx);
                              (FAffectedPointCode, apcs); (FInfoString, info)]).
(** scon.go:27-45 *)
Definition NewSignallingCongestion (nwApr rtCtx apc cdst ind info : option param) : msg :=
  new_msg KSCON (with_fields [(FNetworkAppearance, nwApr); (FRoutingContext, rtCtx);
                              (FAffectedPointCode, apc); (FConcernedDestination, cdst);
                              (FCongestionIndications, ind); (FInfoString, info)]).
(** dupu.go:26-43 *)
Definition NewDestinationUserPartUnavailable (nwApr rtCtx apcs cause info : option param) : msg :=
  new_msg KDUPU (with_fields [(FNetworkAppearance, nwApr); (FRoutingContext, rtCtx);
                              (FAffectedPointCode, apcs); (FUserCause, cause); (FInfoString, info)]).
(** asp-up.go:24-38 *)
Definition NewAspUp (aspID info : option param) : msg :=
  new_msg KAspUp (with_fields [(FAspIdentifier, aspID); (FInfoString, info)]).
(** asp-up-ack.go:24-38 *)
Definition NewAspUpAck (aspID info : option param) : msg :=
  new_msg KAspUpAck (with_fields [(FAspIdentifier, aspID); (FInfoString, info)]).
(** asp-down.go:24-37 *)
Definition NewAspDown (info : option param) : msg :=
  new_msg KAspDown (with_fields [(FInfoString, info)]).
(** asp-down-ack.go:24-37 *)
Definition NewAspDownAck (info : option param) : msg :=
  new_msg KAspDownAck (with_fields [(FInfoString, info)]).
(** heartbeat.go:24-37 *)
Definition NewHeartbeat (hbData : option param) : msg :=
  new_msg KHeartbeat (with_fields [(FHeartbeatData, hbData)]).
(** heartbeat-ack.go:24-37 *)
Definition NewHeartbeatAck (hbData : option param) : msg :=
  new_msg KHeartbeatAck (with_fields [(FHeartbeatData, hbData)]).
(** asp-active.go:25-40 *)
Definition NewAspActive (tmt rtCtx info : option param) : msg :=
  new_msg KAspActive (with_fields [(FTrafficModeType, tmt); (FRoutingContext, rtCtx); (FInfoString, info)]).
(** asp-active-ack.go:25-40 *)
Definition NewAspActiveAck (tmt rtCtx info : option param) : msg :=
  new_msg KAspActiveAck (with_fields [(FTrafficModeType, tmt); (FRoutingContext, rtCtx); (FInfoString, info)]).
(** asp-inactive.go:24-38 *)
Definition NewAspInactive (rtCtx info : option param) : msg :=
  new_msg KAspInactive (with_fields [(FRoutingContext, rtCtx); (FInfoString, info)]).
(** asp-inactive-ack.go:24-38 *)
Definition NewAspInactiveAck (rtCtx info : option param) : msg :=
  new_msg KAspInactiveAck (with_fields [(FRoutingContext, rtCtx); (FInfoString, info)]).
(** error.go:27-44 *)
Definition NewError (code rtCtx nwApr apc info : option param) : msg :=
  new_msg KError (with_fields [(FErrorCode, code); (FRoutingContext, rtCtx); (FNetworkAppearance, nwApr);
                               (FAffectedPointCode, apc); (FDiagnosticInformation, info)]).
(** notify.go:26-42 *)
Definition NewNotify (status aspID rtCtx info : option param) : msg :=
  new_msg KNotify (with_fields [(FStatus, status); (FAspIdentifier, aspID); (FRoutingContext, rtCtx);
                                (FInfoString, info)]).

(** * Generic message — generic.go *)
Record generic := mkGeneric { g_hdr : header; g_params : list param }.

(** Generic.MarshalLen — generic.go:93-99 *)
Definition gen_MarshalLen (g : generic) : nat :=
  fold_left (fun l p => l + MarshalLen p) (g_params g) 8.

(** Generic.SetLength — generic.go:102-108 *)
Definition gen_SetLength (g : generic) : generic :=
  let g := mkGeneric (g_hdr g) (map SetLength (g_params g)) in
  let h := g_hdr g in
  mkGeneric (mkHeader (h_version h) (h_reserved h) (h_class h) (h_type h)
                      (u32 (N.of_nat (gen_MarshalLen g))) (h_payload h)) (g_params g).

(** New — generic.go:24-37 (a nil parameter panics in SetLength; the list here
    holds non-nil ones) *)
Definition New (ver cls typ : byte) (ps : list param) : generic :=
  gen_SetLength (mkGeneric (mkHeader ver x00 cls typ 0 []) ps).

(** Generic.MarshalTo — generic.go:49-65 *)
Definition gen_MarshalTo (g : generic) (b : list byte) : res (generic * list byte) :=
  if length b <? gen_MarshalLen g then Err EMsgTooShortMarshal else
  let! pl := marshal_params (map Some (g_params g)) (zeros (gen_MarshalLen g - 8)) 0 in
  let h := set_payload (g_hdr g) pl in
  let! b := Header_MarshalTo h b in
  Ok (mkGeneric h (g_params g), b).

(** Generic.UnmarshalBinary on a zero value — generic.go:77-90 *)
Definition gen_Unmarshal (b : list byte) : res generic :=
  let! h := ParseHeader b in
  let! ps := ParseMultiParams (h_payload h) in
  Ok (mkGeneric h ([] ++ ps)).

(** * The M3UA interface — message.go:89-99 *)
Inductive m3ua := Typed (m : msg) | Gen (g : generic).

Definition hdr_of (m : m3ua) : header :=
  match m with Typed m => m_hdr m | Gen g => g_hdr g end.

(** Version() — header field in every type, e.g. data.go:178-180, generic.go:124-126 *)
Definition Version (m : m3ua) : byte := h_version (hdr_of m).

(** MessageClass()/MessageType() — constants in typed messages
    (e.g. data.go:183-190), header fields in Generic (generic.go:129-136) *)
Definition MessageClass (m : m3ua) : byte :=
  match m with Typed m => kind_class (m_kind m) | Gen g => h_class (g_hdr g) end.
Definition MessageType (m : m3ua) : byte :=
  match m with Typed m => kind_type (m_kind m) | Gen g => h_type (g_hdr g) end.

Definition m3_MarshalLen (m : m3ua) : nat :=
  match m with Typed m => msg_MarshalLen m | Gen g => gen_MarshalLen g end.

Definition m3_MarshalTo (m : m3ua) (b : list byte) : res (m3ua * list byte) :=
  match m with
  | Typed m => let! (m, b) := msg_MarshalTo m b in Ok (Typed m, b)
  | Gen g => let! (g, b) := gen_MarshalTo g b in Ok (Gen g, b)
  end.

(** MarshalBinary — message.go:103-110 and the identical methods of each type
    (e.g. data.go:45-51) *)
Definition m3_MarshalBinary (m : m3ua) : res (m3ua * list byte) :=
  m3_MarshalTo m (zeros (m3_MarshalLen m)).

(** * Parse — message.go:114-177 *)

(** combine — message.go:119-121: the shift and or are uint8 operations *)
Definition combine (c t : byte) : N :=
  N.lor ((N.shiftl (b2n c) 4) mod 256) (b2n t).

(** the cases of the switch in order — message.go:124-167 *)
Definition parse_cases : list kind :=
  [KData; KDUNA; KDAVA; KDAUD; KSCON; KDUPU; KDRST;
   KAspUp; KAspDown; KHeartbeat; KAspUpAck; KAspDownAck; KHeartbeatAck;
   KAspActive; KAspActiveAck; KAspInactive; KAspInactiveAck; KError; KNotify].

Definition dispatch (c t : byte) : option kind :=
  find (fun k => (combine c t =? combine (kind_class k) (kind_type k))%N) parse_cases.

Definition Parse (b : list byte) : res m3ua :=
  if length b <? 4 then Err EMsgTooShortParse else
  let! c := index b 2 in
  let! t := index b 3 in
  match dispatch c t with
  | Some k => let! m := msg_Unmarshal k b in Ok (Typed m)
  | None => let! g := gen_Unmarshal b in Ok (Gen g)
  end.
