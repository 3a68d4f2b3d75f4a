(** Model of the functions that render values as text (String, MessageClassName, MessageTypeName, Error) and of the
    deprecated names. A Go string is a list of bytes. *)
From Verif Require Import GoBase ParamsModel MessagesModel ReuseModel PcModel.
From Coq Require Import Arith Strings.String.
Open Scope nat_scope.
Open Scope list_scope.

(** a string literal *)
Definition txt (s : string) : str := list_byte_of_string s.

(** * package fmt *)
(** %d of an unsigned integer of at most 64 bits *)
Definition fmt_d (n : N) : str := Itoa n.
(** a hexadecimal digit in lower case *)
Definition hexdigit (n : N) : byte := if (n <? 10)%N then n2b (48 + n) else n2b (87 + n).
(** %x of a byte slice: two digits for every byte, nothing for nil *)
Definition fmt_x (b : list byte) : str := flat_map (fun c => [hexdigit (b2n c / 16); hexdigit (b2n c mod 16)]) b.
(** %#x of a uint8: no leading zero *)
Definition fmt_sharp_x (c : byte) : str :=
  txt "0x" ++ (if (b2n c <? 16)%N then [hexdigit (b2n c)] else [hexdigit (b2n c / 16); hexdigit (b2n c mod 16)]).
(** %s of a slice of strings: in brackets, separated by spaces *)
Fixpoint spaced (l : list str) : str :=
  match l with [] => [] | [w] => w | w :: r => w ++ x20 :: spaced r end.
Definition fmt_s_slice (l : list str) : str := x5b :: spaced l ++ [x5d].

(** * String() *)
(** Param.String — params/params.go:253-262 *)
Definition Param_String (o : option param) : str :=
  match o with
  | None => []
  | Some p => txt "{Tag: " ++ fmt_d (p_tag p) ++ txt ", Length: " ++ fmt_d (p_length p) ++ txt ", Data: " ++ fmt_x (p_data p) ++ txt "}"
  end.
(** ProtocolDataPayload.String — params/protocol-data.go:137-147 *)
Definition Payload_String (p : pdpayload) : str :=
  txt "{OriginatingPointCode: " ++ fmt_d (pd_opc p) ++ txt ", DestinationPointCode: " ++ fmt_d (pd_dpc p) ++
  txt ", ServiceIndicator: " ++ fmt_d (b2n (pd_si p)) ++ txt ", NetworkIndicator: " ++ fmt_d (b2n (pd_ni p)) ++
  txt ", MessagePriority: " ++ fmt_d (b2n (pd_mp p)) ++ txt ", SignalingLinkSelection: " ++ fmt_d (b2n (pd_sls p)) ++
  txt ", Data: " ++ fmt_x (pd_data p) ++ txt "}".
(** Header.String — header.go:100-109, of a header that is not nil *)
Definition Header_String (h : header) : str :=
  txt "{Version: " ++ fmt_d (b2n (h_version h)) ++ txt ", Reserved: " ++ fmt_sharp_x (h_reserved h) ++
  txt ", Class: " ++ fmt_d (b2n (h_class h)) ++ txt ", Type: " ++ fmt_d (b2n (h_type h)) ++
  txt ", Length: " ++ fmt_d (h_length h) ++ txt ", Payload: " ++ fmt_x (h_payload h) ++ txt "}".

(** what the format strings of the typed messages put before each parameter; None: the type has no String of its own and
    the one of the embedded Header is promoted *)
Definition text_fields (k : kind) : option (list (str * field)) :=
  match k with
  | KData => Some [(txt ", NetworkAppearance: ", FNetworkAppearance); (txt ", RoutingContext: ", FRoutingContext);
      (txt ", ProtocolData ", FProtocolData); (txt ", CorrelationID: ", FCorrelationID)]                              (* data.go:167-175 *)
  | KDUNA | KDAVA | KDAUD | KDRST | KDUPU => None                                     (* duna.go dava.go daud.go drst.go dupu.go *)
  | KSCON => Some [(txt ", NetworkAppearance: ", FNetworkAppearance); (txt ", RoutingContext: ", FRoutingContext);
      (txt ", AffectedPointCode: ", FAffectedPointCode); (txt ", ConcernedDestination: ", FConcernedDestination);
      (txt ", CongestionIndications: ", FCongestionIndications); (txt ", InfoString: ", FInfoString)]                 (* scon.go:195-205 *)
  | KAspUp => Some [(txt ", AspIdentifier: ", FAspIdentifier); (txt ", InfoString: ", FInfoString)]                   (* asp-up.go:133-139 *)
  | KAspUpAck => Some [(txt ", AspIdentifier: ", FAspIdentifier); (txt ", InfoString: ", FInfoString)]                (* asp-up-ack.go:133-139 *)
  | KAspDown => Some [(txt ", InfoString: ", FInfoString)]                                                            (* asp-down.go:116-121 *)
  | KAspDownAck => Some [(txt ", InfoString: ", FInfoString)]                                                         (* asp-down-ack.go:116-121 *)
  | KHeartbeat => Some [(txt ", HeartbeatData: ", FHeartbeatData)]                                                    (* heartbeat.go:116-121 *)
  | KHeartbeatAck => Some [(txt ", HeartbeatData: ", FHeartbeatData)]                                                 (* heartbeat-ack.go:116-121 *)
  | KAspActive => Some [(txt ", TrafficModeType: ", FTrafficModeType); (txt ", RoutingContext: ", FRoutingContext);
      (txt ", InfoString: ", FInfoString)]                                                                            (* asp-active.go:150-157 *)
  | KAspActiveAck => Some [(txt ", TrafficModeType: ", FTrafficModeType); (txt ", RoutingContext: ", FRoutingContext);
      (txt ", InfoString: ", FInfoString)]                                                                            (* asp-active-ack.go:150-157 *)
  | KAspInactive => Some [(txt ", RoutingContext: ", FRoutingContext); (txt ", InfoString: ", FInfoString)]           (* asp-inactive.go:133-139 *)
  | KAspInactiveAck => Some [(txt ", RoutingContext: ", FRoutingContext); (txt ", InfoString: ", FInfoString)]        (* asp-inactive-ack.go:133-139 *)
  | KError => Some [(txt ", ErrorCode: ", FErrorCode); (txt ", RoutingContext: ", FRoutingContext);
      (txt ", NetworkAppearance: ", FNetworkAppearance); (txt ", AffectedPointCode: ", FAffectedPointCode);
      (txt ", DiagnosticInformation: ", FDiagnosticInformation)]                                                      (* error.go:184-193 *)
  | KNotify => Some [(txt ", Status: ", FStatus); (txt ", AspIdentifier: ", FAspIdentifier);
      (txt ", RoutingContext: ", FRoutingContext); (txt ", InfoString: ", FInfoString)]                               (* notify.go:176-184 *)
  end.
Definition fields_String (l : list (str * field)) (s : fields) : str := flat_map (fun x => fst x ++ Param_String (fget (snd x) s)) l.
(** String of a typed message — the lines above. Header.String dereferences the header. *)
Definition value_String (x : value) : res str :=
  match v_hdr x with
  | None => Panic PNil
  | Some h =>
      match text_fields (v_kind x) with
      | None => Ok (Header_String h)
      | Some l => Ok (txt "{Header: " ++ Header_String h ++ fields_String l (v_f x) ++ txt "}")
      end
  end.
(** Generic.String — generic.go:111-121 *)
Definition gvalue_String (g : gvalue) : res str :=
  match gv_hdr g with
  | None => Panic PNil
  | Some h => Ok (txt "{Header: " ++ Header_String h ++ txt ", Params: " ++ fmt_s_slice (map (fun p => Param_String (Some p)) (gv_params g)) ++ txt "}")
  end.
Definition m3_String (m : m3ua) : res str :=
  match m with
  | Typed m => value_String (mkValue (m_kind m) (Some (m_hdr m)) (m_f m))
  | Gen g => gvalue_String (mkGValue (Some (g_hdr g)) (g_params g))
  end.

(** * Names *)
(** MessageClassName — message.go:27-33 and e.g. data.go:193-195, generic.go:139-141 *)
Definition kind_ClassName (k : kind) : str :=
  match k with
  | KError | KNotify => txt "Management"                                                         (* error.go:211 notify.go:202 *)
  | KData => txt "Transfer"                                                                      (* data.go:193 *)
  | KDUNA | KDAVA | KDAUD | KSCON | KDUPU | KDRST => txt "SSNM"                                  (* duna.go:178 dava.go:178 daud.go:178 scon.go:223 dupu.go:193 drst.go:178 *)
  | KAspUp | KAspDown | KHeartbeat | KAspUpAck | KAspDownAck | KHeartbeatAck => txt "ASPSM"      (* asp-up.go:157 asp-down.go:139 heartbeat.go:139 and the acks *)
  | KAspActive | KAspActiveAck | KAspInactive | KAspInactiveAck => txt "ASPTM"                   (* asp-active.go:175 asp-inactive.go:157 and the acks *)
  end.
(** MessageTypeName — e.g. data.go:198-200, generic.go:144-146 *)
Definition kind_TypeName (k : kind) : str :=
  match k with
  | KData => txt "Payload Data"                               (* data.go:198 *)
  | KDUNA => txt "Destination Unavailable"                    (* duna.go:183 *)
  | KDAVA => txt "Destination Available"                      (* dava.go:183 *)
  | KDAUD => txt "Destination State Audit"                    (* daud.go:183 *)
  | KSCON => txt "Signalling Congestion"                      (* scon.go:228 *)
  | KDUPU => txt "Destination User Part Unavailable"          (* dupu.go:198 *)
  | KDRST => txt "Destination Restricted"                     (* drst.go:183 *)
  | KAspUp => txt "ASP Up"                                    (* asp-up.go:162 *)
  | KAspUpAck => txt "ASP Up Ack"                             (* asp-up-ack.go:162 *)
  | KAspDown => txt "ASP Down"                                (* asp-down.go:144 *)
  | KAspDownAck => txt "ASP Down Ack"                         (* asp-down-ack.go:144 *)
  | KHeartbeat => txt "Heartbeat"                             (* heartbeat.go:144 *)
  | KHeartbeatAck => txt "Heartbeat Ack"                      (* heartbeat-ack.go:144 *)
  | KAspActive => txt "ASP Active"                            (* asp-active.go:180 *)
  | KAspActiveAck => txt "ASP Active Ack"                     (* asp-active-ack.go:180 *)
  | KAspInactive => txt "ASP Inactive"                        (* asp-inactive.go:162 *)
  | KAspInactiveAck => txt "ASP Inactive Ack"                 (* asp-inactive-ack.go:162 *)
  | KError => txt "Error"                                     (* error.go:216 *)
  | KNotify => txt "Notify"                                   (* notify.go:207 *)
  end.
Definition ClassName (m : m3ua) : str := match m with Typed m => kind_ClassName (m_kind m) | Gen _ => txt "Unknown" end.
Definition TypeName (m : m3ua) : str := match m with Typed m => kind_TypeName (m_kind m) | Gen _ => txt "Unknown" end.

(** * Deprecated names *)
(** Serialize, SerializeTo, DecodeFromBytes and Len of a typed message — e.g. data.go:202-240. SignallingCongestion and
    DestinationUserPartUnavailable do not define them, those of the embedded *Header are promoted (header.go:111-149). *)
Definition own_deprecated (k : kind) : bool := match k with KSCON | KDUPU => false | _ => true end.
Definition value_Serialize (x : value) : res (value * list byte) :=
  if own_deprecated (v_kind x) then value_MarshalBinary x else
  match v_hdr x with
  | None => Panic PNil
  | Some h => let! b := Header_MarshalBinary h in Ok (x, b)
  end.
Definition value_SerializeTo (x : value) (b : list byte) : res (value * list byte) :=
  if own_deprecated (v_kind x) then value_MarshalTo x b else
  match v_hdr x with
  | None => Panic PNil
  | Some h => let! b := Header_MarshalTo h b in Ok (x, b)
  end.
(** Header.UnmarshalBinary checks the length before it writes through the pointer — header.go:74-86 *)
Definition value_DecodeFromBytes (x : value) (b : list byte) : value * res unit :=
  if own_deprecated (v_kind x) then value_UnmarshalBinary x b else
  match ParseHeader b with
  | Err e => (x, Err e)
  | Panic p => (x, Panic p)
  | Ok h => match v_hdr x with None => (x, Panic PNil) | Some _ => (mkValue (v_kind x) (Some h) (v_f x), Ok tt) end
  end.
Definition value_Len (x : value) : res nat :=
  if own_deprecated (v_kind x) then Ok (value_MarshalLen x) else
  match v_hdr x with None => Panic PNil | Some h => Ok (Header_MarshalLen h) end.
