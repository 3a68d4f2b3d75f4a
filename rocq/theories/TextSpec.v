(** Specification of the texts of values, independent of the model's functions: what a reader of a text may rely on. *)
From Verif Require Import GoBase ParamsModel MessagesModel WireSpec ParamsSpec MsgSpec PcSpec.
From Coq Require Import Arith Strings.String.
Open Scope nat_scope.
Open Scope list_scope.

(** s is n in decimal notation without superfluous zeros *)
Definition num (n : N) (s : list byte) : Prop := decimal s n /\ canonical s.
(** the value of a lower-case hexadecimal digit *)
Definition hexval (c : byte) : option N :=
  if ((48 <=? b2n c) && (b2n c <=? 57))%N then Some (b2n c - 48)%N
  else if ((97 <=? b2n c) && (b2n c <=? 102))%N then Some (b2n c - 87)%N else None.
Definition hex_val (s : list byte) : N := fold_left (fun a c => a * 16 + match hexval c with Some v => v | None => 0 end)%N s 0%N.
(** two digits for each octet *)
Inductive hexes : list byte -> list byte -> Prop :=
| hex_nil : hexes [] []
| hex_cons : forall x b c d h l s, hexval c = Some h -> hexval d = Some l -> b2n x = (16 * h + l)%N -> hexes b s -> hexes (x :: b) (c :: d :: s).
(** a single octet, in one or two digits *)
Definition hexnum (x : byte) (s : list byte) : Prop :=
  s <> [] /\ Forall (fun c => hexval c <> None) s /\ hex_val s = b2n x /\ forall c r, s = c :: r -> c = x30 -> r = [].

Definition shows_param (o : option param) (s : list byte) : Prop :=
  match o with
  | None => s = []
  | Some p => exists t l d, num (p_tag p) t /\ num (p_length p) l /\ hexes (p_data p) d /\
      s = lit "{Tag: " ++ t ++ lit ", Length: " ++ l ++ lit ", Data: " ++ d ++ lit "}"
  end.
Definition shows_payload (p : pdpayload) (s : list byte) : Prop :=
  exists o d i n m l x, num (pd_opc p) o /\ num (pd_dpc p) d /\ num (b2n (pd_si p)) i /\ num (b2n (pd_ni p)) n /\
    num (b2n (pd_mp p)) m /\ num (b2n (pd_sls p)) l /\ hexes (pd_data p) x /\
    s = lit "{OriginatingPointCode: " ++ o ++ lit ", DestinationPointCode: " ++ d ++ lit ", ServiceIndicator: " ++ i ++
        lit ", NetworkIndicator: " ++ n ++ lit ", MessagePriority: " ++ m ++ lit ", SignalingLinkSelection: " ++ l ++ lit ", Data: " ++ x ++ lit "}".
Definition shows_header (h : header) (s : list byte) : Prop :=
  exists v r c t l x, num (b2n (h_version h)) v /\ hexnum (h_reserved h) r /\ num (b2n (h_class h)) c /\ num (b2n (h_type h)) t /\
    num (h_length h) l /\ hexes (h_payload h) x /\
    s = lit "{Version: " ++ v ++ lit ", Reserved: 0x" ++ r ++ lit ", Class: " ++ c ++ lit ", Type: " ++ t ++ lit ", Length: " ++ l ++
        lit ", Payload: " ++ x ++ lit "}".

(** the name under which a parameter is shown *)
Definition tag_label (tag : N) : list byte :=
  match tag with
  | 0x200 => lit ", NetworkAppearance: " | 6 => lit ", RoutingContext: " | 0x210 => lit ", ProtocolData " | 19 => lit ", CorrelationID: "
  | 18 => lit ", AffectedPointCode: " | 4 => lit ", InfoString: " | 0x206 => lit ", ConcernedDestination: "
  | 0x205 => lit ", CongestionIndications: " | 0x204 => lit ", UserCause: " | 17 => lit ", AspIdentifier: " | 9 => lit ", HeartbeatData: "
  | 11 => lit ", TrafficModeType: " | 12 => lit ", ErrorCode: " | 7 => lit ", DiagnosticInformation: " | 13 => lit ", Status: "
  | _ => []
  end%N.
(** the parameters in the order of the RFC, each behind its name *)
Inductive shows_params (m : msg) : list N -> list byte -> Prop :=
| sp_nil : shows_params m [] []
| sp_cons : forall tag tags f s r, field_tag f = tag -> shows_param (fget f (m_f m)) s -> shows_params m tags r ->
    shows_params m (tag :: tags) (tag_label tag ++ s ++ r).
Definition shows_msg (t : mtype) (m : msg) (s : list byte) : Prop :=
  exists h p, shows_header (m_hdr m) h /\ shows_params m (rfc_params t) p /\ s = lit "{Header: " ++ h ++ p ++ lit "}".
(** the types with no text of their own *)
Definition header_only (t : mtype) : Prop := In t [DUNA; DAVA; DAUD; DRST; DUPU].
(** a list of parameters, separated by spaces *)
Inductive shows_list : list param -> list byte -> Prop :=
| sl_nil : shows_list [] []
| sl_one : forall p s, shows_param (Some p) s -> shows_list [p] s
| sl_cons : forall p ps s r, ps <> [] -> shows_param (Some p) s -> shows_list ps r -> shows_list (p :: ps) (s ++ lit " " ++ r).
Definition shows_generic (g : generic) (s : list byte) : Prop :=
  exists h p, shows_header (g_hdr g) h /\ shows_list (g_params g) p /\ s = lit "{Header: " ++ h ++ lit ", Params: [" ++ p ++ lit "]}".

(** numbers within the Go types *)
Definition param_fits (p : param) : Prop := (p_tag p < 65536 /\ p_length p < 65536)%N.
Definition msg_fits (m : msg) : Prop :=
  (h_length (m_hdr m) < 4294967296)%N /\ forall f p, fget f (m_f m) = Some p -> param_fits p.
Definition gen_fits (g : generic) : Prop := (h_length (g_hdr g) < 4294967296)%N /\ Forall param_fits (g_params g).
