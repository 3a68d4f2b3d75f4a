(** Vocabulary for the message properties: which Go type stands for which RFC
    message, which struct field for which parameter. *)
From Verif Require Import GoBase ParamsModel MessagesModel WireSpec ParamsSpec.
From Coq Require Import Arith.
Open Scope nat_scope.

Definition go_type (t : mtype) : kind :=
  match t with
  | DATA => KData | DUNA => KDUNA | DAVA => KDAVA | DAUD => KDAUD | SCON => KSCON
  | DUPU => KDUPU | DRST => KDRST | ASPUP => KAspUp | ASPDN => KAspDown | BEAT => KHeartbeat
  | ASPUP_ACK => KAspUpAck | ASPDN_ACK => KAspDownAck | BEAT_ACK => KHeartbeatAck
  | ASPAC => KAspActive | ASPAC_ACK => KAspActiveAck | ASPIA => KAspInactive
  | ASPIA_ACK => KAspInactiveAck | ERR => KError | NTFY => KNotify
  end.

Definition all_mtypes : list mtype :=
  [DATA; DUNA; DAVA; DAUD; SCON; DUPU; DRST; ASPUP; ASPDN; BEAT; ASPUP_ACK; ASPDN_ACK; BEAT_ACK;
   ASPAC; ASPIA; ASPAC_ACK; ASPIA_ACK; ERR; NTFY].

(** the parameter tag carried by each struct field *)
Definition field_tag (f : field) : N :=
  match f with
  | FNetworkAppearance => 0x200 | FRoutingContext => 6 | FProtocolData => 0x210
  | FCorrelationID => 19 | FAffectedPointCode => 18 | FInfoString => 4
  | FConcernedDestination => 0x206 | FCongestionIndications => 0x205 | FUserCause => 0x204
  | FAspIdentifier => 17 | FHeartbeatData => 9 | FTrafficModeType => 11 | FErrorCode => 12
  | FDiagnosticInformation => 7 | FStatus => 13
  end%N.

(** [m] is a message of type [t] whose parameters, in RFC order, are [slots]
    (and it has no others) *)
Definition has_params (t : mtype) (slots : list (option param)) (m : msg) : Prop :=
  m_kind m = go_type t /\
  Forall2 (fun tag o => forall f, field_tag f = tag -> fget f (m_f m) = o) (rfc_params t) slots /\
  forall f, ~ In (field_tag f) (rfc_params t) -> fget f (m_f m) = None.

(** body bytes for the given parameters *)
Definition body_for (ps : list param) : list byte := body_of (map tv ps).

(** encoding [m] gives the RFC bytes for [t] with parameters [slots], and those
    bytes parse back to the same parameters *)
Definition roundtrips (t : mtype) (slots : list (option param)) (m : msg) : Prop :=
  let body := body_for (present slots) in
  let bs := packet x01 x00 (rfc_class t) (rfc_type t) (N.of_nat (8 + length body)) body in
  exists m',
    m3_MarshalBinary (Typed m) = Ok (Typed m', bs) /\
    m3_MarshalLen (Typed m) = length bs /\
    Parse bs = Ok (Typed m') /\
    has_params t (map (option_map SetLength) slots) m'.

(** (tag, value) pairs for the present slots, in order *)
Fixpoint zip_slots (tags : list N) (slots : list (option (list byte))) : list (N * list byte) :=
  match tags, slots with
  | t :: tags, Some v :: slots => (t, v) :: zip_slots tags slots
  | _ :: tags, None :: slots => zip_slots tags slots
  | _, _ => []
  end.

(** equal up to the header's Length field *)
Definition same_header (h1 h2 : header) : Prop :=
  h_version h1 = h_version h2 /\ h_reserved h1 = h_reserved h2 /\ h_class h1 = h_class h2 /\
  h_type h1 = h_type h2 /\ h_payload h1 = h_payload h2.
Definition same_up_to_length (r1 r2 : res m3ua) : Prop :=
  match r1, r2 with
  | Ok (Typed m1), Ok (Typed m2) =>
      m_kind m1 = m_kind m2 /\ m_f m1 = m_f m2 /\ same_header (m_hdr m1) (m_hdr m2)
  | Ok (Gen g1), Ok (Gen g2) => g_params g1 = g_params g2 /\ same_header (g_hdr g1) (g_hdr g2)
  | Err e1, Err e2 => e1 = e2
  | _, _ => False
  end.

(** all byte values *)
Definition all_bytes : list byte := map (fun n => n2b (N.of_nat n)) (seq 0 256).
