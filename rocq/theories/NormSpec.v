(** Vocabulary for what decoding a packet and encoding it again does to it. *)
From Verif Require Import GoBase ParamsModel MessagesModel WireSpec MsgSpec.
From Coq Require Import Arith.
Open Scope nat_scope.

(** the value of the last parameter with this tag *)
Fixpoint last_value (tag : N) (l : list (N * list byte)) : option (list byte) :=
  match l with
  | [] => None
  | (t, v) :: l =>
      match last_value tag l with
      | Some w => Some w
      | None => if (t =? tag)%N then Some v else None
      end
  end.

(** the RFC message that a class and a type octet stand for, if any: the two
    octets are joined as class * 16 + type in one octet (see C18) *)
Definition coded (c ty : byte) (mt : option mtype) : Prop :=
  match mt with
  | Some t => N.lor ((16 * b2n c) mod 256) (b2n ty) = (16 * b2n (rfc_class t) + b2n (rfc_type t))%N
  | None => forall t, N.lor ((16 * b2n c) mod 256) (b2n ty) <> (16 * b2n (rfc_class t) + b2n (rfc_type t))%N
  end.

(** only parameters of that message *)
Definition only_of (mt : option mtype) (l : list (N * list byte)) : Prop :=
  match mt with
  | Some t => Forall (fun x => In (fst x) (rfc_params t)) l
  | None => True
  end.

(** the normal form of a list of parameters: of a message of the RFC the last
    of each kind in the order of the RFC, of another message all of them *)
Definition normal_list (mt : option mtype) (l : list (N * list byte)) : list (N * list byte) :=
  match mt with
  | Some t => zip_slots (rfc_params t) (map (fun tag => last_value tag l) (rfc_params t))
  | None => l
  end.

(** the same message to a reader of the struct: everything but the raw body
    kept in the header *)
Definition same_head (h1 h2 : header) : Prop :=
  h_version h1 = h_version h2 /\ h_reserved h1 = h_reserved h2 /\ h_class h1 = h_class h2 /\
  h_type h1 = h_type h2 /\ h_length h1 = h_length h2.
Definition same_content (m1 m2 : m3ua) : Prop :=
  match m1, m2 with
  | Typed a, Typed b => m_kind a = m_kind b /\ m_f a = m_f b /\ same_head (m_hdr a) (m_hdr b)
  | Gen a, Gen b => g_params a = g_params b /\ same_head (g_hdr a) (g_hdr b)
  | _, _ => False
  end.

(** all parameters of a decoded message *)
Definition all_fields : list field :=
  [FNetworkAppearance; FRoutingContext; FProtocolData; FCorrelationID; FAffectedPointCode; FInfoString;
   FConcernedDestination; FCongestionIndications; FUserCause; FAspIdentifier; FHeartbeatData;
   FTrafficModeType; FErrorCode; FDiagnosticInformation; FStatus].
Definition params_of (m : m3ua) : list param :=
  match m with
  | Typed a => flat_map (fun f => match fget f (m_f a) with Some p => [p] | None => [] end) all_fields
  | Gen g => g_params g
  end.
(** octets they took on the wire, without padding *)
Definition held (ps : list param) : nat := list_sum (map (fun p => 4 + length (p_data p)) ps).
