(** C104: decoding a packet and encoding it again; C105: reading a received message. *)
From Verif Require Import GoBase BaseProofs ParamsModel MessagesModel WireSpec ParamsSpec MsgSpec ParamsProofs
  MessagesProofs MessagesProofs2 NormSpec NormProofs ReadModel ReadSpec ReadProofs.
From Coq Require Import Arith Lia.
Open Scope nat_scope.

(** * C104 *)
(** Every packet that Parse accepts is encoded to its normal form: same header,
    Length included, the last of each parameter in the order of the RFC, zero
    padding.  The normal form decodes to the same message. *)
Theorem C104_normal_form : forall v r c ty len body l mt,
  (len < 4294967296)%N -> coded c ty mt -> TLVs body l -> only_of mt l ->
  exists m m',
    Parse (packet v r c ty len body) = Ok m /\
    m3_MarshalBinary m = Ok (m', packet v r c ty len (body_of (normal_list mt l))) /\
    Parse (packet v r c ty len (body_of (normal_list mt l))) = Ok m' /\
    same_content m m'.
Proof. exact normalise. Qed.
Print Assumptions C104_normal_form.

(** Of whatever octets Parse accepts: encoding never fails, loses nothing that
    the accessors can see, changes nothing the second time, and makes the packet
    no longer than the padding of its last parameter. *)
Theorem C104_projection : forall b m, Parse b = Ok m -> exists m' b',
  m3_MarshalBinary m = Ok (m', b') /\ Parse b' = Ok m' /\ same_content m m' /\
  m3_MarshalBinary m' = Ok (m', b') /\ length b' <= 4 * ((length b + 3) / 4).
Proof. exact reencode_any. Qed.
Print Assumptions C104_projection.

(** Two packets are encoded to the same octets exactly when they carry the same
    message. *)
Theorem C104_same_octets : forall b1 m1 m1' b1' b2 m2 m2' b2',
  Parse b1 = Ok m1 -> Parse b2 = Ok m2 ->
  m3_MarshalBinary m1 = Ok (m1', b1') -> m3_MarshalBinary m2 = Ok (m2', b2') ->
  (b1' = b2' <-> same_content m1 m2).
Proof. exact same_octets. Qed.
Print Assumptions C104_same_octets.

(** A decoded message holds no more octets than the packet had. *)
Theorem C104_size : forall b m, Parse b = Ok m -> held (params_of m) + 8 <= length b.
Proof. exact decoded_size. Qed.
Print Assumptions C104_size.

(** ASPAC with the parameters out of order, one twice, bad padding, the last cut *)
Definition ex_messy : list byte :=
  packet x01 x00 x04 x01 38
    (be 2 4 ++ be 2 5 ++ [x61] ++ [xff; xff; xff] ++ tlv 11 [x00; x00; x00; x01] ++ tlv 11 [x00; x00; x00; x02] ++
     be 2 4 ++ be 2 6 ++ [x61; x62]).
Definition ex_clean : list byte :=
  packet x01 x00 x04 x01 38 (tlv 11 [x00; x00; x00; x02] ++ tlv 4 [x61; x62]).
Example C104_ex : exists m m', Parse ex_messy = Ok m /\ m3_MarshalBinary m = Ok (m', ex_clean) /\
  length ex_messy = 38 /\ length ex_clean = 24 /\ held (params_of m) = 14.
Proof. eexists _, _. vm_compute. repeat split. Qed.
(** the bound on the length is reached *)
Example C104_ex_grows : exists m m' b', 
  let b := packet x01 x00 x04 x01 14 (be 2 4 ++ be 2 5 ++ [x61]) in
  Parse b = Ok m /\ m3_MarshalBinary m = Ok (m', b') /\ length b = 13 /\ length b' = 16.
Proof. eexists _, _, _. vm_compute. repeat split. Qed.
(** and so is the one on the size *)
Example C104_ex_size : exists m, 
  let b := packet x01 x00 x04 x01 14 (be 2 4 ++ be 2 5 ++ [x61]) in
  Parse b = Ok m /\ held (params_of m) + 8 = length b.
Proof. eexists. vm_compute. repeat split. Qed.

(** "Encoding a decoded message writes a correct Length" is false: the packet
    says its own length, what is encoded from it does not. *)
Theorem C104_length_refuted : exists b m m' b',
  Parse b = Ok m /\ m3_MarshalBinary m = Ok (m', b') /\
  val (firstn 4 (skipn 4 b)) = N.of_nat (length b) /\
  val (firstn 4 (skipn 4 b')) <> N.of_nat (length b').
Proof. exists ex_messy. eexists _, _, _. vm_compute. repeat split. discriminate. Qed.
Print Assumptions C104_length_refuted.

(** * C105 *)
(** What each accessor says of each field of each message decoded from any
    packet, as a function of the parameters in the packet: the last one of its
    kind counts; a field whose parameter is not in the packet is nil and reading
    it panics; RoutingContext() and AffectedPointCode() also panic when the
    value is not one or more whole words. *)
Theorem C105_reads : forall v r c ty len body l t,
  (len < 4294967296)%N -> coded c ty (Some t) -> TLVs body l -> only_of (Some t) l ->
  exists m, Parse (packet v r c ty len body) = Ok (Typed m) /\ m_kind m = go_type t /\
  let fld f := fget f (m_f m) in
  let num tag (sel : N -> N) := seen tag l (fun w => Ok (sel (number w))) in
  let same n := n in
  on (plain NetworkAppearance) (fld FNetworkAppearance) = num 0x200%N same /\
  on (plain CorrelationID) (fld FCorrelationID) = num 19%N same /\
  on (plain AspIdentifier) (fld FAspIdentifier) = num 17%N same /\
  on (plain TrafficModeType) (fld FTrafficModeType) = num 11%N same /\
  on (plain ErrorCode) (fld FErrorCode) = num 12%N same /\
  on (plain ConcernedDestination) (fld FConcernedDestination) = num 0x206%N (fun n => n mod 16777216)%N /\
  on (plain CongestionLevel) (fld FCongestionIndications) = num 0x205%N (fun n => n mod 256)%N /\
  on (plain UserCause) (fld FUserCause) = num 0x204%N same /\
  on (plain UserIdentity) (fld FUserCause) = num 0x204%N (fun n => n mod 65536)%N /\
  on (plain UnavailabilityCause) (fld FUserCause) = num 0x204%N (fun n => n / 65536)%N /\
  on (plain Status) (fld FStatus) = num 13%N same /\
  on (plain StatusType) (fld FStatus) = num 13%N (fun n => n / 65536)%N /\
  on (plain StatusInfo) (fld FStatus) = num 13%N (fun n => n mod 65536)%N /\
  on (plain InfoString) (fld FInfoString) = seen 4%N l (fun w => Ok w) /\
  on (plain HeartbeatData) (fld FHeartbeatData) = seen 9%N l (fun w => Ok w) /\
  on (plain DiagnosticInformation) (fld FDiagnosticInformation) = seen 7%N l (fun w => Ok w) /\
  on RoutingContext (fld FRoutingContext) = seen 6%N l first_word /\
  on AffectedPointCode (fld FAffectedPointCode) = seen 18%N l first_word /\
  on ProtocolData (fld FProtocolData) = seen 0x210%N l label_and_data /\
  (forall w, last_value 6 l = Some w ->
     exists us, on (plain RoutingContexts) (fld FRoutingContext) = Ok us /\ spelled w us) /\
  (last_value 6 l = None -> on (plain RoutingContexts) (fld FRoutingContext) = Panic PNil) /\
  (forall w, last_value 18 l = Some w ->
     exists us, on (plain AffectedPointCodes) (fld FAffectedPointCode) = Ok us /\ spelled w us) /\
  (last_value 18 l = None -> on (plain AffectedPointCodes) (fld FAffectedPointCode) = Panic PNil).
Proof. exact reads_all. Qed.
Print Assumptions C105_reads.

(** a Notify and a DUPU *)
Example C105_ex : exists m,
  Parse (packet x01 x00 x00 x01 24 (tlv 13 [x00; x01; x00; x03] ++ tlv 6 [x00; x00; x00; x05; x00; x00; x00; x06])) = Ok (Typed m) /\
  on (plain StatusType) (fget FStatus (m_f m)) = Ok 1%N /\ on (plain StatusInfo) (fget FStatus (m_f m)) = Ok 3%N /\
  on RoutingContext (fget FRoutingContext (m_f m)) = Ok 5%N /\
  on (plain RoutingContexts) (fget FRoutingContext (m_f m)) = Ok [5%N; 6%N] /\
  on (plain AspIdentifier) (fget FAspIdentifier (m_f m)) = Panic PNil.
Proof. eexists. vm_compute. repeat split. Qed.
Example C105_ex_short : exists m,
  Parse (packet x01 x00 x02 x05 22 (tlv 18 [x00; x00; x05] ++ tlv 0x204 [x00; x02])) = Ok (Typed m) /\
  on AffectedPointCode (fget FAffectedPointCode (m_f m)) = Panic PIndex /\
  on (plain AffectedPointCodes) (fget FAffectedPointCode (m_f m)) = Ok [] /\
  on (plain UserCause) (fget FUserCause (m_f m)) = Ok 0%N.
Proof. eexists. vm_compute. repeat split. Qed.

(** Parse asks for no parameter: of every type, a header alone is accepted and
    every field is nil. *)
Theorem C105_nothing_required : forall t v r len, (len < 4294967296)%N ->
  exists m, Parse (packet v r (rfc_class t) (rfc_type t) len []) = Ok (Typed m) /\ m_kind m = go_type t /\
    forall f, fget f (m_f m) = None.
Proof. exact empty_accepted. Qed.
Print Assumptions C105_nothing_required.
(** "A message that Parse accepts has the parameters that the RFC makes
    mandatory" is false for every message that has such parameters. *)
Theorem C105_mandatory_refuted : forall t tag, In tag (rfc_mandatory t) ->
  exists b m f, Parse b = Ok (Typed m) /\ m_kind m = go_type t /\ field_tag f = tag /\ In f (marshal_order (m_kind m)) /\
    fget f (m_f m) = None /\ on (plain p_tag) (fget f (m_f m)) = Panic PNil.
Proof.
  intros t tag I. destruct (empty_accepted t x01 x00 8 eq_refl) as (m & P & K & F).
  assert (X : exists f, field_tag f = tag /\ In f (marshal_order (go_type t))).
  { destruct t; cbn in I; repeat (destruct I as [<-|I]); try contradiction;
      [exists FProtocolData|exists FAffectedPointCode|exists FAffectedPointCode|exists FAffectedPointCode
      |exists FAffectedPointCode|exists FAffectedPointCode|exists FUserCause|exists FAffectedPointCode
      |exists FErrorCode|exists FStatus]; cbn; auto 10. }
  destruct X as (f & T & J). exists (packet x01 x00 (rfc_class t) (rfc_type t) 8 []), m, f.
  rewrite K, F. auto 10.
Qed.
Print Assumptions C105_mandatory_refuted.
