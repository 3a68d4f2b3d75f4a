(** Properties C01-C12: parameters (package messages/params). *)
From Verif Require Import GoBase ParamsModel WireSpec ParamsSpec BaseProofs ParamsProofs AccessorProofs.
From Coq Require Import Arith Lia ZifyNat ZifyN.
Open Scope nat_scope.
Opaque max_value_len. (* keep tactics from unfolding the number 65531 *)

(** * C01 *)
Theorem C01_param_roundtrip : forall tag d rest,
  length d <= max_value_len ->
  exists bs, MarshalBinary (NewParam tag d) = Ok bs /\
             ParseParam (bs ++ rest) = Ok (NewParam tag d) /\
             p_tag (NewParam tag d) = Z.to_N (tag mod 65536) /\
             p_data (NewParam tag d) = d /\
             p_length (NewParam tag d) = N.of_nat (4 + length d).
Proof. exact NewParam_full. Qed.
Print Assumptions C01_param_roundtrip.
Example C01_ex : exists bs, MarshalBinary (NewParam 65543 [x61; x62; x63; x64; x65]) = Ok bs /\
  bs = [x00; x07; x00; x09; x61; x62; x63; x64; x65; x00; x00; x00] /\
  ParseParam (bs ++ [xff]) = Ok (mkParam 7 9 [x61; x62; x63; x64; x65]).
Proof. eexists. vm_compute. repeat split. Qed.

(** * C02 *)
Theorem C02_param_wire_format : forall p,
  exists bs, MarshalBinary p = Ok bs /\
    bs = be 2 (p_tag p) ++ be 2 (p_length p) ++ p_data p ++ repeat x00 (pad_len (length (p_data p))) /\
    MarshalLen p = length bs /\ length bs mod 4 = 0 /\ pad_len (length (p_data p)) < 4.
Proof. exact param_wire. Qed.
Print Assumptions C02_param_wire_format.
Example C02_ex : MarshalBinary (mkParam 0x0102 0x0304 [xaa; xbb; xcc])
  = Ok [x01; x02; x03; x04; xaa; xbb; xcc; x00] /\ MarshalLen (mkParam 0x0102 0x0304 [xaa; xbb; xcc]) = 8.
Proof. vm_compute. split; reflexivity. Qed.

(** * C03 *)
Theorem C03_oversize_silently_corrupt : forall tag d,
  max_value_len < length d ->
  p_length (NewParam tag d) = (N.of_nat (4 + length d) mod 65536)%N /\
  exists bs, MarshalBinary (NewParam tag d) = Ok bs /\
    forall rest q, ParseParam (bs ++ rest) = Ok q -> p_data q <> d.
Proof. exact NewParam_oversize. Qed.
Print Assumptions C03_oversize_silently_corrupt.
Example C03_ex : max_value_len < length (repeat x41 (N.to_nat 65532)).
Proof. rewrite repeat_length. apply Nat.nle_gt. rewrite max_value_len_spec. lia. Qed.

(** * C04 *)
Theorem C04_param_decoding_total : forall b,
  ParseParam b =
  if length b <? 4 then Err EParamTooShortParse
  else let len := val (firstn 2 (skipn 2 b)) in
       if ((4 <=? len) && (len <=? N.of_nat (length b)))%N
       then Ok (mkParam (val (firstn 2 b)) len (firstn (N.to_nat len - 4) (skipn 4 b)))
       else Err EParamInvalidLength.
Proof. exact ParseParam_exact. Qed.
Print Assumptions C04_param_decoding_total.
Example C04_ex1 : ParseParam [x00; x04; x00; x06; x61; x62; xff] = Ok (mkParam 4 6 [x61; x62]).
Proof. reflexivity. Qed.
Example C04_ex2 : ParseParam [x00; x04; x00; x08; x61; x62; xff] = Err EParamInvalidLength.
Proof. reflexivity. Qed.

(** * C05 *)
Theorem C05_param_list_roundtrip : forall ps,
  Forall wf_param ps ->
  exists bs, MarshalMultiParams ps = Ok bs /\ ParseMultiParams bs = Ok ps.
Proof. exact Multi_roundtrip. Qed.
Print Assumptions C05_param_list_roundtrip.
Example C05_ex : Forall wf_param [NewAspIdentifier 7; NewInfoString [x61]; NewInfoString []].
Proof. repeat apply Forall_cons; try apply Forall_nil; repeat split; apply max_value_len_spec; cbn; lia. Qed.
(** every parameter made by the constructors is well-formed *)
Theorem C05_newparam_wf : forall tag d, length d <= max_value_len -> wf_param (NewParam tag d).
Proof. exact NewParam_wf. Qed.
Print Assumptions C05_newparam_wf.

(** * C06 *)
Theorem C06_param_list_grammar : forall b,
  (forall ps, ParseMultiParams b = Ok ps <-> Forall wf_param ps /\ TLVs b (map tv ps)) /\
  ((exists ps, ParseMultiParams b = Ok ps) \/ ParseMultiParams b = Err EParamTooShortParse
   \/ ParseMultiParams b = Err EParamInvalidLength).
Proof. exact Multi_grammar. Qed.
Print Assumptions C06_param_list_grammar.
Example C06_ex : TLVs [x00; x04; x00; x05; x61; x01; x02; x03; x00; x04; x00; x06; x61; x62]
                      [(4%N, [x61]); (4%N, [x61; x62])].
Proof.
  assert (H1 : length [x61] <= max_value_len) by (apply max_value_len_spec; cbn; lia).
  assert (H2 : length [x61; x62] <= max_value_len) by (apply max_value_len_spec; cbn; lia).
  assert (H3 : length (@nil byte) < pad_len (length [x61; x62])) by (cbn; lia).
  exact (TLVs_cons 4 [x61] [x01; x02; x03] _ _ eq_refl H1 eq_refl
           (TLVs_cut 4 [x61; x62] [] eq_refl H2 H3)).
Qed.

(** * C07 *)
Theorem C07_uint32_accessors : forall u,
  (u < 4294967296)%N ->
  (travels (NewAspIdentifier u) /\ AspIdentifier (NewAspIdentifier u) = u) /\
  (travels (NewCorrelationID u) /\ CorrelationID (NewCorrelationID u) = u) /\
  (travels (NewNetworkAppearance u) /\ NetworkAppearance (NewNetworkAppearance u) = u) /\
  (travels (NewLocalRoutingKeyIdentifier u)
     /\ LocalRoutingKeyIdentifier (NewLocalRoutingKeyIdentifier u) = u) /\
  (travels (NewRegistrationStatus u) /\ RegistrationStatus (NewRegistrationStatus u) = u) /\
  (travels (NewDeregistrationStatus u) /\ DeregistrationStatus (NewDeregistrationStatus u) = u) /\
  (travels (NewTrafficModeType u) /\ TrafficModeType (NewTrafficModeType u) = u) /\
  (travels (NewErrorCode u) /\ ErrorCode (NewErrorCode u) = u) /\
  (travels (NewStatus u) /\ Status (NewStatus u) = u).
Proof. exact uint32_accessors. Qed.
Print Assumptions C07_uint32_accessors.
Example C07_ex : exists bs, MarshalBinary (NewAspIdentifier 0xdeadbeef) = Ok bs /\
  bs = [x00; x11; x00; x08; xde; xad; xbe; xef].
Proof. eexists. vm_compute. split; reflexivity. Qed.

Theorem C07_small_accessors : forall u b,
  (travels (NewConcernedDestination u)
     /\ ConcernedDestination (NewConcernedDestination u) = (u mod 16777216)%N) /\
  (travels (NewDestinationPointCode u)
     /\ DestinationPointCode (NewDestinationPointCode u) = (u mod 16777216)%N) /\
  (travels (NewCongestionIndications b) /\ CongestionLevel (NewCongestionIndications b) = b2n b).
Proof. exact small_accessors. Qed.
Print Assumptions C07_small_accessors.

(** what every accessor returns for an arbitrary (e.g. received) parameter *)
Theorem C07_accessors_on_any_param : forall p,
  let v tag := if (p_tag p =? tag)%N && (length (p_data p) =? 4) then val (p_data p) else 0%N in
  AspIdentifier p = v 17%N /\ CorrelationID p = v 19%N /\ NetworkAppearance p = v 0x200%N /\
  LocalRoutingKeyIdentifier p = v 0x20a%N /\ RegistrationStatus p = v 0x212%N /\
  DeregistrationStatus p = v 0x213%N /\ TrafficModeType p = v 11%N /\ ErrorCode p = v 12%N /\
  Status p = v 13%N /\ UserCause p = v 0x204%N /\
  ConcernedDestination p = (v 0x206 mod 16777216)%N /\
  DestinationPointCode p = (v 0x20b mod 16777216)%N /\
  CongestionLevel p = (v 0x205 mod 256)%N.
Proof. exact accessors_any. Qed.
Print Assumptions C07_accessors_on_any_param.

(** the accessors that return a list, on an arbitrary parameter: [be 4] is the
    4-byte big-endian encoding, so the list is the one the value spells out *)
Theorem C07_list_accessors_on_any_param : forall p,
  let s tag := if (p_tag p =? tag)%N then p_data p else [] in
  let ws tag (l : list N) :=
    if (p_tag p =? tag)%N && (length (p_data p) mod 4 =? 0)
    then concat (map (be 4) l) = p_data p /\ Forall (fun u => (u < 4294967296)%N) l
    else l = [] in
  InfoString p = s 4%N /\ DiagnosticInformation p = s 7%N /\ HeartbeatData p = s 9%N /\
  ServiceIndicators p = s 0x20c%N /\
  ws 6%N (RoutingContexts p) /\ ws 18%N (AffectedPointCodes p) /\
  ws 0x20e%N (OriginatingPointCodeList p).
Proof. exact lists_any. Qed.
Print Assumptions C07_list_accessors_on_any_param.
Example C07_ex2 : HeartbeatData (NewInfoString [x61]) = [] /\
  RoutingContexts (NewParam 6 [x00; x00; x00; x05; x00]) = [] /\
  RoutingContexts (NewParam 6 [x00; x00; x00; x05]) = [5%N].
Proof. repeat split. Qed.

(** byte-string parameters *)
Theorem C07_string_accessors : forall s,
  length s <= max_value_len ->
  (travels (NewInfoString s) /\ InfoString (NewInfoString s) = s) /\
  (travels (NewHeartbeatData s) /\ HeartbeatData (NewHeartbeatData s) = s) /\
  (travels (NewDiagnosticInformation s) /\ DiagnosticInformation (NewDiagnosticInformation s) = s).
Proof. exact string_accessors. Qed.
Print Assumptions C07_string_accessors.

(** * C08 *)
Theorem C08_multi_values_roundtrip : forall ux,
  Forall (fun u => (u < 4294967296)%N) ux ->
  RoutingContexts (NewRoutingContext ux) = ux /\
  AffectedPointCodes (NewAffectedPointCode ux) = ux /\
  OriginatingPointCodeList (NewOriginatingPointCodeList ux) = ux /\
  (travels (NewRoutingContext ux) <-> (N.of_nat (length ux) <= 16382)%N) /\
  (travels (NewAffectedPointCode ux) <-> (N.of_nat (length ux) <= 16382)%N) /\
  (travels (NewOriginatingPointCodeList ux) <-> (N.of_nat (length ux) <= 16382)%N).
Proof. exact multi_values. Qed.
Print Assumptions C08_multi_values_roundtrip.
Example C08_ex : RoutingContexts (NewRoutingContext [1; 0xffffffff; 300]%N) = [1; 0xffffffff; 300]%N.
Proof. vm_compute. reflexivity. Qed.

Theorem C08_first_value_or_panic : forall p,
  let first tag :=
    if negb (p_tag p =? tag)%N then Ok 0%N
    else if (length (p_data p) mod 4 =? 0) && (4 <=? length (p_data p))
         then Ok (val (firstn 4 (p_data p))) else Panic PIndex in
  RoutingContext p = first 6%N /\ AffectedPointCode p = first 18%N.
Proof. exact first_value. Qed.
Print Assumptions C08_first_value_or_panic.
(** a received Routing Context of 6 bytes makes RoutingContext() panic *)
Example C08_ex2 : exists p, ParseParam [x00; x06; x00; x06; x00; x01; x00; x00] = Ok p /\
  RoutingContext p = Panic PIndex.
Proof. eexists. vm_compute. split; reflexivity. Qed.

(** * C09 *)
Theorem C09_user_cause_halves : forall user cause,
  (user < 65536)%N -> (cause < 65536)%N ->
  let p := NewUserCause user cause in
  travels p /\ UserIdentity p = user /\ UnavailabilityCause p = cause /\
  UserCause p = (cause * 65536 + user)%N.
Proof. exact UserCause_parts. Qed.
Print Assumptions C09_user_cause_halves.

Theorem C09_status_halves : forall typ info,
  (typ < 65536)%N -> (info < 65536)%N ->
  let p := NewStatus (typ * 65536 + info) in
  travels p /\ StatusType p = typ /\ StatusInfo p = info /\ Status p = (typ * 65536 + info)%N.
Proof. exact Status_parts. Qed.
Print Assumptions C09_status_halves.
(** the halves of an arbitrary parameter *)
Theorem C09_halves_on_any_param : forall p,
  let v tag := if (p_tag p =? tag)%N && (length (p_data p) =? 4) then val (p_data p) else 0%N in
  StatusType p = (v 13 / 65536)%N /\ StatusInfo p = (v 13 mod 65536)%N /\
  UnavailabilityCause p = (v 0x204 / 65536)%N /\ UserIdentity p = (v 0x204 mod 65536)%N.
Proof. exact halves_any. Qed.
Print Assumptions C09_halves_on_any_param.
Example C09_ex : StatusType (NewStatus 0x10003) = 1%N /\ StatusInfo (NewStatus 0x10003) = 3%N
  /\ StatusType (NewStatus 0x20003) = 2%N /\ UserIdentity (NewUserCause 3 2) = 3%N.
Proof. vm_compute. repeat split. Qed.

(** * C10 *)
Theorem C10_service_indicators_overreturn : forall si,
  exists k, 1 <= k <= 4 /\ (length si + k) mod 4 = 0 /\
    ServiceIndicators (NewServiceIndicators si) = si ++ repeat x00 k /\
    ServiceIndicators (NewServiceIndicators si) <> si.
Proof. exact ServiceIndicators_over. Qed.
Print Assumptions C10_service_indicators_overreturn.
Example C10_ex : ServiceIndicators (NewServiceIndicators [x03; x04; x05; x06])
  = [x03; x04; x05; x06; x00; x00; x00; x00].
Proof. reflexivity. Qed.

(** * C11 *)
Theorem C11_protocol_data_roundtrip : forall opc dpc si ni mp sls d,
  (opc < 4294967296)%N -> (dpc < 4294967296)%N ->
  ProtocolData (NewProtocolData opc dpc si ni mp sls d) = Ok (mkPD opc dpc si ni mp sls d) /\
  (travels (NewProtocolData opc dpc si ni mp sls d) <-> (N.of_nat (length d) <= 65519)%N).
Proof. exact ProtocolData_rt. Qed.
Print Assumptions C11_protocol_data_roundtrip.

Theorem C11_protocol_data_any : forall p,
  ProtocolData p =
  if negb (p_tag p =? 0x210)%N then Err EParamInvalidType
  else if length (p_data p) <? 12 then Err EParamTooShortParse
  else Ok (mkPD (val (firstn 4 (p_data p))) (val (firstn 4 (skipn 4 (p_data p))))
                (nth 8 (p_data p) x00) (nth 9 (p_data p) x00) (nth 10 (p_data p) x00)
                (nth 11 (p_data p) x00) (skipn 12 (p_data p))).
Proof. exact ProtocolData_any. Qed.
Print Assumptions C11_protocol_data_any.
Example C11_ex : p_data (NewProtocolData 1 0x01020304 x03 x02 x00 x07 [xde; xad]) =
  [x00; x00; x00; x01; x01; x02; x03; x04; x03; x02; x00; x07; xde; xad].
Proof. reflexivity. Qed.

(** * C12 *)
Theorem C12_routing_key : forall r,
  rk_tagged r ->
  let l := present [rk_lrki r; rk_rc r; rk_tmt r; rk_dpc r; rk_na r; rk_si r; rk_opcl r] in
  Forall wf_param l ->
  RoutingKey (NewRoutingKey r) = if 3 <=? length l then Ok r else Err EParamInvalidLength.
Proof. exact RoutingKey_new. Qed.
Print Assumptions C12_routing_key.
Definition rk_example : rkpayload :=
  mkRK (Some (NewLocalRoutingKeyIdentifier 1)) None (Some (NewTrafficModeType 2))
       (Some (NewDestinationPointCode 3)) None (Some (NewServiceIndicators [x03]))
       (Some (NewOriginatingPointCodeList [5; 6]%N)).
Example C12_ex : rk_tagged rk_example /\
  Forall wf_param (present [rk_lrki rk_example; rk_rc rk_example; rk_tmt rk_example; rk_dpc rk_example;
                            rk_na rk_example; rk_si rk_example; rk_opcl rk_example]) /\
  RoutingKey (NewRoutingKey rk_example) = Ok rk_example.
Proof.
  split; [repeat split|]. split; [|vm_compute; reflexivity].
  repeat apply Forall_cons; try apply Forall_nil; repeat split; apply max_value_len_spec; cbn; lia.
Qed.

Theorem C12_registration_result : forall a b c,
  Forall wf_param (present [a; b; c]) ->
  RegistrationResult (NewRegistrationResult (mkRR a b c)) =
  match a, b, c with
  | Some _, Some _, Some _ => Ok (mkRR a b c)
  | _, _, _ => Err EParamInvalidLength
  end.
Proof. exact RegistrationResult_new. Qed.
Print Assumptions C12_registration_result.

Theorem C12_deregistration_result : forall a b,
  tagged 6 a -> tagged 0x213 b -> Forall wf_param (present [a; b]) ->
  DeregistrationResult (NewDeregistrationResult (mkDR a b)) =
  match a, b with Some _, Some _ => Ok (mkDR a b) | _, _ => Err EParamInvalidLength end.
Proof. exact DeregistrationResult_new. Qed.
Print Assumptions C12_deregistration_result.

(** the decoder of RegistrationResult is positional: three sub-parameters of any
    kind are accepted and returned under the wrong names *)
Theorem C12_registration_result_untyped_refuted :
  exists p r, RegistrationResult p = Ok r /\
    (exists q, rr_lrki r = Some q /\ p_tag q <> tLocalRoutingKeyIdentifier) /\
    (exists q, rr_status r = Some q /\ p_tag q <> tRegistrationStatus).
Proof. exact rr_untyped. Qed.
Print Assumptions C12_registration_result_untyped_refuted.

(** nested parameters survive the wire exactly when their encoded contents fit *)
Theorem C12_nested_travel : forall t ps,
  (t < 65536)%N -> Forall wf_param (present ps) ->
  (travels (newNestedParam t ps) <-> length (body_of (map tv (present ps))) <= max_value_len).
Proof. exact nested_travels. Qed.
Print Assumptions C12_nested_travel.

(** exactly which received parameters the three nested decoders accept, and what
    they return; on all others they return an error and never panic *)
Theorem C12_decoders_exact : forall p,
  (forall r, RoutingKey p = Ok r <-> p_tag p = 0x207%N /\ rk_read (p_data p) r) /\
  (forall r, RegistrationResult p = Ok r <-> p_tag p = 0x208%N /\ rr_read (p_data p) r) /\
  (forall r, DeregistrationResult p = Ok r <-> p_tag p = 0x209%N /\ dr_read (p_data p) r).
Proof.
  intros p. split; [intros r; apply RoutingKey_exact|].
  split; intros r; [apply RegistrationResult_exact|apply DeregistrationResult_exact].
Qed.
Print Assumptions C12_decoders_exact.
Theorem C12_decoders_no_panic : forall p,
  (forall k, RoutingKey p <> Panic k) /\ (forall k, RegistrationResult p <> Panic k) /\
  (forall k, DeregistrationResult p <> Panic k).
Proof. exact nested_no_panic. Qed.
Print Assumptions C12_decoders_no_panic.
(** the errors: a parameter of another kind, contents that are no parameter list, a wrong number of sub-parameters, a foreign one *)
Theorem C12_errors : forall p,
  ((p_tag p <> 0x207%N -> RoutingKey p = Err EParamInvalidType) /\
   (p_tag p <> 0x208%N -> RegistrationResult p = Err EParamInvalidType) /\
   (p_tag p <> 0x209%N -> DeregistrationResult p = Err EParamInvalidType)) /\
  (forall e, ParseMultiParams (p_data p) = Err e ->
   (p_tag p = 0x207%N -> RoutingKey p = Err e) /\ (p_tag p = 0x208%N -> RegistrationResult p = Err e) /\
   (p_tag p = 0x209%N -> DeregistrationResult p = Err e)) /\
  (forall ps, ParseMultiParams (p_data p) = Ok ps ->
   (p_tag p = 0x207%N -> length ps < 3 -> RoutingKey p = Err EParamInvalidLength) /\
   (p_tag p = 0x207%N -> 3 <= length ps -> ~ Forall (fun q => In (p_tag q) [0x20a; 6; 11; 0x20b; 0x200; 0x20c; 0x20e]%N) ps ->
    RoutingKey p = Err EParamInvalidType) /\
   (p_tag p = 0x208%N -> length ps <> 3 -> RegistrationResult p = Err EParamInvalidLength) /\
   (p_tag p = 0x209%N -> length ps <> 2 -> DeregistrationResult p = Err EParamInvalidLength)).
Proof. exact nested_errors. Qed.
Print Assumptions C12_errors.
(** four sub-parameters are too many for a Registration Result, and the last of
    two Routing Contexts wins in a Routing Key *)
Example C12_ex2 :
  let a := NewLocalRoutingKeyIdentifier 1 in
  let b := NewRoutingContext [7%N] in let c := NewRoutingContext [8%N] in
  RegistrationResult (newNestedParam 0x208 [Some a; Some b; Some c; Some c]) = Err EParamInvalidLength /\
  RoutingKey (newNestedParam 0x207 [Some a; Some b; Some c])
  = Ok (mkRK (Some a) (Some c) None None None None None).
Proof. vm_compute. split; reflexivity. Qed.
