(** C125: two messages in one packet. *)
From Verif Require Import GoBase BaseProofs WireSpec ParamsModel ParamsSpec ParamsProofs MessagesModel MsgSpec MessagesProofs MessagesProofs2 RejectSpec ConfigModel ConnModel CfgSpec
  ConnSpec ConnBase ConnInv ConnTrace ConnExamples JoinProofs.
From Coq Require Import Arith Lia.
Open Scope nat_scope.

(** A packet that Parse takes for a message of a known type, whole words long, and after it the beginning of another message (version 1, reserved 0): always an
    error, and which one is decided by the octets that follow, read as parameters. *)
Theorem C125_joined : forall b m rest, Parse b = Ok (Typed m) -> length b mod 4 = 0 ->
  (Parse (b ++ x01 :: x00 :: rest) = Err EParamTooShortParse /\ cut_off (x01 :: x00 :: rest)) \/
  (Parse (b ++ x01 :: x00 :: rest) = Err EParamInvalidLength /\ wrong_length (x01 :: x00 :: rest)) \/
  (Parse (b ++ x01 :: x00 :: rest) = Err EMsgInvalidParameter /\ exists l, TLVs (x01 :: x00 :: rest) l).
Proof. exact joined. Qed.
(** Two encoded messages: the class and the type of the second are read as the length of a parameter; if that is below 4 or more than the second message has
    octets, the error is params.ErrInvalidLength. *)
Theorem C125_messages : forall m1 m1' b1 m m2 m2' b2, m3_MarshalBinary m1 = Ok (m1', b1) -> Parse b1 = Ok (Typed m) ->
  m3_MarshalBinary m2 = Ok (m2', b2) -> h_version (hdr_of m2) = x01 -> h_reserved (hdr_of m2) = x00 ->
  exists e, Parse (b1 ++ b2) = Err e /\ In e [EParamTooShortParse; EParamInvalidLength; EMsgInvalidParameter] /\
  (let t := (256 * b2n (h_class (hdr_of m2)) + b2n (h_type (hdr_of m2)))%N in (t < 4 \/ N.of_nat (length b2) < t)%N -> e = EParamInvalidLength).
Proof. exact joined_messages. Qed.
(** A connection that reads such a packet reads nothing after it. *)
Theorem C125_connection : forall c p b m rest q, reachable c -> Parse b = Ok (Typed m) -> length b mod 4 = 0 ->
  reads (log c) = p ++ (b ++ x01 :: x00 :: rest) :: q -> q = [].
Proof.
  intros c p b m rest q R P M E. refine (invalid_last c p _ q R E _). intros m' [V _].
  destruct (joined b m rest P M) as [[X _]|[[X _]|[X _]]]; rewrite X in V; discriminate.
Qed.
(** A first message of an unknown type is not always refused: here the second message becomes a parameter of the first. *)
Theorem C125_generic_refuted : exists m1 m2 b1 b2 g, m3_MarshalBinary m1 = Ok (m1, b1) /\ Parse b1 = Ok m1 /\ m3_MarshalBinary (Typed m2) = Ok (Typed m2, b2) /\
  Parse b2 = Ok (Typed m2) /\ m_kind m2 = KData /\ Parse (b1 ++ b2) = Ok (Gen g) /\ map p_tag (g_params g) = [256%N].
Proof.
  exists (Gen (New x01 x09 x01 [])).
  exists (match Parse (bytes_of (Typed (NewData None None (Some (NewProtocolData 1 2 x03 x02 x00 x07 (repeat x61 236))) None))) with Ok (Typed m) => m | _ => NewHeartbeat None end).
  exists (bytes_of (Gen (New x01 x09 x01 []))), (bytes_of (Typed (NewData None None (Some (NewProtocolData 1 2 x03 x02 x00 x07 (repeat x61 236))) None))).
  eexists (match Parse (bytes_of (Gen (New x01 x09 x01 [])) ++ bytes_of (Typed (NewData None None (Some (NewProtocolData 1 2 x03 x02 x00 x07 (repeat x61 236))) None))) with Ok (Gen g) => g | _ => New x00 x00 x00 [] end).
  repeat split; vm_compute; reflexivity.
Qed.
(** Nor is a first packet whose last parameter lacks its padding: the version of the second message is taken for it and the rest for parameters. *)
Definition unpadded : list byte := packet x01 x00 x04 x01 15 [x00; x04; x00; x07; x61; x62; x63].
Definition swallowed : msg := NewAspActive None None (Some (NewInfoString (repeat x61 245 ++ [x00; x04; x00; x07; x62; x62; x62]))).
Theorem C125_unpadded_refuted : exists m b2 m2 m', Parse unpadded = Ok (Typed m) /\ m3_MarshalBinary (Typed swallowed) = Ok (Typed m2, b2) /\ Parse b2 = Ok (Typed m2) /\
  Parse (unpadded ++ b2) = Ok (Typed m') /\ m_kind m' = KAspActive /\
  fget FInfoString (m_f m') = Some (mkParam 4 7 [x62; x62; x62]).
Proof.
  exists (match Parse unpadded with Ok (Typed m) => m | _ => NewHeartbeat None end), (bytes_of (Typed swallowed)),
    (match Parse (bytes_of (Typed swallowed)) with Ok (Typed m) => m | _ => NewHeartbeat None end), (match Parse (unpadded ++ bytes_of (Typed swallowed)) with Ok (Typed m) => m | _ => NewHeartbeat None end).
  repeat split; vm_compute; reflexivity.
Qed.
Print Assumptions C125_joined.
Print Assumptions C125_messages.
Print Assumptions C125_connection.
Print Assumptions C125_generic_refuted.
Print Assumptions C125_unpadded_refuted.

(** two heartbeats; a heartbeat and an Error; a heartbeat and Data messages of 300 and 260 octets *)
Example C125_ex : (exists m, Parse pk_beat = Ok (Typed m)) /\ length pk_beat mod 4 = 0 /\
  Parse (pk_beat ++ pk_beat) = Err EParamInvalidLength /\
  Parse (pk_beat ++ bytes_of (Typed (NewError (Some (NewErrorCode 1)) None None None None))) = Err EParamInvalidLength /\
  Parse (pk_beat ++ bytes_of (Typed (NewData None None (Some (NewProtocolData 1 2 x03 x02 x00 x07 (repeat x61 236))) None))) = Err EMsgInvalidParameter /\
  Parse (pk_beat ++ bytes_of (Typed (NewData None None (Some (NewProtocolData 1 2 x03 x02 x00 x07 (repeat x61 276))) None))) = Err EParamInvalidLength.
Proof. split; [eexists; vm_compute; reflexivity|]. repeat split; vm_compute; reflexivity. Qed.
(** the server reads the two heartbeats, answers neither, and leaves the third unread *)
Example C125_ex_conn : match run x_server [LArrive (pk_beat ++ pk_beat); LArrive pk_beat; LMon true; LHand 2 true] with
  | Some c => log c = log x_server ++ [ERead (pk_beat ++ pk_beat)] /\ inq c = [pk_beat] | None => False end.
Proof. vm_compute. auto. Qed.
