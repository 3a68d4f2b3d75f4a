(** C126: one octet of a packet changed. *)
From Verif Require Import GoBase BaseProofs WireSpec ParamsModel ParamsSpec MessagesModel MsgSpec NormSpec ConfigModel ConnModel ConnExamples ChangeSpec ChangeProofs.
From Coq Require Import Arith Lia.
Open Scope nat_scope.

(** In a value: the packet is accepted as before, and only this octet of this parameter differs (in a typed message not even that, if a later parameter has the
    same tag). *)
Theorem C126_value : forall b m l k x i j, Parse b = Ok m -> TLVs (skipn 8 b) l -> 8 + k < length b -> spot_at 0 l k = SVal i j ->
  exists m', Parse (changed (8 + k) x b) = Ok m' /\ alters i j x l m m'.
Proof. exact change_value. Qed.
(** In the padding: the message is the same. *)
Theorem C126_padding : forall b m l k x, Parse b = Ok m -> TLVs (skipn 8 b) l -> 8 + k < length b -> spot_at 0 l k = SPad ->
  exists m', Parse (changed (8 + k) x b) = Ok m' /\ same_content m m'.
Proof. exact change_pad. Qed.
(** In the version, the reserved octet or the length of the header: the message inside is the same. *)
Theorem C126_header : forall b m k x, Parse b = Ok m -> In k [0; 1; 4; 5; 6; 7] -> exists m', Parse (changed k x b) = Ok m' /\ same_inside m m' /\
  h_class (hdr_of m') = h_class (hdr_of m) /\ h_type (hdr_of m') = h_type (hdr_of m) /\ h_payload (hdr_of m') = h_payload (hdr_of m).
Proof. exact change_head. Qed.
(** In a tag of a typed message: refused with messages.ErrInvalidParameter exactly if the new tag does not belong to the message. *)
Theorem C126_tag : forall b m l k x i j t w mt, Parse b = Ok (Typed m) -> m_kind m = go_type mt -> TLVs (skipn 8 b) l -> 8 + k < length b -> spot_at 0 l k = STag i j ->
  nth_error l i = Some (t, w) ->
  (In (val (changed j x (be 2 t))) (rfc_params mt) -> exists m', Parse (changed (8 + k) x b) = Ok (Typed m') /\ m_kind m' = m_kind m) /\
  (~ In (val (changed j x (be 2 t))) (rfc_params mt) -> Parse (changed (8 + k) x b) = Err EMsgInvalidParameter).
Proof. exact change_tag. Qed.
(** Every octet of an accepted packet is one of these, or the class, the type or a length. *)
Theorem C126_everywhere : forall b m l k, Parse b = Ok m -> TLVs (skipn 8 b) l -> 8 + k < length b -> spot_at 0 l k <> SNone.
Proof.
  intros b m l k P T H E. assert (Hb : k < length (skipn 8 b)) by (rewrite skipn_length; lia).
  pose proof (ChangeProofs.TLVs_changed _ _ T k x00 Hb) as X. rewrite E in X. exact X.
Qed.

(** a changed octet that is not noticed and makes another message *)
Definition ac : list byte := bytes_of (Typed (NewAspActive (Some (NewTrafficModeType 2)) (Some (NewRoutingContext [7%N])) (Some (NewInfoString [x61; x62; x63])))).
(** of the type: Heartbeat becomes Heartbeat Ack *)
Theorem C126_type_refuted : exists m m', Parse pk_beat = Ok (Typed m) /\ m_kind m = KHeartbeat /\ Parse (changed 3 x06 pk_beat) = Ok (Typed m') /\ m_kind m' = KHeartbeatAck.
Proof. eexists _, _. repeat split; vm_compute; reflexivity. Qed.
(** of a tag: the traffic mode becomes a routing context *)
Theorem C126_tag_refuted : exists m m', Parse ac = Ok (Typed m) /\ fget FTrafficModeType (m_f m) <> None /\
  Parse (changed 9 x06 ac) = Ok (Typed m') /\ fget FTrafficModeType (m_f m') = None.
Proof. eexists _, _. split; [vm_compute; reflexivity|]. split; [discriminate|]. split; vm_compute; reflexivity. Qed.
(** of a length: the first parameter takes the second one for a part of its value *)
Theorem C126_length_refuted : exists m m', Parse ac = Ok (Typed m) /\ fget FRoutingContext (m_f m) <> None /\
  Parse (changed 11 x10 ac) = Ok (Typed m') /\ fget FRoutingContext (m_f m') = None /\ fget FInfoString (m_f m') = fget FInfoString (m_f m).
Proof. eexists _, _. split; [vm_compute; reflexivity|]. split; [discriminate|]. split; [vm_compute; reflexivity|]. split; reflexivity. Qed.
Print Assumptions C126_value.
Print Assumptions C126_padding.
Print Assumptions C126_header.
Print Assumptions C126_tag.
Print Assumptions C126_everywhere.
Print Assumptions C126_type_refuted.
Print Assumptions C126_tag_refuted.
Print Assumptions C126_length_refuted.

(** the octets of ASP Active: value, padding and tag *)
Definition ac_list : list (N * list byte) := [(11%N, [x00; x00; x00; x02]); (6%N, [x00; x00; x00; x07]); (4%N, [x61; x62; x63])].
Example C126_ex : (exists m, Parse ac = Ok (Typed m)) /\ TLVs (skipn 8 ac) ac_list /\ length ac = 32 /\
  spot_at 0 ac_list 15 = SVal 1 3 /\ spot_at 0 ac_list 23 = SPad /\ spot_at 0 ac_list 17 = STag 2 1 /\ is_last 1 ac_list 6 = true /\
  (exists m', Parse (changed 23 x09 ac) = Ok (Typed m') /\ fget FRoutingContext (m_f m') = Some (mkParam 6 8 [x00; x00; x00; x09])) /\
  Parse (changed 25 x07 ac) = Err EMsgInvalidParameter.
Proof.
  split; [eexists; vm_compute; reflexivity|]. split.
  { apply (TLVs_cons 11 [x00; x00; x00; x02] []); [reflexivity|apply short_value; cbn; lia|reflexivity|]. apply (TLVs_cons 6 [x00; x00; x00; x07] []); [reflexivity|apply short_value; cbn; lia|reflexivity|].
    apply (TLVs_cons 4 [x61; x62; x63] [x00] []); [reflexivity|apply short_value; cbn; lia|reflexivity|constructor]. }
  do 5 (split; [reflexivity|]). split; [eexists; split; vm_compute; reflexivity|vm_compute; reflexivity].
Qed.
(** two parameters with the same tag: the first one is not visible *)
Example C126_ex_twice : let b := packet x01 x00 x04 x01 24 (body_of [(6%N, [x00; x00; x00; x01]); (6%N, [x00; x00; x00; x02])]) in
  is_last 0 [(6%N, [x00; x00; x00; x01]); (6%N, [x00; x00; x00; x02])] 6 = false /\
  match Parse b, Parse (changed 15 x09 b) with Ok (Typed m), Ok (Typed m') => m_f m = m_f m' | _, _ => False end.
Proof. split; vm_compute; reflexivity. Qed.
