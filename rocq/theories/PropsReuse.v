(** Properties C64-C67: message values that are decoded into repeatedly, edited by
    hand or decoded with a typed decoder, and the memory decoded values live in. *)
From Verif Require Import GoBase ParamsModel MessagesModel ReuseModel WireSpec ParamsSpec MsgSpec
  ReuseSpec BaseProofs ParamsProofs AccessorProofs MessagesProofs MessagesProofs2 ReuseProofs.
From Coq Require Import Arith Lia ZifyNat ZifyN.
Open Scope nat_scope.
Opaque max_value_len.

(** * C64: UnmarshalBinary into a value that already holds something *)

(** what a packet does not carry stays; of an unacceptable packet the parameters
    before the first foreign one are stored *)
Theorem C64_typed_keeps_old : forall t x v r c ty len body ps,
  v_kind x = go_type t -> (len < 4294967296)%N -> ParseMultiParams body = Ok ps ->
  exists pre rest x' res,
    value_UnmarshalBinary x (packet v r c ty len body) = (x', res) /\
    ps = pre ++ rest /\
    Forall (fun p => In (p_tag p) (rfc_params t)) pre /\
    (rest = [] /\ res = Ok tt \/
     exists q rest', rest = q :: rest' /\ ~ In (p_tag q) (rfc_params t) /\
       res = Err EMsgInvalidParameter) /\
    v_kind x' = v_kind x /\ v_hdr x' = Some (mkHeader v r c ty len body) /\
    forall f, In (field_tag f) (rfc_params t) ->
      fget f (v_f x') =
      match last_with (field_tag f) pre with Some p => Some p | None => fget f (v_f x) end.
Proof. exact reuse_body. Qed.
Print Assumptions C64_typed_keeps_old.

(** an undecodable body replaces the header only *)
Theorem C64_typed_bad_body : forall x v r c ty len body e,
  (len < 4294967296)%N -> ParseMultiParams body = Err e ->
  value_UnmarshalBinary x (packet v r c ty len body)
  = (mkValue (v_kind x) (Some (mkHeader v r c ty len body)) (v_f x), Err e).
Proof. exact reuse_bad_body. Qed.
Print Assumptions C64_typed_bad_body.

(** fewer than 8 octets: the header becomes nil and the value unusable *)
Theorem C64_typed_short : forall x b,
  length b < 8 ->
  exists x', value_UnmarshalBinary x b = (x', Err EMsgTooShortParse) /\
    v_kind x' = v_kind x /\ v_f x' = v_f x /\
    value_Version x' = Panic PNil /\ value_MarshalBinary x' = Panic PNil /\
    value_SetLength x' = Panic PNil.
Proof. exact reuse_short. Qed.
Print Assumptions C64_typed_short.

(** a generic value collects the parameters of all packets decoded into it *)
Theorem C64_generic_appends : forall x v r c ty len body,
  (len < 4294967296)%N ->
  (forall ps, ParseMultiParams body = Ok ps ->
     gvalue_UnmarshalBinary x (packet v r c ty len body)
     = (mkGValue (Some (mkHeader v r c ty len body)) (gv_params x ++ ps), Ok tt)) /\
  (forall e, ParseMultiParams body = Err e ->
     gvalue_UnmarshalBinary x (packet v r c ty len body)
     = (mkGValue (Some (mkHeader v r c ty len body)) (gv_params x), Err e)).
Proof. exact greuse. Qed.
Print Assumptions C64_generic_appends.
Theorem C64_generic_short : forall x b,
  length b < 8 -> gvalue_UnmarshalBinary x b = (mkGValue None (gv_params x), Err EMsgTooShortParse).
Proof. exact greuse_short. Qed.
Print Assumptions C64_generic_short.

(** a parameter refused for its Length has lost its old Tag and Length, not its Data *)
Theorem C64_param : forall p b,
  (length b < 4 -> param_UnmarshalBinary p b = (p, Err EParamTooShortParse)) /\
  (4 <= length b ->
   let t := val (firstn 2 b) in let l := val (firstn 2 (skipn 2 b)) in
   param_UnmarshalBinary p b =
   if ((4 <=? l) && (l <=? N.of_nat (length b)))%N
   then (mkParam t l (firstn (N.to_nat l - 4) (skipn 4 b)), Ok tt)
   else (mkParam t l (p_data p), Err EParamInvalidLength)).
Proof. exact preuse. Qed.
Print Assumptions C64_param.

(** "decoding a packet gives the same message whatever the value held before" is false *)
Definition asp_up_1 : list byte := packet x01 x00 x03 x01 16 (tlv 17 [x00; x00; x00; x01]).
Definition asp_up_info : list byte := packet x01 x00 x03 x01 16 (tlv 4 [x61; x62; x63; x64]).
Theorem C64_fresh_result_refuted :
  exists x x' y,
    value_UnmarshalBinary (zero_value KAspUp) asp_up_1 = (x, Ok tt) /\
    value_UnmarshalBinary x asp_up_info = (x', Ok tt) /\
    value_Parse KAspUp asp_up_info = Ok y /\
    fget FAspIdentifier (v_f y) = None /\
    fget FAspIdentifier (v_f x') = Some (NewAspIdentifier 1).
Proof. eexists _, _, _. vm_compute. repeat split. Qed.
Print Assumptions C64_fresh_result_refuted.
Example C64_ex_error_partial : exists x',
  value_UnmarshalBinary (zero_value KAspUp)
    (packet x01 x00 x03 x01 24 (tlv 17 [x00; x00; x00; x01] ++ tlv 6 [x00; x00; x00; x02]))
  = (x', Err EMsgInvalidParameter) /\ fget FAspIdentifier (v_f x') = Some (NewAspIdentifier 1).
Proof. eexists. vm_compute. split; reflexivity. Qed.
Example C64_ex_param : param_UnmarshalBinary (NewInfoString [x61]) [x00; x11; x00; xff] =
  (mkParam 17 255 [x61], Err EParamInvalidLength).
Proof. vm_compute. reflexivity. Qed.
Example C64_ex_bad_body : ParseMultiParams [x00; x11; x00; xff] = Err EParamInvalidLength.
Proof. vm_compute. reflexivity. Qed.
Example C64_ex_body : exists p, ParseMultiParams (tlv 17 [x00; x00; x00; x01]) = Ok [p].
Proof. eexists. vm_compute. reflexivity. Qed.

(** * C65: values edited by hand *)

(** every encoding shows the stored values, including stale Length fields *)
Theorem C65_bytes_as_stored : forall t h fs slots,
  slots_are t fs slots ->
  exists x', value_MarshalBinary (mkValue (go_type t) (Some h) fs) =
    Ok (x', packet (h_version h) (h_reserved h) (h_class h) (h_type h) (h_length h)
              (flat_map as_stored (present slots))).
Proof. exact edited_bytes. Qed.
Print Assumptions C65_bytes_as_stored.

(** SetLength repairs them *)
Theorem C65_setlength_repairs : forall t h fs slots,
  slots_are t fs slots -> Forall2 slot_ok (rfc_params t) slots ->
  let body := body_for (present slots) in
  exists x x',
    value_SetLength (mkValue (go_type t) (Some h) fs) = Ok x /\
    value_MarshalBinary x =
      Ok (x', packet (h_version h) (h_reserved h) (h_class h) (h_type h) (N.of_nat (8 + length body)) body) /\
    v_f x' = v_f x /\ slots_are t (v_f x) (map (option_map SetLength) slots).
Proof. exact edited_setlength. Qed.
Print Assumptions C65_setlength_repairs.

(** "encoding computes the lengths" is false: after replacing the INFO string of a
    freshly built ASP Up the Length fields are the old ones, and the peer refuses the packet *)
Definition edited_asp_up : value :=
  let m := NewAspUp None (Some (NewInfoString [x61])) in
  mkValue KAspUp (Some (m_hdr m))
    (fset FInfoString (Some (mkParam 4 5 [x61; x62; x63; x64; x65; x66; x67; x68])) (m_f m)).
Theorem C65_lengths_computed_refuted :
  exists x' bs e, value_MarshalBinary edited_asp_up = Ok (x', bs) /\
    val (firstn 4 (skipn 4 bs)) <> N.of_nat (length bs) /\ Parse bs = Err e.
Proof. eexists _, _, _. vm_compute. repeat split; discriminate. Qed.
Print Assumptions C65_lengths_computed_refuted.
(** class and type on the wire are the header's, not those of the Go type *)
Theorem C65_type_on_wire_refuted :
  exists m h x' bs, m = NewAspUp None None /\
    h = mkHeader x01 x00 x04 x01 8 [] /\
    value_MarshalBinary (mkValue (m_kind m) (Some h) (m_f m)) = Ok (x', bs) /\
    MessageClass (Typed m) = x03 /\ nth 2 bs x00 = x04.
Proof. eexists _, _, _, _. vm_compute. repeat split. Qed.
Print Assumptions C65_type_on_wire_refuted.
Example C65_ex : slots_are ASPUP (v_f edited_asp_up)
                   [None; Some (mkParam 4 5 [x61; x62; x63; x64; x65; x66; x67; x68])] /\
  Forall2 slot_ok (rfc_params ASPUP) [None; Some (mkParam 4 5 [x61; x62; x63; x64; x65; x66; x67; x68])].
Proof.
  split.
  - repeat apply Forall2_cons; try apply Forall2_nil; intros f H; destruct f; try discriminate H; reflexivity.
  - repeat apply Forall2_cons; try apply Forall2_nil; try exact I.
    split; [reflexivity|]. apply max_value_len_spec. cbn. lia.
Qed.
Example C65_ex_bytes : exists x' bs x2 x3 bs3,
  value_MarshalBinary edited_asp_up = Ok (x', bs) /\
  bs = [x01; x00; x03; x01; x00; x00; x00; x10; x00; x04; x00; x05; x61; x62; x63; x64; x65; x66; x67; x68] /\
  value_SetLength edited_asp_up = Ok x2 /\ value_MarshalBinary x2 = Ok (x3, bs3) /\
  bs3 = [x01; x00; x03; x01; x00; x00; x00; x14; x00; x04; x00; x0c; x61; x62; x63; x64; x65; x66; x67; x68].
Proof. eexists _, _, _, _, _. vm_compute. repeat split. Qed.

(** * C66: the typed decoders (ParseData, ParseAspUp, ...) *)
Theorem C66_typed_decoders : forall t v r c ty len body,
  (len < 4294967296)%N ->
  (forall l, TLVs body l -> Forall (fun x => In (fst x) (rfc_params t)) l ->
     exists x, value_Parse (go_type t) (packet v r c ty len body) = Ok x /\
       v_kind x = go_type t /\ v_hdr x = Some (mkHeader v r c ty len body) /\
       forall f, fget f (v_f x) =
         if in_dec N.eq_dec (field_tag f) (rfc_params t)
         then last_with (field_tag f) (map (fun x => mkParam (fst x) (N.of_nat (4 + length (snd x))) (snd x)) l)
         else None) /\
  ((~ exists l, TLVs body l /\ Forall (fun x => In (fst x) (rfc_params t)) l) ->
   exists e, value_Parse (go_type t) (packet v r c ty len body) = Err e).
Proof. exact value_Parse_packet. Qed.
Print Assumptions C66_typed_decoders.

(** "a typed decoder refuses packets of another class or type" is false *)
Theorem C66_other_types_refused_refuted :
  exists b x m, value_Parse KAspUp b = Ok x /\ v_kind x = KAspUp /\
    Parse b = Ok (Typed m) /\ m_kind m = KNotify.
Proof.
  exists (packet x01 x00 x00 x01 16 (tlv 17 [x00; x00; x00; x01])).
  eexists _, _. vm_compute. repeat split.
Qed.
Print Assumptions C66_other_types_refused_refuted.
Example C66_ex : TLVs (tlv 17 [x00; x00; x00; x01]) [(17%N, [x00; x00; x00; x01])] /\
  Forall (fun x => In (fst x) (rfc_params NTFY)) [(17%N, [x00; x00; x00; x01])].
Proof.
  split; [|repeat constructor; right; now left].
  pose proof (proj1 (ParseMultiParams_iff (tlv 17 [x00; x00; x00; x01]) [NewAspIdentifier 1])) as H.
  apply H. vm_compute. reflexivity.
Qed.

(** * C67: decoded values share the memory of the buffer given to the decoder *)
Theorem C67_views : forall b,
  match ParseMultiParams b, ParseViews b with
  | Ok ps, Ok ws => ps = map (see b) ws /\ chain 0 ws (length b)
  | Err e, Err e' => e = e'
  | _, _ => False
  end.
Proof. exact views_ok. Qed.
Print Assumptions C67_views.

(** after the caller has overwritten its buffer with [b'], the decoded parameters
    have their old Tag, Length and size and the octets of [b'] *)
Theorem C67_overwritten : forall b b' ps,
  ParseMultiParams b = Ok ps ->
  exists ws, ParseViews b = Ok ws /\ map (see b) ws = ps /\
    (length b' = length b ->
     Forall2 (fun w p => p_tag (see b' w) = p_tag p /\ p_length (see b' w) = p_length p /\
                length (p_data (see b' w)) = length (p_data p) /\
                p_data (see b' w) = firstn (length (p_data p)) (skipn (w_off w) b')) ws ps).
Proof. exact views_overwritten. Qed.
Print Assumptions C67_overwritten.

Theorem C67_independent_copy_refuted :
  exists b b' ws ps, ParseMultiParams b = Ok ps /\ ParseViews b = Ok ws /\ length b' = length b /\
    map (see b) ws = ps /\ map (see b') ws <> ps.
Proof.
  exists (tlv 4 [x61; x62; x63; x64]), (tlv 4 [x61; x62; x63; x65]).
  eexists _, _. vm_compute. repeat split; discriminate.
Qed.
Print Assumptions C67_independent_copy_refuted.
(** two parameters and the buffer overwritten: the views and what they show *)
Example C67_ex : exists ps ws, ParseMultiParams (tlv 4 [x61; x62; x63] ++ tlv 17 [x00; x00; x00; x01]) = Ok ps /\
  ParseViews (tlv 4 [x61; x62; x63] ++ tlv 17 [x00; x00; x00; x01]) = Ok ws /\ map w_off ws = [4; 12] /\
  map p_data ps = [[x61; x62; x63]; [x00; x00; x00; x01]] /\
  map (fun w => p_data (see (repeat xff 16) w)) ws = [[xff; xff; xff]; [xff; xff; xff; xff]] /\
  map p_tag (map (see (repeat xff 16)) ws) = [4; 17]%N.
Proof. eexists _, _. split; [vm_compute; reflexivity|]. split; [vm_compute; reflexivity|]. repeat split; vm_compute; reflexivity. Qed.
