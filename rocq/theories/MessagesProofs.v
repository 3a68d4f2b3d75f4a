(** Proofs about the message codec. *)
From Verif Require Import GoBase ParamsModel MessagesModel WireSpec ParamsSpec MsgSpec
  BaseProofs ParamsProofs AccessorProofs.
From Coq Require Import Arith Lia ZifyBool ZifyNat ZifyN.
Ltac Zify.zify_post_hook ::= Z.div_mod_to_equations.
Open Scope nat_scope.
Opaque max_value_len.

(** ** Header *)
Lemma ParseHeader_short b : length b < 8 -> ParseHeader b = Err EMsgTooShortParse.
Proof. intros H. unfold ParseHeader. replace (length b <? 8) with true by lia. reflexivity. Qed.

Lemma destruct8 (b : list byte) :
  8 <= length b -> exists b0 b1 b2 b3 b4 b5 b6 b7 r,
    b = b0 :: b1 :: b2 :: b3 :: b4 :: b5 :: b6 :: b7 :: r.
Proof.
  intros H. destruct b as [|b0 [|b1 [|b2 [|b3 [|b4 [|b5 [|b6 [|b7 r]]]]]]]]; cbn in H; try lia.
  eauto 20.
Qed.

Lemma ParseHeader_cons b0 b1 b2 b3 b4 b5 b6 b7 r :
  ParseHeader (b0 :: b1 :: b2 :: b3 :: b4 :: b5 :: b6 :: b7 :: r)
  = Ok (mkHeader b0 b1 b2 b3 (val [b4; b5; b6; b7]) r).
Proof.
  unfold ParseHeader. cbn [length].
  replace (S (S (S (S (S (S (S (S (length r)))))))) <? 8) with false by lia.
  unfold index, Uint32. cbn [nth_error bind].
  rewrite !slice_ok by (cbn [length]; lia). cbn [bind Nat.add Nat.sub skipn firstn].
  rewrite get_u32_val, firstn_all2 by lia. reflexivity.
Qed.

Lemma be4_cons n : exists a b c d, be 4 n = [a; b; c; d].
Proof. cbn [be app]. eauto. Qed.

Lemma ParseHeader_packet v r c t len body :
  (len < 4294967296)%N ->
  ParseHeader (packet v r c t len body) = Ok (mkHeader v r c t len body).
Proof.
  intros H. unfold packet. destruct (be4_cons len) as (a & b & c' & d & E). rewrite E. cbn [app].
  rewrite ParseHeader_cons. rewrite <- E, val_be4 by assumption. reflexivity.
Qed.

Lemma ParseHeader_outcome b :
  (exists h, ParseHeader b = Ok h) \/ ParseHeader b = Err EMsgTooShortParse.
Proof.
  destruct (Nat.lt_ge_cases (length b) 8) as [H|H].
  - right. now apply ParseHeader_short.
  - destruct (destruct8 b H) as (b0 & b1 & b2 & b3 & b4 & b5 & b6 & b7 & r & ->).
    rewrite ParseHeader_cons. eauto.
Qed.

Lemma ParseHeader_inv b h :
  ParseHeader b = Ok h ->
  (h_length h < 4294967296)%N /\
  b = packet (h_version h) (h_reserved h) (h_class h) (h_type h) (h_length h) (h_payload h).
Proof.
  intros E. destruct (Nat.lt_ge_cases (length b) 8) as [H|H].
  { rewrite ParseHeader_short in E by assumption. discriminate. }
  destruct (destruct8 b H) as (b0 & b1 & b2 & b3 & b4 & b5 & b6 & b7 & r & ->).
  rewrite ParseHeader_cons in E. injection E as <-.
  cbn [h_version h_reserved h_class h_type h_length h_payload]. split; [apply val4_lt|].
  unfold packet. rewrite be4_inv. reflexivity.
Qed.

Definition hdr_bytes (h : header) : list byte :=
  packet (h_version h) (h_reserved h) (h_class h) (h_type h) (h_length h) (h_payload h).

Lemma packet_length v r c t len body : length (packet v r c t len body) = 8 + length body.
Proof. unfold packet. rewrite !app_length, be_length. reflexivity. Qed.

Lemma Header_MarshalTo_ok h b :
  Header_MarshalLen h <= length b ->
  Header_MarshalTo h b = Ok (hdr_bytes h ++ skipn (Header_MarshalLen h) b).
Proof.
  intros H. unfold Header_MarshalTo. replace (length b <? Header_MarshalLen h) with false by lia.
  assert (H8 : 8 <= length b) by (unfold Header_MarshalLen in H; lia).
  destruct (destruct8 b H8) as (b0 & b1 & b2 & b3 & b4 & b5 & b6 & b7 & r & ->).
  unfold Header_MarshalLen in H. cbn [length] in H.
  pose proof (set_index_at [] (b1 :: b2 :: b3 :: b4 :: b5 :: b6 :: b7 :: r) (h_version h) b0) as E.
  cbn [app length] in E. rewrite E. cbn [bind]. clear E.
  pose proof (set_index_at [h_version h] (b2 :: b3 :: b4 :: b5 :: b6 :: b7 :: r) (h_reserved h) b1) as E.
  cbn [app length] in E. rewrite E. cbn [bind]. clear E.
  pose proof (set_index_at [h_version h; h_reserved h] (b3 :: b4 :: b5 :: b6 :: b7 :: r) (h_class h) b2) as E.
  cbn [app length] in E. rewrite E. cbn [bind]. clear E.
  pose proof (set_index_at [h_version h; h_reserved h; h_class h] (b4 :: b5 :: b6 :: b7 :: r) (h_type h) b3) as E.
  cbn [app length] in E. rewrite E. cbn [bind]. clear E.
  pose proof (PutUint32_at [h_version h; h_reserved h; h_class h; h_type h] r (h_length h) b4 b5 b6 b7) as E.
  cbn [app length] in E. rewrite E. cbn [bind]. clear E.
  unfold copy_at. cbn [app length]. rewrite app_length, be_length.
  replace (8 <=? Header_MarshalLen h) with true by (unfold Header_MarshalLen; lia).
  replace (Header_MarshalLen h <=? S (S (S (S (4 + length r))))) with true
    by (unfold Header_MarshalLen; lia).
  cbn [andb]. f_equal. rewrite firstn_all2 by (unfold Header_MarshalLen; lia).
  unfold splice, hdr_bytes, packet, Header_MarshalLen.
  cbn [be app firstn Nat.add skipn]. reflexivity.
Qed.

(** ** Writing parameters *)
Definition pwire (p : param) : list byte :=
  be 2 (p_tag p) ++ be 2 (p_length p) ++ p_data p ++ repeat x00 (pad_len (length (p_data p))).

Lemma pwire_length p : length (pwire p) = MarshalLen p.
Proof.
  unfold pwire, MarshalLen. rewrite Padding_pad, !app_length, !be_length, repeat_length. lia.
Qed.

Lemma pwire_wf p : wf_param p -> pwire p = tlv (p_tag p) (p_data p).
Proof. intros (_ & _ & H). unfold pwire. rewrite H. reflexivity. Qed.

Lemma MarshalTo_zeros p n :
  MarshalLen p <= n -> MarshalTo p (zeros n) = Ok (pwire p ++ zeros (n - MarshalLen p)).
Proof.
  intros H. rewrite MarshalTo_ok by (now rewrite zeros_length). f_equal. unfold pwire.
  rewrite <- !app_assoc. do 3 f_equal. rewrite skipn_zeros. unfold zeros. rewrite <- repeat_app.
  f_equal. unfold MarshalLen in *. rewrite Padding_pad in *. lia.
Qed.

Definition sum_len (ps : list (option param)) : nat :=
  fold_right (fun o n => opt_len o + n) 0 ps.

Lemma marshal_params_ok ps : forall pre n,
  sum_len ps <= n ->
  marshal_params ps (pre ++ zeros n) (length pre)
  = Ok (pre ++ concat (map pwire (present ps)) ++ zeros (n - sum_len ps)).
Proof.
  induction ps as [|[p|] ps IH]; intros pre n H; cbn [marshal_params present flat_map map concat app].
  - cbn [sum_len fold_right]. rewrite Nat.sub_0_r. reflexivity.
  - cbn [sum_len fold_right opt_len] in H. fold (sum_len ps) in H.
    rewrite slice_full by (rewrite app_length; lia). cbn [bind].
    rewrite skipn_app, skipn_all, Nat.sub_diag. cbn [skipn app].
    rewrite MarshalTo_zeros by lia. cbn [bind].
    rewrite firstn_app, firstn_all, Nat.sub_diag. cbn [firstn]. rewrite app_nil_r.
    rewrite app_assoc. replace (length pre + MarshalLen p) with (length (pre ++ pwire p))
      by (rewrite app_length, pwire_length; lia).
    rewrite IH by lia. rewrite <- !app_assoc. do 4 f_equal. cbn [sum_len fold_right opt_len].
    fold (sum_len ps). f_equal. lia.
  - cbn [sum_len fold_right opt_len Nat.add] in *. fold (sum_len ps) in *. now apply IH.
Qed.

Lemma sum_len_length ps : sum_len ps = length (concat (map pwire (present ps))).
Proof.
  induction ps as [|[p|] ps IH]; cbn [sum_len fold_right opt_len present flat_map app map concat].
  - reflexivity.
  - fold (sum_len ps). rewrite app_length, pwire_length, IH. reflexivity.
  - exact IH.
Qed.

Definition slots_of (m : msg) : list (option param) :=
  map (fun f => fget f (m_f m)) (marshal_order (m_kind m)).

Lemma len_is_order k : len_fields k = marshal_order k.
Proof. now destruct k. Qed.
Lemma setlen_is_order k : setlen_fields k = marshal_order k.
Proof. now destruct k. Qed.

Lemma fold_len_acc (g : field -> nat) l : forall a,
  fold_left (fun n f => n + g f) l a = a + fold_right (fun f n => g f + n) 0 l.
Proof. induction l as [|x l IH]; intros a; cbn; [lia|]. rewrite IH. lia. Qed.

Lemma msg_MarshalLen_sum m : msg_MarshalLen m = 8 + sum_len (slots_of m).
Proof.
  unfold msg_MarshalLen. rewrite len_is_order, fold_len_acc. f_equal. unfold slots_of.
  induction (marshal_order (m_kind m)) as [|f l IH]; [reflexivity|].
  cbn [map sum_len fold_right]. rewrite IH. reflexivity.
Qed.

Definition m_body (m : msg) : list byte := concat (map pwire (present (slots_of m))).

Lemma msg_MarshalTo_ok m b :
  msg_MarshalLen m <= length b ->
  let h := set_payload (m_hdr m) (m_body m) in
  msg_MarshalTo m b =
  Ok (mkMsg (m_kind m) h (m_f m), hdr_bytes h ++ skipn (msg_MarshalLen m) b).
Proof.
  intros H h. unfold msg_MarshalTo. replace (length b <? msg_MarshalLen m) with false by lia.
  fold (slots_of m).
  pose proof (msg_MarshalLen_sum m) as E.
  pose proof (marshal_params_ok (slots_of m) [] (msg_MarshalLen m - 8)) as P.
  cbn [app length] in P. rewrite P by lia. clear P. cbn [bind].
  replace (msg_MarshalLen m - 8 - sum_len (slots_of m)) with 0 by lia.
  cbn [zeros repeat]. rewrite app_nil_r. fold (m_body m). fold h.
  assert (HL : Header_MarshalLen h = msg_MarshalLen m).
  { unfold Header_MarshalLen, h, set_payload, m_body. cbn [h_payload]. rewrite <- sum_len_length. lia. }
  rewrite Header_MarshalTo_ok by lia. cbn [bind]. rewrite HL. reflexivity.
Qed.

Lemma msg_MarshalTo_short m b :
  length b < msg_MarshalLen m -> msg_MarshalTo m b = Err EMsgTooShortMarshal.
Proof. intros H. unfold msg_MarshalTo. replace (length b <? msg_MarshalLen m) with true by lia. reflexivity. Qed.

Lemma msg_MarshalBinary_ok m :
  let h := set_payload (m_hdr m) (m_body m) in
  m3_MarshalBinary (Typed m) = Ok (Typed (mkMsg (m_kind m) h (m_f m)), hdr_bytes h).
Proof.
  intros h. unfold m3_MarshalBinary. cbn [m3_MarshalLen m3_MarshalTo].
  rewrite msg_MarshalTo_ok by (rewrite zeros_length; lia). cbn [bind].
  rewrite skipn_all2 by (rewrite zeros_length; lia). rewrite app_nil_r. reflexivity.
Qed.

(** ** Struct fields *)
Lemma field_eq_dec (a b : field) : {a = b} + {a <> b}.
Proof. decide equality. Defined.

Lemma fget_fset_same f v s : fget f (fset f v s) = v.
Proof. destruct s, f; reflexivity. Qed.

Lemma fget_fset_other f g v s : f <> g -> fget f (fset g v s) = fget f s.
Proof. destruct s, f, g; intros H; try reflexivity; now contradiction H. Qed.

Lemma fields_ext a b : (forall f, fget f a = fget f b) -> a = b.
Proof.
  intros H. destruct a, b.
  pose proof (H FNetworkAppearance) as E0. cbn in E0. subst.
  pose proof (H FRoutingContext) as E1. cbn in E1. subst.
  pose proof (H FProtocolData) as E2. cbn in E2. subst.
  pose proof (H FCorrelationID) as E3. cbn in E3. subst.
  pose proof (H FAffectedPointCode) as E4. cbn in E4. subst.
  pose proof (H FInfoString) as E5. cbn in E5. subst.
  pose proof (H FConcernedDestination) as E6. cbn in E6. subst.
  pose proof (H FCongestionIndications) as E7. cbn in E7. subst.
  pose proof (H FUserCause) as E8. cbn in E8. subst.
  pose proof (H FAspIdentifier) as E9. cbn in E9. subst.
  pose proof (H FHeartbeatData) as E10. cbn in E10. subst.
  pose proof (H FTrafficModeType) as E11. cbn in E11. subst.
  pose proof (H FErrorCode) as E12. cbn in E12. subst.
  pose proof (H FDiagnosticInformation) as E13. cbn in E13. subst.
  pose proof (H FStatus) as E14. cbn in E14. subst.
  reflexivity.
Qed.

Lemma fget_no f : fget f no_fields = None.
Proof. now destruct f. Qed.

Lemma field_tag_inj f g : field_tag f = field_tag g -> f = g.
Proof. destruct f, g; intros H; try reflexivity; discriminate H. Qed.

Lemma field_tag_lt f : (field_tag f < 65536)%N.
Proof. destruct f; reflexivity. Qed.

(** the RFC table and the code's tables agree *)
Lemma rfc_order t : map field_tag (marshal_order (go_type t)) = rfc_params t.
Proof. now destruct t. Qed.
Lemma rfc_kclass t : kind_class (go_type t) = rfc_class t.
Proof. now destruct t. Qed.
Lemma rfc_ktype t : kind_type (go_type t) = rfc_type t.
Proof. now destruct t. Qed.
Lemma go_type_surj k : exists t, go_type t = k.
Proof.
  destruct k;
    [exists DATA|exists DUNA|exists DAVA|exists DAUD|exists SCON|exists DUPU|exists DRST
    |exists ASPUP|exists ASPDN|exists BEAT|exists ASPUP_ACK|exists ASPDN_ACK|exists BEAT_ACK
    |exists ASPAC|exists ASPAC_ACK|exists ASPIA|exists ASPIA_ACK|exists ERR|exists NTFY]; reflexivity.
Qed.

Lemma lookup_order k tag f :
  lookup_case tag (unmarshal_cases k) = Some f <-> In f (marshal_order k) /\ tag = field_tag f.
Proof.
  assert (G : forall cs, lookup_case tag cs = Some f -> In (tag, f) cs).
  { induction cs as [|[t g] cs IH]; cbn; intros H; [discriminate|].
    destruct (tag =? t)%N eqn:E; [left; injection H as ->; f_equal; lia|right; auto]. }
  split.
  - intros H. apply G in H. clear G. destruct k; cbn in H |- *;
      repeat (destruct H as [H|H]; [injection H as <- <-; auto 10|]); contradiction.
  - intros [H ->]. clear G.
    destruct k; cbn in H; repeat (destruct H as [H|H]; [subst f; reflexivity|]); contradiction.
Qed.

Lemma lookup_none k tag :
  lookup_case tag (unmarshal_cases k) = None <-> ~ In tag (map field_tag (marshal_order k)).
Proof.
  split.
  - intros H HI. apply in_map_iff in HI as (f & <- & Hf).
    assert (E : lookup_case (field_tag f) (unmarshal_cases k) = Some f) by (apply lookup_order; auto).
    congruence.
  - intros H. destruct (lookup_case tag (unmarshal_cases k)) as [f|] eqn:E; [|reflexivity].
    apply lookup_order in E as [E ->]. contradiction H. apply in_map_iff. eauto.
Qed.

(** ** Decoding into struct fields *)
Definition merge (k : kind) (s : fields) (ps : list param) (f : field) : option param :=
  match last_with (field_tag f) ps with
  | Some p => Some p
  | None => fget f s
  end.

Lemma last_with_cons tag p ps :
  last_with tag (p :: ps) =
  match last_with tag ps with
  | Some q => Some q
  | None => if (p_tag p =? tag)%N then Some p else None
  end.
Proof.
  unfold last_with. cbn [rev]. induction (rev ps) as [|q l IH]; cbn [app find].
  - destruct (p_tag p =? tag)%N; reflexivity.
  - destruct (p_tag q =? tag)%N; [reflexivity|exact IH].
Qed.

Lemma assign_all_ok k ps : forall s,
  Forall (fun p => In (p_tag p) (map field_tag (marshal_order k))) ps ->
  exists s', assign_all k s ps = Ok s' /\
    forall f, fget f s' = if in_dec field_eq_dec f (marshal_order k) then merge k s ps f else fget f s.
Proof.
  induction ps as [|p ps IH]; intros s H.
  - exists s. split; [reflexivity|]. intros f. unfold merge. cbn.
    destruct (in_dec field_eq_dec f (marshal_order k)); reflexivity.
  - inversion H as [|? ? Hp Hps]; subst. cbn [assign_all].
    destruct (lookup_case (p_tag p) (unmarshal_cases k)) as [g|] eqn:E.
    2:{ apply lookup_none in E. contradiction. }
    apply lookup_order in E as [Eg Et].
    destruct (IH (fset g (Some p) s) Hps) as (s' & E' & F'). exists s'. split; [exact E'|].
    intros f. rewrite F'. unfold merge. rewrite last_with_cons.
    destruct (in_dec field_eq_dec f (marshal_order k)) as [HI|HI].
    + destruct (last_with (field_tag f) ps); [reflexivity|].
      destruct (field_eq_dec f g) as [->|Hn].
      * rewrite fget_fset_same. replace (p_tag p =? field_tag g)%N with true by lia. reflexivity.
      * rewrite fget_fset_other by assumption.
        destruct (p_tag p =? field_tag f)%N eqn:E2; [|reflexivity].
        exfalso. apply Hn, field_tag_inj. lia.
    + apply fget_fset_other. intros ->. contradiction.
Qed.

Lemma assign_all_err k ps : forall s,
  ~ Forall (fun p => In (p_tag p) (map field_tag (marshal_order k))) ps ->
  assign_all k s ps = Err EMsgInvalidParameter.
Proof.
  induction ps as [|p ps IH]; intros s H; cbn [assign_all]; [contradiction H; constructor|].
  destruct (lookup_case (p_tag p) (unmarshal_cases k)) as [g|] eqn:E; [|reflexivity].
  apply IH. intros HF. apply H. constructor; [|exact HF].
  apply lookup_order in E as [Eg ->]. now apply in_map.
Qed.

Lemma allowed_dec k ps :
  {Forall (fun p => In (p_tag p) (map field_tag (marshal_order k))) ps}
  + {~ Forall (fun p => In (p_tag p) (map field_tag (marshal_order k))) ps}.
Proof. apply Forall_dec. intros p. apply in_dec, N.eq_dec. Qed.

(** ** Dispatch *)
Lemma all_bytes_in b : In b all_bytes.
Proof.
  unfold all_bytes. apply in_map_iff. exists (N.to_nat (b2n b)). split.
  - rewrite N2Nat.id. apply n2b_b2n.
  - apply in_seq. pose proof (b2n_lt b). lia.
Qed.

Lemma byte_sweep (P : byte -> bool) : forallb P all_bytes = true -> forall b, P b = true.
Proof. intros H b. apply (proj1 (forallb_forall P all_bytes) H), all_bytes_in. Qed.

Lemma byte_sweep2 (P : byte -> byte -> bool) :
  forallb (fun a => forallb (P a) all_bytes) all_bytes = true -> forall a b, P a b = true.
Proof. intros H a. apply byte_sweep. exact (byte_sweep _ H a). Qed.

Lemma dispatch_kind k : dispatch (kind_class k) (kind_type k) = Some k.
Proof. now destruct k. Qed.

Lemma dispatch_iff c t k :
  dispatch c t = Some k <-> combine c t = combine (kind_class k) (kind_type k).
Proof.
  unfold dispatch. split.
  - intros H. apply find_some in H as [_ H]. lia.
  - intros H. rewrite H. fold (dispatch (kind_class k) (kind_type k)). apply dispatch_kind.
Qed.

Lemma combine_kind k : combine (kind_class k) (kind_type k) = (16 * b2n (kind_class k) + b2n (kind_type k))%N.
Proof. now destruct k. Qed.

Lemma combine_eq c t : combine c t = N.lor ((16 * b2n c) mod 256) (b2n t).
Proof. unfold combine. rewrite N.shiftl_mul_pow2. change (2 ^ 4)%N with 16%N. f_equal. f_equal. lia. Qed.

Lemma dispatch_spec c t mt :
  dispatch c t = Some (go_type mt) <->
  N.lor ((16 * b2n c) mod 256) (b2n t) = (16 * b2n (rfc_class mt) + b2n (rfc_type mt))%N.
Proof. rewrite dispatch_iff, combine_kind, combine_eq, rfc_kclass, rfc_ktype. reflexivity. Qed.

Lemma dispatch_small_none c t :
  (b2n c < 16)%N -> (b2n t < 16)%N ->
  (forall mt, (c, t) <> (rfc_class mt, rfc_type mt)) -> dispatch c t = None.
Proof.
  intros Hc Ht H. destruct (dispatch c t) as [k|] eqn:E; [|reflexivity]. exfalso.
  destruct (go_type_surj k) as [mt <-].
  apply dispatch_iff in E.
  pose proof (byte_sweep2 (fun c t =>
    if ((b2n c <? 16) && (b2n t <? 16))%N
    then (combine c t =? 16 * b2n c + b2n t)%N else true)) as S.
  specialize (S ltac:(vm_compute; reflexivity) c t). cbn beta in S.
  replace ((b2n c <? 16) && (b2n t <? 16))%N with true in S by lia.
  apply N.eqb_eq in S. rewrite S, combine_kind in E.
  apply (H mt). rewrite <- rfc_kclass, <- rfc_ktype.
  assert (b2n (kind_type (go_type mt)) < 16)%N by (destruct mt; reflexivity).
  f_equal; apply b2n_inj; lia.
Qed.

(** ** Parse *)
Lemma Parse_short b : length b < 8 -> Parse b = Err EMsgTooShortParse.
Proof.
  intros H. unfold Parse. destruct (length b <? 4) eqn:E; [reflexivity|].
  destruct b as [|b0 [|b1 [|b2 [|b3 r]]]]; cbn in E; try discriminate.
  unfold index. cbn [nth_error bind].
  destruct (dispatch b2 b3); unfold msg_Unmarshal, gen_Unmarshal;
    rewrite ParseHeader_short by assumption; reflexivity.
Qed.

Lemma Parse_packet v r c t len body :
  (len < 4294967296)%N ->
  Parse (packet v r c t len body) =
  let h := mkHeader v r c t len body in
  let! ps := ParseMultiParams body in
  match dispatch c t with
  | Some k => let! fs := assign_all k no_fields ps in Ok (Typed (mkMsg k h fs))
  | None => Ok (Gen (mkGeneric h ps))
  end.
Proof.
  intros H. unfold Parse. rewrite packet_length. replace (8 + length body <? 4) with false by lia.
  cbv zeta. unfold index.
  replace (nth_error (packet v r c t len body) 2) with (Some c) by reflexivity.
  replace (nth_error (packet v r c t len body) 3) with (Some t) by reflexivity. cbn [bind].
  unfold msg_Unmarshal, gen_Unmarshal. rewrite ParseHeader_packet by assumption. cbn [bind h_payload].
  destruct (dispatch c t) as [k|].
  - destruct (ParseMultiParams body) as [ps| |]; cbn [bind]; [|reflexivity|reflexivity].
    destruct (assign_all k no_fields ps); reflexivity.
  - destruct (ParseMultiParams body) as [ps| |]; reflexivity.
Qed.

Lemma Parse_outcome b :
  (exists m, Parse b = Ok m) \/
  (exists e, Parse b = Err e /\
     In e [EMsgTooShortParse; EMsgInvalidParameter; EParamTooShortParse; EParamInvalidLength]).
Proof.
  destruct (Nat.lt_ge_cases (length b) 8) as [H|H].
  { right. exists EMsgTooShortParse. split; [now apply Parse_short|cbn; auto]. }
  destruct (destruct8 b H) as (b0 & b1 & b2 & b3 & b4 & b5 & b6 & b7 & r & ->).
  pose proof (ParseHeader_cons b0 b1 b2 b3 b4 b5 b6 b7 r) as E.
  apply ParseHeader_inv in E as [E1 E2]. cbn [h_version h_reserved h_class h_type h_length h_payload] in *.
  rewrite E2, Parse_packet by assumption. cbv zeta.
  destruct (ParseMultiParams_outcome r) as [[ps ->]|[-> | ->]]; cbn [bind].
  - destruct (dispatch b2 b3) as [k|]; [|left; eauto].
    destruct (allowed_dec k ps) as [A|A].
    + destruct (assign_all_ok k ps no_fields A) as (s & -> & _). cbn [bind]. left; eauto.
    + rewrite (assign_all_err k ps no_fields A). cbn [bind]. right. eexists. split; [reflexivity|cbn; auto].
  - right. eexists. split; [reflexivity|cbn; auto].
  - right. eexists. split; [reflexivity|cbn; auto].
Qed.

(** ** Round trip *)
Definition setlen_fs (k : kind) (fs : fields) : fields :=
  fold_left (fun s f => fset f (option_map SetLength (fget f s)) s) (setlen_fields k) fs.

Lemma SetLength_idem p : SetLength (SetLength p) = SetLength p.
Proof. reflexivity. Qed.

Lemma setlen_get l : forall fs f,
  fget f (fold_left (fun s f => fset f (option_map SetLength (fget f s)) s) l fs)
  = if in_dec field_eq_dec f l then option_map SetLength (fget f fs) else fget f fs.
Proof.
  induction l as [|g l IH]; intros fs f; cbn [fold_left].
  - reflexivity.
  - rewrite IH. destruct (field_eq_dec g f) as [->|Hn].
    + rewrite fget_fset_same.
      destruct (in_dec field_eq_dec f (f :: l)) as [_|n]; [|contradiction n; now left].
      destruct (in_dec field_eq_dec f l); [|reflexivity].
      destruct (fget f fs); reflexivity.
    + rewrite fget_fset_other by congruence.
      destruct (in_dec field_eq_dec f l) as [i|n];
        destruct (in_dec field_eq_dec f (g :: l)) as [i'|n']; try reflexivity.
      * contradiction n'. now right.
      * destruct i'; congruence.
Qed.

(** what the constructors guarantee of their fields *)
Definition fits (t : mtype) (fs : fields) : Prop :=
  (forall f, In f (marshal_order (go_type t)) -> slot_ok (field_tag f) (fget f fs)) /\
  (forall f, ~ In f (marshal_order (go_type t)) -> fget f fs = None).

Lemma present_map_set l fs :
  present (map (fun f => option_map SetLength (fget f fs)) l)
  = map SetLength (present (map (fun f => fget f fs) l)).
Proof.
  induction l as [|f l IH]; [reflexivity|]. cbn [map present flat_map].
  unfold present in IH. rewrite IH, map_app. destruct (fget f fs); reflexivity.
Qed.

Lemma tv_SetLength p : tv (SetLength p) = tv p.
Proof. reflexivity. Qed.

Lemma body_set ps : body_of (map tv (map SetLength ps)) = body_of (map tv ps).
Proof. rewrite map_map. reflexivity. Qed.

Lemma pwire_body ps : Forall wf_param ps -> concat (map pwire ps) = body_of (map tv ps).
Proof.
  induction 1 as [|p ps Hp _ IH]; [reflexivity|]. cbn [map concat]. rewrite pwire_wf, IH by assumption.
  reflexivity.
Qed.

Lemma present_wf l fs :
  (forall f, In f l -> slot_ok (field_tag f) (fget f fs)) ->
  Forall wf_param (map SetLength (present (map (fun f => fget f fs) l))).
Proof.
  induction l as [|f l IH]; intros H; [constructor|]. cbn [map present flat_map].
  rewrite map_app. apply Forall_app. split; [|apply IH; intros; apply H; now right].
  specialize (H f (or_introl eq_refl)). destruct (fget f fs) as [p|]; [|constructor].
  destruct H as [H1 H2]. constructor; [|constructor].
  apply SetLength_wf; [rewrite H1; apply field_tag_lt|exact H2].
Qed.

Lemma present_last l fs f :
  NoDup l -> (forall g, In g l -> tagged (field_tag g) (fget g fs)) ->
  last_with (field_tag f) (map SetLength (present (map (fun f => fget f fs) l)))
  = if in_dec field_eq_dec f l then option_map SetLength (fget f fs) else None.
Proof.
  induction l as [|g l IH]; intros ND H; [reflexivity|].
  inversion ND as [|? ? Hn ND']; subst.
  specialize (IH ND' (fun g i => H g (or_intror i))).
  pose proof (H g (or_introl eq_refl)) as Hg.
  cbn [map present flat_map].
  destruct (fget g fs) as [p|] eqn:Eg; cbn [tagged] in Hg.
  - cbn [app map]. rewrite last_with_cons. unfold present in IH. rewrite IH.
    cbn [SetLength p_tag]. rewrite Hg.
    destruct (field_eq_dec g f) as [->|Hgf].
    + destruct (in_dec field_eq_dec f l) as [i|n]; [contradiction|].
      destruct (in_dec field_eq_dec f (f :: l)) as [_|n']; [|contradiction n'; now left].
      rewrite N.eqb_refl, Eg. reflexivity.
    + replace (field_tag g =? field_tag f)%N with false.
      2:{ destruct (field_tag g =? field_tag f)%N eqn:E; [|reflexivity].
          apply N.eqb_eq, field_tag_inj in E. contradiction. }
      destruct (in_dec field_eq_dec f l) as [i|n];
        destruct (in_dec field_eq_dec f (g :: l)) as [i'|n'];
        try (contradiction n'; now right); try (destruct i'; congruence); try reflexivity.
      destruct (fget f fs); reflexivity.
  - cbn [app]. unfold present in IH. rewrite IH.
    destruct (field_eq_dec g f) as [->|Hgf].
    + destruct (in_dec field_eq_dec f l) as [i|n]; [contradiction|].
      destruct (in_dec field_eq_dec f (f :: l)); rewrite ?Eg; reflexivity.
    + destruct (in_dec field_eq_dec f l) as [i|n];
        destruct (in_dec field_eq_dec f (g :: l)) as [i'|n'];
        try (contradiction n'; now right); try (destruct i'; congruence); reflexivity.
Qed.

Lemma order_nodup k : NoDup (marshal_order k).
Proof.
  destruct k; cbn; repeat (constructor; [cbn; intuition discriminate|]); constructor.
Qed.

Lemma order_short k : length (marshal_order k) <= 6.
Proof. destruct k; cbn; lia. Qed.

Lemma tlv_bound t v : length v <= max_value_len -> (N.of_nat (length (tlv t v)) <= 65536)%N.
Proof.
  intros H. rewrite tlv_length. apply max_value_len_spec in H.
  unfold pad_len. lia.
Qed.

Lemma body_bound ps n :
  Forall wf_param ps -> length ps <= n -> (N.of_nat (length (body_of (map tv ps))) <= 65536 * N.of_nat n)%N.
Proof.
  intros H. revert n. induction H as [|p ps (_ & Hd & _) _ IH]; intros n Hn; [cbn; lia|].
  destruct n as [|n]; [cbn in Hn; lia|]. specialize (IH n ltac:(cbn in Hn; lia)).
  cbn [map]. unfold body_of in *. cbn [map concat]. rewrite app_length.
  pose proof (tlv_bound (fst (tv p)) (snd (tv p)) Hd). lia.
Qed.

Lemma present_length ps : length (present ps) <= length ps.
Proof.
  unfold present. induction ps as [|[p|] ps IH]; cbn [flat_map app length]; [reflexivity|lia|lia].
Qed.

Lemma has_params_intro t fs hdr :
  (forall f, ~ In f (marshal_order (go_type t)) -> fget f fs = None) ->
  has_params t (map (fun f => fget f fs) (marshal_order (go_type t))) (mkMsg (go_type t) hdr fs).
Proof.
  intros H. split; [reflexivity|]. cbn [m_f]. split.
  - rewrite <- rfc_order. generalize (marshal_order (go_type t)) as l.
    induction l as [|f l IH]; cbn [map]; constructor; [|exact IH].
    intros g Hg. apply field_tag_inj in Hg. now subst.
  - intros f Hf. apply H. intros HI. apply Hf. rewrite <- rfc_order. now apply in_map.
Qed.

Lemma new_roundtrips t fs :
  fits t fs ->
  roundtrips t (map (fun f => fget f fs) (marshal_order (go_type t))) (new_msg (go_type t) fs).
Proof.
  intros [F1 F2]. unfold roundtrips, body_for.
  set (k := go_type t) in *. set (slots := map (fun f => fget f fs) (marshal_order k)).
  set (fs' := setlen_fs k fs).
  set (ps := map SetLength (present slots)).
  assert (G : forall f, fget f fs' = option_map SetLength (fget f fs)).
  { intros f. unfold fs', setlen_fs. rewrite setlen_get, setlen_is_order.
    destruct (in_dec field_eq_dec f (marshal_order k)) as [i|n]; [reflexivity|].
    rewrite F2 by assumption. reflexivity. }
  assert (SL : slots_of (new_msg k fs) = map (fun f => option_map SetLength (fget f fs)) (marshal_order k)).
  { unfold slots_of, new_msg, msg_SetLength. cbn [m_kind m_f]. apply map_ext. intros f. apply G. }
  assert (W : Forall wf_param ps) by (apply present_wf; exact F1).
  assert (PS : present (slots_of (new_msg k fs)) = ps) by (rewrite SL; apply present_map_set).
  assert (B : m_body (new_msg k fs) = body_of (map tv (present slots))).
  { unfold m_body. rewrite PS, pwire_body by exact W. apply body_set. }
  set (body := body_of (map tv (present slots))) in *.
  assert (LB : (N.of_nat (length body) <= 65536 * 6)%N).
  { replace 6%N with (N.of_nat 6) by reflexivity. unfold body. rewrite <- body_set.
    apply body_bound; [exact W|]. rewrite map_length. unfold slots.
    etransitivity; [apply present_length|]. rewrite map_length. apply order_short. }
  assert (ML : msg_MarshalLen (new_msg k fs) = 8 + length body).
  { rewrite msg_MarshalLen_sum, sum_len_length. fold (m_body (new_msg k fs)). rewrite B. reflexivity. }
  assert (HL : h_length (m_hdr (new_msg k fs)) = N.of_nat (8 + length body)).
  { transitivity (u32 (N.of_nat (msg_MarshalLen (new_msg k fs)))).
    - unfold new_msg, msg_SetLength. cbn [m_hdr h_length]. unfold msg_MarshalLen. reflexivity.
    - rewrite ML. apply u32_small. lia. }
  pose proof (msg_MarshalBinary_ok (new_msg k fs)) as MB. cbv zeta in MB. rewrite B in MB.
  set (h := set_payload (m_hdr (new_msg k fs)) body) in *.
  assert (HB : hdr_bytes h = packet x01 x00 (rfc_class t) (rfc_type t) (N.of_nat (8 + length body)) body).
  { unfold hdr_bytes, h, set_payload. cbn [h_version h_reserved h_class h_type h_length h_payload].
    rewrite HL. unfold new_msg, msg_SetLength.
    cbn [m_hdr h_version h_reserved h_class h_type].
    unfold k. rewrite rfc_kclass, rfc_ktype. reflexivity. }
  assert (FS : m_f (new_msg k fs) = fs') by reflexivity.
  exists (mkMsg k h fs').
  split.
  { rewrite MB, HB, FS. reflexivity. }
  split.
  { cbn [m3_MarshalLen]. rewrite ML, packet_length. reflexivity. }
  split.
  - rewrite Parse_packet by lia. cbv zeta.
    assert (PM : ParseMultiParams body = Ok ps).
    { unfold body. rewrite <- body_set. fold ps.
      rewrite (TLVs_ok _ _ (TLVs_body _ (wf_tv _ W))). now rewrite map_mk_tv. }
    rewrite PM. cbn [bind]. rewrite <- rfc_kclass, <- rfc_ktype. fold k. rewrite dispatch_kind.
    assert (A : Forall (fun p => In (p_tag p) (map field_tag (marshal_order k))) ps).
    { unfold ps, slots. clear - F1. revert F1.
      assert (Q : forall l, (forall f, In f l -> In f (marshal_order k)) ->
         (forall f, In f (marshal_order k) -> slot_ok (field_tag f) (fget f fs)) ->
         Forall (fun p => In (p_tag p) (map field_tag (marshal_order k)))
                (map SetLength (present (map (fun f => fget f fs) l)))).
      { induction l as [|f l IH]; intros Hl F1; [constructor|]. cbn [map present flat_map].
        rewrite map_app. apply Forall_app. split; [|apply IH; [intros; apply Hl; now right|exact F1]].
        specialize (F1 f (Hl f (or_introl eq_refl))).
        destruct (fget f fs) as [p|]; [|constructor]. destruct F1 as [F1 _].
        constructor; [|constructor]. cbn [SetLength p_tag]. rewrite F1. apply in_map, Hl. now left. }
      apply Q. auto. }
    destruct (assign_all_ok k ps no_fields A) as (s' & -> & FG). cbn [bind].
    assert (FE : s' = fs').
    { apply fields_ext. intros f. rewrite FG, G. unfold merge. rewrite fget_no.
      destruct (in_dec field_eq_dec f (marshal_order k)) as [i|n].
      - unfold ps, slots. rewrite present_last.
        + destruct (in_dec field_eq_dec f (marshal_order k)); [|contradiction].
          destruct (fget f fs); reflexivity.
        + apply order_nodup.
        + intros g Hg. specialize (F1 g Hg). destruct (fget g fs); [apply F1|exact I].
      - now rewrite F2. }
    rewrite FE. unfold h, set_payload. rewrite HL. reflexivity.
  - replace (map (option_map SetLength) slots) with (map (fun f => fget f fs') (marshal_order k)).
    + apply has_params_intro. intros f Hf. rewrite G, F2 by exact Hf. reflexivity.
    + unfold slots. rewrite map_map. apply map_ext. intros f. apply G.
Qed.
