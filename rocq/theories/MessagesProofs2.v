(** Proofs about the message codec, continued: each constructor, parsing of
    arbitrary parameter lists, re-encoding, generic messages. *)
From Verif Require Import GoBase ParamsModel MessagesModel WireSpec ParamsSpec MsgSpec
  BaseProofs ParamsProofs AccessorProofs MessagesProofs.
From Coq Require Import Arith Lia ZifyBool ZifyNat ZifyN.
Ltac Zify.zify_post_hook ::= Z.div_mod_to_equations.
Open Scope nat_scope.
Opaque max_value_len.

Ltac inv_f2 :=
  repeat match goal with
  | H : Forall2 _ (_ :: _) (_ :: _) |- _ => inversion H; subst; clear H
  | H : Forall2 _ [] _ |- _ => clear H
  end.

Ltac ctor t fs :=
  match goal with
  | |- Forall2 _ _ _ -> _ =>
      let H := fresh in intros H; unfold rfc_params in H; cbn [rfc snd] in H; inv_f2
  end;
  refine (new_roundtrips t (with_fields fs) _);
  split; intros f Hf; destruct f; cbn in Hf |- *; try assumption;
  try reflexivity; try (exfalso; intuition discriminate); try (exfalso; tauto).

Lemma NewData_rt na rc pd cid :
  Forall2 slot_ok (rfc_params DATA) [na; rc; pd; cid] ->
  roundtrips DATA [na; rc; pd; cid] (NewData na rc pd cid).
Proof.
  ctor DATA [(FNetworkAppearance, na); (FRoutingContext, rc); (FProtocolData, pd); (FCorrelationID, cid)].
Qed.

Lemma NewDUNA_rt na rc apc info :
  Forall2 slot_ok (rfc_params DUNA) [na; rc; apc; info] ->
  roundtrips DUNA [na; rc; apc; info] (NewDestinationUnavailable na rc apc info).
Proof. ctor DUNA [(FNetworkAppearance, na); (FRoutingContext, rc); (FAffectedPointCode, apc); (FInfoString, info)]. Qed.

Lemma NewDAVA_rt na rc apc info :
  Forall2 slot_ok (rfc_params DAVA) [na; rc; apc; info] ->
  roundtrips DAVA [na; rc; apc; info] (NewDestinationAvailable na rc apc info).
Proof. ctor DAVA [(FNetworkAppearance, na); (FRoutingContext, rc); (FAffectedPointCode, apc); (FInfoString, info)]. Qed.

Lemma NewDAUD_rt na rc apc info :
  Forall2 slot_ok (rfc_params DAUD) [na; rc; apc; info] ->
  roundtrips DAUD [na; rc; apc; info] (NewDestinationStateAudit na rc apc info).
Proof. ctor DAUD [(FNetworkAppearance, na); (FRoutingContext, rc); (FAffectedPointCode, apc); (FInfoString, info)]. Qed.

Lemma NewDRST_rt na rc apc info :
  Forall2 slot_ok (rfc_params DRST) [na; rc; apc; info] ->
  roundtrips DRST [na; rc; apc; info] (NewDestinationRestricted na rc apc info).
Proof. ctor DRST [(FNetworkAppearance, na); (FRoutingContext, rc); (FAffectedPointCode, apc); (FInfoString, info)]. Qed.

Lemma NewSCON_rt na rc apc cdst ind info :
  Forall2 slot_ok (rfc_params SCON) [na; rc; apc; cdst; ind; info] ->
  roundtrips SCON [na; rc; apc; cdst; ind; info] (NewSignallingCongestion na rc apc cdst ind info).
Proof.
  ctor SCON [(FNetworkAppearance, na); (FRoutingContext, rc); (FAffectedPointCode, apc);
             (FConcernedDestination, cdst); (FCongestionIndications, ind); (FInfoString, info)].
Qed.

Lemma NewDUPU_rt na rc apc cause info :
  Forall2 slot_ok (rfc_params DUPU) [na; rc; apc; cause; info] ->
  roundtrips DUPU [na; rc; apc; cause; info] (NewDestinationUserPartUnavailable na rc apc cause info).
Proof.
  ctor DUPU [(FNetworkAppearance, na); (FRoutingContext, rc); (FAffectedPointCode, apc);
             (FUserCause, cause); (FInfoString, info)].
Qed.

Lemma NewAspUp_rt aspID info :
  Forall2 slot_ok (rfc_params ASPUP) [aspID; info] -> roundtrips ASPUP [aspID; info] (NewAspUp aspID info).
Proof. ctor ASPUP [(FAspIdentifier, aspID); (FInfoString, info)]. Qed.

Lemma NewAspUpAck_rt aspID info :
  Forall2 slot_ok (rfc_params ASPUP_ACK) [aspID; info] ->
  roundtrips ASPUP_ACK [aspID; info] (NewAspUpAck aspID info).
Proof. ctor ASPUP_ACK [(FAspIdentifier, aspID); (FInfoString, info)]. Qed.

Lemma NewAspDown_rt info :
  Forall2 slot_ok (rfc_params ASPDN) [info] -> roundtrips ASPDN [info] (NewAspDown info).
Proof. ctor ASPDN [(FInfoString, info)]. Qed.

Lemma NewAspDownAck_rt info :
  Forall2 slot_ok (rfc_params ASPDN_ACK) [info] -> roundtrips ASPDN_ACK [info] (NewAspDownAck info).
Proof. ctor ASPDN_ACK [(FInfoString, info)]. Qed.

Lemma NewHeartbeat_rt hb :
  Forall2 slot_ok (rfc_params BEAT) [hb] -> roundtrips BEAT [hb] (NewHeartbeat hb).
Proof. ctor BEAT [(FHeartbeatData, hb)]. Qed.

Lemma NewHeartbeatAck_rt hb :
  Forall2 slot_ok (rfc_params BEAT_ACK) [hb] -> roundtrips BEAT_ACK [hb] (NewHeartbeatAck hb).
Proof. ctor BEAT_ACK [(FHeartbeatData, hb)]. Qed.

Lemma NewAspActive_rt tmt rc info :
  Forall2 slot_ok (rfc_params ASPAC) [tmt; rc; info] ->
  roundtrips ASPAC [tmt; rc; info] (NewAspActive tmt rc info).
Proof. ctor ASPAC [(FTrafficModeType, tmt); (FRoutingContext, rc); (FInfoString, info)]. Qed.

Lemma NewAspActiveAck_rt tmt rc info :
  Forall2 slot_ok (rfc_params ASPAC_ACK) [tmt; rc; info] ->
  roundtrips ASPAC_ACK [tmt; rc; info] (NewAspActiveAck tmt rc info).
Proof. ctor ASPAC_ACK [(FTrafficModeType, tmt); (FRoutingContext, rc); (FInfoString, info)]. Qed.

Lemma NewAspInactive_rt rc info :
  Forall2 slot_ok (rfc_params ASPIA) [rc; info] -> roundtrips ASPIA [rc; info] (NewAspInactive rc info).
Proof. ctor ASPIA [(FRoutingContext, rc); (FInfoString, info)]. Qed.

Lemma NewAspInactiveAck_rt rc info :
  Forall2 slot_ok (rfc_params ASPIA_ACK) [rc; info] ->
  roundtrips ASPIA_ACK [rc; info] (NewAspInactiveAck rc info).
Proof. ctor ASPIA_ACK [(FRoutingContext, rc); (FInfoString, info)]. Qed.

Lemma NewError_rt code rc na apc diag :
  Forall2 slot_ok (rfc_params ERR) [code; rc; na; apc; diag] ->
  roundtrips ERR [code; rc; na; apc; diag] (NewError code rc na apc diag).
Proof.
  ctor ERR [(FErrorCode, code); (FRoutingContext, rc); (FNetworkAppearance, na);
            (FAffectedPointCode, apc); (FDiagnosticInformation, diag)].
Qed.

Lemma NewNotify_rt status aspID rc info :
  Forall2 slot_ok (rfc_params NTFY) [status; aspID; rc; info] ->
  roundtrips NTFY [status; aspID; rc; info] (NewNotify status aspID rc info).
Proof. ctor NTFY [(FStatus, status); (FAspIdentifier, aspID); (FRoutingContext, rc); (FInfoString, info)]. Qed.

(** ** Parsing arbitrary parameter lists *)
Lemma in_order_tag t f : In f (marshal_order (go_type t)) <-> In (field_tag f) (rfc_params t).
Proof.
  rewrite <- rfc_order, in_map_iff. split; [eauto|].
  intros (g & E & H). apply field_tag_inj in E. now subst.
Qed.

Lemma Parse_typed t v r c ty len body ps :
  (len < 4294967296)%N -> dispatch c ty = Some (go_type t) ->
  ParseMultiParams body = Ok ps ->
  (Forall (fun p => In (p_tag p) (rfc_params t)) ps ->
   exists m, Parse (packet v r c ty len body) = Ok (Typed m) /\
     m_kind m = go_type t /\ m_hdr m = mkHeader v r c ty len body /\
     forall f, fget f (m_f m) =
       if in_dec N.eq_dec (field_tag f) (rfc_params t) then last_with (field_tag f) ps else None) /\
  (~ Forall (fun p => In (p_tag p) (rfc_params t)) ps ->
   Parse (packet v r c ty len body) = Err EMsgInvalidParameter).
Proof.
  intros Hl Hd Hp. rewrite Parse_packet by exact Hl. cbv zeta. rewrite Hp. cbn [bind]. rewrite Hd.
  rewrite <- rfc_order. split; intros A.
  - destruct (assign_all_ok _ _ no_fields A) as (s & -> & F). cbn [bind].
    eexists. split; [reflexivity|]. cbn [m_kind m_hdr m_f]. split; [reflexivity|]. split; [reflexivity|].
    intros f. rewrite F. unfold merge. rewrite fget_no.
    destruct (in_dec field_eq_dec f (marshal_order (go_type t))) as [i|n];
      destruct (in_dec N.eq_dec (field_tag f) (map field_tag (marshal_order (go_type t)))) as [i'|n'].
    + destruct (last_with (field_tag f) ps); reflexivity.
    + contradiction n'. now apply in_map.
    + contradiction n. rewrite rfc_order in i'. now apply in_order_tag.
    + reflexivity.
  - rewrite (assign_all_err _ _ no_fields A). reflexivity.
Qed.

Lemma Parse_generic v r c ty len body :
  (len < 4294967296)%N -> dispatch c ty = None ->
  Parse (packet v r c ty len body) =
  let! ps := ParseMultiParams body in Ok (Gen (mkGeneric (mkHeader v r c ty len body) ps)).
Proof. intros Hl Hd. rewrite Parse_packet by exact Hl. cbv zeta. rewrite Hd. reflexivity. Qed.

Lemma packet_of_8 b : 8 <= length b ->
  exists v r c ty len body, (len < 4294967296)%N /\ b = packet v r c ty len body.
Proof.
  intros H. destruct (destruct8 b H) as (b0 & b1 & b2 & b3 & b4 & b5 & b6 & b7 & rr & ->).
  exists b0, b1, b2, b3, (val [b4; b5; b6; b7]), rr. split; [apply val4_lt|].
  unfold packet. rewrite be4_inv. reflexivity.
Qed.

(** exactly which inputs Parse accepts *)
Lemma Parse_accepts v r c ty len body :
  (len < 4294967296)%N ->
  (exists m, Parse (packet v r c ty len body) = Ok m) <->
  (exists l, TLVs body l /\
     forall mt, dispatch c ty = Some (go_type mt) -> Forall (fun x => In (fst x) (rfc_params mt)) l).
Proof.
  intros Hl. split.
  - intros [m H]. rewrite Parse_packet in H by exact Hl. cbv zeta in H.
    destruct (ParseMultiParams body) as [ps| |] eqn:E; cbn [bind] in H; try discriminate.
    pose proof (proj1 (ParseMultiParams_iff _ _) E) as [_ T].
    exists (map tv ps). split; [exact T|]. intros mt Hd. rewrite Hd in H.
    destruct (allowed_dec (go_type mt) ps) as [A|A].
    + rewrite rfc_order in A. apply Forall_forall. intros x Hx. apply in_map_iff in Hx as (p & <- & Hp).
      rewrite Forall_forall in A. exact (A p Hp).
    + rewrite (assign_all_err _ _ no_fields A) in H. discriminate.
  - intros (l & T & H). rewrite Parse_packet by exact Hl. cbv zeta.
    rewrite (TLVs_ok _ _ T). cbn [bind].
    destruct (dispatch c ty) as [k|] eqn:E; [|eauto].
    destruct (go_type_surj k) as [mt <-].
    assert (A : Forall (fun p => In (p_tag p) (map field_tag (marshal_order (go_type mt)))) (map mk l)).
    { rewrite rfc_order. apply Forall_forall. intros p Hp. apply in_map_iff in Hp as (x & <- & Hx).
      specialize (H mt eq_refl). rewrite Forall_forall in H. exact (H x Hx). }
    destruct (assign_all_ok _ _ no_fields A) as (s & -> & _). cbn [bind]. eauto.
Qed.

Lemma Parse_class v r c ty len body m :
  (len < 4294967296)%N -> Parse (packet v r c ty len body) = Ok m ->
  (forall mt, (c, ty) = (rfc_class mt, rfc_type mt) ->
     exists m', m = Typed m' /\ m_kind m' = go_type mt) /\
  ((b2n c < 16)%N -> (b2n ty < 16)%N -> (forall mt, (c, ty) <> (rfc_class mt, rfc_type mt)) ->
     exists g, m = Gen g) /\
  ((b2n c < 16)%N -> (b2n ty < 16)%N -> MessageClass m = c /\ MessageType m = ty) /\
  Version m = v /\ h_class (hdr_of m) = c /\ h_type (hdr_of m) = ty.
Proof.
  intros Hl H. rewrite Parse_packet in H by exact Hl. cbv zeta in H.
  destruct (ParseMultiParams body) as [ps| |]; cbn [bind] in H; try discriminate.
  assert (D : forall k, dispatch c ty = Some k -> (b2n c < 16)%N -> (b2n ty < 16)%N ->
               kind_class k = c /\ kind_type k = ty).
  { intros k E Hc Ht. destruct (go_type_surj k) as [mt <-]. rewrite rfc_kclass, rfc_ktype.
    assert (DEC : {(c, ty) = (rfc_class mt, rfc_type mt)} + {(c, ty) <> (rfc_class mt, rfc_type mt)}).
    { destruct (Byte.byte_eq_dec c (rfc_class mt)) as [->|N];
        [|right; intros E'; injection E' as E1 _; contradiction].
      destruct (Byte.byte_eq_dec ty (rfc_type mt)) as [->|N]; [now left|].
      right; intros E'; injection E' as E2; contradiction. }
    destruct DEC as [DE|DN]; [injection DE as -> ->; now split|].
    exfalso. destruct (dispatch c ty) eqn:E2; [|discriminate].
    assert (N : forall mt', (c, ty) <> (rfc_class mt', rfc_type mt')).
    { intros mt' EQ. injection EQ as -> ->. rewrite <- rfc_kclass, <- rfc_ktype, dispatch_kind in E2.
      injection E2 as <-. injection E as E. apply DN. rewrite <- !rfc_kclass, <- !rfc_ktype.
      now rewrite E. }
    rewrite (dispatch_small_none _ _ Hc Ht N) in E2. discriminate. }
  split; [|split; [|split]].
  - intros mt E. injection E as -> ->. rewrite <- rfc_kclass, <- rfc_ktype in H.
    rewrite dispatch_kind in H.
    destruct (assign_all (go_type mt) no_fields ps) as [s| |]; cbn [bind] in H; try discriminate.
    injection H as <-. eauto.
  - intros Hc Ht N. rewrite (dispatch_small_none _ _ Hc Ht N) in H. injection H as <-. eauto.
  - intros Hc Ht. destruct (dispatch c ty) as [k|] eqn:E.
    + destruct (assign_all k no_fields ps) as [s| |]; cbn [bind] in H; try discriminate.
      injection H as <-. cbn. now apply D.
    + injection H as <-. now split.
  - destruct (dispatch c ty) as [k|].
    + destruct (assign_all k no_fields ps) as [s| |]; cbn [bind] in H; try discriminate.
      injection H as <-. now repeat split.
    + injection H as <-. now repeat split.
Qed.

(** exactly which pairs are handled as typed messages *)
Lemma Parse_typed_iff v r c ty len body mt :
  (len < 4294967296)%N ->
  (forall m, Parse (packet v r c ty len body) = Ok m ->
     (exists m', m = Typed m' /\ m_kind m' = go_type mt) <->
     N.lor ((16 * b2n c) mod 256) (b2n ty) = (16 * b2n (rfc_class mt) + b2n (rfc_type mt))%N).
Proof.
  intros Hl m H. rewrite <- dispatch_spec. rewrite Parse_packet in H by exact Hl. cbv zeta in H.
  destruct (ParseMultiParams body) as [ps| |]; cbn [bind] in H; try discriminate.
  destruct (dispatch c ty) as [k|].
  - destruct (assign_all k no_fields ps) as [s| |]; cbn [bind] in H; try discriminate.
    injection H as <-. split.
    + intros (m' & E & K). injection E as <-. cbn in K. now rewrite K.
    + intros E. injection E as ->. eexists. split; [reflexivity|]. reflexivity.
  - injection H as <-. split; [intros (m' & E & _); discriminate|discriminate].
Qed.

Lemma go_type_inj a b : go_type a = go_type b -> a = b.
Proof. destruct a, b; intros H; try reflexivity; discriminate H. Qed.

(** ** Length field ignored *)
Lemma Parse_length_ignored v r c ty len1 len2 body :
  (len1 < 4294967296)%N -> (len2 < 4294967296)%N ->
  same_up_to_length (Parse (packet v r c ty len1 body)) (Parse (packet v r c ty len2 body)).
Proof.
  intros H1 H2. rewrite !Parse_packet by assumption. cbv zeta.
  destruct (ParseMultiParams_outcome body) as [[ps ->]|[-> | ->]]; cbn [bind]; try reflexivity.
  destruct (dispatch c ty) as [k|].
  - destruct (allowed_dec k ps) as [A|A].
    + destruct (assign_all_ok k ps no_fields A) as (s & -> & _). cbn. now repeat split.
    + rewrite (assign_all_err k ps no_fields A). reflexivity.
  - cbn. now repeat split.
Qed.

(** ** Re-encoding *)
Definition slotted (l : list field) (slots : list (option (list byte))) : list param :=
  map mk (zip_slots (map field_tag l) slots).

Lemma Z_last_none l f : forall slots, ~ In f l -> last_with (field_tag f) (slotted l slots) = None.
Proof.
  induction l as [|g l IH]; intros slots H; [reflexivity|].
  assert (Hg : f <> g) by (intros ->; apply H; now left).
  assert (Hl : ~ In f l) by (intros i; apply H; now right).
  destruct slots as [|[v|] slots]; [reflexivity| |]; cbn [slotted map zip_slots].
  - fold (slotted l slots). rewrite last_with_cons, IH by exact Hl. cbn [mk p_tag fst].
    destruct (field_tag g =? field_tag f)%N eqn:E; [|reflexivity].
    apply N.eqb_eq, field_tag_inj in E. congruence.
  - now apply IH.
Qed.

Lemma Z_present l : forall slots, NoDup l ->
  present (map (fun f => last_with (field_tag f) (slotted l slots)) l) = slotted l slots.
Proof.
  induction l as [|g l IH]; intros slots ND; [reflexivity|].
  inversion ND as [|? ? Hn ND']; subst.
  destruct slots as [|[v|] slots].
  - change (slotted (g :: l) []) with (@nil param). clear. generalize (g :: l). intros l0.
    induction l0 as [|a l0 IH]; [reflexivity|exact IH].
  - cbn [map]. replace (last_with (field_tag g) (slotted (g :: l) (Some v :: slots)))
      with (Some (mk (field_tag g, v))).
    2:{ cbn [slotted map zip_slots]. fold (slotted l slots). rewrite last_with_cons, Z_last_none by exact Hn.
        cbn [mk p_tag fst]. now rewrite N.eqb_refl. }
    cbn [present flat_map app]. cbn [slotted map zip_slots]. fold (slotted l slots). f_equal.
    etransitivity; [|exact (IH slots ND')]. unfold present. f_equal. apply map_ext_in. intros f Hf.
    cbn [slotted map zip_slots]. fold (slotted l slots).
    rewrite last_with_cons. destruct (last_with (field_tag f) (slotted l slots)); [reflexivity|].
    cbn [mk p_tag fst]. destruct (field_tag g =? field_tag f)%N eqn:E; [|reflexivity].
    apply N.eqb_eq, field_tag_inj in E. subst. contradiction.
  - cbn [map slotted zip_slots]. fold (slotted l slots). rewrite (Z_last_none l g slots Hn).
    cbn [present flat_map app]. apply IH, ND'.
Qed.

Lemma zip_ok l : forall slots,
  Forall (fun o => match o with Some v => length v <= max_value_len | None => True end) slots ->
  Forall (fun x => (fst x < 65536)%N /\ length (snd x) <= max_value_len)
         (zip_slots (map field_tag l) slots).
Proof.
  induction l as [|g l IH]; intros slots H; cbn [map zip_slots]; [constructor|].
  destruct H as [|[v|] slots Hv Hs]; [constructor| |].
  - constructor; [split; [apply field_tag_lt|exact Hv]|now apply IH].
  - now apply IH.
Qed.

Lemma zip_in l : forall slots x, In x (zip_slots l slots) -> In (fst x) l.
Proof.
  induction l as [|g l IH]; intros slots x H; [contradiction|].
  destruct slots as [|[v|] slots]; cbn in H; [contradiction| |].
  - destruct H as [<-|H]; [now left|right; eauto].
  - right; eauto.
Qed.

Lemma wf_mk_all l :
  Forall (fun x => (fst x < 65536)%N /\ length (snd x) <= max_value_len) l -> Forall wf_param (map mk l).
Proof. induction 1 as [|[t v] l [H1 H2] _ IH]; constructor; [now apply wf_mk|exact IH]. Qed.

Lemma tv_mk_all l : map tv (map mk l) = l.
Proof. rewrite map_map. erewrite map_ext; [apply map_id|]. intros x. apply tv_mk. Qed.

Lemma reencode_typed t v r c ty len slots :
  (len < 4294967296)%N -> dispatch c ty = Some (go_type t) ->
  Forall (fun o => match o with Some v => length v <= max_value_len | None => True end) slots ->
  let b := packet v r c ty len (body_of (zip_slots (rfc_params t) slots)) in
  exists m, Parse b = Ok m /\ m3_MarshalBinary m = Ok (m, b).
Proof.
  intros Hl Hd Hs. cbv zeta. set (k := go_type t) in *. rewrite <- rfc_order. fold k.
  set (l := zip_slots (map field_tag (marshal_order k)) slots).
  assert (HZ : map mk l = slotted (marshal_order k) slots) by reflexivity.
  assert (LO : Forall (fun x => (fst x < 65536)%N /\ length (snd x) <= max_value_len) l)
    by (now apply zip_ok).
  rewrite Parse_packet by exact Hl. cbv zeta.
  rewrite (TLVs_ok _ _ (TLVs_body _ LO)). cbn [bind]. rewrite Hd.
  assert (A : Forall (fun p => In (p_tag p) (map field_tag (marshal_order k))) (map mk l)).
  { apply Forall_forall. intros p Hp. apply in_map_iff in Hp as (x & <- & Hx).
    exact (zip_in _ _ _ Hx). }
  destruct (assign_all_ok k _ no_fields A) as (s & -> & F). cbn [bind].
  eexists. split; [reflexivity|]. rewrite msg_MarshalBinary_ok. cbn [m_kind m_hdr m_f].
  assert (B : m_body (mkMsg k (mkHeader v r c ty len (body_of l)) s) = body_of l).
  { unfold m_body, slots_of. cbn [m_kind m_f].
    replace (map (fun f => fget f s) (marshal_order k))
      with (map (fun f => last_with (field_tag f) (slotted (marshal_order k) slots)) (marshal_order k)).
    - rewrite Z_present by apply order_nodup. rewrite <- HZ.
      rewrite pwire_body by (apply wf_mk_all, LO). now rewrite tv_mk_all.
    - apply map_ext_in. intros f Hf. rewrite F.
      destruct (in_dec field_eq_dec f (marshal_order k)); [|contradiction].
      unfold merge. rewrite fget_no, HZ.
      destruct (last_with (field_tag f) (slotted (marshal_order k) slots)); reflexivity. }
  rewrite B. reflexivity.
Qed.

(** ** Generic messages *)
Lemma gen_MarshalLen_sum g : gen_MarshalLen g = 8 + length (concat (map pwire (g_params g))).
Proof.
  unfold gen_MarshalLen. generalize 8. induction (g_params g) as [|p ps IH]; intros a.
  - cbn. lia.
  - cbn [fold_left map concat]. rewrite IH, app_length, pwire_length. lia.
Qed.

Lemma present_some ps : present (map Some ps) = ps.
Proof. induction ps as [|p ps IH]; [reflexivity|]. unfold present in *. cbn [map flat_map app]. now rewrite IH. Qed.

Lemma gen_MarshalTo_ok g b :
  gen_MarshalLen g <= length b ->
  let h := set_payload (g_hdr g) (concat (map pwire (g_params g))) in
  gen_MarshalTo g b = Ok (mkGeneric h (g_params g), hdr_bytes h ++ skipn (gen_MarshalLen g) b).
Proof.
  intros H h. unfold gen_MarshalTo. replace (length b <? gen_MarshalLen g) with false by lia.
  pose proof (gen_MarshalLen_sum g) as E.
  assert (SL : sum_len (map Some (g_params g)) = length (concat (map pwire (g_params g)))).
  { rewrite sum_len_length, present_some. reflexivity. }
  pose proof (marshal_params_ok (map Some (g_params g)) [] (gen_MarshalLen g - 8)) as P.
  cbn [app length] in P. rewrite P by lia. clear P. cbn [bind].
  replace (gen_MarshalLen g - 8 - sum_len (map Some (g_params g))) with 0 by lia.
  cbn [zeros repeat]. rewrite app_nil_r, present_some. fold h.
  assert (HL : Header_MarshalLen h = gen_MarshalLen g).
  { unfold Header_MarshalLen, h, set_payload. cbn [h_payload]. lia. }
  rewrite Header_MarshalTo_ok by lia. cbn [bind]. rewrite HL. reflexivity.
Qed.

Lemma gen_MarshalBinary_ok g :
  let h := set_payload (g_hdr g) (concat (map pwire (g_params g))) in
  m3_MarshalBinary (Gen g) = Ok (Gen (mkGeneric h (g_params g)), hdr_bytes h).
Proof.
  intros h. unfold m3_MarshalBinary. cbn [m3_MarshalLen m3_MarshalTo].
  rewrite gen_MarshalTo_ok by (rewrite zeros_length; lia). cbn [bind].
  rewrite skipn_all2 by (rewrite zeros_length; lia). rewrite app_nil_r. reflexivity.
Qed.

Lemma reencode_generic v r c ty len l :
  (len < 4294967296)%N -> dispatch c ty = None ->
  Forall (fun x => (fst x < 65536)%N /\ length (snd x) <= max_value_len) l ->
  let b := packet v r c ty len (body_of l) in
  exists m, Parse b = Ok m /\ m3_MarshalBinary m = Ok (m, b).
Proof.
  intros Hl Hd LO. cbv zeta. rewrite Parse_generic by assumption.
  rewrite (TLVs_ok _ _ (TLVs_body _ LO)). cbn [bind]. eexists. split; [reflexivity|].
  rewrite gen_MarshalBinary_ok. cbn [g_params g_hdr].
  rewrite pwire_body by (apply wf_mk_all, LO). rewrite tv_mk_all. reflexivity.
Qed.

Lemma New_roundtrip v c ty ps :
  Forall (fun p => (p_tag p < 65536)%N /\ length (p_data p) <= max_value_len) ps ->
  let body := body_for ps in
  (N.of_nat (8 + length body) < 4294967296)%N ->
  let bs := packet v x00 c ty (N.of_nat (8 + length body)) body in
  exists g',
    m3_MarshalBinary (Gen (New v c ty ps)) = Ok (Gen g', bs) /\
    m3_MarshalLen (Gen (New v c ty ps)) = length bs /\
    gen_Unmarshal bs = Ok g' /\
    (dispatch c ty = None -> Parse bs = Ok (Gen g')) /\
    g_params g' = map SetLength ps /\
    h_version (g_hdr g') = v /\ h_class (g_hdr g') = c /\ h_type (g_hdr g') = ty.
Proof.
  intros H body Hl bs.
  assert (W : Forall wf_param (map SetLength ps)).
  { clear - H. induction H as [|p ps [H1 H2] _ IH]; constructor; [now apply SetLength_wf|exact IH]. }
  assert (B : concat (map pwire (map SetLength ps)) = body).
  { rewrite pwire_body by exact W. apply body_set. }
  assert (GL : gen_MarshalLen (New v c ty ps) = 8 + length body).
  { rewrite gen_MarshalLen_sum. cbn [New gen_SetLength g_params]. rewrite B. reflexivity. }
  assert (PM : ParseMultiParams body = Ok (map SetLength ps)).
  { unfold body, body_for. rewrite <- body_set. rewrite (TLVs_ok _ _ (TLVs_body _ (wf_tv _ W))).
    now rewrite map_mk_tv. }
  exists (mkGeneric (mkHeader v x00 c ty (N.of_nat (8 + length body)) body) (map SetLength ps)).
  split.
  { rewrite gen_MarshalBinary_ok. 
    replace (g_params (New v c ty ps)) with (map SetLength ps) by reflexivity. rewrite B.
    replace (set_payload (g_hdr (New v c ty ps)) body)
      with (mkHeader v x00 c ty (N.of_nat (8 + length body)) body); [reflexivity|].
    transitivity (mkHeader v x00 c ty (u32 (N.of_nat (gen_MarshalLen (New v c ty ps)))) body);
      [|reflexivity].
    rewrite GL, u32_small by exact Hl. reflexivity. }
  split; [cbn [m3_MarshalLen]; rewrite GL; unfold bs; now rewrite packet_length|].
  split; [unfold gen_Unmarshal, bs; rewrite ParseHeader_packet by exact Hl; cbn [bind h_payload];
          rewrite PM; reflexivity|].
  split; [intros Hd; unfold bs; rewrite Parse_generic by assumption; rewrite PM; reflexivity|].
  now repeat split.
Qed.

(** the length of every encoded message is a multiple of 4 *)
Lemma pwire_mod4 ps : length (concat (map pwire ps)) mod 4 = 0.
Proof.
  induction ps as [|p ps IH]; [reflexivity|]. cbn [map concat]. rewrite app_length, pwire_length.
  pose proof (MarshalLen_mod4 p). lia.
Qed.

Lemma m3_MarshalLen_mod4 m : m3_MarshalLen m mod 4 = 0.
Proof.
  destruct m as [m|g]; cbn [m3_MarshalLen].
  - rewrite msg_MarshalLen_sum, sum_len_length. pose proof (pwire_mod4 (present (slots_of m))). lia.
  - rewrite gen_MarshalLen_sum. pose proof (pwire_mod4 (g_params g)). lia.
Qed.

Lemma m3_MarshalTo_any m :
  exists m' enc, m3_MarshalBinary m = Ok (m', enc) /\ length enc = m3_MarshalLen m /\
  forall b,
    m3_MarshalTo m b =
    if length b <? m3_MarshalLen m then Err EMsgTooShortMarshal
    else Ok (m', enc ++ skipn (m3_MarshalLen m) b).
Proof.
  destruct m as [m|g].
  - eexists _, _. split; [apply msg_MarshalBinary_ok|]. cbn [m3_MarshalLen]. split.
    + unfold hdr_bytes. rewrite packet_length. cbn [set_payload h_payload].
      unfold m_body. rewrite <- sum_len_length, msg_MarshalLen_sum. reflexivity.
    + intros b. cbn [m3_MarshalTo]. destruct (length b <? msg_MarshalLen m) eqn:E.
      * rewrite msg_MarshalTo_short by lia. reflexivity.
      * rewrite msg_MarshalTo_ok by lia. reflexivity.
  - eexists _, _. split; [apply gen_MarshalBinary_ok|]. cbn [m3_MarshalLen]. split.
    + unfold hdr_bytes. rewrite packet_length. cbn [set_payload h_payload].
      now rewrite gen_MarshalLen_sum.
    + intros b. cbn [m3_MarshalTo]. destruct (length b <? gen_MarshalLen g) eqn:E.
      * unfold gen_MarshalTo. rewrite E. reflexivity.
      * rewrite gen_MarshalTo_ok by lia. reflexivity.
Qed.

(** ** Statements assembled for the property file *)
Lemma Header_format h :
  Header_MarshalBinary h =
    Ok (packet (h_version h) (h_reserved h) (h_class h) (h_type h) (h_length h) (h_payload h)) /\
  ((h_length h < 4294967296)%N ->
   ParseHeader (packet (h_version h) (h_reserved h) (h_class h) (h_type h) (h_length h) (h_payload h))
   = Ok h).
Proof.
  split.
  - unfold Header_MarshalBinary. rewrite Header_MarshalTo_ok by (rewrite zeros_length; lia).
    rewrite skipn_all2 by (rewrite zeros_length; lia). now rewrite app_nil_r.
  - intros H. rewrite ParseHeader_packet by exact H. now destruct h.
Qed.

Lemma Header_decoding b :
  (length b < 8 -> ParseHeader b = Err EMsgTooShortParse) /\
  (8 <= length b ->
   ParseHeader b = Ok (mkHeader (nth 0 b x00) (nth 1 b x00) (nth 2 b x00) (nth 3 b x00)
                                (val (firstn 4 (skipn 4 b))) (skipn 8 b))).
Proof.
  split; [apply ParseHeader_short|]. intros H.
  destruct (destruct8 b H) as (b0 & b1 & b2 & b3 & b4 & b5 & b6 & b7 & r & ->).
  apply ParseHeader_cons.
Qed.

Lemma NewHeader_rt v c t pl :
  (N.of_nat (8 + length pl) < 4294967296)%N ->
  h_length (NewHeader v c t pl) = N.of_nat (8 + length pl) /\
  exists bs, Header_MarshalBinary (NewHeader v c t pl) = Ok bs /\
    length bs = 8 + length pl /\ ParseHeader bs = Ok (NewHeader v c t pl).
Proof.
  intros H. assert (E : h_length (NewHeader v c t pl) = N.of_nat (8 + length pl)).
  { unfold NewHeader, Header_SetLength. cbn [h_length h_payload]. now apply u32_small. }
  split; [exact E|]. destruct (Header_format (NewHeader v c t pl)) as [H1 H2].
  eexists. split; [exact H1|]. rewrite packet_length. split; [reflexivity|]. apply H2. now rewrite E.
Qed.

Lemma MarshalLen_exact m :
  exists m' bs, m3_MarshalBinary m = Ok (m', bs) /\ length bs = m3_MarshalLen m.
Proof. destruct (m3_MarshalTo_any m) as (m' & bs & H1 & H2 & _). eauto. Qed.

Lemma Parse_accepts_exactly b :
  (exists m, Parse b = Ok m) <->
  (exists v r c ty len body l,
     (len < 4294967296)%N /\ b = packet v r c ty len body /\ TLVs body l /\
     forall mt, N.lor ((16 * b2n c) mod 256) (b2n ty) = (16 * b2n (rfc_class mt) + b2n (rfc_type mt))%N ->
                Forall (fun x => In (fst x) (rfc_params mt)) l).
Proof.
  split.
  - intros [m H]. destruct (Nat.lt_ge_cases (length b) 8) as [L|L].
    { rewrite Parse_short in H by exact L. discriminate. }
    destruct (packet_of_8 b L) as (v & r & c & ty & len & body & Hl & ->).
    assert (X : exists m, Parse (packet v r c ty len body) = Ok m) by eauto.
    apply Parse_accepts in X as (l & T & F); [|exact Hl].
    exists v, r, c, ty, len, body, l. repeat (split; [assumption || reflexivity|]).
    intros mt E. apply F, dispatch_spec, E.
  - intros (v & r & c & ty & len & body & l & Hl & -> & T & F).
    apply Parse_accepts; [exact Hl|]. exists l. split; [exact T|].
    intros mt E. apply F, dispatch_spec, E.
Qed.

Lemma Parse_typed_defined t v r c ty len body ps :
  (len < 4294967296)%N -> (c, ty) = (rfc_class t, rfc_type t) ->
  ParseMultiParams body = Ok ps ->
  (Forall (fun p => In (p_tag p) (rfc_params t)) ps ->
   exists m, Parse (packet v r c ty len body) = Ok (Typed m) /\
     m_kind m = go_type t /\ m_hdr m = mkHeader v r c ty len body /\
     forall f, fget f (m_f m) =
       if in_dec N.eq_dec (field_tag f) (rfc_params t) then last_with (field_tag f) ps else None) /\
  (~ Forall (fun p => In (p_tag p) (rfc_params t)) ps ->
   Parse (packet v r c ty len body) = Err EMsgInvalidParameter).
Proof.
  intros Hl E. injection E as -> ->. apply Parse_typed; [exact Hl|].
  rewrite <- rfc_kclass, <- rfc_ktype. apply dispatch_kind.
Qed.

Lemma alias_witness :
  exists b m c ty, nth_error b 2 = Some c /\ nth_error b 3 = Some ty /\
    (forall mt, (c, ty) <> (rfc_class mt, rfc_type mt)) /\
    Parse b = Ok (Typed m) /\ m_kind m = KAspUp /\
    MessageClass (Typed m) <> c.
Proof.
  exists (packet x01 x00 x13 x01 8 []). eexists. exists x13, x01.
  split; [reflexivity|]. split; [reflexivity|]. split; [intros []; discriminate|].
  split; [vm_compute; reflexivity|]. split; [reflexivity|discriminate].
Qed.

Lemma param_MarshalTo_any p b :
  MarshalTo p b =
  if length b <? MarshalLen p then Panic PSlice
  else Ok (be 2 (p_tag p) ++ be 2 (p_length p) ++ p_data p ++ skipn (4 + length (p_data p)) b).
Proof.
  destruct (length b <? MarshalLen p) eqn:E; [apply MarshalTo_short; lia|apply MarshalTo_ok; lia].
Qed.

Lemma dispatch_none c ty :
  (forall t, N.lor ((16 * b2n c) mod 256) (b2n ty) <> (16 * b2n (rfc_class t) + b2n (rfc_type t))%N) ->
  dispatch c ty = None.
Proof.
  intros H. destruct (dispatch c ty) as [k|] eqn:E; [|reflexivity].
  destruct (go_type_surj k) as [t <-]. exfalso. exact (H t (proj1 (dispatch_spec _ _ _) E)).
Qed.

Lemma reencode_typed' t v r c ty len slots :
  (len < 4294967296)%N ->
  N.lor ((16 * b2n c) mod 256) (b2n ty) = (16 * b2n (rfc_class t) + b2n (rfc_type t))%N ->
  Forall (fun o => match o with Some v => length v <= max_value_len | None => True end) slots ->
  let b := packet v r c ty len (body_of (zip_slots (rfc_params t) slots)) in
  exists m, Parse b = Ok m /\ m3_MarshalBinary m = Ok (m, b).
Proof. intros Hl Hd. apply reencode_typed; [exact Hl|now apply dispatch_spec]. Qed.

Lemma reencode_generic' v r c ty len l :
  (len < 4294967296)%N ->
  (forall t, N.lor ((16 * b2n c) mod 256) (b2n ty) <> (16 * b2n (rfc_class t) + b2n (rfc_type t))%N) ->
  Forall (fun x => (fst x < 65536)%N /\ length (snd x) <= max_value_len) l ->
  let b := packet v r c ty len (body_of l) in
  exists m, Parse b = Ok m /\ m3_MarshalBinary m = Ok (m, b).
Proof. intros Hl Hd. apply reencode_generic; [exact Hl|now apply dispatch_none]. Qed.

Lemma New_roundtrip' v c ty ps :
  Forall (fun p => (p_tag p < 65536)%N /\ length (p_data p) <= max_value_len) ps ->
  let body := body_for ps in
  (N.of_nat (8 + length body) < 4294967296)%N ->
  let bs := packet v x00 c ty (N.of_nat (8 + length body)) body in
  exists g',
    m3_MarshalBinary (Gen (New v c ty ps)) = Ok (Gen g', bs) /\
    m3_MarshalLen (Gen (New v c ty ps)) = length bs /\
    gen_Unmarshal bs = Ok g' /\
    ((forall t, N.lor ((16 * b2n c) mod 256) (b2n ty) <> (16 * b2n (rfc_class t) + b2n (rfc_type t))%N) ->
     Parse bs = Ok (Gen g')) /\
    g_params g' = map SetLength ps /\
    h_version (g_hdr g') = v /\ h_class (g_hdr g') = c /\ h_type (g_hdr g') = ty.
Proof.
  intros H body Hl bs. destruct (New_roundtrip v c ty ps H Hl) as (g & H1 & H2 & H3 & H4 & H5).
  exists g. split; [exact H1|]. split; [exact H2|]. split; [exact H3|].
  split; [intros N; apply H4, dispatch_none, N|exact H5].
Qed.
