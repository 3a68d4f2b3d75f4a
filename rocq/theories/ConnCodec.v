(** What the connection's messages look like on the wire. *)
From Verif Require Import GoBase BaseProofs WireSpec ParamsModel ParamsSpec ParamsProofs AccessorProofs MessagesModel MsgSpec
  MessagesProofs MessagesProofs2 ConfigModel CfgSpec ConnModel ConnSpec ConnBase ConnInv ConnTrace ConnUser.
From Coq Require Import Arith Lia ZifyBool ZifyNat ZifyN.
Ltac Zify.zify_post_hook ::= Z.div_mod_to_equations.
Open Scope nat_scope.
Opaque max_value_len.

Lemma encodes_len m b : encodes m b -> length b = m3_MarshalLen m.
Proof. intros [m' H]. destruct (MarshalLen_exact m) as (m2 & b2 & H2 & L). rewrite H in H2. inversion H2; subst; auto. Qed.
Lemma slot_size_len o : opt_len o = slot_size o.
Proof. destruct o as [p|]; [|reflexivity]. cbn. unfold MarshalLen. now rewrite Padding_pad. Qed.

Lemma NewData_slots na rc pd cid : slots_of (NewData na rc pd cid) = [na; rc; pd; cid] \/
  map slot_size (slots_of (NewData na rc pd cid)) = map slot_size [na; rc; pd; cid].
Proof. right. destruct na, rc, pd, cid; reflexivity. Qed.
Lemma NewData_len na rc pd cid b : encodes (Typed (NewData na rc pd cid)) b ->
  length b = 8 + slot_size na + slot_size rc + slot_size pd + slot_size cid.
Proof.
  intros E. apply encodes_len in E. rewrite E. cbn [m3_MarshalLen]. rewrite msg_MarshalLen_sum.
  destruct (NewData_slots na rc pd cid) as [Q|Q].
  - rewrite Q. cbn [sum_len fold_right]. rewrite !slot_size_len. lia.
  - revert Q. generalize (slots_of (NewData na rc pd cid)). intros l Q.
    destruct l as [|a [|b' [|c [|d [|x l]]]]]; try discriminate. cbn [map] in Q. inversion Q.
    cbn [sum_len fold_right]. rewrite !slot_size_len. lia.
Qed.

Lemma user_data_len g b bs : encodes (user_data g b) bs -> length bs = data_overhead g + length b + pad_len (length b).
Proof.
  intros E. apply NewData_len in E. rewrite E. unfold data_overhead. cbn [slot_size]. rewrite NewProtocolData_data.
  replace (pad_len (12 + length b)) with (pad_len (length b)) by (unfold pad_len; lia). lia.
Qed.
Lemma slot_size_4 o : slot_size o mod 4 = 0.
Proof. destruct o as [p|]; [|reflexivity]. cbn [slot_size]. pose proof (pad_len_mod (length (p_data p))). lia. Qed.
Lemma data_overhead_4 g : data_overhead g mod 4 = 0.
Proof. unfold data_overhead. pose proof (slot_size_4 (cf_na g)). pose proof (slot_size_4 (cf_rc g)). pose proof (slot_size_4 (cf_corr g)). lia. Qed.
Lemma data_fits g b bs : encodes (user_data g b) bs ->
  (length bs <= 1500 <-> data_overhead g + length b <= 1500).
Proof.
  intros E. rewrite (user_data_len _ _ _ E). pose proof (data_overhead_4 g). pose proof (pad_len_mod (length b)). pose proof (pad_len_lt (length b)). lia.
Qed.

Lemma SetLength_idem p : SetLength (SetLength p) = SetLength p.
Proof. reflexivity. Qed.
Lemma payload_delivered g b : cfg_ok g -> (N.of_nat (length b) <= 65519)%N ->
  exists bs t p, encodes (user_data g b) bs /\ valid bs (Typed t) /\ m_kind t = KData /\
    fget FProtocolData (m_f t) = Some p /\
    ProtocolData p = Ok (mkPD (cf_opc g) (cf_dpc g) (cf_si g) (cf_ni g) (cf_mp g) (cf_sls g) b).
Proof.
  intros (_ & _ & Ona & Orc & Oco & O1 & O2) L.
  set (pd := NewProtocolData (cf_opc g) (cf_dpc g) (cf_si g) (cf_ni g) (cf_mp g) (cf_sls g) b).
  destruct (NewData_rt (cf_na g) (cf_rc g) (Some pd) (cf_corr g)) as (t & E & _ & P & K & F & _).
  { repeat (apply Forall2_cons; auto); auto. unfold slot_ok, pd. split.
    - rewrite NewProtocolData_eq. reflexivity.
    - rewrite NewProtocolData_data. apply max_value_len_spec. lia. }
  eexists _, t, (SetLength pd). split; [exists (Typed t); exact E|]. split; [split; [exact P|]|].
  - rewrite msg_MarshalBinary_ok in E.
    apply (f_equal (fun r => match r with Ok (x, _) => Version x | _ => x00 end)) in E. rewrite <- E. reflexivity.
  - split; [exact K|]. split.
    + inversion F as [|? ? ? ? _ F1]; subst. inversion F1 as [|? ? ? ? _ F2]; subst. inversion F2 as [|? ? ? ? F3 _]; subst.
      exact (F3 FProtocolData eq_refl).
    + assert (SetLength pd = pd) as -> by (unfold pd; rewrite NewProtocolData_eq; reflexivity). unfold pd. now apply ProtocolData_new.
Qed.

(** ** BEAT ACK *)
Lemma encodes_fun m a b : encodes m a -> encodes m b -> a = b.
Proof. intros [x A] [y B]. congruence. Qed.
Lemma beat_ack_bytes t m' b : m3_MarshalBinary (Typed t) = Ok (m', b) -> encodes (beat_ack_of t) (upd b 3 x06).
Proof.
  intros H. rewrite msg_MarshalBinary_ok in H.
  apply (f_equal (fun r => match r with Ok (_, x) => x | _ => [] end)) in H. cbv beta iota in H. subst b.
  eexists. unfold beat_ack_of. rewrite msg_MarshalBinary_ok. reflexivity.
Qed.
Lemma beat_packet v r c ty len o :
  (len < 4294967296)%N ->
  N.lor ((16 * b2n c) mod 256) (b2n ty) = 51%N ->
  match o with Some x => length x <= max_value_len | None => True end ->
  let raw := packet v r c ty len (body_of (zip_slots [9%N] [o])) in
  exists t, Parse raw = Ok (Typed t) /\ m_kind t = KHeartbeat /\ encodes (beat_ack_of t) (upd raw 3 x06).
Proof.
  intros Hl Hd Ho raw.
  destruct (reencode_typed' BEAT v r c ty len [o] Hl Hd) as (m & P & M).
  { repeat constructor; auto. }
  change (packet v r c ty len (body_of (zip_slots (rfc_params BEAT) [o]))) with raw in P, M.
  assert (K : exists t, m = Typed t /\ m_kind t = KHeartbeat).
  { clear M. unfold raw in P. rewrite Parse_packet in P by exact Hl.
    assert (D : dispatch c ty = Some KHeartbeat) by (apply (dispatch_spec c ty BEAT); exact Hd).
    rewrite D in P. cbv zeta in P.
    match type of P with context [ParseMultiParams ?x] => destruct (ParseMultiParams x) as [ps|e|p] end; try discriminate. cbn [bind] in P.
    destruct (assign_all KHeartbeat no_fields ps) as [fs|e|p]; try discriminate. cbn [bind] in P.
    inversion P. eexists. split; reflexivity. }
  destruct K as (t & -> & K). exists t. split; [exact P|]. split; [exact K|]. eapply beat_ack_bytes; eauto.
Qed.
(** the packet sent as reply to a BEAT *)
Lemma beat_echoed c l1 i s m b l2 raw v r cl ty len o : reachable c -> log c = l1 ++ ESend (OHand i) s m b :: l2 ->
  nth_error (reads l1) i = Some raw ->
  (len < 4294967296)%N -> N.lor ((16 * b2n cl) mod 256) (b2n ty) = 51%N ->
  match o with Some x => length x <= max_value_len | None => True end ->
  raw = packet v r cl ty len (body_of (zip_slots [9%N] [o])) -> b = upd raw 3 x06.
Proof.
  intros R E N Hl Hd Ho Hr. destruct (beat_packet v r cl ty len o Hl Hd Ho) as (t & P & K & En). rewrite <- Hr in P, En.
  destruct (reply_justified _ _ _ _ _ _ _ R E) as (_ & En' & _ & raw' & t' & sts & N' & V & T & _).
  rewrite N in N'. inversion N'; subst raw'. destruct V as [P' _]. rewrite P in P'. inversion P'; subst t'.
  unfold reply_table in T. rewrite K in T. inversion T; subst. eapply encodes_fun; eauto.
Qed.
